(** The amounts as Go holds them: pointers to big integers that are changed in place. Models again the functions of
    [oracle/oracle.go] that write amounts, lines 260-403, 1049-1537, 1539-1834, this time with a memory. The other
    models treat an amount as a value; C105 says that this makes no difference.
    Simplifications: the fields of the state that hold no amount which is ever written (events, blocks, numbers) are
    the record [hs_rest]; its fields [st_vals] and [st_fees] are not used. Functions that only read are those of the
    other models, applied to what the memory holds at that moment. *)
From Verif Require Export Advance Merkle.

(** ValidatorInfo, types.go:165-174, with the three pointers. Every entry of the map is a struct of its own
    (oracle.go:366, 1247, 1508). *)
Record hinfo := HInfo {
  hi_status : vstatus; hi_acc : N; hi_pend : N; hi_coll : N;
  hi_addr : string; hi_index : N; hi_key : string; hi_sub : sub_type }.
(** OracleState, types.go:186-223, in memory: what each address holds, the next address that the allocator gives
    out, the validators, the pointer PoolAccumulatedFees, everything else. *)
Record hst := HSt { hs_mem : gmap N Z; hs_new : N; hs_vals : gmap N hinfo; hs_fees : N; hs_rest : ost }.

(** What a pointer points to; e.g. oracle.go:1543. *)
Definition deref (h : hst) (l : N) : Z := default 0%Z (hs_mem h !! l).
(** A validator with its amounts read, types.go:165-174. *)
Definition info_at (h : hst) (v : hinfo) : vinfo :=
  VInfo (hi_status v) (deref h (hi_acc v)) (deref h (hi_pend v)) (deref h (hi_coll v)) (hi_addr v) (hi_index v) (hi_key v) (hi_sub v).
(** The state with all amounts read, types.go:186-223. *)
Definition view (h : hst) : ost := set_fees (deref h (hs_fees h)) (set_vals (info_at h <$> hs_vals h) (hs_rest h)).

(** [big.NewInt(z)] and [new(big.Int)]: a new address; e.g. oracle.go:1249-1250, 1547, 1654. *)
Definition h_alloc (z : Z) (h : hst) : N * hst :=
  (hs_new h, HSt (<[hs_new h := z]> (hs_mem h)) (hs_new h + 1) (hs_vals h) (hs_fees h) (hs_rest h)).
(** Several of them, e.g. oracle.go:1614-1627. *)
Fixpoint h_alloc_list (zs : list Z) (h : hst) : list N * hst :=
  match zs with
  | [] => ([], h)
  | z :: zs => let '(l, h1) := h_alloc z h in let '(ls, h2) := h_alloc_list zs h1 in (l :: ls, h2)
  end.
(** [x.Add(x, y)]: the object that [x] points to changes; e.g. oracle.go:1790. *)
Definition h_add (x y : N) (h : hst) : hst :=
  HSt (<[x := (deref h x + deref h y)%Z]> (hs_mem h)) (hs_new h) (hs_vals h) (hs_fees h) (hs_rest h).
(** A change of the map of validators, oracle.go:366, 1247, 1518, or of a field of one of them. *)
Definition h_vals (m : gmap N hinfo) (h : hst) : hst := HSt (hs_mem h) (hs_new h) m (hs_fees h) (hs_rest h).
(** A change of the rest, e.g. oracle.go:199-201, 1063, 1079. *)
Definition h_rest (s : ost) (h : hst) : hst := HSt (hs_mem h) (hs_new h) (hs_vals h) (hs_fees h) s.

(** Assignment to ValidatorStatus, oracle.go:1894-2051. *)
Definition hset_status (st : vstatus) (v : hinfo) : hinfo :=
  HInfo st (hi_acc v) (hi_pend v) (hi_coll v) (hi_addr v) (hi_index v) (hi_key v) (hi_sub v).
(** Assignment to the pointer PendingRewardsWei, oracle.go:1547, 1833. *)
Definition hset_pend (l : N) (v : hinfo) : hinfo :=
  HInfo (hi_status v) (hi_acc v) l (hi_coll v) (hi_addr v) (hi_index v) (hi_key v) (hi_sub v).
(** Assignment to SubscriptionType, oracle.go:1264, 1524, 1533. *)
Definition hset_sub (t : sub_type) (v : hinfo) : hinfo :=
  HInfo (hi_status v) (hi_acc v) (hi_pend v) (hi_coll v) (hi_addr v) (hi_index v) (hi_key v) t.

(** advanceStateMachine, oracle.go:1875-2052. *)
Definition h_fsm (idx : N) (e : vevent) (h : hst) : hst :=
  match hs_vals h !! idx with
  | None => h
  | Some v => h_vals (<[idx := hset_status (fsm (hi_status v) e) v]> (hs_vals h)) h
  end.
(** [or.state.Validators[idx]], oracle.go:1264, 1546, 1790: nil if not in the map. *)
Definition h_val (idx : N) (h : hst) : res hinfo :=
  match hs_vals h !! idx with None => Die (Panic "nil validator") | Some v => Ok v end.
(** Assignment to SubscriptionType of a tracked validator, oracle.go:1264, 1524, 1533. *)
Definition h_sub (idx : N) (t : sub_type) (h : hst) : res hst :=
  let! v := h_val idx h in Ok (h_vals (<[idx := hset_sub t v]> (hs_vals h)) h).
(** increaseValidatorPendingRewards, oracle.go:1788-1798. *)
Definition h_inc_pend (idx r : N) (h : hst) : res hst := let! v := h_val idx h in Ok (h_add (hi_pend v) r h).
(** increaseValidatorAccumulatedRewards, oracle.go:1801-1812. *)
Definition h_inc_acc (idx r : N) (h : hst) : res hst := let! v := h_val idx h in Ok (h_add (hi_acc v) r h).
(** sendRewardToPool, oracle.go:1815-1825. *)
Definition h_send (r : N) (h : hst) : hst := h_add (hs_fees h) r h.
(** resetPendingRewards, oracle.go:1828-1834: a new zero; the old object is left as it is. *)
Definition h_reset (idx : N) (h : hst) : res hst :=
  let! v := h_val idx h in
  let '(l, h1) := h_alloc 0 h in
  Ok (h_vals (<[idx := hset_pend l v]> (hs_vals h1)) h1).
(** consolidateBalance, oracle.go:1541-1556. *)
Definition h_consolidate (idx : N) (h : hst) : res hst :=
  let! v := h_val idx h in h_reset idx (h_add (hi_acc v) (hi_pend v) h).

(** The loops applying rewards, oracle.go:1764-1768 and 1777-1781. *)
Fixpoint h_apply (l : list (N * N)) (h : hst) : res hst :=
  match l with
  | [] => Ok h
  | (i, r) :: l => let! h1 := h_inc_pend i r h in h_apply l h1
  end.
(** increaseAllPendingRewards, oracle.go:1711-1785. [r] is only read before the first write; all intermediate results
    are new objects. *)
Definition h_increase_all (E : env) (net : string) (r : N) (h : hst) : res hst :=
  let s := view h in
  let reward := deref h r in
  let elig := eligible_indices E s in
  match elig with
  | [] => Ok (h_send r h)
  | _ :: _ =>
      if (10000 <? st_feepct s)%Z then Die (Fatal "Pool fees percent cannot be greater than 100%") else
      let n := Z.of_nat (length elig) in
      let over := 10000%Z in
      let aux := (reward * st_feepct s)%Z in
      let cut := go_div aux over in
      let! m := reward_method net (st_next s) in
      match m with
      | Electra =>
          let! '(rewards, fees) := electra_split E (st_next s) reward cut elig in
          let '(ls, h1) := h_alloc_list (map_to_list rewards).*2 h in
          let '(lf, h2) := h_alloc fees h1 in
          h_apply (zip (map_to_list rewards).*1 ls) (h_send lf h2)
      | Fork1 =>
          let! '(fees, per) := fork1_split reward cut n in
          let '(lp, h1) := h_alloc per h in
          let '(lf, h2) := h_alloc fees h1 in
          h_apply ((λ i, (i, lp)) <$> elig) (h_send lf h2)
      | PreFork1 =>
          let! '(fees, per) := prefork1_split reward cut aux over n in
          let '(lp, h1) := h_alloc per h in
          let '(lf, h2) := h_alloc fees h1 in
          h_apply ((λ i, (i, lp)) <$> elig) (h_send lf h2)
      end
  end.

(** Second loop of handleDonations, oracle.go:1061-1070; each donation with its pointer DonationAmount. *)
Fixpoint h_donations_loop (E : env) (net : string) (l : list (ev_ether * N)) (h : hst) : res hst :=
  match l with
  | [] => Ok h
  | (d, r) :: l =>
      let! h1 := h_increase_all E net r h in
      h_donations_loop E net l (h_rest (set_donations (st_donations (hs_rest h1) ++ [d]) (hs_rest h1)) h1)
  end.
(** handleDonations, oracle.go:1050-1071. *)
Definition h_donations (E : env) (net : string) (l : list (ev_ether * N)) (h : hst) : res hst :=
  if same_block (λ d, l_block (er_log d)) l.*1 then h_donations_loop E net l h
  else Die (Fatal "Handling donations from different blocks is not possible").

(** A new validator with nothing: three new zeros, or the collateral given. oracle.go:1247-1255, 1508-1518. *)
Definition h_new (idx : N) (coll : option N) (addr key : string) (h : hst) : hst :=
  let '(a, h1) := h_alloc 0 h in
  let '(p, h2) := h_alloc 0 h1 in
  let '(c, h3) := match coll with Some c => (c, h2) | None => h_alloc 0 h2 end in
  h_vals (<[idx := HInfo NotSubscribed a p c addr idx key Manual]> (hs_vals h3)) h3.

(** addSubscription, oracle.go:1504-1537. *)
Definition h_add_subscription (idx : N) (addr key : string) (h : hst) : res hst :=
  match hs_vals h !! idx with
  | None => h_sub idx Auto (h_fsm idx AutoSubscription (h_new idx None addr key h))
  | Some _ =>
      if is_subscribed (view h) idx then Ok h
      else
        let h1 := h_fsm idx AutoSubscription h in
        if is_banned (view h1) idx then Ok h1 else h_sub idx Auto h1
  end.

(** handleCorrectBlockProposal, oracle.go:1074-1088; [r] is the pointer Reward of the block, which may be nil. *)
Definition h_correct (E : env) (net : string) (b : sblock) (r : option N) (h : hst) : res hst :=
  let! h1 := h_add_subscription (sb_index b) (sb_withdrawal b) (sb_key b) h in
  let h2 := h_fsm (sb_index b) ProposalOk h1 in
  match r with
  | None => Die (Panic "nil reward")
  | Some r =>
      let! h3 := h_increase_all E net r h2 in
      let! h4 := h_consolidate (sb_index b) h3 in
      let s := hs_rest h4 in
      Ok (h_rest (set_blocks (st_proposed s ++ [b]) (st_missed s) (st_wrong s) s) h4)
  end.
(** handleBlsCorrectBlockProposal, oracle.go:1091-1106. *)
Definition h_bls (b : sblock) (r : option N) (h : hst) : res hst :=
  match sb_type b with
  | OkPoolProposalBlsKeys =>
      match r with
      | None => Die (Panic "nil reward")
      | Some r =>
          let h1 := h_send r h in
          let s := hs_rest h1 in
          Ok (h_rest (set_blocks (st_proposed s ++ [b]) (st_missed s) (st_wrong s) s) h1)
      end
  | _ => Die (Fatal "Block type is not OkPoolProposalBlsKeys")
  end.

(** Body of the loop of handleManualSubscriptions, oracle.go:1131-1280; [c] is the pointer SubscriptionCollateral of
    the event. A new record keeps that pointer (1251). *)
Definition h_handle_sub (E : env) (sub : ev_sub) (c : N) (val : option bval) (h : hst) : res hst :=
  let idx := sub_id sub in
  let sender := addr_string (e_mask E) (sub_sender sub) in
  match val with
  | None => Ok (h_send c h)
  | Some v =>
      if negb (idx =? b_index v)%N then Die (Fatal "Subscription event validator index mismatch") else
      if negb (can_subscribe v) then Ok (h_send c h) else
      match get_compatible_address_byte (b_creds v) with
      | None => Ok (h_send c h)
      | Some waddr =>
          let! e := equals sender waddr in
          if negb e then Ok (h_send c h) else
          if is_banned (view h) idx then h_inc_acc idx c h else
          if is_subscribed (view h) idx then h_inc_acc idx c h else
          if negb (is_collateral_enough (view h) (deref h c)) then Ok (h_send c h) else
          if negb (is_subscribed (view h) idx) && negb (is_banned (view h) idx) && is_collateral_enough (view h) (deref h c) then
            let h1 := if is_tracked (view h) idx then h
                      else h_new idx (Some c) waddr (hexutil_encode (b_pubkey v)) h in
            let! h2 := h_sub idx Manual h1 in
            let! h3 := h_inc_pend idx c h2 in
            Ok (h_fsm idx ManualSubscription h3)
          else Ok (h_send c h)
      end
  end.
(** The loop of handleManualSubscriptions, oracle.go:1131. *)
Fixpoint h_subs_loop (E : env) (l : list (ev_sub * N * option bval)) (h : hst) : res hst :=
  match l with
  | [] => Ok h
  | (e, c, v) :: l => let! h1 := h_handle_sub E e c v h in h_subs_loop E l h1
  end.
(** handleManualSubscriptions, oracle.go:1111-1281. *)
Definition h_subs (E : env) (l : list (ev_sub * N)) (vals : list (option bval)) (h : hst) : res hst :=
  if negb (same_block (λ d, l_block (sub_log d)) l.*1)
  then Die (Fatal "Handling manual subscriptions from different blocks is not possible")
  else if negb (length l =? length vals)%nat
  then Die (Fatal "Number of subscriptions events and validators dont match")
  else h_subs_loop E (zip l vals) h.

(** Lines 1356-1358 of handleManualUnsubscriptions and 1488-1490 of handleBanValidator, oracle.go: the reward that is shared is the
    leaver's own object, which is replaced afterwards. *)
Definition h_forfeit (E : env) (net : string) (idx : N) (e : vevent) (h : hst) : res hst :=
  let h1 := h_fsm idx e h in
  let! v := h_val idx h1 in
  let! h2 := h_increase_all E net (hi_pend v) h1 in
  h_reset idx h2.
(** Body of the loop of handleManualUnsubscriptions, oracle.go:1306-1388. *)
Definition h_handle_unsub (E : env) (net : string) (u : ev_unsub) (val : option bval) (h : hst) : res hst :=
  let idx := uns_id u in
  let sender := addr_string (e_mask E) (uns_sender u) in
  match val with
  | None => Ok h
  | Some v =>
      if negb (b_index v =? idx)%N then Die (Fatal "Unsubscription event validator index mismatch") else
      match get_compatible_address_byte (b_creds v) with
      | None => Ok h
      | Some waddr =>
          let! e := equals sender waddr in
          if negb e then Ok h else
          if is_subscribed (view h) idx then h_forfeit E net idx Unsubscribe h else Ok h
      end
  end.
(** The loop of handleManualUnsubscriptions, oracle.go:1306. *)
Fixpoint h_unsubs_loop (E : env) (net : string) (l : list (ev_unsub * option bval)) (h : hst) : res hst :=
  match l with
  | [] => Ok h
  | (e, v) :: l => let! h1 := h_handle_unsub E net e v h in h_unsubs_loop E net l h1
  end.
(** handleManualUnsubscriptions, oracle.go:1286-1389. *)
Definition h_unsubs (E : env) (net : string) (l : list ev_unsub) (vals : list (option bval)) (h : hst) : res hst :=
  if negb (same_block (λ d, l_block (uns_log d)) l)
  then Die (Fatal "Handling manual unsubscriptions from different blocks is not possible")
  else if negb (length l =? length vals)%nat
  then Die (Fatal "Number of unsubscriptions events and validators dont match")
  else h_unsubs_loop E net (zip l vals) h.

(** The loop of handleManualBans, oracle.go:1416-1433. The local totalPending is a value here: its address is not kept
    anywhere. *)
Fixpoint h_bans_loop (l : list ev_ban) (total : Z) (h : hst) : res (Z * hst) :=
  match l with
  | [] => Ok (total, h)
  | b :: l =>
      if negb (is_subscribed (view h) (ban_id b)) then h_bans_loop l total h
      else
        let h1 := h_fsm (ban_id b) ManualBan h in
        let! v := h_val (ban_id b) h1 in
        let! h2 := h_reset (ban_id b) h1 in
        h_bans_loop l (total + deref h1 (hi_pend v))%Z h2
  end.
(** handleManualBans, oracle.go:1391-1448. *)
Definition h_bans (E : env) (net : string) (l : list ev_ban) (h : hst) : res hst :=
  match l with
  | [] => Ok h
  | _ :: _ =>
      if negb (same_block (λ d, l_block (ban_log d)) l)
      then Die (Fatal "Handling manual bans from different blocks is not possible")
      else
        let! '(total, h1) := h_bans_loop l 0%Z h in
        if (total <? 0)%Z then Die (Fatal "Total pending rewards is negative") else
        if (0 <? total)%Z then let '(r, h2) := h_alloc total h1 in h_increase_all E net r h2 else Ok h1
  end.
(** The loop of handleManualUnbans, oracle.go:1466-1480. *)
Fixpoint h_unbans_loop (l : list ev_ban) (h : hst) : hst :=
  match l with
  | [] => h
  | b :: l =>
      if is_banned (view h) (ban_id b) then h_unbans_loop l (h_fsm (ban_id b) ManualUnban h)
      else h_unbans_loop l h
  end.
(** handleManualUnbans, oracle.go:1450-1481. *)
Definition h_unbans (l : list ev_ban) (h : hst) : res hst :=
  if negb (same_block (λ d, l_block (ban_log d)) l)
  then Die (Fatal "Handling manual unbans from different blocks is not possible")
  else Ok (h_unbans_loop l h).

(** handleBanValidator, oracle.go:1485-1494. *)
Definition h_ban_validator (E : env) (net : string) (b : sblock) (h : hst) : res hst :=
  let! h1 := h_forfeit E net (sb_index b) ProposalWrongFee h in
  let s := hs_rest h1 in
  Ok (h_rest (set_blocks (st_proposed s) (st_missed s) (st_wrong s ++ [b]) s) h1).
(** handleMissedBlock, oracle.go:1498-1501. *)
Definition h_missed (b : sblock) (h : hst) : hst :=
  let h1 := h_fsm (sb_index b) ProposalMissed h in
  let s := hs_rest h1 in
  h_rest (set_blocks (st_proposed s) (st_missed s ++ [b]) (st_wrong s) s) h1.

(** The consolidation branch of ValidatorCleanup, oracle.go:320-387; [p] is the pointer PendingRewardsWei of the source,
    which a new target keeps (369). The local rewardsToDistribute is a value here. *)
Definition h_consolidation (E : env) (slot t p : N) (dist : Z) (h : hst) : outcome hst Z :=
  let s := view h in
  if is_tracked s t && negb (is_banned s t) then
    match h_inc_pend t p h with
    | Ok h1 => Done h1 dist
    | Die d => Dead d
    end
  else if negb (is_tracked s t) then
    match e_vals E [t] slot with
    | None => Fail h "could not get target validator info"
    | Some r =>
        match (list_to_map r : gmap N bval) !! t with
        | None => Fail h "expected validator not found"
        | Some tv =>
            match get_compatible_address_byte (b_creds tv) with
            | None => Dead (Fatal "[CONSOLIDATION]: The target has BLS keys, this cant happen")
            | Some waddr =>
                let '(a, h1) := h_alloc 0 h in
                let '(c, h2) := h_alloc 0 h1 in
                Done (h_vals (<[t := HInfo NotSubscribed a p c waddr t (hexutil_encode (b_pubkey tv)) Manual]> (hs_vals h2)) h2) dist
            end
        end
    end
  else if is_banned s t then Done h (dist + deref h p)%Z
  else Dead (Fatal "[CONSOLIDATION] Fail. Unknown case").
(** Body of the loop of ValidatorCleanup, oracle.go:303-394. *)
Definition h_cleanup_one (E : env) (slot : N) (s2t : gmap N N) (v : bval) (dist : Z) (h : hst) : outcome hst Z :=
  let idx := b_index v in
  if bstate_is_active (b_status v) then Done h dist
  else
    match hs_vals h !! idx with
    | None => Dead (Panic "nil validator")
    | Some vi =>
        if (deref h (hi_pend vi) =? 0)%Z then Done h dist
        else
          let h1 := h_fsm idx Unsubscribe h in
          match (match s2t !! idx with
                 | Some t => h_consolidation E slot t (hi_pend vi) dist h1
                 | None => Done h1 (dist + deref h1 (hi_pend vi))%Z
                 end) with
          | Done h2 dist2 =>
              match h_reset idx h2 with
              | Ok h3 => Done h3 dist2
              | Die d => Dead d
              end
          | Fail h2 e => Fail h2 e
          | Dead d => Dead d
          end
    end.
(** The loop of ValidatorCleanup, oracle.go:303-394. *)
Fixpoint h_cleanup_loop (E : env) (slot : N) (s2t : gmap N N) (r : list (N * bval)) (dist : Z) (h : hst) : outcome hst Z :=
  match r with
  | [] => Done h dist
  | kv :: r =>
      match h_cleanup_one E slot s2t kv.2 dist h with
      | Done h1 d1 => h_cleanup_loop E slot s2t r d1 h1
      | Fail h1 e => Fail h1 e
      | Dead d => Dead d
      end
  end.
(** ValidatorCleanup, oracle.go:261-403. *)
Definition h_cleanup (E : env) (net : string) (slot : N) (h : hst) : outcome hst unit :=
  if (default 0%N (slot_fork1 net) <=? slot)%N then
    let indices := (e_iter E (st_vals (view h))).*1 in
    match indices with
    | [] => Done h tt
    | _ :: _ =>
        match (if (default 0%N (slot_electra net) <=? slot)%N then e_cons E slot else Some []) with
        | None => Fail h "could not fetch pending consolidations"
        | Some pcs =>
            match e_vals E indices slot with
            | None => Fail h "could not get validators info"
            | Some r =>
                match h_cleanup_loop E slot (source_to_target pcs) r 0%Z h with
                | Done h1 dist =>
                    if (dist =? 0)%Z then Done h1 tt
                    else let '(l, h2) := h_alloc dist h1 in
                         match h_increase_all E net l h2 with
                         | Ok h3 => Done h3 tt
                         | Die d => Dead d
                         end
                | Fail h1 e => Fail h1 e
                | Dead d => Dead d
                end
            end
        end
    end
  else Done h tt.

(** The pointers that come with a block: SubscriptionCollateral of the subscriptions, DonationAmount of the donations,
    Reward of the summarized block. types.go:105-162 and contract.go. *)
Record arrived := Arrived { ar_subs : list N; ar_don : list N; ar_reward : option N }.

(** The handlers of AdvanceStateToNextSlot, oracle.go:198-239. *)
Definition h_process (E : env) (net : string) (fb : fullblock) (b : sblock) (don : list ev_ether) (p : arrived) (h : hst) : res hst :=
  let ev := fb_events fb in
  let s := hs_rest h in
  let h0 := h_rest (set_events (st_subs s ++ ev_subscribe ev) (st_unsubs s ++ ev_unsubscribe ev)
              (st_ether s ++ ev_ether_received ev) s) h in
  let! h1 := h_subs E (zip (ev_subscribe ev) (ar_subs p)) (fb_subs fb) h0 in
  let h2 := match sb_type b with
            | MissedProposal => if is_subscribed (view h1) (sb_index b) then h_missed b h1 else h1
            | _ => h1
            end in
  let! h3 := (match sb_type b with OkPoolProposalBlsKeys => h_bls b (ar_reward p) h2 | _ => Ok h2 end) in
  let! h4 := (match sb_type b with OkPoolProposal => h_correct E net b (ar_reward p) h3 | _ => Ok h3 end) in
  let! h5 := (match sb_type b with
              | WrongFeeRecipient => if is_subscribed (view h4) (sb_index b) then h_ban_validator E net b h4 else Ok h4
              | _ => Ok h4
              end) in
  let! h6 := h_unsubs E net (ev_unsubscribe ev) (fb_unsubs fb) h5 in
  let! h7 := h_donations E net (zip don (ar_don p)) h6 in
  let! h8 := h_bans E net (ev_bans ev) h7 in
  h_unbans (ev_unbans ev) h8.

(** The amounts of a block are new objects, made by the client that decodes it, contract.go and block.go:473-530. *)
Definition h_arrive (subs : list ev_sub) (don : list ev_ether) (r : option Z) (h : hst) : arrived * hst :=
  let '(ls, h1) := h_alloc_list (sub_coll <$> subs) h in
  let '(ld, h2) := h_alloc_list (er_amount <$> don) h1 in
  match r with
  | None => (Arrived ls ld None, h2)
  | Some z => let '(l, h3) := h_alloc z h2 in (Arrived ls ld (Some l), h3)
  end.

(** AdvanceStateToNextSlot, oracle.go:163-258. What precedes the handlers writes no amount. The pointers that came with
    the block are returned too: the recorded events and blocks keep them. *)
Definition h_advance (E : env) (fb : fullblock) (c : config) (h : hst) : outcome (config * hst) (N * arrived) :=
  let s := view h in
  if negb (st_next s =? u64_add (st_latest s) 1)%N
  then Fail (c, h) "Next slot to process is not the last processed slot + 1" else
  if negb (st_next s =? fb_duty_slot fb)%N
  then Fail (c, h) "Next slot to process is not the same as the block slot" else
  let fee o1 := h_rest (set_feepct (st_feepct (or_st o1)) (hs_rest h)) h in
  match validate_config E fb (Oracle c s) with
  | Dead d => Dead d
  | Fail o1 e => Fail (or_cfg o1, fee o1) e
  | Done o1 _ =>
      let c1 := or_cfg o1 in
      let h1 := fee o1 in
      match summarize E (view h1) (c_pool c1) fb with
      | Die d => Dead d
      | Ok b =>
          if negb (st_next (view h1) =? sb_slot b)%N
          then Fail (c1, h1) "Next slot to process is not the same as the block slot" else
          match get_donations E (c_pool c1) fb with
          | Die d => Dead d
          | Ok don =>
              let '(p, h2) := h_arrive (ev_subscribe (fb_events fb)) don (sb_reward b) h1 in
              match h_process E (c_network c1) fb b don p h2 with
              | Die d => Dead d
              | Ok h3 =>
                  match (if (st_next (view h3) mod 1200 =? 0)%N then h_cleanup E (c_network c1) (st_next (view h3)) h3 else Done h3 tt) with
                  | Dead d => Dead d
                  | Fail h4 e => Fail (c1, h4) e
                  | Done h4 _ => Done (c1, h_rest (bump_slots b (hs_rest h4)) h4) (st_next (view h4), p)
                  end
              end
          end
      end
  end.

(** One record of the file, decoded: json.Unmarshal makes a new integer for each of the three. oracle.go:593, types.go:165-174. *)
Definition h_record (i : N) (v : vinfo) (h : hst) : hst :=
  let '(a, h1) := h_alloc (v_acc v) h in
  let '(p, h2) := h_alloc (v_pend v) h1 in
  let '(c, h3) := h_alloc (v_coll v) h2 in
  h_vals (<[i := HInfo (v_status v) a p c (v_addr v) (v_index v) (v_key v) (v_sub v)]> (hs_vals h3)) h3.
(** All records, oracle.go:593. *)
Fixpoint h_records (l : list (N * vinfo)) (h : hst) : hst :=
  match l with
  | [] => h
  | (i, v) :: l => h_record i v (h_records l h)
  end.
(** A state as it is after it was read from the file, oracle.go:590-632, or made by NewOracle (with no validators and the
    fees a new zero), oracle.go:66-103. *)
Definition h_load (s : ost) : hst :=
  let '(_, h) := h_alloc (st_fees s) (HSt ∅ 0 ∅ 0 s) in h_records (map_to_list (st_vals s)) h.

(** ** The leaves *)

(** Inner loop of AggregateValidatorsIndexes, merklelizer.go:57-63, on the leaves made so far; the balance of a leaf is
    changed in place. *)
Fixpoint h_add_to_leaf (addr : string) (r : N) (leafs : list (string * N)) (h : hst) : res (hst * bool) :=
  match leafs with
  | [] => Ok (h, false)
  | (a, l) :: leafs =>
      let! e := equals a addr in
      let! '(h1, found) := h_add_to_leaf addr r leafs (if e then h_add l r h else h) in
      Ok (h1, e || found)
  end.
(** Outer loop, merklelizer.go:51-74, over the validators with these indices; a new leaf gets a copy (71). *)
Fixpoint h_collect (is : list N) (leafs : list (string * N)) (h : hst) : res (list (string * N) * hst) :=
  match is with
  | [] => Ok (leafs, h)
  | i :: is =>
      let! v := h_val i h in
      let! '(h1, found) := h_add_to_leaf (hi_addr v) (hi_acc v) leafs h in
      if found then h_collect is leafs h1
      else let '(l, h2) := h_alloc (deref h1 (hi_acc v)) h1 in h_collect is (leafs ++ [(to_lower (hi_addr v), l)]) h2
  end.
(** The leaves of AggregateValidatorsIndexes before they are ordered, and the leaf of the fees (107-110); what follows only
    reads. merklelizer.go:44-129. *)
Definition h_leafs (E : env) (h : hst) : res (list (string * N) * N * hst) :=
  let! '(ls, h1) := h_collect (e_iter E (st_vals (view h))).*1 [] h in
  let '(f, h2) := h_alloc (deref h1 (hs_fees h1)) h1 in
  Ok (ls, f, h2).
