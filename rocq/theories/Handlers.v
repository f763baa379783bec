(** Event handlers and cleanup. Models [oracle/oracle.go] lines 260-403, 970-986, 1049-1537. *)
From Verif Require Export Rewards.

(** CanValidatorSubscribeToPool, oracle.go:975-986. *)
Definition can_subscribe (v : bval) : bool :=
  match b_status v with
  | BActiveExiting | BActiveSlashed | BExitedUnslashed | BExitedSlashed
  | BWithdrawalPossible | BWithdrawalDone | BUnknown => false
  | BPendingInitialized | BPendingQueued | BActiveOngoing => true
  end.

(** The "same block" check at the start of each handler, e.g. oracle.go:1052-1060. *)
Definition same_block {A} (blk : A → N) (l : list A) : bool :=
  match l with
  | [] => true
  | x :: _ => forallb (λ y, (blk y =? blk x)%N) l
  end.

(** Second loop of handleDonations, oracle.go:1061-1070. *)
Fixpoint donations_loop (E : env) (net : string) (l : list ev_ether) (s : ost) : res ost :=
  match l with
  | [] => Ok s
  | d :: l =>
      let! s1 := increase_all E net (er_amount d) s in
      donations_loop E net l (set_donations (st_donations s1 ++ [d]) s1)
  end.

(** handleDonations, oracle.go:1050-1071. *)
Definition handle_donations (E : env) (net : string) (l : list ev_ether) (s : ost) : res ost :=
  if same_block (λ d, l_block (er_log d)) l then donations_loop E net l s
  else Die (Fatal "Handling donations from different blocks is not possible").

(** addSubscription, oracle.go:1504-1537. *)
Definition add_subscription (idx : N) (addr key : string) (s : ost) : res ost :=
  match st_vals s !! idx with
  | None =>
      let s1 := set_vals (<[idx := VInfo NotSubscribed 0 0 0 addr idx key Manual]> (st_vals s)) s in
      let s2 := advance_fsm idx AutoSubscription s1 in
      upd_val idx (set_sub Auto) s2
  | Some _ =>
      if is_subscribed s idx then Ok s
      else
        let s1 := advance_fsm idx AutoSubscription s in
        if is_banned s1 idx then Ok s1 else upd_val idx (set_sub Auto) s1
  end.

(** A nil reward is dereferenced by the big.Int operations. oracle.go:1077, 1088-1105, api.go:331. *)
Definition deref_reward (b : sblock) : res Z :=
  match sb_reward b with Some z => Ok z | None => Die (Panic "nil reward") end.

(** handleCorrectBlockProposal, oracle.go:1074-1088. *)
Definition handle_correct (E : env) (net : string) (b : sblock) (s : ost) : res ost :=
  let! s1 := add_subscription (sb_index b) (sb_withdrawal b) (sb_key b) s in
  let s2 := advance_fsm (sb_index b) ProposalOk s1 in
  let! r := deref_reward b in
  let! s3 := increase_all E net r s2 in
  let! s4 := consolidate (sb_index b) s3 in
  Ok (set_blocks (st_proposed s4 ++ [b]) (st_missed s4) (st_wrong s4) s4).

(** handleBlsCorrectBlockProposal, oracle.go:1091-1106. *)
Definition handle_bls (b : sblock) (s : ost) : res ost :=
  match sb_type b with
  | OkPoolProposalBlsKeys =>
      let! r := deref_reward b in
      let s1 := send_to_pool r s in
      Ok (set_blocks (st_proposed s1 ++ [b]) (st_missed s1) (st_wrong s1) s1)
  | _ => Die (Fatal "Block type is not OkPoolProposalBlsKeys")
  end.

(** Body of the loop of handleManualSubscriptions, oracle.go:1131-1280. *)
Definition handle_sub (E : env) (sub : ev_sub) (val : option bval) (s : ost) : res ost :=
  let idx := sub_id sub in
  let coll := sub_coll sub in
  let sender := addr_string (e_mask E) (sub_sender sub) in
  match val with
  | None => Ok (send_to_pool coll s)                                          (* 1139-1149 *)
  | Some v =>
      if negb (idx =? b_index v)%N then Die (Fatal "Subscription event validator index mismatch") else
      if negb (can_subscribe v) then Ok (send_to_pool coll s) else            (* 1157-1168 *)
      match get_compatible_address_byte (b_creds v) with
      | None => Ok (send_to_pool coll s)                                      (* 1171-1183 *)
      | Some waddr =>
          let! e := equals sender waddr in
          if negb e then Ok (send_to_pool coll s) else                        (* 1186-1198 *)
          if is_banned s idx then inc_acc idx coll s else                     (* 1201-1211 *)
          if is_subscribed s idx then inc_acc idx coll s else                 (* 1214-1224 *)
          if negb (is_collateral_enough s coll) then Ok (send_to_pool coll s) else (* 1227-1237 *)
          if negb (is_subscribed s idx) && negb (is_banned s idx) && is_collateral_enough s coll then
            let s1 :=
              if is_tracked s idx then s
              else set_vals (<[idx := VInfo NotSubscribed 0 0 coll waddr idx
                                        (hexutil_encode (b_pubkey v)) Manual]> (st_vals s)) s in
            let! s2 := upd_val idx (set_sub Manual) s1 in
            let! s3 := inc_pend idx coll s2 in
            Ok (advance_fsm idx ManualSubscription s3)                        (* 1240-1268 *)
          else Ok (send_to_pool coll s)                                       (* 1270-1279 *)
      end
  end.

(** The loop of handleManualSubscriptions, oracle.go:1131. *)
Fixpoint subs_loop (E : env) (l : list (ev_sub * option bval)) (s : ost) : res ost :=
  match l with
  | [] => Ok s
  | (e, v) :: l => let! s1 := handle_sub E e v s in subs_loop E l s1
  end.

(** handleManualSubscriptions, oracle.go:1111-1281. *)
Definition handle_subs (E : env) (l : list ev_sub) (vals : list (option bval)) (s : ost) : res ost :=
  if negb (same_block (λ d, l_block (sub_log d)) l)
  then Die (Fatal "Handling manual subscriptions from different blocks is not possible")
  else if negb (length l =? length vals)%nat
  then Die (Fatal "Number of subscriptions events and validators dont match")
  else subs_loop E (zip l vals) s.

(** Body of the loop of handleManualUnsubscriptions, oracle.go:1306-1388. *)
Definition handle_unsub (E : env) (net : string) (u : ev_unsub) (val : option bval) (s : ost) : res ost :=
  let idx := uns_id u in
  let sender := addr_string (e_mask E) (uns_sender u) in
  match val with
  | None => Ok s
  | Some v =>
      if negb (b_index v =? idx)%N then Die (Fatal "Unsubscription event validator index mismatch") else
      match get_compatible_address_byte (b_creds v) with
      | None => Ok s
      | Some waddr =>
          let! e := equals sender waddr in
          if negb e then Ok s else
          if is_subscribed s idx then
            let s1 := advance_fsm idx Unsubscribe s in
            let! p := get_pend idx s1 in
            let! s2 := increase_all E net p s1 in
            reset_pend idx s2
          else Ok s
      end
  end.

(** The loop of handleManualUnsubscriptions, oracle.go:1306. *)
Fixpoint unsubs_loop (E : env) (net : string) (l : list (ev_unsub * option bval)) (s : ost) : res ost :=
  match l with
  | [] => Ok s
  | (e, v) :: l => let! s1 := handle_unsub E net e v s in unsubs_loop E net l s1
  end.

(** handleManualUnsubscriptions, oracle.go:1286-1389. *)
Definition handle_unsubs (E : env) (net : string) (l : list ev_unsub) (vals : list (option bval)) (s : ost) : res ost :=
  if negb (same_block (λ d, l_block (uns_log d)) l)
  then Die (Fatal "Handling manual unsubscriptions from different blocks is not possible")
  else if negb (length l =? length vals)%nat
  then Die (Fatal "Number of unsubscriptions events and validators dont match")
  else unsubs_loop E net (zip l vals) s.

(** The loop of handleManualBans, oracle.go:1416-1433, accumulating the forfeited amount. *)
Fixpoint bans_loop (l : list ev_ban) (total : Z) (s : ost) : res (Z * ost) :=
  match l with
  | [] => Ok (total, s)
  | b :: l =>
      if negb (is_subscribed s (ban_id b)) then bans_loop l total s
      else
        let s1 := advance_fsm (ban_id b) ManualBan s in
        let! p := get_pend (ban_id b) s1 in
        let! s2 := reset_pend (ban_id b) s1 in
        bans_loop l (total + p)%Z s2
  end.

(** handleManualBans, oracle.go:1391-1448. *)
Definition handle_bans (E : env) (net : string) (l : list ev_ban) (s : ost) : res ost :=
  match l with
  | [] => Ok s
  | _ :: _ =>
      if negb (same_block (λ d, l_block (ban_log d)) l)
      then Die (Fatal "Handling manual bans from different blocks is not possible")
      else
        let! '(total, s1) := bans_loop l 0%Z s in
        if (total <? 0)%Z then Die (Fatal "Total pending rewards is negative") else
        if (0 <? total)%Z then increase_all E net total s1 else Ok s1
  end.

(** The loop of handleManualUnbans, oracle.go:1466-1480. *)
Fixpoint unbans_loop (l : list ev_ban) (s : ost) : ost :=
  match l with
  | [] => s
  | b :: l =>
      if is_banned s (ban_id b) then unbans_loop l (advance_fsm (ban_id b) ManualUnban s)
      else unbans_loop l s
  end.

(** handleManualUnbans, oracle.go:1450-1481. *)
Definition handle_unbans (l : list ev_ban) (s : ost) : res ost :=
  if negb (same_block (λ d, l_block (ban_log d)) l)
  then Die (Fatal "Handling manual unbans from different blocks is not possible")
  else Ok (unbans_loop l s).

(** handleBanValidator, oracle.go:1485-1494. *)
Definition handle_ban_validator (E : env) (net : string) (b : sblock) (s : ost) : res ost :=
  let s1 := advance_fsm (sb_index b) ProposalWrongFee s in
  let! p := get_pend (sb_index b) s1 in
  let! s2 := increase_all E net p s1 in
  let! s3 := reset_pend (sb_index b) s2 in
  Ok (set_blocks (st_proposed s3) (st_missed s3) (st_wrong s3 ++ [b]) s3).

(** handleMissedBlock, oracle.go:1498-1501. *)
Definition handle_missed (b : sblock) (s : ost) : ost :=
  let s1 := advance_fsm (sb_index b) ProposalMissed s in
  set_blocks (st_proposed s1) (st_missed s1 ++ [b]) (st_wrong s1) s1.

(** ** Cleanup *)

(** The sourceToTarget map, oracle.go:288-291: the last entry for a source wins. *)
Definition source_to_target (l : list (N * N)) : gmap N N :=
  fold_left (λ m c, <[c.1 := c.2]> m) l ∅.

(** The consolidation branch for a cleaned validator [idx] with target [t] and pending [p],
    oracle.go:320-387. Returns the new state and the new rewardsToDistribute. *)
Definition cleanup_consolidate (E : env) (slot idx t : N) (p dist : Z) (s : ost) : outcome ost Z :=
  if is_tracked s t && negb (is_banned s t) then
    match inc_pend t p s with
    | Ok s1 => Done s1 dist
    | Die d => Dead d
    end
  else if negb (is_tracked s t) then
    match e_vals E [t] slot with
    | None => Fail s "could not get target validator info"
    | Some r =>
        match (list_to_map r : gmap N bval) !! t with
        | None => Fail s "expected validator not found"
        | Some tv =>
            match get_compatible_address_byte (b_creds tv) with
            | None => Dead (Fatal "[CONSOLIDATION]: The target has BLS keys, this cant happen")
            | Some waddr =>
                (* the new entry shares the source's pending *big.Int until oracle.go:392 replaces it *)
                Done (set_vals (<[t := VInfo NotSubscribed 0 p 0 waddr t
                                        (hexutil_encode (b_pubkey tv)) Manual]> (st_vals s)) s) dist
            end
        end
    end
  else if is_banned s t then Done s (dist + p)%Z
  else Dead (Fatal "[CONSOLIDATION] Fail. Unknown case").

(** Body of the loop of ValidatorCleanup, oracle.go:303-394. *)
Definition cleanup_one (E : env) (slot : N) (s2t : gmap N N) (v : bval) (dist : Z) (s : ost) : outcome ost Z :=
  let idx := b_index v in
  if bstate_is_active (b_status v) then Done s dist
  else
    match st_vals s !! idx with
    | None => Dead (Panic "nil validator")
    | Some vi =>
        if (v_pend vi =? 0)%Z then Done s dist
        else
          let s1 := advance_fsm idx Unsubscribe s in
          let p := v_pend vi in
          match (match s2t !! idx with
                 | Some t => cleanup_consolidate E slot idx t p dist s1
                 | None => Done s1 (dist + p)%Z
                 end) with
          | Done s2 dist2 =>
              match reset_pend idx s2 with
              | Ok s3 => Done s3 dist2
              | Die d => Dead d
              end
          | Fail s2 e => Fail s2 e
          | Dead d => Dead d
          end
    end.

(** The loop of ValidatorCleanup over the response, in the order given. oracle.go:303-394. *)
Fixpoint cleanup_loop (E : env) (slot : N) (s2t : gmap N N) (r : list (N * bval)) (dist : Z) (s : ost) : outcome ost Z :=
  match r with
  | [] => Done s dist
  | kv :: r =>
      match cleanup_one E slot s2t kv.2 dist s with
      | Done s1 d1 => cleanup_loop E slot s2t r d1 s1
      | Fail s1 e => Fail s1 e
      | Dead d => Dead d
      end
  end.

(** ValidatorCleanup, oracle.go:261-403. A network missing from a fork table reads as slot 0. *)
Definition cleanup (E : env) (net : string) (slot : N) (s : ost) : outcome ost unit :=
  if (default 0%N (slot_fork1 net) <=? slot)%N then
    let indices := (e_iter E (st_vals s)).*1 in
    match indices with
    | [] => Done s tt
    | _ :: _ =>
        match (if (default 0%N (slot_electra net) <=? slot)%N then e_cons E slot else Some []) with
        | None => Fail s "could not fetch pending consolidations"
        | Some pcs =>
            match e_vals E indices slot with
            | None => Fail s "could not get validators info"
            | Some r =>
                match cleanup_loop E slot (source_to_target pcs) r 0%Z s with
                | Done s1 dist =>
                    if (dist =? 0)%Z then Done s1 tt
                    else match increase_all E net dist s1 with
                         | Ok s2 => Done s2 tt
                         | Die d => Dead d
                         end
                | Fail s1 e => Fail s1 e
                | Dead d => Dead d
                end
            end
        end
    end
  else Done s tt.
