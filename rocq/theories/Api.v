(** The read endpoints of the HTTP service: api/api.go. The router and the middleware (104-262) are in Http.v; here a
    request is the endpoint with its path variable. Numbers and byte strings of an answer are kept as such, the program
    prints them. The endpoints run while nothing changes the state: how they race with the main loop is the subject of
    Locks.v. A panic in a handler ends the request without an answer (net/http recovers it), a Fatal ends the process. *)
From Verif Require Export Onchain.
From stdpp Require Export sorting.

(** respondOK and respondError, api.go:106-124. *)
Inductive reply (A : Type) := Answer (a : A) | Refuse (code : N) (msg : string).
Arguments Answer {A} a.
Arguments Refuse {A} code msg.

(** ** Input checks *)

(** IsValidIndex, api.go:1088-1095. *)
Definition is_valid_index (v : string) : option N := read_u64 v.
(** A text that matches ^0x[class]{n}$ (package regexp; $ without the m flag is the end of the text). Simplification: Go
    matches UTF-8 encoded characters; the classes contain only ASCII ones, which are single bytes. api.go:1097-1105. *)
Definition matches (class : ascii → bool) (n : nat) (v : string) : bool :=
  has_prefix v "0x" && (String.length (sdrop 2 v) =? n)%nat && sforall class (sdrop 2 v).
(** IsValidAddress, api.go:1097-1100: the class [0-9a-fA-F]. *)
Definition is_valid_address (v : string) : bool := matches is_hex_char 40 v.
(** The class [0-9a-fA-f] of api.go:1103. *)
Definition pubkey_char (c : ascii) : bool :=
  let n := N_of_ascii c in
  (((48 <=? n) && (n <=? 57)) || ((97 <=? n) && (n <=? 102)) || ((65 <=? n) && (n <=? 102)))%N.
(** IsValidPubkey, api.go:1102-1105. *)
Definition is_valid_pubkey (v : string) : bool := matches pubkey_char 96 v.

(** AreAddressEqual, api.go:1109-1119. *)
Definition address_equal (a b : string) : res bool :=
  if (String.length a =? String.length b)%nat then Ok (String.eqb (to_lower a) (to_lower b))
  else Die (Fatal "address length mismatch").

(** strings.Split with a separator of one character. api.go:600. *)
Fixpoint split_at (sep : ascii) (s : string) : list string :=
  match s with
  | EmptyString => [EmptyString]
  | String c r =>
      if Ascii.eqb c sep then EmptyString :: split_at sep r
      else match split_at sep r with
           | w :: l => String c w :: l
           | [] => [String c EmptyString]
           end
  end.
(** strings.HasSuffix with a suffix of one character. api.go:594. *)
Fixpoint ends_with (sep : ascii) (s : string) : bool :=
  match s with
  | EmptyString => false
  | String c EmptyString => Ascii.eqb c sep
  | String _ r => ends_with sep r
  end.

(** ** Answers of the nodes *)

(** NodeSyncing, api.go:441: an error; no error and no result; a result without data; the distance to the head. *)
Inductive sync_answer := SyncError | SyncNothing | SyncNoData | SyncAt (distance : N).
(** One relay, api.go:1020-1059: not reachable, or its answer cannot be read or decoded; not registered there (any status
    other than 200); registered with this fee recipient (20 bytes). *)
Inductive relay_answer := RelayError | RelayUnknown | RelayFee (recipient : string).

(** What the endpoints ask the nodes, the contract and the relays; lines as noted, all in api/api.go or oracle/onchain.go. *)
Record wire := Wire {
  w_final : option N;                       (* FinalizedBeaconBlockHeader, api.go:458, 1256 *)
  w_onchain : option (string * N);          (* GetOnchainSlotAndRoot, api.go:470, 937 *)
  w_claimed : string → option Z;            (* Contract.ClaimedBalance, onchain.go:867 *)
  w_subs : N → option (list ev_sub);        (* FilterSubscribeValidator from this block on, api.go:1127 *)
  w_unsubs : N → option (list ev_unsub);    (* FilterUnsubscribeValidator from this block on, api.go:1153 *)
  w_beacon : option (gmap N bval);          (* Onchain.Validators, onchain.go:1850-1852; None is the nil map *)
  w_chain : option N;                       (* ChainID, api.go:416 *)
  w_deposit : option (N * string);          (* DepositContract, api.go:422 *)
  w_exec : option bool;                     (* SyncProgress, api.go:428: is the progress nil? *)
  w_sync : sync_answer;
  w_relays : list (string * relay_answer) }.  (* the configured relays, api.go:1018 *)

(** The validators map as it is indexed: the nil map has no entries. api.go:377, 537. *)
Definition beacon (w : wire) : gmap N bval := default ∅ (w_beacon w).

(** OracleReady, api.go:1251-1279. *)
Definition oracle_ready (max : N) (w : wire) (s : ost) : bool :=
  match w_final w with
  | None => false
  | Some f => negb (max <? u64_sub f (st_latest s))%N
  end.
(** The answer of an endpoint that needs it, e.g. api.go:270-273. MaxSlotsBehind, api.go:37. *)
Definition if_ready {A} (w : wire) (s : ost) (k : res (reply A)) : res (reply A) :=
  if oracle_ready 64 w s then k else Ok (Refuse 503 "Oracle node is currently syncing and not serving requests").

(** ** Statistics *)

(** SlotsInOneMonth, api.go:53. *)
Definition slots_in_month : N := 216000%N.

(** httpOkMemoryStatistics, api/types.go:61-82. *)
Record stats := Stats {
  ss_subscribed : N; ss_active : N; ss_yellow : N; ss_red : N; ss_banned : N; ss_unsubscribed : N;
  ss_latest_checkpoint : N; ss_next_checkpoint : N;
  ss_accumulated : Z; ss_pending : Z; ss_sent : Z; ss_sent30 : Z; ss_per_validator : Z; ss_donations : Z; ss_avg_block : Z;
  ss_proposed : N; ss_missed : N; ss_wrong : N; ss_balance : N; ss_avg_balance : N }.

(** Validators with a status, api.go:285-295. Simplification: the counters do not wrap, there are fewer than 2^64. *)
Definition tally (st : vstatus) (vs : list vinfo) : N := N.of_nat (length (filter (λ v, v_status v = st) vs)).
(** api.go:296-297. *)
Definition total_of (f : vinfo → Z) (vs : list vinfo) : Z := foldr (λ v z, f v + z)%Z 0%Z vs.

(** The loop over the proposed blocks, api.go:328-341: sent, sent in the last 30 days, number of blocks. *)
Fixpoint sent_loop (limit : N) (l : list sblock) (acc : Z * Z * N) : res (Z * Z * N) :=
  match l with
  | [] => Ok acc
  | b :: l =>
      match sb_type b with
      | OkPoolProposal =>
          let! r := deref_reward b in
          let '(sent, recent, n) := acc in
          sent_loop limit l ((sent + r)%Z, (if (limit <? sb_slot b)%N then recent + r else recent)%Z, (n + 1)%N)
      | _ => sent_loop limit l acc
      end
  end.
(** The loop over the donations, api.go:343-352: donated, sent, sent in the last 30 days. *)
Fixpoint donated_loop (limit : N) (l : list ev_ether) (acc : Z * Z * Z) : Z * Z * Z :=
  match l with
  | [] => acc
  | d :: l =>
      let '(don, sent, recent) := acc in
      donated_loop limit l ((don + er_amount d)%Z, (sent + er_amount d)%Z,
        (if (limit <? l_block (er_log d))%N then recent + er_amount d else recent)%Z)
  end.
(** The effective balances, api.go:370-387: a sum of uint64. *)
Fixpoint balance_loop (bs : gmap N bval) (vs : list vinfo) (acc : N) : N :=
  match vs with
  | [] => acc
  | v :: vs =>
      match v_status v with
      | Active | YellowCard | RedCard =>
          match bs !! v_index v with
          | None => balance_loop bs vs acc
          | Some b => balance_loop bs vs (u64_add acc (b_effbal b))
          end
      | _ => balance_loop bs vs acc
      end
  end.

(** handleMemoryStatistics, api.go:268-413. big.Int.Div panics on a zero divisor. *)
Definition statistics (E : env) (w : wire) (o : oracle) : res (reply stats) :=
  let s := or_st o in
  if_ready w s
  (let vs := (e_iter E (st_vals s)).*2 in
   let active := tally Active vs in let yellow := tally YellowCard vs in let red := tally RedCard vs in
   let subscribed := (active + yellow + red)%N in
   if (st_latest s <? slots_in_month)%N then Ok (Refuse 500 "head slot is lower than slots in a month, this should not happen") else
   if (st_latest_block s <? slots_in_month)%N then Ok (Refuse 500 "head block is lower than slots in a month, this should not happen") else
   let! '(sent, recent, nok) := sent_loop (st_latest s - slots_in_month) (st_proposed s) (0%Z, 0%Z, 0%N) in
   let '(don, sent, recent) := donated_loop (st_latest_block s - slots_in_month) (st_donations s) (0%Z, sent, recent) in
   let! per := (if (subscribed =? 0)%N then Ok 0%Z
                else if (active + yellow =? 0)%N then Die (Panic "division by zero")
                else Ok (go_div recent (Z.of_N (active + yellow)))) in
   let avg := if (nok =? 0)%N then 0%Z else go_div sent (Z.of_N nok) in
   let bal := balance_loop (beacon w) vs 0 in
   Ok (Answer (Stats subscribed active yellow red (tally Banned vs) (tally NotSubscribed vs)
     (st_latest s) (u64_add (st_latest s) (c_cp_size (or_cfg o)))
     (total_of v_acc vs) (total_of v_pend vs) sent recent per don avg
     (N.of_nat (length (st_proposed s))) (N.of_nat (length (st_missed s))) (N.of_nat (length (st_wrong s)))
     bal (if (subscribed =? 0)%N then 0 else bal / subscribed)%N))).

(** ** Status *)

(** httpOkStatus, api/types.go:13-33. The two durations in words (NextCheckpointRemaining, PreviousCheckpointAge) print
    the same numbers of slots as the two in seconds. SecondsInSlot is 12, constants/constants.go. *)
Record status_body := StatusBody {
  sy_consensus : bool; sy_execution : bool; sy_oracle : bool;
  sy_latest : N; sy_latest_block : N; sy_epoch : N; sy_finalized : N; sy_distance : N;
  sy_next : N; sy_remaining : N; sy_previous : N; sy_age : N;
  sy_exec_chain : N; sy_cons_chain : N; sy_deposit : string }.

(** handleStatus, api.go:415-506. When the client returns neither a result nor an error, err.Error() is called on nil
    (443). *)
Definition handle_status (w : wire) (o : oracle) : res (reply status_body) :=
  let s := or_st o in
  match w_chain w, w_deposit w, w_exec w with
  | None, _, _ => Ok (Refuse 500 "could not get exex chainid")
  | _, None, _ => Ok (Refuse 500 "could not get deposit contract")
  | _, _, None => Ok (Refuse 500 "could not get exec sync progress")
  | Some chain, Some (dchain, daddr), Some exec =>
      match w_sync w with
      | SyncError => Ok (Refuse 500 "could not get consensus sync progress or result is nil")
      | SyncNothing => Die (Panic "nil pointer dereference")
      | SyncNoData => Ok (Refuse 500 "consensus sync progress data is nil")
      | SyncAt dist =>
          match w_final w with
          | None => Ok (Refuse 500 "could not get consensus latest finalized slot")
          | Some f =>
              match w_onchain w with
              | None => Ok (Refuse 500 "could not get onchain slot and root")
              | Some (_, slot) =>
                  let next := u64_add slot (c_cp_size (or_cfg o)) in
                  Ok (Answer (StatusBody (dist <? 2)%N exec (u64_sub (st_latest s) f =? 0)%N
                    (st_latest s) (st_latest_block s) (f / 32) f (u64_sub f (st_latest s))
                    next (u64_mul (if (f <? next)%N then u64_sub next f else 0%N) 12)
                    slot (u64_mul (u64_sub f slot) 12) chain dchain daddr))
              end
          end
      end
  end.

(** ** Validators *)

(** httpOkValidatorInfo, api/types.go:141-153: the oracle's record with the validator's status and balances on the beacon
    chain. *)
Record view := View { vw_info : vinfo; vw_beacon : bval }.

(** The views of a list of records; those that the validators map does not know are dropped, api.go:535-554, 780-797. *)
Definition views (bs : gmap N bval) (vs : list vinfo) : list view :=
  omap (λ v, View v <$> bs !! v_index v) vs.
(** sort.Slice by index, api.go:532, 777. Simplification: sort.Slice is not stable; for distinct indices every sorting
    algorithm gives the same list. *)
Definition index_le (a b : vinfo) : Prop := (v_index a ≤ v_index b)%N.
(** The comparison of api.go:532. *)
Global Instance index_le_dec a b : Decision (index_le a b).
Proof. unfold index_le. apply _. Defined.
(** The sorted list, api.go:532, 777. *)
Definition by_index (vs : list vinfo) : list vinfo := merge_sort index_le vs.

(** handleMemoryValidators, api.go:524-558. *)
Definition all_validators (E : env) (w : wire) (o : oracle) : res (reply (list view)) :=
  let s := or_st o in
  if_ready w s (Ok (Answer (views (beacon w) (by_index (e_iter E (st_vals s)).*2)))).

(** The index field of a record. api.go:583, 731. *)
Definition set_index (i : N) (v : vinfo) : vinfo :=
  VInfo (v_status v) (v_acc v) (v_pend v) (v_coll v) (v_addr v) i (v_key v) (v_sub v).
(** handleMemoryValidatorInfo, api.go:560-587. It writes the index into the oracle's own record (582-584), see
    [after_request]. *)
Definition one_validator (v : string) (w : wire) (o : oracle) : res (reply vinfo) :=
  let s := or_st o in
  if_ready w s
  (match is_valid_index v with
   | None => Ok (Refuse 400 ("invalid validator index: " +:+ v))
   | Some i =>
       match st_vals s !! i with
       | None => Ok (Refuse 400 "could not find validator with index")
       | Some x => Ok (Answer (set_index i x))
       end
   end).

(** The loop of handleMemoryValidatorsByIndex over the indices, api.go:622-647: found and not found. *)
Fixpoint find_loop (bs : gmap N bval) (m : gmap N vinfo) (l : list N) : list view * list N :=
  match l with
  | [] => ([], [])
  | i :: l =>
      let '(found, missing) := find_loop bs m l in
      match m !! i with
      | None => (found, i :: missing)
      | Some v => match bs !! v_index v with
                  | None => (found, missing)
                  | Some b => (View v b :: found, missing)
                  end
      end
  end.
(** handleMemoryValidatorsByIndex, api.go:589-655. *)
Definition validators_by_index (v : string) (w : wire) (o : oracle) : reply (list view * list N) :=
  if String.eqb v "" || ends_with ","%char v then Refuse 400 "Invalid format for validator indices" else
  let l := split_at ","%char v in
  if (100 <? length l)%nat then Refuse 400 "Request exceeds maximum limit of 100 validators" else
  match mapM is_valid_index l with
  | None => Refuse 400 "Invalid format for validator indices"
  | Some is => Answer (find_loop (beacon w) (st_vals (or_st o)) is)
  end.

(** ** Validators of a withdrawal address, with the events that are not finalized yet *)

(** First loop, api.go:685-718: validators of the beacon chain with this withdrawal address, as untracked. Each entry is
    written once, so the order does not matter; the model uses one fixed order. *)
Fixpoint untracked_loop (addr : string) (l : list (N * bval)) (m : gmap N vinfo) : res (gmap N vinfo) :=
  match l with
  | [] => Ok m
  | (k, b) :: l =>
      match get_compatible_address (hex_encode (b_creds b)) with
      | None => untracked_loop addr l m
      | Some a =>
          let! e := address_equal a addr in
          untracked_loop addr l
            (if e then <[k := VInfo Untracked 0 0 0 a (b_index b) (hexutil_encode (b_pubkey b)) Manual]> m else m)
      end
  end.
(** Second loop, api.go:720-736: tracked validators with this withdrawal address, from a copy of the state. *)
Fixpoint tracked_loop (addr : string) (l : list (N * vinfo)) (m : gmap N vinfo) : res (gmap N vinfo) :=
  match l with
  | [] => Ok m
  | (k, v) :: l =>
      let! e := address_equal (v_addr v) addr in
      tracked_loop addr l (if e then <[k := set_index k v]> m else m)
  end.

(** The body of ApplyNonFinalizedState for a subscription, api.go:1211-1230; [val] is nil when the validators map does
    not know the validator (GetSubscriptionsTillHead, api.go:1134-1137). *)
Definition overlay_sub (E : env) (coll : Z) (e : ev_sub) (val : option bval) (m : gmap N vinfo) : res (gmap N vinfo) :=
  match m !! sub_id e with
  | None => Ok m
  | Some v =>
      let! eq := address_equal (v_addr v) (addr_string (e_mask E) (sub_sender e)) in
      if negb eq then Ok m else
      if negb (coll <=? sub_coll e)%Z then Ok m else
      match val with
      | None => Die (Panic "nil pointer dereference")
      | Some b =>
          if negb (can_subscribe b) then Ok m else
          match v_status v with
          | Untracked | NotSubscribed => Ok (<[sub_id e := set_pend (v_pend v + sub_coll e) (set_status Active v)]> m)
          | _ => Ok m
          end
      end
  end.
(** For an unsubscription, api.go:1232-1247. *)
Definition overlay_unsub (E : env) (e : ev_unsub) (m : gmap N vinfo) : res (gmap N vinfo) :=
  match m !! uns_id e with
  | None => Ok m
  | Some v =>
      let! eq := address_equal (v_addr v) (addr_string (e_mask E) (uns_sender e)) in
      if negb eq then Ok m else
      match v_status v with
      | Active | YellowCard | RedCard => Ok (<[uns_id e := set_pend 0 (set_status NotSubscribed v)]> m)
      | _ => Ok m
      end
  end.
(** The two inner loops, api.go:1211, 1232. *)
Fixpoint overlay_subs (E : env) (coll : Z) (bs : gmap N bval) (l : list ev_sub) (m : gmap N vinfo) : res (gmap N vinfo) :=
  match l with
  | [] => Ok m
  | e :: l => let! m1 := overlay_sub E coll e (bs !! sub_id e) m in overlay_subs E coll bs l m1
  end.
(** The loop over unsubscriptions, api.go:1232-1247. *)
Fixpoint overlay_unsubs (E : env) (l : list ev_unsub) (m : gmap N vinfo) : res (gmap N vinfo) :=
  match l with
  | [] => Ok m
  | e :: l => let! m1 := overlay_unsub E e m in overlay_unsubs E l m1
  end.
(** The numbers of the blocks with events, each once, in order of first appearance, api.go:1178-1203. *)
Definition once (l : list N) : list N :=
  fold_left (λ acc n, if existsb (N.eqb n) acc then acc else acc ++ [n]) l [].
(** The loop over the blocks, api.go:1207-1248, with GetSubInBlock and GetUnsubInBlock, 1281-1299. *)
Fixpoint overlay_blocks (E : env) (coll : Z) (bs : gmap N bval) (subs : list ev_sub) (unsubs : list ev_unsub) (ns : list N)
    (m : gmap N vinfo) : res (gmap N vinfo) :=
  match ns with
  | [] => Ok m
  | n :: ns =>
      let! m1 := overlay_subs E coll bs (filter (λ e, l_block (sub_log e) = n) subs) m in
      let! m2 := overlay_unsubs E (filter (λ e, l_block (uns_log e) = n) unsubs) m1 in
      overlay_blocks E coll bs subs unsubs ns m2
  end.
(** ApplyNonFinalizedState, api.go:1173-1249. *)
Definition overlay (E : env) (coll : Z) (bs : gmap N bval) (subs : list ev_sub) (unsubs : list ev_unsub) (m : gmap N vinfo)
    : res (gmap N vinfo) :=
  overlay_blocks E coll bs subs unsubs
    (merge_sort N.le (once (((λ e, l_block (sub_log e)) <$> subs) ++ ((λ e, l_block (uns_log e)) <$> unsubs)))) m.

(** handleMemoryValidatorsByWithdrawal, api.go:657-800. *)
Definition validators_by_withdrawal (E : env) (addr : string) (w : wire) (o : oracle) : res (reply (list view)) :=
  let s := or_st o in let addr := to_lower addr in
  if_ready w s
  (if negb (is_valid_address addr) then Ok (Refuse 400 ("invalid withdrawalAddress: " +:+ addr)) else
   match w_beacon w with
   | None => Ok (Refuse 500 "finalized validators not loaded yet, try again later")
   | Some bs =>
       let! m1 := untracked_loop addr (map_to_list bs) ∅ in
       let! m2 := tracked_loop addr (map_to_list (st_vals s)) m1 in
       if (size m2 =? 0)%nat then Ok (Answer []) else
       if (st_latest_block s =? 0)%N then Ok (Refuse 500 "latest processed block is 0, try again later") else
       match w_subs w (u64_add (st_latest_block s) 1), w_unsubs w (u64_add (st_latest_block s) 1) with
       | None, _ => Ok (Refuse 500 "could not get subscriptions")
       | _, None => Ok (Refuse 500 "could not get unsubscriptions")
       | Some subs, Some unsubs =>
           let! m3 := overlay E (c_coll (or_cfg o)) bs subs unsubs m2 in
           Ok (Answer (views bs (by_index (e_iter E m3).*2)))
       end
   end).

(** ** Merkle proofs *)

(** httpOkProofs, api/types.go:84-95. The leaf's balance is printed twice (also as TotalAccumulatedRewardsWei). *)
Record proof_body := ProofBody {
  pf_addr : string; pf_balance : Z; pf_root : string; pf_slot : N; pf_proof : list string;
  pf_validators : list N; pf_claimed : Z; pf_claimable : Z; pf_pending : Z }.

(** GetContractClaimedBalance, onchain.go:849-880. *)
Definition claimed_balance (w : wire) (addr : string) : res (option Z) :=
  if negb (is_hex_address addr) then Die (Fatal "Invalid withdrawal address") else Ok (w_claimed w addr).

(** handleOnchainMerkleProof, api.go:920-1005. The message about the slot is without its number. *)
Definition merkle_proof (E : env) (addr : string) (w : wire) (o : oracle) : res (reply proof_body) :=
  let s := or_st o in
  if_ready w s
  (if negb (is_valid_address addr) then Ok (Refuse 400 ("invalid WithdrawalAddress: " +:+ addr)) else
   let addr := to_lower addr in
   match w_onchain w with
   | None => Ok (Refuse 500 "could not get onchain slot and root")
   | Some (root, slot) =>
       match st_committed s !! slot with
       | None => Ok (Refuse 500 "could not find onchain slot in oracle state")
       | Some c =>
           if negb (String.eqb root (oc_root c)) then Ok (Refuse 500 "contract merkle root does not match oracle state") else
           match oc_proofs c !! addr with
           | None => Ok (Refuse 400 ("could not find proof for WithdrawalAddress: " +:+ addr))
           | Some proof =>
               match oc_leafs c !! addr with
               | None => Ok (Refuse 400 ("could not find leafs for WithdrawalAddress: " +:+ addr))
               | Some leaf =>
                   let mine := filter (λ kv, to_lower (v_addr kv.2) = to_lower addr) (e_iter E (oc_vals c)) in
                   let! r := claimed_balance w addr in
                   match r with
                   | None => Ok (Refuse 500 "could not get claimed balance so far from contract")
                   | Some claimed =>
                       Ok (Answer (ProofBody (leaf_addr leaf) (leaf_bal leaf) (oc_root c) (oc_slot c) proof
                         mine.*1 claimed (leaf_bal leaf - claimed) (total_of v_pend mine.*2)))
                   end
               end
           end
       end
   end).

(** ** Relays *)

(** httpOkRelayersState, api/types.go:35-40: verdict, then the relays registered with the pool, with another recipient,
    and without registration. Timestamps are left out. *)
Record relay_body := RelayBody {
  rl_ok : bool; rl_correct : list (string * string); rl_wrong : list (string * string); rl_unknown : list string }.

(** The loop of handleValidatorRelayers, api.go:1020-1059; [None]: an error ends the request. *)
Fixpoint relay_loop (E : env) (pool : string) (l : list (string * relay_answer)) (b : relay_body) : res (option relay_body) :=
  match l with
  | [] => Ok (Some b)
  | (name, a) :: l =>
      match a with
      | RelayError => Ok None
      | RelayUnknown => relay_loop E pool l (RelayBody (rl_ok b) (rl_correct b) (rl_wrong b) (rl_unknown b ++ [name]))
      | RelayFee f =>
          let str := addr_string (e_mask E) f in
          let! e := equals str pool in
          relay_loop E pool l
            (if e then RelayBody (rl_ok b) (rl_correct b ++ [(name, str)]) (rl_wrong b) (rl_unknown b)
             else RelayBody (rl_ok b) (rl_correct b) (rl_wrong b ++ [(name, str)]) (rl_unknown b))
      end
  end.
(** handleValidatorRelayers, api.go:1007-1073. *)
Definition registered_relays (E : env) (key : string) (w : wire) (o : oracle) : res (reply relay_body) :=
  if negb (is_valid_pubkey key) then Ok (Refuse 500 "invalid validator pubkey format") else
  let! r := relay_loop E (c_pool (or_cfg o)) (w_relays w) (RelayBody false [] [] []) in
  match r with
  | None => Ok (Refuse 500 "could not call relayer endpoint")
  | Some b =>
      let ok := match rl_wrong b, rl_correct b with [], _ :: _ => true | _, _ => false end in
      Ok (Answer (RelayBody ok (rl_correct b) (rl_wrong b) (rl_unknown b)))
  end.

(** ** All endpoints *)

(** The paths, api.go:55-77. *)
Inductive request :=
  | GetRoot | GetStatus | GetConfig | GetRelays (key : string) | GetState
  | GetValidators | GetValidator (i : string) | GetByIndex (is : string) | GetByWithdrawal (addr : string)
  | GetFees | GetStatistics | GetAllBlocks | GetProposed | GetMissed | GetWrongFee | GetDonations
  | GetProof (addr : string).
(** What they answer. Of the configuration the fields of httpOkConfig (api/types.go:97-106) are printed, of a donation
    amount, block, transaction and sender (114-119). *)
Inductive body :=
  | BText (s : string) | BStatus (b : status_body) | BConfig (c : config) | BRelays (b : relay_body) | BState (s : ost)
  | BViews (l : list view) | BInfo (v : vinfo) | BFound (found : list view) (missing : list N)
  | BFees (percent : Z) (addr : string) (fees : Z) | BStats (b : stats) | BBlocks (l : list sblock)
  | BDonations (l : list ev_ether) | BProof (b : proof_body).

(** The body of an answer. respondOK, api.go:106-114. *)
Definition reply_map {A B} (f : A → B) (r : reply A) : reply B :=
  match r with Answer a => Answer (f a) | Refuse c m => Refuse c m end.

(** getRouter, api.go:184-217; the endpoints without a name of their own: handleRoot 264-266, handleConfig 508-522,
    handleMemoryFeesInfo 802-808, the four lists of blocks 810-904, handleMemoryDonations 906-917, handleState 1075-1085. *)
Definition serve (sha : string → string) (E : env) (r : request) (w : wire) (o : oracle) : res (reply body) :=
  let s := or_st o in
  let as_ {A} (f : A → body) (x : res (reply A)) := let! y := x in Ok (reply_map f y) in
  match r with
  | GetRoot => Ok (Answer (BText "see api doc for available endpoints"))
  | GetStatus => as_ BStatus (handle_status w o)
  | GetConfig => Ok (Answer (BConfig (or_cfg o)))
  | GetRelays key => as_ BRelays (registered_relays E key w o)
  | GetState => Ok (Answer (BState (hash_state sha s)))
  | GetValidators => as_ BViews (all_validators E w o)
  | GetValidator i => as_ BInfo (one_validator i w o)
  | GetByIndex is => Ok (reply_map (λ x, BFound x.1 x.2) (validators_by_index is w o))
  | GetByWithdrawal a => as_ BViews (validators_by_withdrawal E a w o)
  | GetFees => Ok (Answer (BFees (st_feepct s) (st_fees_addr s) (st_fees s)))
  | GetStatistics => as_ BStats (statistics E w o)
  | GetAllBlocks => Ok (Answer (BBlocks (st_proposed s ++ st_missed s ++ st_wrong s)))
  | GetProposed => Ok (Answer (BBlocks (st_proposed s)))
  | GetMissed => Ok (Answer (BBlocks (st_missed s)))
  | GetWrongFee => Ok (Answer (BBlocks (st_wrong s)))
  | GetDonations => Ok (Answer (BDonations (st_donations s)))
  | GetProof a => as_ BProof (merkle_proof E a w o)
  end.

(** The state after a request: handleState stores the hash (StateWithHash, oracle.go:147-157), handleMemoryValidatorInfo
    the index (api.go:581-584); the others only read. *)
Definition after_request (sha : string → string) (r : request) (w : wire) (o : oracle) : oracle :=
  let s := or_st o in
  match r with
  | GetState => Oracle (or_cfg o) (hash_state sha s)
  | GetValidator v =>
      if oracle_ready 64 w s then
        match is_valid_index v with
        | None => o
        | Some i => match st_vals s !! i with
                    | None => o
                    | Some x => Oracle (or_cfg o) (set_vals (<[i := set_index i x]> (st_vals s)) s)
                    end
        end
      else o
  | _ => o
  end.
