(** Properties C47-C50, C64-C70, C86 and C87: the HTTP service. Each theorem is followed by a concrete instance of its hypotheses
    and by the list of its assumptions. *)
From Verif Require Import ApiProofs ApiSamples.

(** ** C47 *)
Theorem C47_served_proof H sha cfg l o E a w p : evolve H (new_oracle cfg) l o → wf_env E →
  serve sha E (GetProof a) w o = Ok (Answer (BProof p)) →
  hex_text 40 a ∧ w_onchain w = Some (pf_root p, pf_slot p) ∧ pf_addr p = to_lower a ∧
  w_claimed w (to_lower a) = Some (pf_claimed p) ∧ pf_claimable p = (pf_balance p - pf_claimed p)%Z ∧
  ∃ l1 E1 l2 o1, l = l1 ++ Freeze E1 :: l2 ∧ evolve H (new_oracle cfg) l1 o1 ∧ st_latest (or_st o1) = pf_slot p ∧
    (∀ i, i ∈ pf_validators p ↔ ∃ v, st_vals (or_st o1) !! i = Some v ∧ to_lower (v_addr v) = to_lower a) ∧
    pf_pending p = vsum v_pend (filter (λ kv, to_lower (v_addr kv.2) = to_lower a) (st_vals (or_st o1))) ∧
    ∃ a20, spells a20 (to_lower a) ∧ entitled (or_st o1) a20 (pf_balance p) ∧
      (uint256 (pf_balance p) → ∃ pre root sibs, claim a20 (pf_balance p) pre ∧ pf_root p = "0x" +:+ hex_encode root ∧
        pf_proof p = (λ b, "0x" +:+ hex_encode b) <$> sibs ∧ proves H root sibs pre).
Proof. exact (serve_proof H sha cfg l o E a w p). Qed.
(** The owner of validator 1, after the second checkpoint; the contract holds the root of either checkpoint. *)
Example C47_example : ∃ o, evolve toy (new_oracle (cfg_at Mainnet 12000001)) two_checkpoints o ∧ wf_env backward ∧
  (∃ p, serve toy backward (GetProof "0x1111111111111111111111111111111111111111") (proof_wire 12000002 o) o = Ok (Answer p) ∧
    match p with BProof p => pf_balance p = 21666%Z ∧ pf_claimable p = 20666%Z ∧ pf_validators p = [1%N] ∧ length (pf_proof p) = 2%nat | _ => False end) ∧
  (∃ p, serve toy backward (GetProof "0x1111111111111111111111111111111111111111") (proof_wire 12000001 o) o = Ok (Answer p) ∧
    match p with BProof p => pf_balance p = 0%Z ∧ pf_pending p = 1000%Z ∧ length (pf_proof p) = 2%nat | _ => False end).
Proof.
  destruct (ex_evolve (λ o,
    match serve toy backward (GetProof "0x1111111111111111111111111111111111111111") (proof_wire 12000002 o) o with
    | Ok (Answer (BProof p)) => pf_balance p = 21666%Z ∧ pf_claimable p = 20666%Z ∧ pf_validators p = [1%N] ∧ length (pf_proof p) = 2%nat | _ => False end ∧
    match serve toy backward (GetProof "0x1111111111111111111111111111111111111111") (proof_wire 12000001 o) o with
    | Ok (Answer (BProof p)) => pf_balance p = 0%Z ∧ pf_pending p = 1000%Z ∧ length (pf_proof p) = 2%nat | _ => False end)
    toy (new_oracle (cfg_at Mainnet 12000001)) two_checkpoints two_checkpoints_wf) as (o & He & H1 & H2); [by vm_compute|].
  exists o. split; [exact He|]. split; [apply backward_wf|]. split; [exact (ex_answer _ _ H1)|exact (ex_answer _ _ H2)].
Qed.
Print Assumptions C47_served_proof.

(** ** C48 *)
Theorem C48_overlay sha H cfg l0 o l o' n bs w a addr E vs pool20 :
  evolve H (new_oracle cfg) l0 o → wf_envs l → run o l o' → wf_env E →
  names pool20 (c_pool cfg) → names a addr →
  w_beacon w = Some bs → up_to_date bs (or_st o) →
  Forall (λ x, only_requests pool20 bs x.2) l → outsiders (or_st o) l → rising n l →
  w_subs w (u64_add (st_latest_block (or_st o)) 1) = Some (all_subs l) →
  w_unsubs w (u64_add (st_latest_block (or_st o)) 1) = Some (all_unsubs l) →
  serve sha E (GetByWithdrawal addr) w o = Ok (Answer (BViews vs)) →
  by_rising_index vs ∧
  (∀ i, (∃ x, x ∈ vs ∧ v_index (vw_info x) = i) ↔ withdrawing bs a i) ∧
  ∀ x, x ∈ vs → v_status (vw_info x) = shown (or_st o') (v_index (vw_info x)) ∧ v_addr (vw_info x) = "0x" +:+ hex_encode a ∧
    bs !! v_index (vw_info x) = Some (vw_beacon x).
Proof. exact (serve_withdrawal sha H cfg l0 o l o' n bs w a addr E vs pool20). Qed.
(** Validators 1 and 7 have the same owner: first 1 leaves and 7 joins, then the other way round. *)
Example C48_example : ∃ o o', evolve toy (new_oracle (cfg_at Mainnet 12000001)) (operations (take 1 (history 12000001))) o ∧
  wf_envs swap_blocks ∧ run o swap_blocks o' ∧ wf_env honest ∧ names pool20 (c_pool (cfg_at Mainnet 12000001)) ∧
  names (owner 1) "0x1111111111111111111111111111111111111111" ∧
  w_beacon (swap_wire 12000010) = Some sample_beacon ∧ up_to_date sample_beacon (or_st o) ∧
  Forall (λ x, only_requests pool20 sample_beacon x.2) swap_blocks ∧ outsiders (or_st o) swap_blocks ∧ rising 12000001 swap_blocks ∧
  all_subs swap_blocks = swap_subs ∧ all_unsubs swap_blocks = swap_unsubs ∧
  status_of (or_st o) 1 = Some Active ∧ status_of (or_st o) 7 = None ∧
  status_of (or_st o') 1 = Some Active ∧ status_of (or_st o') 7 = Some NotSubscribed ∧
  ∃ b, serve toy honest (GetByWithdrawal "0x1111111111111111111111111111111111111111") (swap_wire 12000010) o = Ok (Answer b) ∧
    match b with BViews vs => (λ x, (v_index (vw_info x), v_status (vw_info x))) <$> vs = [(1%N, Active); (7%N, NotSubscribed)] | _ => False end.
Proof.
  destruct (ex_evolve (λ o, match run_fn o swap_blocks with
      | Some o' => up_to_date_test sample_beacon (or_st o) = true ∧ outsiders_test (or_st o) swap_blocks = true ∧
          status_of (or_st o) 1 = Some Active ∧ status_of (or_st o) 7 = None ∧
          status_of (or_st o') 1 = Some Active ∧ status_of (or_st o') 7 = Some NotSubscribed ∧
          match serve toy honest (GetByWithdrawal "0x1111111111111111111111111111111111111111") (swap_wire 12000010) o with
          | Ok (Answer (BViews vs)) => (λ x, (v_index (vw_info x), v_status (vw_info x))) <$> vs = [(1%N, Active); (7%N, NotSubscribed)]
          | _ => False end
      | None => False end)
    toy (new_oracle (cfg_at Mainnet 12000001)) _ (history_operations 1)) as (o & He & H); [by vm_compute|].
  destruct (run_fn o swap_blocks) as [o'|] eqn:Hr; [|done]. destruct H as (Hu & Ho & H1 & H2 & H3 & H4 & H5).
  exists o, o'. split; [exact He|]. split; [apply swap_envs|]. split; [by apply run_fn_run|]. split; [apply honest_wf|].
  split; [apply pool_names|]. split; [split; [done|by vm_compute]|]. split; [done|]. split; [by apply up_to_date_sound|].
  split; [apply swap_requests|]. split; [by apply outsiders_sound|]. split; [apply swap_rising|]. do 2 (split; [done|]).
  split; [exact H1|]. split; [exact H2|]. split; [exact H3|]. split; [exact H4|]. exact (ex_answer _ _ H5).
Qed.
Print Assumptions C48_overlay.

(** ** C49 *)
(** No request ends the process. *)
Theorem C49_never_exits H sha cfg l o E r w pool20 m : evolve H (new_oracle cfg) l o → wf_env E → wf_wire w → names pool20 (c_pool cfg) →
  serve sha E r w o ≠ Die (Fatal m).
Proof. exact (serve_survives H sha cfg l o E r w pool20 m). Qed.
(** What else holds: every request is answered, unless all subscribed validators hold a red card (statistics), the
    validators map lacks a tracked validator that deposits again (by withdrawal address), or the client returns neither a
    result nor an error (status). Missing from the full property: these cases; the next two theorems show the first two. *)
Theorem C49_answers_partial H sha cfg l o E r w pool20 : evolve H (new_oracle cfg) l o → wf_env E → wf_wire w → names pool20 (c_pool cfg) →
  ¬ trouble r w o → ∃ x, serve sha E r w o = Ok x.
Proof. exact (serve_answers H sha cfg l o E r w pool20). Qed.
Theorem C49_statistics_refuted : ∃ o w, evolve toy (new_oracle (cfg_at Mainnet 12000001)) (operations red_history) o ∧
  wf_wire w ∧ keeps_up w (or_st o) ∧ ∀ sha, serve sha honest GetStatistics w o = Die (Panic "division by zero").
Proof. exact statistics_refutation. Qed.
Theorem C49_stale_refuted : ∃ o a, evolve toy (new_oracle (cfg_at Mainnet 12000001)) (operations (take 1 (history 12000001))) o ∧
  wf_wire stale_wire ∧ keeps_up stale_wire (or_st o) ∧ names (owner 1) a ∧
  ∀ sha, serve sha honest (GetByWithdrawal a) stale_wire o = Die (Panic "nil pointer dereference").
Proof. exact stale_refutation. Qed.
(** All endpoints at the end of the sample history. *)
Example C49_example : ∃ o, evolve toy (new_oracle (cfg_at Mainnet 12000001)) (operations (take 6 (history 12000001))) o ∧
  wf_env honest ∧ wf_wire (plain_wire 12000010) ∧ names pool20 (c_pool (cfg_at Mainnet 12000001)) ∧
  Forall (λ r, ∃ b, serve toy honest r (plain_wire 12000010) o = Ok (Answer b) ∧ True)
    [GetRoot; GetStatus; GetConfig; GetValidators; GetValidator "1"; GetByIndex "1,2"; GetByWithdrawal "0x1111111111111111111111111111111111111111";
     GetFees; GetStatistics; GetAllBlocks; GetProposed; GetMissed; GetWrongFee; GetDonations].
Proof.
  destruct (ex_evolve (λ o, forallb (λ r, match serve toy honest r (plain_wire 12000010) o with Ok (Answer b) => true | _ => false end)
    [GetRoot; GetStatus; GetConfig; GetValidators; GetValidator "1"; GetByIndex "1,2"; GetByWithdrawal "0x1111111111111111111111111111111111111111";
     GetFees; GetStatistics; GetAllBlocks; GetProposed; GetMissed; GetWrongFee; GetDonations] = true)
    toy (new_oracle (cfg_at Mainnet 12000001)) _ (history_operations 6)) as (o & He & H); [by vm_compute|].
  exists o. split; [exact He|]. split; [apply honest_wf|]. split; [apply plain_wire_wf|]. split; [apply pool_names|].
  eapply forallb_Forall; [|exact H]. cbv beta. intros r Hr. apply (ex_answer (λ _, True)).
  destruct (serve toy honest r (plain_wire 12000010) o) as [[b|c m]|d]; [exact I|discriminate Hr..].
Qed.
Print Assumptions C49_never_exits.
Print Assumptions C49_answers_partial.
Print Assumptions C49_statistics_refuted.
Print Assumptions C49_stale_refuted.

(** ** C50 *)
Theorem C50_address v : is_valid_address v = true ↔ hex_text 40 v.
Proof. exact (valid_address_spec v). Qed.
Theorem C50_index v n : is_valid_index v = Some n ↔ dec_text v ∧ dec_value v = n ∧ (n < 2 ^ 64)%N.
Proof. exact (valid_index_spec v n). Qed.
(** What holds of the key check: it also accepts the characters from G to the backquote. Missing from the full property:
    that it rejects them. *)
Theorem C50_pubkey_partial v : is_valid_pubkey v = true ↔
  ∃ body, v = "0x" +:+ body ∧ String.length body = 96%nat ∧
    Forall (λ c, hex_char c ∨ (71 ≤ N_of_ascii c ≤ 96)%N) (list_ascii_of_string body).
Proof. exact (valid_pubkey_spec v). Qed.
Theorem C50_pubkey_refuted : ∃ v, is_valid_pubkey v = true ∧ ¬ hex_text 96 v.
Proof. exact pubkey_refutation. Qed.
Example C50_example : hex_text 40 "0x1111111111111111111111111111111111AbcDEF" ∧
  is_valid_address "0x1111111111111111111111111111111111AbcDEF" = true ∧
  is_valid_address "0x1111111111111111111111111111111111AbcDEG" = false ∧
  is_valid_index "0123" = Some 123%N ∧ is_valid_index "18446744073709551616" = None ∧ is_valid_index "+1" = None ∧ is_valid_index "" = None.
Proof.
  split; [|by vm_compute]. exists "1111111111111111111111111111111111AbcDEF". do 2 (split; [done|]).
  apply (forallb_Forall _ is_hex_char); [intros c; apply hex_char_spec|by vm_compute].
Qed.
Print Assumptions C50_address.
Print Assumptions C50_index.
Print Assumptions C50_pubkey_partial.
Print Assumptions C50_pubkey_refuted.

(** ** C64 *)
Theorem C64_read_only H sha cfg l o r w : evolve H (new_oracle cfg) l o →
  ∃ h, after_request sha r w o = Oracle (or_cfg o) (set_hash h (or_st o)) ∧ (r ≠ GetState → h = st_hash (or_st o)).
Proof. exact (request_keeps H sha cfg l o r w). Qed.
Example C64_example : ∃ o, evolve toy (new_oracle (cfg_at Mainnet 12000001)) (operations (take 2 (history 12000001))) o ∧
  (∃ b, serve toy honest (GetValidator "1") (plain_wire 12000010) o = Ok (Answer b) ∧ match b with BInfo v => v_acc v = 21666%Z | _ => False end).
Proof.
  apply (ex_asked (λ b, _) (λ o, _) _ _ _ (history_operations 2)). by vm_compute.
Qed.
Print Assumptions C64_read_only.

(** ** C65 *)
Theorem C65_guard sha E r w o : guarded r → (∀ f, w_final w = Some f → (f < 2 ^ 64)%N) → (st_latest (or_st o) + 64 < 2 ^ 64)%N →
  (∃ m, serve sha E r w o = Ok (Refuse 503 m)) ↔ ¬ keeps_up w (or_st o).
Proof. exact (serve_busy sha E r w o). Qed.
(** The sample history ends in slot 12000006: served up to 64 slots later, not with a node that is behind. *)
Example C65_example : ∃ o, run (new_oracle (cfg_at Mainnet 12000001)) (history 12000001) o ∧ st_latest (or_st o) = 12000006%N ∧
  (λ f, match serve toy honest GetValidators (plain_wire f) o with Ok (Refuse 503 _) => true | _ => false end) <$>
    [12000005; 12000006; 12000070; 12000071]%N = [true; false; false; true].
Proof. apply (ex_run (λ o, _)). by vm_compute. Qed.
Print Assumptions C65_guard.

(** ** C66 *)
Theorem C66_statistics sha E w o b : wf_env E → serve sha E GetStatistics w o = Ok (Answer (BStats b)) →
  let s := or_st o in
  let month_slot := Some (st_latest s - 216000)%N in let month_block := Some (st_latest_block s - 216000)%N in
  (ss_active b = with_status Active s ∧ ss_yellow b = with_status YellowCard s ∧ ss_red b = with_status RedCard s ∧
   ss_banned b = with_status Banned s ∧ ss_unsubscribed b = with_status NotSubscribed s ∧
   ss_subscribed b = (ss_active b + ss_yellow b + ss_red b)%N) ∧
  (ss_accumulated b = vsum v_acc (st_vals s) ∧ ss_pending b = vsum v_pend (st_vals s)) ∧
  (ss_donations b = sum_of (donated_after None s) ∧
   ss_sent b = (sum_of (rewards_of (pool_blocks None s)) + ss_donations b)%Z ∧
   ss_sent30 b = (sum_of (rewards_of (pool_blocks month_slot s)) + sum_of (donated_after month_block s))%Z) ∧
  (ss_proposed b = N.of_nat (length (st_proposed s)) ∧ ss_missed b = N.of_nat (length (st_missed s)) ∧ ss_wrong b = N.of_nat (length (st_wrong s))) ∧
  ss_per_validator b = (if decide (ss_subscribed b = 0%N) then 0 else ss_sent30 b / Z.of_N (ss_active b + ss_yellow b))%Z ∧
  ss_avg_block b = (if decide (pool_blocks None s = []) then 0 else ss_sent b / Z.of_nat (length (pool_blocks None s)))%Z ∧
  ss_latest_checkpoint b = st_latest s ∧ ss_next_checkpoint b = u64_add (st_latest s) (c_cp_size (or_cfg o)).
Proof. exact (serve_statistics sha E w o b). Qed.
Theorem C66_balances sha E w cfg l o b : wf_env E → wf_envs l → wf_blocks (c_pool cfg) l → run (new_oracle cfg) l o →
  serve sha E GetStatistics w o = Ok (Answer (BStats b)) →
  (ss_accumulated b + ss_pending b + st_fees (or_st o) = received (or_st o))%Z.
Proof. exact (serve_balances sha E w cfg l o b). Qed.
(** The effective balances are those of the validators that are active or carded; the total is a uint64. *)
Theorem C66_effective sha E w o b : wf_env E → serve sha E GetStatistics w o = Ok (Answer (BStats b)) →
  Z.of_N (ss_balance b) = (vsum (effective (beacon w)) (st_vals (or_st o)) mod 2 ^ 64)%Z ∧
  ss_avg_balance b = (if decide (ss_subscribed b = 0) then 0 else ss_balance b / ss_subscribed b)%N.
Proof. exact (serve_effective sha E w o b). Qed.
(** The fields latest_checkpoint_slot and next_checkpoint_slot need not be checkpoint slots. *)
Theorem C66_checkpoints_refuted : ∃ o w b, run (new_oracle (cfg_at Mainnet 12000001)) (history 12000001) o ∧ wf_wire w ∧
  (∀ sha, serve sha honest GetStatistics w o = Ok (Answer (BStats b))) ∧
  ¬ checkpoint_slot (cfg_at Mainnet 12000001) (ss_latest_checkpoint b) ∧ ¬ checkpoint_slot (cfg_at Mainnet 12000001) (ss_next_checkpoint b).
Proof. exact checkpoints_refutation. Qed.
(** (C01_example shows that this history also has well-formed blocks.) *)
Example C66_example : wf_env honest ∧ wf_envs (history 12000001) ∧ ∃ o, run (new_oracle (cfg_at Mainnet 12000001)) (history 12000001) o ∧
  ∃ b, serve toy honest GetStatistics (plain_wire 12000010) o = Ok (Answer b) ∧
    match b with BStats b => (ss_active b, ss_yellow b, ss_red b, ss_banned b, ss_unsubscribed b) = (2, 0, 0, 1, 1)%N ∧
      ss_sent b = 147777%Z ∧ ss_donations b = 5777%Z ∧ ss_per_validator b = 73888%Z ∧ ss_avg_block b = 73888%Z ∧
      ss_balance b = 8000000000%N ∧ ss_avg_balance b = 4000000000%N | _ => False end.
Proof.
  split; [apply honest_wf|]. split; [exact (history_envs 12000001 6)|].
  apply (ex_run_asked (λ b, _) (λ o, _)). by vm_compute.
Qed.
Print Assumptions C66_statistics.
Print Assumptions C66_balances.
Print Assumptions C66_effective.
Print Assumptions C66_checkpoints_refuted.

(** ** C67 *)
Theorem C67_by_index H sha E cfg l o v w found missing : evolve H (new_oracle cfg) l o →
  serve sha E (GetByIndex v) w o = Ok (Answer (BFound found missing)) ↔
  ∃ is, ApiSpec.asks v is ∧ (length is ≤ 100)%nat ∧ missing = filter (λ i, st_vals (or_st o) !! i = None) is ∧
    Forall2 (tracked_view (beacon w) (or_st o)) (filter (λ i, is_Some (st_vals (or_st o) !! i) ∧ is_Some (beacon w !! i)) is) found.
Proof. exact (serve_by_index H sha E cfg l o v w found missing). Qed.
(** Each validator that was asked for is reported, found or missing, when the validators map has all tracked validators.
    Missing from the full property: that it always is. *)
Theorem C67_all_reported_partial H sha E cfg l o v w found missing is i : evolve H (new_oracle cfg) l o →
  (∀ i, is_Some (st_vals (or_st o) !! i) → is_Some (beacon w !! i)) →
  serve sha E (GetByIndex v) w o = Ok (Answer (BFound found missing)) → ApiSpec.asks v is → i ∈ is →
  (st_vals (or_st o) !! i = None ∧ i ∈ missing) ∨ ∃ x, x ∈ found ∧ tracked_view (beacon w) (or_st o) i x.
Proof. exact (serve_by_index_all H sha E cfg l o v w found missing is i). Qed.
Theorem C67_all_reported_refuted : ∃ o, evolve toy (new_oracle (cfg_at Mainnet 12000001)) (operations (take 1 (history 12000001))) o ∧
  wf_wire stale_wire ∧ status_of (or_st o) 1 = Some Active ∧ ApiSpec.asks "1" [1%N] ∧
  ∀ sha, serve sha honest (GetByIndex "1") stale_wire o = Ok (Answer (BFound [] [])).
Proof. exact silent_refutation. Qed.
Example C67_example : ∃ o, evolve toy (new_oracle (cfg_at Mainnet 12000001)) (operations (take 1 (history 12000001))) o ∧
  ∃ b, serve toy honest (GetByIndex "2,8,1") (plain_wire 12000010) o = Ok (Answer b) ∧
    match b with BFound f m => (λ x, v_index (vw_info x)) <$> f = [2; 1]%N ∧ m = [8%N] | _ => False end.
Proof. apply (ex_asked (λ b, _) (λ o, _) _ _ _ (history_operations 1)). by vm_compute. Qed.
Print Assumptions C67_by_index.
Print Assumptions C67_all_reported_partial.
Print Assumptions C67_all_reported_refuted.

(** ** C68 *)
Theorem C68_validators H sha E cfg l o w vs : evolve H (new_oracle cfg) l o → wf_env E →
  serve sha E GetValidators w o = Ok (Answer (BViews vs)) →
  by_rising_index vs ∧ ∀ x, x ∈ vs ↔ tracked_view (beacon w) (or_st o) (v_index (vw_info x)) x.
Proof. exact (serve_validators H sha E cfg l o w vs). Qed.
Theorem C68_validator H sha E cfg l o v w x : evolve H (new_oracle cfg) l o →
  serve sha E (GetValidator v) w o = Ok (Answer (BInfo x)) →
  dec_text v ∧ st_vals (or_st o) !! dec_value v = Some x.
Proof. exact (serve_validator_exact H sha E cfg l o v w x). Qed.
Example C68_example : wf_env backward ∧ ∃ o, evolve toy (new_oracle (cfg_at Mainnet 12000001)) (operations (take 6 (history 12000001))) o ∧
  (∃ b, serve toy backward GetValidators (plain_wire 12000010) o = Ok (Answer b) ∧
    match b with BViews vs => (λ x, (v_index (vw_info x), v_status (vw_info x))) <$> vs =
      [(1%N, Active); (2%N, NotSubscribed); (3%N, Banned); (5%N, Active)] | _ => False end) ∧
  (∃ b, serve toy backward (GetValidator "5") (plain_wire 12000010) o = Ok (Answer b) ∧ match b with BInfo v => v_sub v = Auto | _ => False end).
Proof.
  split; [apply backward_wf|].
  destruct (ex_evolve (λ o,
    holds (λ b, match b with BViews vs => (λ x, (v_index (vw_info x), v_status (vw_info x))) <$> vs =
      [(1%N, Active); (2%N, NotSubscribed); (3%N, Banned); (5%N, Active)] | _ => False end) (serve toy backward GetValidators (plain_wire 12000010) o) ∧
    holds (λ b, match b with BInfo v => v_sub v = Auto | _ => False end) (serve toy backward (GetValidator "5") (plain_wire 12000010) o))
    toy (new_oracle (cfg_at Mainnet 12000001)) _ (history_operations 6)) as (o & He & H1 & H2); [by vm_compute|].
  exists o. split; [exact He|]. split; [exact (ex_answer _ _ H1)|exact (ex_answer _ _ H2)].
Qed.
Print Assumptions C68_validators.
Print Assumptions C68_validator.

(** ** C69 *)
Theorem C69_relays H sha cfg l o E key w pool20 b : evolve H (new_oracle cfg) l o → wf_wire w → names pool20 (c_pool cfg) →
  serve sha E (GetRelays key) w o = Ok (Answer (BRelays b)) →
  (∀ name, (name, RelayError) ∉ w_relays w) ∧
  (rl_ok b = true ↔ (∃ name, (name, RelayFee pool20) ∈ w_relays w) ∧ ∀ name f, (name, RelayFee f) ∈ w_relays w → f = pool20) ∧
  (∀ name, name ∈ rl_unknown b ↔ (name, RelayUnknown) ∈ w_relays w) ∧
  (∀ name, name ∈ (rl_correct b).*1 ↔ (name, RelayFee pool20) ∈ w_relays w) ∧
  (∀ name, name ∈ (rl_wrong b).*1 ↔ ∃ f, (name, RelayFee f) ∈ w_relays w ∧ f ≠ pool20).
Proof. exact (serve_relays H sha cfg l o E key w pool20 b). Qed.
Example C69_example : wf_wire relay_wire ∧ names pool20 (c_pool (cfg_at Mainnet 12000001)) ∧
  ∃ o, evolve toy (new_oracle (cfg_at Mainnet 12000001)) (operations (take 1 (history 12000001))) o ∧
  ∃ b, serve toy honest (GetRelays some_key) relay_wire o = Ok (Answer b) ∧
    match b with BRelays b => rl_ok b = false ∧ (rl_correct b).*1 = ["one"] ∧ (rl_wrong b).*1 = ["three"] ∧ rl_unknown b = ["two"] | _ => False end.
Proof.
  split; [apply sample_wire_wf; by vm_compute|]. split; [apply pool_names|].
  apply (ex_asked (λ b, _) (λ o, _) _ _ _ (history_operations 1)). by vm_compute.
Qed.
Print Assumptions C69_relays.

(** ** C70 *)
Theorem C70_status sha E w o b : serve sha E GetStatus w o = Ok (Answer (BStatus b)) →
  let s := or_st o in
  ∃ dist f root slot, w_sync w = SyncAt dist ∧ w_final w = Some f ∧ w_onchain w = Some (root, slot) ∧
    sy_finalized b = f ∧ sy_latest b = st_latest s ∧ sy_previous b = slot ∧ (sy_consensus b = true ↔ (dist ≤ 1)%N) ∧
    ((f < 2 ^ 64)%N → (st_latest s < 2 ^ 64)%N → (sy_oracle b = true ↔ st_latest s = f)) ∧
    ((f < 2 ^ 64)%N → (st_latest s ≤ f)%N → (st_latest s + sy_distance b = f)%N) ∧
    ((f < 2 ^ 60)%N → (slot ≤ f)%N → (c_cp_size (or_cfg o) < 2 ^ 60)%N →
      sy_next b = (slot + c_cp_size (or_cfg o))%N ∧ sy_age b = ((f - slot) * 12)%N ∧ sy_remaining b = ((sy_next b - f) * 12)%N).
Proof. exact (serve_status sha E w o b). Qed.
(** The rest of the answer is passed on: the last block, the epoch of the finalized slot, and what the clients said. *)
Theorem C70_passed_on sha E w o b : serve sha E GetStatus w o = Ok (Answer (BStatus b)) →
  sy_latest_block b = st_latest_block (or_st o) ∧ (sy_epoch b * 32 ≤ sy_finalized b < sy_epoch b * 32 + 32)%N ∧
  w_exec w = Some (sy_execution b) ∧ w_chain w = Some (sy_exec_chain b) ∧ w_deposit w = Some (sy_cons_chain b, sy_deposit b).
Proof. exact (status_rest sha E w o b). Qed.
(** The status is told exactly if every node answered. *)
Theorem C70_answered sha E w o : (∃ b, serve sha E GetStatus w o = Ok (Answer (BStatus b))) ↔
  is_Some (w_chain w) ∧ is_Some (w_deposit w) ∧ is_Some (w_exec w) ∧ (∃ dist, w_sync w = SyncAt dist) ∧ is_Some (w_final w) ∧ is_Some (w_onchain w).
Proof. exact (status_answered sha E w o). Qed.
Example C70_example : ∃ o, run (new_oracle (cfg_at Mainnet 12000001)) (history 12000001) o ∧
  ∃ b, serve toy honest GetStatus (sample_wire 12000010 "" 11995000 [] [] sample_beacon []) o = Ok (Answer b) ∧
    match b with BStatus b => sy_oracle b = false ∧ sy_distance b = 4%N ∧ sy_next b = 12002200%N ∧ sy_remaining b = 26280%N ∧ sy_age b = 60120%N
    | _ => False end.
Proof. apply (ex_run_asked (λ b, _) (λ o, _)). by vm_compute. Qed.
Print Assumptions C70_status.
Print Assumptions C70_passed_on.
Print Assumptions C70_answered.

(** ** C86 *)
(** The accumulated rewards shown are those of the last finalized block. The pending rewards shown are those the validator
    has once the blocks are processed, for every validator that is not subscribed then, and for all validators when nobody
    asks to leave and no donation arrives. Missing from the full property: the other cases; the next theorem shows that the
    claim is false there. *)
Theorem C86_amounts_partial sha H cfg l0 o l o' n bs w a addr E vs pool20 :
  evolve H (new_oracle cfg) l0 o → wf_envs l → run o l o' → wf_env E →
  names pool20 (c_pool cfg) → names a addr →
  w_beacon w = Some bs → up_to_date bs (or_st o) →
  Forall (λ x, only_requests pool20 bs x.2) l → outsiders (or_st o) l → rising n l →
  w_subs w (u64_add (st_latest_block (or_st o)) 1) = Some (all_subs l) →
  w_unsubs w (u64_add (st_latest_block (or_st o)) 1) = Some (all_unsubs l) →
  serve sha E (GetByWithdrawal addr) w o = Ok (Answer (BViews vs)) →
  ∀ x, x ∈ vs → v_acc (vw_info x) = default 0%Z (v_acc <$> st_vals (or_st o) !! v_index (vw_info x)) ∧
    (¬ subscribed (or_st o') (v_index (vw_info x)) ∨ all_unsubs l = [] ∧ st_donations (or_st o') = st_donations (or_st o) →
      v_pend (vw_info x) = pending_at (or_st o') (v_index (vw_info x))).
Proof. exact (serve_amounts sha H cfg l0 o l o' n bs w a addr E vs pool20). Qed.
(** Validator 2 asks to leave: validator 1 will get a share of its pending rewards, and its owner is not told. *)
Theorem C86_leaver_refuted : ∃ o o' b x, evolve toy (new_oracle (cfg_at Mainnet 12000001)) (operations (take 1 (history 12000001))) o ∧
  wf_envs leave_blocks ∧ run o leave_blocks o' ∧
  up_to_date sample_beacon (or_st o) ∧ outsiders (or_st o) leave_blocks ∧
  serve toy honest (GetByWithdrawal "0x1111111111111111111111111111111111111111") (leave_wire 12000010) o = Ok (Answer (BViews b)) ∧
  x ∈ b ∧ v_index (vw_info x) = 1%N ∧ v_pend (vw_info x) = 1000%Z ∧ pending_at (or_st o') 1 = 1310%Z.
Proof. exact leave_refutation. Qed.
(** Number 7 joins; the owner of 1 and 7 asks. *)
Example C86_example : ∃ o o', evolve toy (new_oracle (cfg_at Mainnet 12000001)) (operations (take 1 (history 12000001))) o ∧
  wf_envs join_blocks ∧ run o join_blocks o' ∧ up_to_date sample_beacon (or_st o) ∧
  Forall (λ x, only_requests pool20 sample_beacon x.2) join_blocks ∧ outsiders (or_st o) join_blocks ∧ rising 12000001 join_blocks ∧
  all_unsubs join_blocks = [] ∧ st_donations (or_st o') = st_donations (or_st o) ∧ subscribed (or_st o') 1 ∧
  ∃ b, serve toy honest (GetByWithdrawal "0x1111111111111111111111111111111111111111") (join_wire 12000010) o = Ok (Answer b) ∧
    match b with BViews vs => (λ x, (v_index (vw_info x), v_pend (vw_info x))) <$> vs = [(1%N, 1000%Z); (7%N, 1000%Z)] | _ => False end.
Proof.
  destruct (ex_evolve (λ o, match run_fn o join_blocks with
      | Some o' => up_to_date_test sample_beacon (or_st o) = true ∧ outsiders_test (or_st o) join_blocks = true ∧
          (st_donations (or_st o) = [] ∧ st_donations (or_st o') = []) ∧ status_of (or_st o') 1 = Some Active ∧
          match serve toy honest (GetByWithdrawal "0x1111111111111111111111111111111111111111") (join_wire 12000010) o with
          | Ok (Answer (BViews vs)) => (λ x, (v_index (vw_info x), v_pend (vw_info x))) <$> vs = [(1%N, 1000%Z); (7%N, 1000%Z)]
          | _ => False end
      | None => False end)
    toy (new_oracle (cfg_at Mainnet 12000001)) _ (history_operations 1)) as (o & He & H); [by vm_compute|].
  destruct (run_fn o join_blocks) as [o'|] eqn:Hr; [|done]. destruct H as (Hu & Ho & [Hd1 Hd2] & H1 & H2).
  exists o, o'. split; [exact He|]. split; [apply Forall_cons; split; [apply honest_wf|done]|]. split; [by apply run_fn_run|].
  split; [by apply up_to_date_sound|]. split; [apply join_requests|]. split; [by apply outsiders_sound|]. split; [apply join_rising|].
  split; [done|]. split; [by rewrite Hd1, Hd2|]. split; [|exact (ex_answer _ _ H2)].
  unfold status_of in H1. destruct (st_vals (or_st o') !! 1%N) as [v|] eqn:Hv; [|done]. exists v. split; [done|]. injection H1 as ->. by left.
Qed.
Print Assumptions C86_amounts_partial.
Print Assumptions C86_leaver_refuted.

(** ** C87 *)
Theorem C87_reads sha E r w o x : plain_read r → serve sha E r w o = Ok x ↔ ∃ b, x = Answer b ∧ reads sha o r b.
Proof. exact (serve_reads sha E r w o x). Qed.
(** After a history with a paid block, a missed one and one with a wrong recipient: what the endpoints say. *)
Example C87_example : ∃ o, run (new_oracle (cfg_at Mainnet 12000001)) (history 12000001) o ∧
  (∃ b, serve toy honest GetFees (plain_wire 12000010) o = Ok (Answer b) ∧ match b with BFees p a f => p = 700%Z ∧ (0 < f)%Z | _ => False end) ∧
  (∃ b, serve toy honest GetAllBlocks (plain_wire 12000010) o = Ok (Answer b) ∧
    match b with BBlocks l => sb_slot <$> l = [12000002; 12000003; 12000005]%N | _ => False end) ∧
  (∃ b, serve toy honest GetDonations (plain_wire 12000010) o = Ok (Answer b) ∧ match b with BDonations l => er_amount <$> l = [777; 5000]%Z | _ => False end).
Proof.
  destruct (ex_run (λ o,
    holds (λ b, match b with BFees p a f => p = 700%Z ∧ (0 < f)%Z | _ => False end) (serve toy honest GetFees (plain_wire 12000010) o) ∧
    holds (λ b, match b with BBlocks l => sb_slot <$> l = [12000002; 12000003; 12000005]%N | _ => False end) (serve toy honest GetAllBlocks (plain_wire 12000010) o) ∧
    holds (λ b, match b with BDonations l => er_amount <$> l = [777; 5000]%Z | _ => False end) (serve toy honest GetDonations (plain_wire 12000010) o))
    (new_oracle (cfg_at Mainnet 12000001)) (history 12000001)) as (o & Hr & H1 & H2 & H3); [by vm_compute|].
  exists o. split; [exact Hr|].
  split; [eexists; split; [reflexivity|exact H1]|]. split; (eexists; split; [reflexivity|]); [exact H2|exact H3].
Qed.
Print Assumptions C87_reads.
