(** Properties C09-C13, C45, C53: subscriptions, statuses, ownership. *)
From Verif Require Import RunProofs LifeProofs Samples.

(** ** C09 *)
Theorem C09_transition_table i e s :
  (st_vals s !! i = None → advance_fsm i e s = s) ∧
  (∀ v, st_vals s !! i = Some v → ∃ st', moves (v_status v) e st' ∧ advance_fsm i e s = with_val i (set_status st' v) s).
Proof. exact (fsm_spec i e s). Qed.

(** The diagram is deterministic. *)
Theorem C09_deterministic st e st1 st2 : moves st e st1 → moves st e st2 → st1 = st2.
Proof. exact (moves_fun st e st1 st2). Qed.

(** Over a whole slot, a status only moves along the diagram, by events that occurred in this slot. *)
Theorem C09_slot_path E fb o o' n i : wf_env E → advance E fb o = Done o' n →
  rtc (λ a b, ∃ e, occurs fb i e ∧ moves a e b) (status (or_st o) i) (status (or_st o') i).
Proof. exact (advance_status E fb o o' n i). Qed.

Example C09_example_table : st_vals (after Mainnet 12000001 1) !! 3%N ≠ None ∧
  moves Active ProposalMissed YellowCard ∧ moves RedCard ProposalOk YellowCard ∧ moves Banned ProposalOk Banned ∧
  status (advance_fsm 3 ProposalMissed (after Mainnet 12000001 1)) 3 = YellowCard.
Proof. split; [by vm_compute|]. do 3 (split; [by apply moves_fsm|]). by vm_compute. Qed.
(** Validator 3 misses its slot: one edge of the diagram. *)
Example C09_example_path : ∃ o' n,
  advance honest (missed_slot 12000005 3 (evs [] [] [] [] [])) (after_oracle Mainnet 12000001 4) = Done o' n ∧
  status (after Mainnet 12000001 4) 3 = Active ∧ status (or_st o') 3 = YellowCard.
Proof. apply (ex_done (λ o' n, _)). by vm_compute. Qed.
Print Assumptions C09_transition_table.
Print Assumptions C09_deterministic.
Print Assumptions C09_slot_path.

(** ** C10 *)
Theorem C10_banned_hold_nothing c l o : wf_envs l → run (new_oracle c) l o → banned_empty (or_st o).
Proof. exact (λ We H, be_run _ _ _ We H (be_fresh c)). Qed.

Theorem C10_ban_permanent o l o' i : wf_envs l → run o l o' →
  Forall (λ x, ∀ y, y ∈ ev_unbans (fb_events x.2) → ban_id y ≠ i) l → banned (or_st o) i → banned (or_st o') i.
Proof. exact (run_banned o l o' i). Qed.

(** Validator 3 is banned in the sixth block and held pending rewards before. *)
Example C10_example : wf_envs (history 12000001) ∧
  run (new_oracle (cfg_at Mainnet 12000001)) (take 6 (history 12000001)) (after_oracle Mainnet 12000001 6) ∧
  banned (after Mainnet 12000001 6) 3 ∧ pend_of (after Mainnet 12000001 5) 3 = Some 67036%Z ∧ pend_of (after Mainnet 12000001 6) 3 = Some 0%Z.
Proof.
  split; [exact (history_envs 12000001 6)|]. split; [exact (after_run Mainnet 12000001 6 eq_refl)|].
  split; [apply (ex_lookup (λ v, v_status v = Banned)); by vm_compute|]. by vm_compute.
Qed.
(** It stays banned although it proposes to the pool and deposits again. *)
Definition after_ban : list (env * fullblock) := (λ fb, (honest, fb)) <$>
  [ mev_block 12000007 3 5000 (evs [ether_ev 5000 12000007] [] [] [] []);
    foreign_block 12000008 9 (evs [] [sub_ev 3 1000 12000008] [] [] []) ].
Example C10_example_permanent :
  Forall (λ x, ∀ y, y ∈ ev_unbans (fb_events x.2) → ban_id y ≠ 3%N) after_ban ∧
  ∃ o', run (after_oracle Mainnet 12000001 6) after_ban o' ∧ acc_of (or_st o') 3 = 1000%Z ∧ status (or_st o') 3 = Banned.
Proof.
  split; [repeat (apply Forall_cons; split; [intros y Hy; by apply not_elem_of_nil in Hy|]); done|].
  apply (ex_run (λ o', _)). by vm_compute.
Qed.
Print Assumptions C10_banned_hold_nothing.
Print Assumptions C10_ban_permanent.

(** ** C11 *)
Theorem C11_stranger_subscription E e val s : known_statuses s → wf_request (sub_id e) (sub_sender e) val →
  ¬ owned_by val (sub_sender e) → handle_sub E e val s = Ok (set_fees (st_fees s + sub_coll e) s).
Proof. exact (stranger_sub E e val s). Qed.

Theorem C11_stranger_unsubscription E net u val s : wf_request (uns_id u) (uns_sender u) val →
  ¬ owned_by val (uns_sender u) → handle_unsub E net u val s = Ok s.
Proof. exact (stranger_unsub E net u val s). Qed.

(** Validator 2's owner tries to act for validator 1. *)
Lemma not_owner : ¬ owned_by (Some (active_val 1)) (owner 2).
Proof. intros (v & [= <-] & Ha). apply (exec_address_fun _ (owner 1)) in Ha; [discriminate|]. split; [done|]. by left. Qed.
Example C11_example : let s := after Mainnet 12000001 1 in
  known_statuses s ∧ wf_request 1 (owner 2) (Some (active_val 1)) ∧ ¬ owned_by (Some (active_val 1)) (owner 2) ∧
  handle_unsub honest Mainnet (EvUnsub (owner 2) 1 (lg 12000002)) (Some (active_val 1)) s = Ok s.
Proof.
  split; [exact (run_known _ _ _ (history_envs _ _) (after_run Mainnet 12000001 1 eq_refl) (fresh_known _))|].
  assert (wf_request 1 (owner 2) (Some (active_val 1))) as Hw by (split; [done|by intros v [= <-]]).
  split; [done|]. split; [exact not_owner|]. by apply C11_stranger_unsubscription; [|exact not_owner].
Qed.
Print Assumptions C11_stranger_subscription.
Print Assumptions C11_stranger_unsubscription.

(** ** C12 *)
Theorem C12_deposit_table E e val s : known_statuses s → wf_request (sub_id e) (sub_sender e) val →
  ∃ vd s', handle_sub E e val s = Ok s' ∧
    deposit s (sub_id e) (sub_sender e) (sub_coll e) val vd ∧
    deposited s (sub_id e) (sub_coll e) val vd s'.
Proof. exact (handle_sub_spec E e val s). Qed.

Theorem C12_one_verdict s i sender coll val vd1 vd2 : deposit s i sender coll val vd1 → deposit s i sender coll val vd2 → vd1 = vd2.
Proof. exact (deposit_fun s i sender coll val vd1 vd2). Qed.

(** Validator 7 deposits enough: pending. Validator 1 deposits again: accumulated. Validator 8 too little: pool. *)
Example C12_example : let s := after Mainnet 12000001 1 in
  known_statuses s ∧
  (∃ s', handle_sub honest (sub_ev 7 1500 12000002) (Some (pending_val 7)) s = Ok s' ∧
     pend_of s' 7 = Some 1500%Z ∧ status s' 7 = Active ∧ st_fees s' = st_fees s) ∧
  (∃ s', handle_sub honest (sub_ev 1 1500 12000002) (Some (active_val 1)) s = Ok s' ∧
     acc_of s' 1 = 1500%Z ∧ pend_of s' 1 = pend_of s 1 ∧ st_fees s' = st_fees s) ∧
  (∃ s', handle_sub honest (sub_ev 8 999 12000002) (Some (active_val 8)) s = Ok s' ∧
     status s' 8 = NotSubscribed ∧ st_fees s' = (st_fees s + 999)%Z).
Proof.
  split; [exact (run_known _ _ _ (history_envs _ _) (after_run Mainnet 12000001 1 eq_refl) (fresh_known _))|].
  do 2 (split; [apply (ex_ok (λ s', _)); by vm_compute|]). apply (ex_ok (λ s', _)). by vm_compute.
Qed.
Print Assumptions C12_deposit_table.
Print Assumptions C12_one_verdict.

(** ** C13 *)
Theorem C13_unsubscription E net u val s s' : wf_env E → known_statuses s → wf_request (uns_id u) (uns_sender u) val →
  handle_unsub E net u val s = Ok s' →
  (owned_by val (uns_sender u) ∧ subscribed s (uns_id u) → forfeited (uns_id u) NotSubscribed s s') ∧
  (¬ (owned_by val (uns_sender u) ∧ subscribed s (uns_id u)) → s' = s).
Proof. exact (handle_unsub_spec E net u val s s'). Qed.

(** A forfeit leaves the accumulated rewards of everybody alone. *)
Theorem C13_forfeit_keeps i st s s' v : forfeited i st s s' → st_vals s !! i = Some v →
  st_vals s' !! i = Some (set_status st (set_pend 0 v)) ∧
  (∀ j w, j ≠ i → st_vals s !! j = Some w → ∃ w', st_vals s' !! j = Some w' ∧ v_acc w' = v_acc w ∧ v_status w' = v_status w).
Proof. exact (forfeit_keeps i st s s' v). Qed.

(** Validator 2 leaves: its 40053 wei are shared between 1, 3 and 5 and the pool. *)
Example C13_example : let s := after Mainnet 12000001 3 in
  wf_env honest ∧ known_statuses s ∧ wf_request 2 (owner 2) (Some (active_val 2)) ∧
  owned_by (Some (active_val 2)) (owner 2) ∧ subscribed s 2 ∧
  ∃ s', handle_unsub honest Mainnet (unsub_ev 2 12000004) (Some (active_val 2)) s = Ok s' ∧
    status s' 2 = NotSubscribed ∧ pend_of s' 2 = Some 0%Z ∧ pend_of s' 1 ≠ pend_of s 1.
Proof.
  split; [apply honest_wf|].
  split; [exact (run_known _ _ _ (history_envs _ _) (after_run Mainnet 12000001 3 eq_refl) (fresh_known _))|].
  split; [split; [done|by intros v [= <-]]|]. split; [exists (active_val 2); split; [done|]; split; [done|by left]|].
  split; [apply (ex_lookup (λ v, v_status v = Active ∨ v_status v = YellowCard ∨ v_status v = RedCard)); vm_compute; by left|].
  apply (ex_ok (λ s', _)). by vm_compute.
Qed.
Print Assumptions C13_unsubscription.
Print Assumptions C13_forfeit_keeps.

(** ** C45 *)
Theorem C45_credentials c w : get_compatible_address_byte c = Some w ↔ ∃ a, exec_address c a ∧ w = "0x" +:+ hex_encode a.
Proof. exact (compatible_iff c w). Qed.
Theorem C45_one_address c a b : exec_address c a → exec_address c b → a = b.
Proof. exact (exec_address_fun c a b). Qed.
Theorem C45_decoders_agree v w : String.length (b_creds v) = 32%nat →
  (∃ t, t ≠ BlsWithdrawal ∧ withdrawal_and_type v = Ok (w, t)) ↔ get_compatible_address_byte (b_creds v) = Some w.
Proof. exact (withdrawal_agree v w). Qed.
Theorem C45_bls v w t : bls_creds (b_creds v) → withdrawal_and_type v = Ok (w, t) → t = BlsWithdrawal.
Proof. exact (withdrawal_bls v w t). Qed.

Example C45_example : exec_address (creds 1) (owner 1) ∧ String.length (creds 1) = 32%nat ∧
  get_compatible_address_byte (creds 1) = Some "0x1111111111111111111111111111111111111111" ∧
  withdrawal_and_type (active_val 1) = Ok ("0x1111111111111111111111111111111111111111", Eth1Withdrawal) ∧
  bls_creds (bytes 32 0).
Proof. split; [split; [done|by left]|]. do 3 (split; [by vm_compute|]). split; [done|]. by eexists. Qed.
Print Assumptions C45_credentials.
Print Assumptions C45_one_address.
Print Assumptions C45_decoders_agree.
Print Assumptions C45_bls.

(** ** C53 *)
Theorem C53_records c l o : wf_envs l → run (new_oracle c) l o → wf_records (or_st o).
Proof. exact (λ We H, run_records _ _ _ We H (fresh_records c)). Qed.
Theorem C53_identity o l o' : wf_envs l → run o l o' →
  ∀ i v, st_vals (or_st o) !! i = Some v → ∃ v', st_vals (or_st o') !! i = Some v' ∧ same_identity v v'.
Proof. exact (run_identity o l o'). Qed.
Example C53_example : wf_envs (take 6 (history 12000001)) ∧
  run (new_oracle (cfg_at Mainnet 12000001)) (take 6 (history 12000001)) (after_oracle Mainnet 12000001 6) ∧
  ∃ v, st_vals (after Mainnet 12000001 6) !! 5%N = Some v ∧ v_index v = 5%N ∧ v_addr v = "0x1515151515151515151515151515151515151515".
Proof.
  split; [exact (history_envs 12000001 6)|]. split; [exact (after_run Mainnet 12000001 6 eq_refl)|].
  apply (ex_lookup (λ v, _)). by vm_compute.
Qed.
Print Assumptions C53_records.
Print Assumptions C53_identity.
