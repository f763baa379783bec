(** Properties C14, C15, C35, C37, C38, C55, C56, C57: progress, records, configuration and reconciliation. *)
From Verif Require Import SlotProofs Samples.

(** ** C14 *)
Theorem C14_step E fb o o' n : advance E fb o = Done o' n →
  n = fb_duty_slot fb ∧ n = st_next (or_st o) ∧ n = u64_add (st_latest (or_st o)) 1 ∧
  st_latest (or_st o') = n ∧ st_next (or_st o') = u64_add n 1.
Proof. exact (advance_slots E fb o o' n). Qed.

Theorem C14_reject E fb o : fb_duty_slot fb ≠ st_next (or_st o) → ∃ e, advance E fb o = Fail o e.
Proof. exact (advance_rejects E fb o). Qed.

(** The block number shown is that of the last slot that had a block; missed slots keep it. *)
Theorem C14_block E fb o o' n : advance E fb o = Done o' n →
  st_latest_block (or_st o') = shown_block fb (st_latest_block (or_st o)).
Proof. exact (advance_block E fb o o' n). Qed.

Theorem C14_block_history o l o' : run o l o' →
  st_latest_block (or_st o') = foldl (λ n x, shown_block x.2 n) (st_latest_block (or_st o)) l.
Proof. exact (run_block o l o'). Qed.

(** From a fresh oracle: the [k]-th block processed is that of slot [deployed + k]. *)
Theorem C14_history c l o : run (new_oracle c) l o → (c_dep_slot c + N.of_nat (length l) < 18446744073709551616)%N →
  st_next (or_st o) = (c_dep_slot c + N.of_nat (length l))%N ∧
  (l ≠ [] → st_next (or_st o) = (st_latest (or_st o) + 1)%N) ∧
  ∀ k E fb, l !! k = Some (E, fb) → fb_duty_slot fb = (c_dep_slot c + N.of_nat k)%N.
Proof. exact (run_order (new_oracle c) l o). Qed.

Example C14_example : run (new_oracle (cfg_at Mainnet 12000001)) (take 6 (history 12000001)) (after_oracle Mainnet 12000001 6) ∧
  (c_dep_slot (cfg_at Mainnet 12000001) + N.of_nat (length (take 6 (history 12000001))) < 18446744073709551616)%N ∧
  fb_duty_slot (missed_slot 12000009 3 no_events) ≠ st_next (after Mainnet 12000001 6) ∧
  st_next (after Mainnet 12000001 6) = 12000007%N ∧
  (st_latest_block (after Mainnet 12000001 4), st_latest_block (after Mainnet 12000001 5), st_latest_block (after Mainnet 12000001 6)) =
    (12000004%N, 12000004%N, 12000006%N).
Proof. split; [exact (after_run Mainnet 12000001 6 eq_refl)|]. split; [done|]. split; [by vm_compute|]. split; by vm_compute. Qed.
Print Assumptions C14_step.
Print Assumptions C14_reject.
Print Assumptions C14_block.
Print Assumptions C14_block_history.
Print Assumptions C14_history.

(** ** C15 *)
Theorem C15_append_only E fb o o' n : advance E fb o = Done o' n →
  ∃ b don p m w,
    st_subs (or_st o') = st_subs (or_st o) ++ ev_subscribe (fb_events fb) ∧
    st_unsubs (or_st o') = st_unsubs (or_st o) ++ ev_unsubscribe (fb_events fb) ∧
    st_ether (or_st o') = st_ether (or_st o) ++ ev_ether_received (fb_events fb) ∧
    st_donations (or_st o') = st_donations (or_st o) ++ don ∧
    st_proposed (or_st o') = st_proposed (or_st o) ++ p ∧
    st_missed (or_st o') = st_missed (or_st o) ++ m ∧
    st_wrong (or_st o') = st_wrong (or_st o) ++ w ∧
    sb_slot b = n ∧ sb_index b = fb_duty_index fb ∧
    (p ++ m ++ w = [] ∨ p ++ m ++ w = [b]).
Proof. exact (advance_logs_grow E fb o o' n). Qed.

(** Which donations are logged. *)
Theorem C15_donations E fb o o' n pool20 : names pool20 (c_pool (or_cfg o)) → addrs20 fb → ordinary fb →
  advance E fb o = Done o' n →
  st_subs (or_st o') = st_subs (or_st o) ++ ev_subscribe (fb_events fb) ∧
  st_unsubs (or_st o') = st_unsubs (or_st o) ++ ev_unsubscribe (fb_events fb) ∧
  st_ether (or_st o') = st_ether (or_st o) ++ ev_ether_received (fb_events fb) ∧
  ∃ don, st_donations (or_st o') = st_donations (or_st o) ++ don ∧
    (fb_cblock fb = None → don = []) ∧
    (∀ r, mev_payment fb r pool20 → don = filter (λ e, er_amount e ≠ r) (ev_ether_received (fb_events fb))) ∧
    (fb_cblock fb ≠ None → (∀ r, ¬ mev_payment fb r pool20) → don = ev_ether_received (fb_events fb)).
Proof. exact (advance_all_logs E fb o o' n pool20). Qed.

(** In which list the slot is recorded, when the proposer does not subscribe in the same block. *)
Theorem C15_records E fb o o' n pool20 :
  wf_env E → known_statuses (or_st o) → names pool20 (c_pool (or_cfg o)) → addrs20 fb → ordinary fb →
  (∀ x, x ∈ ev_subscribe (fb_events fb) → sub_id x ≠ fb_duty_index fb) →
  advance E fb o = Done o' n →
  ∃ b p m w, sb_slot b = n ∧ sb_index b = fb_duty_index fb ∧ filed pool20 fb (or_st o) b p m w ∧
    st_proposed (or_st o') = st_proposed (or_st o) ++ p ∧
    st_missed (or_st o') = st_missed (or_st o) ++ m ∧
    st_wrong (or_st o') = st_wrong (or_st o) ++ w.
Proof. exact (advance_filed E fb o o' n pool20). Qed.

(** An MEV block of a subscriber with a donation, and a missed slot of another. *)
Example C15_example : known_statuses (after Mainnet 12000001 1) ∧
  names pool20 (c_pool (or_cfg (after_oracle Mainnet 12000001 1))) ∧
  addrs20 (mev_block 12000002 1 100000 (evs [ether_ev 100000 12000002; ether_ev 777 12000002] [] [] [] [])) ∧
  ordinary (mev_block 12000002 1 100000 (evs [ether_ev 100000 12000002; ether_ev 777 12000002] [] [] [] [])) ∧
  (∃ o' n, advance honest (mev_block 12000002 1 100000 (evs [ether_ev 100000 12000002; ether_ev 777 12000002] [] [] [] []))
    (after_oracle Mainnet 12000001 1) = Done o' n ∧
    sb_slot <$> st_proposed (or_st o') = [12000002%N] ∧ st_donations (or_st o') = [ether_ev 777 12000002]) ∧
  (∃ o' n, advance honest (missed_slot 12000002 3 no_events) (after_oracle Mainnet 12000001 1) = Done o' n ∧
    st_proposed (or_st o') = [] ∧ sb_index <$> st_missed (or_st o') = [3%N]).
Proof.
  split. { eapply (run_known _ _ (after_oracle Mainnet 12000001 1)); [apply (history_envs 12000001 1)|exact (after_run Mainnet 12000001 1 eq_refl)|apply fresh_known]. }
  split; [replace (c_pool (or_cfg (after_oracle Mainnet 12000001 1))) with pool_str by (by vm_compute); apply pool_names|].
  split; [apply addrs20_sound; by vm_compute|]. split; [by eapply ordinary_block|].
  split; apply (ex_done (λ o' n, _)); by vm_compute.
Qed.
Print Assumptions C15_append_only.
Print Assumptions C15_donations.
Print Assumptions C15_records.

(** ** C35 *)
(** Fees in the contract are at most 10000; the bound only excludes values that do not fit an int64. *)
Theorem C35_scheduled E fb o o' n : advance E fb o = Done o' n →
  (∀ x, x ∈ ev_pool_fee (fb_events fb) → 0 ≤ x.1 < 9223372036854775808)%Z →
  (ev_pool_fee (fb_events fb) = [] ∧ st_feepct (or_st o') = st_feepct (or_st o) ∧ or_cfg o' = or_cfg o) ∨
  ∃ z l, ev_pool_fee (fb_events fb) = [(z, l)] ∧ (c_network (or_cfg o), n, z) ∈ schedule ∧
    st_feepct (or_st o') = z ∧ or_cfg o' = cset_feepct z (or_cfg o).
Proof. exact (fee_changes E fb o o' n). Qed.

Theorem C35_unscheduled_stops E fb o : (∀ x, x ∈ ev_pool_fee (fb_events fb) → 0 ≤ x.1 < 9223372036854775808)%Z →
  ev_pool_fee (fb_events fb) ≠ [] →
  (∀ z l, ev_pool_fee (fb_events fb) = [(z, l)] → (c_network (or_cfg o), fb_duty_slot fb, z) ∉ schedule) →
  ∃ e, advance E fb o = Fail o e.
Proof. exact (fee_stop E fb o). Qed.

Theorem C35_agree o l o' : run o l o' → st_feepct (or_st o) = c_feepct (or_cfg o) → st_feepct (or_st o') = c_feepct (or_cfg o').
Proof. exact (run_fee_agree o l o'). Qed.

Definition fee_event (slot : N) (z : Z) : fullblock := foreign_block slot 9 (Events [] [] [] [(z, lg slot)] [] [] [] [] [] []).
Example C35_example : (∃ o' n, advance honest (fee_event 14082460 500) (new_oracle (cfg_at Mainnet 14082460)) = Done o' n ∧
    st_feepct (or_st o') = 500%Z ∧ c_feepct (or_cfg o') = 500%Z) ∧
  ("mainnet", 14082460%N, 500%Z) ∈ schedule ∧ ("mainnet", 14082461%N, 500%Z) ∉ schedule ∧
  st_feepct (or_st (new_oracle (cfg_at Mainnet 14082460))) = c_feepct (cfg_at Mainnet 14082460).
Proof.
  split; [apply (ex_done (λ o' n, _)); by vm_compute|]. split; [by left|]. split; [|done].
  intros H. repeat (apply elem_of_cons in H as [H|H]; [discriminate|]). by apply elem_of_nil in H.
Qed.
Print Assumptions C35_scheduled.
Print Assumptions C35_unscheduled_stops.
Print Assumptions C35_agree.

(** ** C37 *)
Theorem C37_changed_stops E fb o : (∃ f20, names f20 (c_fees_addr (or_cfg o))) →
  (∀ a l, (a, l) ∈ ev_fee_recipient (fb_events fb) → String.length a = 20%nat) →
  ¬ announces (or_cfg o) (fb_events fb) → ∃ o1 e, advance E fb o = Fail o1 e.
Proof. exact (params_stop E fb o). Qed.

Theorem C37_same_ignored E fb o : (∃ f20, names f20 (c_fees_addr (or_cfg o))) →
  announces (or_cfg o) (fb_events fb) → advance E fb o = advance E (without_params fb) o.
Proof. exact (params_ignored E fb o). Qed.

Definition params_block (a : string) (z : Z) : fullblock :=
  foreign_block 12000001 9 (Events [] [] [] [] [(a, lg 12000001)] [(7200%N, lg 12000001)] [(z, lg 12000001)] [] [] []).
Example C37_example : (∃ f20, names f20 (c_fees_addr (cfg_at Mainnet 12000001))) ∧
  announces (cfg_at Mainnet 12000001) (fb_events (params_block fees20 1000)) ∧
  ¬ announces (cfg_at Mainnet 12000001) (fb_events (params_block fees20 1001)) ∧
  ¬ announces (cfg_at Mainnet 12000001) (fb_events (params_block pool20 1000)).
Proof.
  split; [exists fees20; apply fees_names|]. split; [|split].
  - split; cbn; [lia|..]; intros ? ?; rewrite elem_of_list_singleton; intros [= -> _]; [apply fees_names|done..].
  - intros [_ _ _ H]. specialize (H 1001%Z (lg 12000001)). cbn in H. rewrite elem_of_list_singleton in H. by specialize (H eq_refl).
  - intros [_ H _ _]. destruct (H pool20 (lg 12000001)) as [_ H']; [cbn; by left|]. by vm_compute in H'.
Qed.
Print Assumptions C37_changed_stops.
Print Assumptions C37_same_ignored.

(** ** C38 *)
Theorem C38_reconciliation balance claimed s : onchain_reconciliation balance claimed s = true ↔
  owed s = (balance + foldr Z.add 0 claimed)%Z.
Proof. exact (onchain_iff balance claimed s). Qed.

(** After two blocks the pool holds what it received; part of it already claimed. *)
Example C38_example : received (after Mainnet 12000001 2) = 103787%Z ∧
  onchain_reconciliation 103000 [700; 87]%Z (after Mainnet 12000001 2) = true ∧
  onchain_reconciliation 103000 [700; 88]%Z (after Mainnet 12000001 2) = false.
Proof. split; [|split]; by vm_compute. Qed.
Print Assumptions C38_reconciliation.

(** ** C55 *)
(** An error for the wrong slot leaves the oracle as it was, and so does any error in a slot without a fee event
    which is not a cleanup slot. *)
Theorem C55_clean_partial E fb o o' e : advance E fb o = Fail o' e →
  ev_pool_fee (fb_events fb) = [] → (fb_duty_slot fb mod 1200 ≠ 0)%N → o' = o.
Proof. exact (advance_fail_clean E fb o o' e). Qed.

(** In general an error leaves the oracle as it was, or only the fee changed, or it is an error of the cleanup. *)
Theorem C55_what_changes_partial E fb o o' e : advance E fb o = Fail o' e →
  o' = o ∨ (∃ z l t, ev_pool_fee (fb_events fb) = (z, l) :: t ∧ o' = with_fee (int64_of_big z) o) ∨
  (fb_duty_slot fb mod 1200 = 0)%N.
Proof. exact (advance_fail E fb o o' e). Qed.

(** The scheduled fee event in a block that also announces another collateral: an error, yet the fee is changed. *)
Theorem C55_fee_refuted : ∃ E fb o o' e, wf_env E ∧ st_feepct (or_st o) = 700%Z ∧
  advance E fb o = Fail o' e ∧ st_feepct (or_st o') = 500%Z ∧ c_feepct (or_cfg o') = 500%Z.
Proof. exact fee_atomicity_refutation. Qed.

(** A beacon node that does not answer during the cleanup: an error, yet the deposit of the slot is already
    credited, and trying the slot again credits it a second time. *)
Theorem C55_cleanup_refuted : ∃ E fb o o1 e o2 n, wf_env E ∧
  ev_pool_fee (fb_events fb) = [] ∧ advance E fb o = Fail o1 e ∧ owed (or_st o) = 0%Z ∧ owed (or_st o1) = 1000%Z ∧
  advance honest fb o1 = Done o2 n ∧ owed (or_st o2) = 2000%Z.
Proof. exact cleanup_atomicity_refutation. Qed.

Example C55_example : ∃ o' e, advance honest (params_block fees20 1001) (new_oracle (cfg_at Mainnet 12000001)) = Fail o' e ∧
  e = "subscription collateral has changed".
Proof. apply (ex_fail (λ o' e, _)). by vm_compute. Qed.
Print Assumptions C55_clean_partial.
Print Assumptions C55_what_changes_partial.
Print Assumptions C55_fee_refuted.
Print Assumptions C55_cleanup_refuted.

(** ** C56 *)
Theorem C56_quiet_slot E fb o o' n pool20 : names pool20 (c_pool (or_cfg o)) → addrs20 fb → ordinary fb → quiet fb →
  ¬ paid_pool pool20 fb → status (or_st o) (fb_duty_index fb) = NotSubscribed ∨ status (or_st o) (fb_duty_index fb) = Banned →
  (fb_duty_slot fb mod 1200 ≠ 0)%N → advance E fb o = Done o' n →
  o' = Oracle (or_cfg o) (set_slots n (shown_block fb (st_latest_block (or_st o))) (u64_add n 1) (or_st o)).
Proof. exact (quiet_slot E fb o o' n pool20). Qed.

Example C56_example : quiet (foreign_block 12000007 77 no_events) ∧
  ¬ paid_pool pool20 (foreign_block 12000007 77 no_events) ∧ status (after Mainnet 12000001 6) 77 = NotSubscribed ∧
  ∃ o' n, advance honest (foreign_block 12000007 77 no_events) (after_oracle Mainnet 12000001 6) = Done o' n ∧ n = 12000007%N.
Proof.
  split; [done|]. split.
  { intros [(r & p & t & l & snd & dst & (c & [= <-] & _ & _ & ->) & Ht & _)|(_ & p & (c & [= <-] & _ & _ & ->) & Hp)].
    - cbn in Ht. by destruct l.
    - by vm_compute in Hp. }
  split; [by vm_compute|]. apply (ex_done (λ o' n, _)). by vm_compute.
Qed.
Print Assumptions C56_quiet_slot.

(** ** C57 *)
Theorem C57_unique_addresses E s : wf_env E → wf_records s →
  ∃ u, unique_withdrawal_addresses E s = Ok (u ++ [st_fees_addr s]) ∧ NoDup u ∧
    ∀ a, a ∈ u ↔ ∃ i v, st_vals s !! i = Some v ∧ v_addr v = a.
Proof. exact (unique_addresses E s). Qed.

Example C57_example : wf_env backward ∧
  unique_withdrawal_addresses backward (after Mainnet 12000001 6) =
    Ok ((λ i, "0x" +:+ hex_encode (owner i)) <$> [2; 5; 3; 1]%N ++ [171%N]).
Proof. split; [apply backward_wf|]. by vm_compute. Qed.
Print Assumptions C57_unique_addresses.
