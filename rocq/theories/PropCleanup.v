(** Properties C16-C19: the periodic cleanup, and independence of Go's map order. Each theorem is followed by a
    concrete instance of its hypotheses and by the list of its assumptions. *)
From Verif Require Import Samples.

(** ** C16 *)
Theorem C16_slot E1 E2 fb o o' n : wf_env E1 → wf_env E2 → same_chain E1 E2 → settled E1 →
  advance E1 fb o = Done o' n → advance E2 fb o = Done o' n.
Proof. exact (advance_same E1 E2 fb o o' n). Qed.
Theorem C16_chain l1 l2 o o1 o2 : wf_envs l1 → wf_envs l2 → same_history l1 l2 → Forall (λ x, settled x.1) l1 →
  run o l1 o1 → run o l2 o2 → o1 = o2.
Proof. exact (run_agree l1 l2 o o1 o2). Qed.
(** With a chained consolidation two honest oracles part ways. *)
Theorem C16_chained_refuted : ∃ E1 E2 o o1 o2 n1 n2, wf_env E1 ∧ wf_env E2 ∧ same_chain E1 E2 ∧
  run (new_oracle (cfg_at Mainnet 11999999)) two_subs o ∧
  advance E1 (idle 12000000) o = Done o1 n1 ∧ advance E2 (idle 12000000) o = Done o2 n2 ∧
  pend_of (or_st o1) 2 = Some 0%Z ∧ pend_of (or_st o2) 2 = Some 1000%Z.
Proof. exact chained_refutation. Qed.

(** Validator 1 has exited and consolidates into 2, which is active; two runtimes, one cleanup, deposits moved. *)
Example C16_example : let E1 := honest_env one_exited [(1, 2)]%N in let E2 := backward_env one_exited [(1, 2)]%N in
  wf_env E1 ∧ wf_env E2 ∧ same_chain E1 E2 ∧ settled E1 ∧
  ∃ o o', run (new_oracle (cfg_at Mainnet 11999999)) two_subs o ∧ advance E1 (idle 12000000) o = Done o' 12000000%N ∧
    pend_of (or_st o) 2 = Some 1000%Z ∧ pend_of (or_st o') 2 = Some 2000%Z.
Proof.
  split; [apply honest_env_wf; intros i; unfold one_exited; by destruct (i =? 1)%N|].
  split; [apply backward_env_wf; intros i; unfold one_exited; by destruct (i =? 1)%N|].
  split; [apply both_ways|]. split.
  { apply honest_settled. intros i t H. apply elem_of_list_singleton in H. injection H as -> ->. by left. }
  destruct (ex_run (λ o, match advance (honest_env one_exited [(1, 2)]%N) (idle 12000000) o with
      | Done o' n => n = 12000000%N ∧ pend_of (or_st o) 2 = Some 1000%Z ∧ pend_of (or_st o') 2 = Some 2000%Z | _ => False end)
    (new_oracle (cfg_at Mainnet 11999999)) two_subs) as (o & Hr & H); [by vm_compute|].
  destruct (advance _ _ o) as [o' n| |] eqn:H1; [|done..]. destruct H as (-> & Hp1 & Hp2).
  exists o, o'. split; [exact Hr|]. split; [exact H1|]. by split.
Qed.
Example C16_chain_example : 
  let l1 := two_subs ++ [(honest_env one_exited [(1, 2)]%N, idle 12000000)] in
  let l2 := two_subs ++ [(backward_env one_exited [(1, 2)]%N, idle 12000000)] in
  same_history l1 l2 ∧ Forall (λ x, settled x.1) l1 ∧ 
  ∃ o1, run (new_oracle (cfg_at Mainnet 11999999)) l1 o1 ∧ pend_of (or_st o1) 2 = Some 2000%Z.
Proof.
  split; [|split].
  - repeat constructor; cbn; [intros req1 req2 slot H; by rewrite (remove_dups_perm _ _ H)|].
    intros req1 req2 slot H. rewrite <-Permutation_rev. by rewrite (remove_dups_perm _ _ H).
  - repeat (apply Forall_cons; split); [| |done].
    + apply honest_settled. by intros i t ?%elem_of_nil.
    + apply honest_settled. intros i t H. apply elem_of_list_singleton in H. injection H as -> ->. by left.
  - apply (ex_run (λ o', _)). by vm_compute.
Qed.
Print Assumptions C16_slot.
Print Assumptions C16_chain.
Print Assumptions C16_chained_refuted.

(** ** C17 *)
Theorem C17_cleanup E net slot f og s s' : wf_env E → (net, (f, og)) ∈ forks → (f ≤ slot)%N → st_vals s ≠ ∅ →
  settled E → cleanup E net slot s = Done s' tt →
  ∃ pcs req r s1, acts_on E slot og pcs ∧ req ≡ₚ (map_to_list (st_vals s)).*1 ∧ e_vals E req slot = Some r ∧
    cleaned E slot pcs r s s1 ∧
    (left_over pcs r s = 0%Z → s' = s1) ∧ (left_over pcs r s ≠ 0%Z → increase_all E net (left_over pcs r s) s1 = Ok s').
Proof. exact (cleanup_char E net slot f og s s'). Qed.
Theorem C17_before_fork E net slot f og s : wf_env E → (net, (f, og)) ∈ forks → (slot < f)%N ∨ st_vals s = ∅ →
  cleanup E net slot s = Done s tt.
Proof. exact (cleanup_before E net slot f og s). Qed.
(** When the oracle runs it: exactly at the slots divisible by 1200. *)
Theorem C17_schedule E fb o o' n : advance E fb o = Done o' n → (n mod 1200 = 0)%N →
  ∃ s s', cleanup E (c_network (or_cfg o)) n s = Done s' tt ∧ st_vals (or_st o') = st_vals s' ∧ st_fees (or_st o') = st_fees s'.
Proof. exact (cleanup_scheduled E fb o o' n). Qed.
Theorem C17_owed E net slot s s' : wf_env E → (∀ l i, e_cons E slot = Some l → (i, i) ∉ l) →
  cleanup E net slot s = Done s' tt → owed s' = owed s.
Proof. exact (cleanup_owed E net slot s s'). Qed.
Theorem C17_active_keeps E net f og s s' i v b req r : wf_env E → sane_balances E → steady E (st_next s) →
  (net, (f, og)) ∈ forks → (f ≤ st_next s)%N → settled E → pend_nonneg s → (0 ≤ st_feepct s)%Z →
  cleanup E net (st_next s) s = Done s' tt →
  st_vals s !! i = Some v → e_vals E req (st_next s) = Some r → (i, b) ∈ r → on_duty b →
  ∃ v', st_vals s' !! i = Some v' ∧ v_status v' = v_status v ∧ v_acc v' = v_acc v ∧ (v_pend v ≤ v_pend v')%Z.
Proof. exact (cleanup_active_keeps E net f og s s' i v b req r). Qed.

(** Validator 1 has exited: its 1000 are shared again, or move to a new validator 7 it consolidates into. *)
Example C17_example : ("mainnet", (10188220, Some 11649024))%N ∈ forks ∧
  settled (honest_env one_exited []) ∧ settled (honest_env one_exited [(1, 7)]%N) ∧
  let s := after Mainnet 11999999 1 in
  (∃ s' u, cleanup (honest_env one_exited []) Mainnet 12000000 s = Done s' u ∧
     pend_of s 1 = Some 1000%Z ∧ status_of s' 1 = Some NotSubscribed ∧ pend_of s' 1 = Some 0%Z ∧
     pend_of s' 2 = Some 1398%Z ∧ pend_of s' 3 = Some 1531%Z ∧ st_fees s' = 81%Z) ∧
  (∃ s' u, cleanup (honest_env one_exited [(1, 7)]%N) Mainnet 12000000 s = Done s' u ∧
     pend_of s' 1 = Some 0%Z ∧ pend_of s' 2 = Some 1000%Z ∧ pend_of s' 7 = Some 1000%Z ∧ status_of s' 7 = Some NotSubscribed).
Proof.
  split; [by left|]. split; [apply honest_settled; by intros i t ?%elem_of_nil|].
  split. { apply honest_settled. intros i t H. apply elem_of_list_singleton in H. injection H as -> ->. by left. }
  split; apply (ex_done (λ s' u, _)); by vm_compute.
Qed.
Example C17_schedule_example : ∃ o' n, advance honest (idle 12000000) (default (new_oracle (cfg_at Mainnet 11999999))
    (run_fn (new_oracle (cfg_at Mainnet 11999999)) two_subs)) = Done o' n ∧ (n mod 1200 = 0)%N.
Proof. apply (ex_done (λ o' n, _)). by vm_compute. Qed.
Print Assumptions C17_cleanup.
Print Assumptions C17_before_fork.
Print Assumptions C17_schedule.
Print Assumptions C17_owed.
Print Assumptions C17_active_keeps.

(** ** C18. Missing from the full claim: exited validators whose pending rewards are zero at the cleanup. *)
Theorem C18_exited_partial E net slot f og s s' i v b req r : wf_env E → (net, (f, og)) ∈ forks → (f ≤ slot)%N →
  settled E → cleanup E net slot s = Done s' tt →
  st_vals s !! i = Some v → v_pend v ≠ 0%Z → e_vals E req slot = Some r → (i, b) ∈ r → ¬ on_duty b → steady E slot →
  ∃ v', st_vals s' !! i = Some v' ∧ v_pend v' = 0%Z ∧ v_acc v' = v_acc v ∧ ¬ earning v'.
Proof. exact (cleanup_gone_unpaid E net slot f og s s' i v b req r). Qed.
Theorem C18_exited_refuted : ∃ E o o', wf_env E ∧ settled E ∧
  (∀ req slot r v, e_vals E req slot = Some r → (1%N, v) ∈ r → b_status v = BExitedUnslashed) ∧
  run (new_oracle (cfg_at Mainnet 11999998)) proposed_then_exited o ∧ last proposed_then_exited = Some (E, idle 12000000) ∧
  advance E (donation_only 12000001) o = Done o' 12000001%N ∧
  (∃ z z', pend_of (or_st o) 1 = Some z ∧ pend_of (or_st o') 1 = Some z' ∧ (z < z')%Z).
Proof. exact exited_earns_refutation. Qed.

Example C18_example : let E := honest_env one_exited [] in let s := after Mainnet 11999999 1 in
  settled E ∧ steady E 12000000 ∧ (∃ v, st_vals s !! 1%N = Some v ∧ v_pend v ≠ 0%Z ∧ earning v) ∧
  (∃ r, e_vals E [1%N] 12000000 = Some r ∧ (1%N, exited_val 1) ∈ r) ∧ ¬ on_duty (exited_val 1) ∧
  ∃ s' u, cleanup E Mainnet 12000000 s = Done s' u ∧ status_of s' 1 = Some NotSubscribed.
Proof.
  split; [apply honest_settled; by intros i t ?%elem_of_nil|]. split; [apply honest_steady|].
  split; [apply (ex_lookup (λ v, v_pend v ≠ 0%Z ∧ earning v)); vm_compute; split; [done|by left]|].
  split; [eexists; split; [done|by left]|]. split; [intros [?|[?|?]]; done|].
  apply (ex_done (λ s' u, _)). by vm_compute.
Qed.
Print Assumptions C18_exited_partial.
Print Assumptions C18_exited_refuted.

(** ** C19. Missing from the full claim: validators still waiting for activation; those lose the deposit. *)
Theorem C19_deposit_partial E net f og s s' i v b req r : wf_env E → sane_balances E → steady E (st_next s) →
  (net, (f, og)) ∈ forks → (f ≤ st_next s)%N → settled E → pend_nonneg s → (0 ≤ st_feepct s)%Z →
  cleanup E net (st_next s) s = Done s' tt →
  st_vals s !! i = Some v → e_vals E req (st_next s) = Some r → (i, b) ∈ r → on_duty b →
  ∃ v', st_vals s' !! i = Some v' ∧ v_status v' = v_status v ∧ v_acc v' = v_acc v ∧ (v_pend v ≤ v_pend v')%Z.
Proof. exact (cleanup_active_keeps E net f og s s' i v b req r). Qed.
Theorem C19_deposit_refuted : ∃ E o o', wf_env E ∧ settled E ∧
  (∀ req slot r v, e_vals E req slot = Some r → (1%N, v) ∈ r → b_status v = BPendingQueued) ∧
  run (new_oracle (cfg_at Mainnet 11999999)) [(E, early_sub)] o ∧
  status_of (or_st o) 1 = Some Active ∧ pend_of (or_st o) 1 = Some 1000%Z ∧
  advance E (idle 12000000) o = Done o' 12000000%N ∧
  status_of (or_st o') 1 = Some NotSubscribed ∧ pend_of (or_st o') 1 = Some 0%Z ∧ st_fees (or_st o') = 1000%Z.
Proof. exact early_deposit_refutation. Qed.

(** Validator 1 still waits for activation, 2 is active and keeps what it has. *)
Example C19_example : let E := honest_env pending_one [] in let s := after Mainnet 11999999 1 in
  settled E ∧ steady E 12000000 ∧ st_next s = 12000000%N ∧ (0 ≤ st_feepct s)%Z ∧ 
  map_Forall (λ _ v, 0 ≤ v_pend v)%Z (st_vals s) ∧
  (∃ r, e_vals E [2%N] 12000000 = Some r ∧ (2%N, active_val 2) ∈ r) ∧ on_duty (active_val 2) ∧
  ∃ s' u, cleanup E Mainnet 12000000 s = Done s' u ∧ status_of s' 2 = Some Active ∧ pend_of s' 2 = Some 1398%Z.
Proof.
  split; [apply honest_settled; by intros i t ?%elem_of_nil|]. split; [apply honest_steady|].
  split; [by vm_compute|]. split; [by vm_compute|].
  split; [apply (bool_decide_unpack _); by vm_compute|].
  split; [eexists; split; [done|by left]|]. split; [by left|].
  apply (ex_done (λ s' u, _)). by vm_compute.
Qed.
Print Assumptions C19_deposit_partial.
Print Assumptions C19_deposit_refuted.
