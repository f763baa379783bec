(** Property C104: the collateral in the records. *)
From Verif Require Import CollSpec CollProofs Samples.

(** A slot leaves the collateral of known validators alone and gives that of a new one for a reason. *)
Theorem C104_slot E fb o o' n i v' : wf_env E → advance E fb o = Done o' n → st_vals (or_st o') !! i = Some v' →
  match st_vals (or_st o) !! i with
  | Some v => v_coll v' = v_coll v
  | None => first_collateral fb o o' i (v_coll v')
  end.
Proof. exact (advance_coll E fb o o' n i v'). Qed.

(** It never changes, over any number of slots. *)
Theorem C104_constant o l o' i v : wf_envs l → run o l o' → st_vals (or_st o) !! i = Some v →
  ∃ v', st_vals (or_st o') !! i = Some v' ∧ v_coll v' = v_coll v.
Proof. exact (run_coll o l o' i v). Qed.

(** From the deployment on: zero, or the amount of one of the recorded subscriptions of the same validator, and
    then at least what the configuration demands. *)
Theorem C104_paid c l o i v : wf_envs l → run (new_oracle c) l o → st_vals (or_st o) !! i = Some v →
  paid_once c (or_st o) i (v_coll v).
Proof. exact (λ We H, fresh_paid c l o We H i v). Qed.

(** One subscription event: only the record it creates gets its collateral. *)
Theorem C104_event E e val s s' i : handle_sub E e val s = Ok s' →
  v_coll <$> st_vals s' !! i = v_coll <$> st_vals s !! i ∨
  (sub_id e = i ∧ owned_by val (sub_sender e) ∧ (st_coll s ≤ sub_coll e)%Z ∧ st_vals s !! i = None ∧
   v_coll <$> st_vals s' !! i = Some (sub_coll e)).
Proof. exact (handle_sub_coll E e val s s' i). Qed.

(** Validator 1 pays 1000 (4 pays too little); validator 5 proposes to the pool without having paid. *)
Example C104_example : wf_envs (take 3 (history 12000001)) ∧
  run (new_oracle (cfg_at Mainnet 12000001)) (take 3 (history 12000001)) (after_oracle Mainnet 12000001 3) ∧
  v_coll <$> st_vals (after Mainnet 12000001 3) !! 1%N = Some 1000%Z ∧
  v_coll <$> st_vals (after Mainnet 12000001 3) !! 5%N = Some 0%Z ∧
  st_vals (after Mainnet 12000001 3) !! 4%N = None.
Proof.
  split; [exact (history_envs 12000001 3)|]. split; [exact (after_run Mainnet 12000001 3 eq_refl)|].
  split; [by vm_compute|]. split; by vm_compute.
Qed.

(** Validator 5 is subscribed by its proposal, unsubscribes, and subscribes again by paying 1500. *)
Definition paid_later : list (env * fullblock) :=
  (λ fb, (honest, fb)) <$>
  [ vanilla_block 12000001 5 (evs [] [] [] [] []);
    foreign_block 12000002 9 (evs [] [] [unsub_ev 5 12000002] [] []);
    foreign_block 12000003 9 (evs [] [sub_ev 5 1500 12000003] [] [] []) ].

(** It is not what a subscriber paid for its subscription: a payment for a validator that is known already is
    credited, and the record still says zero. *)
Theorem C104_current_refuted : ∃ c l o i v, wf_envs l ∧ run (new_oracle c) l o ∧
  st_vals (or_st o) !! i = Some v ∧ subscribed (or_st o) i ∧ ¬ shows_payment (or_st o) i v.
Proof.
  exists (cfg_at Mainnet 12000001), paid_later.
  destruct (ex_run (λ o, match st_vals (or_st o) !! 5%N with
      | Some v => v_status v = Active ∧ v_coll v = 0%Z ∧ v_pend v = 1500%Z ∧ v_sub v = Manual ∧ sub_coll <$> st_subs (or_st o) = [1500%Z]
      | None => False end) (new_oracle (cfg_at Mainnet 12000001)) paid_later) as (o & Hr & Ho); [vm_compute; done|].
  destruct (st_vals (or_st o) !! 5%N) as [v|] eqn:Hv; [|done]. destruct Ho as (Ha & Hc & _ & Hm & Hs).
  exists o, 5%N, v. split; [unfold paid_later; repeat (apply Forall_cons; split; [apply honest_wf|]); done|].
  split; [done|]. split; [done|]. split; [exists v; auto|]. intros H. destruct (H Hm) as (e & He & _ & Hz).
  assert (v_coll v ∈ sub_coll <$> st_subs (or_st o)) as Hin by (rewrite <-Hz; by apply elem_of_list_fmap_1).
  rewrite Hs, Hc in Hin. by apply elem_of_list_singleton in Hin.
Qed.
Print Assumptions C104_slot.
Print Assumptions C104_constant.
Print Assumptions C104_paid.
Print Assumptions C104_event.
Print Assumptions C104_current_refuted.
