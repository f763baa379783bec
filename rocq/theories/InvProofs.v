(** Invariants of a processed slot, from the traces of its handlers. *)
From Verif Require Export TraceProofs StringProofs.

(** Everything the handlers of one slot may do; [acc] says what may be added to accumulated rewards. *)
Definition slot_ctx_gen (E : env) (net : string) (fb : fullblock) (b : sblock) (clean : bool) (amt : Z → Prop)
    (acc : N → Z → Prop) : ctx :=
  let ev := fb_events fb in
  Ctx E net
    (λ i e, match e with
            | ManualSubscription => ∃ x, x ∈ ev_subscribe ev ∧ sub_id x = i
            | AutoSubscription | ProposalOk => sb_type b = OkPoolProposal ∧ sb_index b = i
            | ProposalMissed => sb_type b = MissedProposal ∧ sb_index b = i
            | ProposalWrongFee => sb_type b = WrongFeeRecipient ∧ sb_index b = i
            | Unsubscribe => (∃ u, u ∈ ev_unsubscribe ev ∧ uns_id u = i) ∨ clean = true
            | ManualBan => ∃ x, x ∈ ev_bans ev ∧ ban_id x = i
            | ManualUnban => ∃ x, x ∈ ev_unbans ev ∧ ban_id x = i
            | UnknownEvent => False
            end)
    acc
    (λ i, sb_type b = OkPoolProposal ∧ sb_index b = i)
    (λ i z a k, lower_address a ∧
      (z = 0%Z ∧ (sb_type b = OkPoolProposal ∧ sb_index b = i ∨ clean = true) ∨ acc i z))
    amt.
Definition slot_ctx (E : env) (net : string) (fb : fullblock) (b : sblock) (clean : bool) (amt : Z → Prop) : ctx :=
  slot_ctx_gen E net fb b clean amt (λ i z, ∃ x, x ∈ ev_subscribe (fb_events fb) ∧ sub_id x = i ∧ sub_coll x = z).

(** The subscriptions come first; the rest adds to accumulated rewards only through a proposal. *)
Lemma process_rest_trace E net fb b don s s' : process_block E net fb b don s = Ok s' →
  ∃ a, handle_subs E (ev_subscribe (fb_events fb)) (fb_subs fb)
         (set_events (st_subs s ++ ev_subscribe (fb_events fb)) (st_unsubs s ++ ev_unsubscribe (fb_events fb))
            (st_ether s ++ ev_ether_received (fb_events fb)) s) = Ok a ∧
    ∀ clean amt acc I, let C := slot_ctx_gen E net fb b clean amt acc in
      ctx_ok C I → I a → (∀ r, sb_reward b = Some r → amt r) → Forall (λ x, amt (er_amount x)) don →
      (sb_type b = OkPoolProposal → lower_address (sb_withdrawal b)) → trace C a s'.
Proof.
  unfold process_block. intros H. inv_res.
  set (s0 := set_events _ _ _ _) in *. exists a. split; [done|]. intros clean amt acc I. set (C := slot_ctx_gen E net fb b clean amt acc). intros Ho Ia Hrew Hdon Haddr.
  assert (trace C a a2) as T2.
  { destruct (sb_type b) eqn:Hbt; inv_res; subst.
    - apply trace_refl.
    - case_match; [|apply trace_refl]. by apply handle_missed_trace.
    - case_match; inv_res; [|subst; apply trace_refl]. by eapply handle_ban_validator_trace.
    - eapply handle_correct_trace; [done..|split; [by apply Haddr|left; auto]|done|done|done].
    - eapply handle_bls_trace; done. }
  assert (I a2) as Ia2 by (by eapply trace_inv).
  assert (trace C a2 a3) as T3.
  { eapply handle_unsubs_trace; [done|done| |done]. apply Forall_forall. intros x Hx. left. by exists x. }
  assert (I a3) as Ia3 by (by eapply trace_inv).
  assert (trace C a3 a4) as T4 by (by eapply handle_donations_trace).
  assert (I a4) as Ia4 by (by eapply trace_inv).
  assert (trace C a4 a5) as T5.
  { eapply handle_bans_trace; [done|done| |done]. apply Forall_forall. intros x Hx. by exists x. }
  assert (trace C a5 s') as T6.
  { eapply handle_unbans_trace; [|done]. apply Forall_forall. intros x Hx. by exists x. }
  by repeat (eapply trace_trans; [done|]).
Qed.

Lemma process_block_trace E net fb b don clean amt I s s' :
  let C := slot_ctx E net fb b clean amt in
  ctx_ok C I → I s →
  Forall (λ x, amt (sub_coll x)) (ev_subscribe (fb_events fb)) → (∀ r, sb_reward b = Some r → amt r) →
  Forall (λ x, amt (er_amount x)) don → (sb_type b = OkPoolProposal → lower_address (sb_withdrawal b)) →
  process_block E net fb b don s = Ok s' → trace C s s'.
Proof.
  intros C Ho Hs Hsub Hrew Hdon Haddr H. apply process_rest_trace in H as (a & Ha & Hrest).
  set (s0 := set_events _ _ _ _) in *.
  assert (trace C s s0) as T0 by (by apply trace_one, p_rec).
  assert (trace C s0 a) as T1.
  { eapply handle_subs_trace; [done| |done]. apply Forall_forall. intros [x v] Hx.
    apply elem_of_zip_l in Hx. rewrite Forall_forall in Hsub. split; [by apply Hsub|].
    split; [by exists x|]. split; [by exists x|]. intros v' w _ _ Hw. split; [by eapply compatible_lower|]. right. by exists x. }
  assert (I a) as Ia by (eapply trace_inv; [done| |done]; by eapply trace_trans).
  do 2 (eapply trace_trans; [done|]). by eapply Hrest.
Qed.

Definition amt_any (z : Z) : Prop := True.

(** The amounts of a block that matter for signs. *)
Lemma advance_trace E fb o o' n amt I :
  wf_env E → advance E fb o = Done o' n →
  ∃ o1 b don s3, validate_config E fb o = Done o1 tt ∧
    summarize E (or_st o1) (c_pool (or_cfg o1)) fb = Ok b ∧
    get_donations E (c_pool (or_cfg o1)) fb = Ok don ∧
    o' = Oracle (or_cfg o1) (bump_slots b s3) ∧
    (let C := slot_ctx E (c_network (or_cfg o1)) fb b (st_next (or_st o1) mod 1200 =? 0)%N amt in
     ctx_ok C I → I (or_st o1) →
     Forall (λ x, amt (sub_coll x)) (ev_subscribe (fb_events fb)) → (∀ r, sb_reward b = Some r → amt r) →
     Forall (λ x, amt (er_amount x)) don → trace C (or_st o1) s3).
Proof.
  intros W (o1 & b & don & s2 & s3 & _ & _ & Hv & Hs & _ & Hd & Hp & Hc & -> & _)%advance_inv.
  exists o1, b, don, s3. do 4 (split; [done|]). intros C Ho Hi Hsub Hrew Hdon.
  assert (trace C (or_st o1) s2) as T1.
  { eapply process_block_trace; try done. unfold summarize in Hs.
    destruct (withdrawal_and_type (fb_validator fb)) as [[wa wt]|] eqn:Hw; [|discriminate]. cbn [rbind] in Hs.
    destruct (fb_cblock fb); [|injection Hs as <-; done]. inv_res. subst b. cbn. intros Hok.
    eapply withdrawal_lower; [done|]. intros ->. by case_match. }
  assert (st_next s2 = st_next (or_st o1)) as Hn.
  { apply process_block_frame in Hp as (s0 & -> & Hst & _). by apply static_set_feepct_parts in Hst as (_ & _ & _ & -> & _). }
  rewrite Hn in Hc. unfold C in *.
  destruct (st_next (or_st o1) mod 1200 =? 0)%N.
  - eapply trace_trans; [done|].
    eapply (cleanup_trace _ I (st_next (or_st o1))); [done|by eapply trace_inv| | |].
    + intros i. by right.
    + intros t r tv w _ _ _ Hw. split; [by eapply compatible_lower|left; auto].
    + cbn [slot_ctx slot_ctx_gen cx_env cx_net]. by rewrite Hc.
  - by injection Hc as <-.
Qed.

(** ** Lookups after a primitive write *)

Lemma lookup_upd i f s s' j : upd_val i f s = Ok s' →
  st_vals s' !! j = if decide (i = j) then f <$> st_vals s !! j else st_vals s !! j.
Proof.
  intros (v & Hv & ->)%upd_val_inv. cbn. destruct (decide (i = j)) as [->|Hne].
  - by rewrite lookup_insert, Hv.
  - by rewrite lookup_insert_ne.
Qed.
Lemma lookup_fsm' i e s j : st_vals (advance_fsm i e s) !! j =
  if decide (i = j) then (λ v, set_status (fsm (v_status v) e) v) <$> st_vals s !! j else st_vals s !! j.
Proof.
  rewrite advance_fsm_eq. cbn. destruct (decide (i = j)) as [->|Hne]; [by rewrite lookup_alter|by rewrite lookup_alter_ne].
Qed.

(** How one record can change in one primitive write. *)
Inductive vstep (C : ctx) (i : N) : option vinfo → option vinfo → Prop :=
| vs_none : vstep C i None None
| vs_same v : vstep C i (Some v) (Some v)
| vs_status v e : cx_evt C i e → vstep C i (Some v) (Some (set_status (fsm (v_status v) e) v))
| vs_pend v z : vstep C i (Some v) (Some (set_pend z v))
| vs_acc v z : cx_acc C i z → cx_amt C z → vstep C i (Some v) (Some (set_acc (v_acc v + z) v))
| vs_cons v : cx_cons C i → vstep C i (Some v) (Some (set_pend 0 (set_acc (v_acc v + v_pend v) v)))
| vs_sub v t : vstep C i (Some v) (Some (set_sub t v))
| vs_new p coll addr key : cx_new C i coll addr key → cx_amt C p →
    vstep C i None (Some (VInfo NotSubscribed 0 p coll addr i key Manual)).

Lemma vstep_refl C i ov : vstep C i ov ov.
Proof. destruct ov; constructor. Qed.

Lemma prim_vstep C s s' i : wf_env (cx_env C) → prim C s s' → vstep C i (st_vals s !! i) (st_vals s' !! i).
Proof.
  intros W H. destruct H as [j e s He|z s _|r s s' _ Hs|j z s s' _ Hs|j z s s' Ha Hz Hs|j s s' Hs|j s s' Hc Hs|j t s s' Hs|j p coll addr key s Hn Hnew Hp|s s' Hv _ _ _].
  - rewrite lookup_fsm'. destruct (decide (j = i)) as [->|]; [|apply vstep_refl].
    destruct (st_vals s !! i); constructor; done.
  - apply vstep_refl.
  - apply increase_all_char in Hs as (sh & fees & _ & ->); [|done]. rewrite lookup_credited.
    destruct (st_vals s !! i); constructor.
  - rewrite (lookup_upd _ _ _ _ _ Hs). destruct (decide (j = i)); [|apply vstep_refl]. destruct (st_vals s !! i); constructor.
  - rewrite (lookup_upd _ _ _ _ _ Hs). destruct (decide (j = i)) as [->|]; [|apply vstep_refl]. destruct (st_vals s !! i); constructor; done.
  - rewrite (lookup_upd _ _ _ _ _ Hs). destruct (decide (j = i)); [|apply vstep_refl]. destruct (st_vals s !! i); constructor.
  - rewrite (lookup_upd _ _ _ _ _ Hs). destruct (decide (j = i)) as [->|]; [|apply vstep_refl]. destruct (st_vals s !! i); constructor; done.
  - rewrite (lookup_upd _ _ _ _ _ Hs). destruct (decide (j = i)); [|apply vstep_refl]. destruct (st_vals s !! i); constructor.
  - cbn. destruct (decide (j = i)) as [->|]; [|rewrite lookup_insert_ne by done; apply vstep_refl].
    rewrite lookup_insert, Hn. by constructor.
  - rewrite Hv. apply vstep_refl.
Qed.

Lemma prim_static_bits C s s' : prim C s s' → st_next s' = st_next s ∧ st_feepct s' = st_feepct s.
Proof.
  intros H. assert (static s' = static s → st_next s' = st_next s ∧ st_feepct s' = st_feepct s) as Hst.
  { intros Hst. apply static_set_feepct_parts in Hst. naive_solver. }
  destruct H; try (apply Hst; done); try (apply Hst; by eapply static_upd); try done.
  - apply Hst, static_fsm.
  - apply Hst. by eapply increase_all_frame.
Qed.

(** Free context: no condition on amounts. *)
Lemma ctx_ok_free C : wf_env (cx_env C) → (∀ z, cx_amt C z) → ctx_ok C (λ _, True).
Proof. intros W H. by split. Qed.

(** ** Identity and permanence *)

Lemma vstep_identity C i v ov' : vstep C i (Some v) ov' → ∃ v', ov' = Some v' ∧ same_identity v v'.
Proof. intros H. inversion H; subst; eexists; split; try done. Qed.

Lemma trace_identity C s s' i v : wf_env (cx_env C) → trace C s s' → st_vals s !! i = Some v →
  ∃ v', st_vals s' !! i = Some v' ∧ same_identity v v'.
Proof.
  intros W H. revert v. induction H as [s|s1 s2 s3 Hp _ IH]; intros v Hv; [eexists; done|].
  pose proof (prim_vstep _ _ _ i W Hp) as Hs. rewrite Hv in Hs. apply vstep_identity in Hs as (v2 & Hv2 & Hi2).
  destruct (IH _ Hv2) as (v3 & Hv3 & Hi3). exists v3. split; [done|]. unfold same_identity in *. intuition congruence.
Qed.

(** A property of single records that every allowed write preserves. *)
Lemma trace_record C s s' (P : N → vinfo → Prop) : wf_env (cx_env C) → trace C s s' →
  (∀ i ov v', vstep C i ov (Some v') → (∀ v, ov = Some v → P i v) → P i v') →
  (∀ i v, st_vals s !! i = Some v → P i v) → ∀ i v, st_vals s' !! i = Some v → P i v.
Proof.
  intros W H HP. induction H as [s|s1 s2 s3 Hp _ IH]; [done|]. intros Hs. apply IH.
  intros i v Hv. pose proof (prim_vstep _ _ _ i W Hp) as Hst. rewrite Hv in Hst. eapply HP; [done|]. intros w. apply Hs.
Qed.

Lemma trace_banned C s s' i : wf_env (cx_env C) → trace C s s' → ¬ cx_evt C i ManualUnban → banned s i → banned s' i.
Proof.
  intros W H Hu. induction H as [s|s1 s2 s3 Hp _ IH]; [done|]. intros (v & Hv & Hb). apply IH.
  pose proof (prim_vstep _ _ _ i W Hp) as Hst. rewrite Hv in Hst. unfold banned.
  inversion Hst as [|w|w e He|w z|w z|w|w t|]; subst; eexists; split; try done. cbn. rewrite Hb.
  destruct e; try done.
Qed.

(** Accumulated rewards only move through the two allowed writes. *)
Lemma trace_acc C s s' i v : wf_env (cx_env C) → trace C s s' → (∀ z, ¬ cx_acc C i z) → ¬ cx_cons C i →
  st_vals s !! i = Some v → ∃ v', st_vals s' !! i = Some v' ∧ v_acc v' = v_acc v.
Proof.
  intros W H Ha Hc. revert v. induction H as [s|s1 s2 s3 Hp _ IH]; intros v Hv; [eexists; done|].
  pose proof (prim_vstep _ _ _ i W Hp) as Hst. rewrite Hv in Hst.
  inversion Hst as [|w Hw1 Hw2|w e He Hw1 Hw2|w z Hw1 Hw2|w z Hz _ Hw1 Hw2|w Hz Hw1 Hw2|w t Hw1 Hw2|]; subst; symmetry in Hw2;
    try (exfalso; naive_solver);
    destruct (IH _ Hw2) as (v3 & Hv3 & Ha3); exists v3; done.
Qed.

(** ** Growth *)

Definition nn (net : string) (s : ost) : Prop :=
  pend_nonneg s ∧ ¬ era net (st_next s) PreFork1 ∧ (0 ≤ st_feepct s)%Z.

Lemma ctx_ok_nonneg E net fb b clean : wf_env E → sane_balances E →
  ctx_ok (slot_ctx E net fb b clean (λ z, 0 ≤ z)%Z) (nn net).
Proof.
  intros W Hb. split.
  - done.
  - cbn. lia.
  - cbn. lia.
  - intros s i v (Hp & _) Hv. by eapply Hp.
  - intros s s' Hpr (Hp & He & Hf). pose proof (prim_static_bits _ _ _ Hpr) as [Hn Hf']. 
    split; [|by rewrite Hn, Hf'].
    intros i v' Hv'.
    destruct Hpr as [j e s _|z s _|r s s' Hr Hs|j z s s' Hz Hs|j z s s' Ha Hz Hs|j s s' Hs|j s s' Hc Hs|j t s s' Hs|j p coll addr key s Hnn Hnew Hpp|s s' Hv _ _ _]; cbn in *.
    + rewrite lookup_fsm' in Hv'. destruct (decide (j = i)); [|by eapply Hp].
      apply fmap_Some in Hv' as (v & Hv & ->). cbn. by eapply Hp.
    + by eapply Hp.
    + apply shares_nonneg in Hs as (sh & part & -> & _ & Hsh); try done. rewrite lookup_credited in Hv'.
      apply fmap_Some in Hv' as (v & Hv & ->). cbn. apply Hp in Hv. destruct (sh !! i) eqn:Hsi; cbn; [|lia].
      apply Hsh in Hsi. lia.
    + rewrite (lookup_upd _ _ _ _ _ Hs) in Hv'. destruct (decide (j = i)); [|by eapply Hp].
      apply fmap_Some in Hv' as (v & Hv & ->). cbn. apply Hp in Hv. lia.
    + rewrite (lookup_upd _ _ _ _ _ Hs) in Hv'. destruct (decide (j = i)); [|by eapply Hp].
      apply fmap_Some in Hv' as (v & Hv & ->). cbn. by eapply Hp.
    + rewrite (lookup_upd _ _ _ _ _ Hs) in Hv'. destruct (decide (j = i)); [|by eapply Hp].
      apply fmap_Some in Hv' as (v & Hv & ->). cbn. lia.
    + rewrite (lookup_upd _ _ _ _ _ Hs) in Hv'. destruct (decide (j = i)); [|by eapply Hp].
      apply fmap_Some in Hv' as (v & Hv & ->). cbn. lia.
    + rewrite (lookup_upd _ _ _ _ _ Hs) in Hv'. destruct (decide (j = i)); [|by eapply Hp].
      apply fmap_Some in Hv' as (v & Hv & ->). cbn. by eapply Hp.
    + destruct (decide (j = i)) as [->|]; [|rewrite lookup_insert_ne in Hv' by done; by eapply Hp].
      rewrite lookup_insert in Hv'. injection Hv' as <-. done.
    + rewrite Hv in Hv'. by eapply Hp.
Qed.

Lemma grows_refl s : grows s s.
Proof. split; [lia| |naive_solver]. intros i v Hv. exists v. split; [done|lia]. Qed.
Lemma grows_trans s1 s2 s3 : grows s1 s2 → grows s2 s3 → grows s1 s3.
Proof.
  intros [F1 O1 N1] [F2 O2 N2]. split; [lia| |].
  - intros i v Hv. apply O1 in Hv as (v2 & Hv2 & ?). apply O2 in Hv2 as (v3 & Hv3 & ?). exists v3. split; [done|lia].
  - intros i v3 Hn Hv3. destruct (st_vals s2 !! i) as [v2|] eqn:Hv2.
    + pose proof (N1 _ _ Hn Hv2). apply O2 in Hv2 as (w & Hw & ?). assert (w = v3) as -> by congruence. lia.
    + by eapply N2.
Qed.

Lemma prim_grows E net fb b clean s s' : wf_env E → sane_balances E → nn net s →
  prim (slot_ctx E net fb b clean (λ z, 0 ≤ z)%Z) s s' → grows s s'.
Proof.
  intros W Hb (Hp & He & Hf) Hpr. split.
  - destruct Hpr as [j e s _|z s Hz|r s s' Hr Hs|j z s s' Hz Hs|j z s s' Ha Hz Hs|j s s' Hs|j s s' Hc Hs|j t s s' Hs|j p coll addr key s Hnn Hnew Hpp|s s' Hv Hf' _ _]; cbn in *;
      try (apply upd_val_inv in Hs as (? & _ & ->)); cbn; try lia.
    + rewrite advance_fsm_eq. cbn. lia.
    + apply shares_nonneg in Hs as (sh & part & -> & ? & Hsh); try done. cbn. lia.
  - intros i v Hv. pose proof (prim_vstep (slot_ctx E net fb b clean (λ z, 0 ≤ z)%Z) _ _ i W Hpr) as Hst. rewrite Hv in Hst.
    inversion Hst; subst; eexists; (split; [done|]); cbn in *; try lia. apply Hp in Hv. lia.
  - intros i v' Hn Hv'. pose proof (prim_vstep (slot_ctx E net fb b clean (λ z, 0 ≤ z)%Z) _ _ i W Hpr) as Hst. rewrite Hn, Hv' in Hst. inversion Hst; subst. cbn. lia.
Qed.

Lemma trace_grows E net fb b clean s s' : wf_env E → sane_balances E → nn net s →
  trace (slot_ctx E net fb b clean (λ z, 0 ≤ z)%Z) s s' → grows s s' ∧ nn net s'.
Proof.
  intros W Hb Hnn H. revert Hnn. induction H as [s|s1 s2 s3 Hp _ IH]; intros Hnn; [split; [apply grows_refl|done]|].
  destruct IH as [Hg Hn3]; [by eapply co_inv; [apply ctx_ok_nonneg|..]|]. split; [|done].
  eapply grows_trans; [by eapply prim_grows|done].
Qed.
