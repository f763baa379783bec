(** The recorded collateral (C104). *)
From Verif Require Import CollSpec RunProofs LifeProofs.

Lemma coll_upd j f s s' i : upd_val j f s = Ok s' → (∀ v, v_coll (f v) = v_coll v) →
  v_coll <$> st_vals s' !! i = v_coll <$> st_vals s !! i.
Proof.
  intros Hu Hf. rewrite (lookup_upd _ _ _ _ _ Hu). destruct (decide (j = i)); [|done].
  destruct (st_vals s !! i); cbn; [by rewrite Hf|done].
Qed.
Lemma coll_fsm j e s i : v_coll <$> st_vals (advance_fsm j e s) !! i = v_coll <$> st_vals s !! i.
Proof. rewrite lookup_fsm'. destruct (decide (j = i)); [|done]. by destruct (st_vals s !! i). Qed.

Lemma sub_owned E e v w : get_compatible_address_byte (b_creds v) = Some w →
  equals (addr_string (e_mask E) (sub_sender e)) w = Ok true → owned_by (Some v) (sub_sender e).
Proof.
  intros Hw Heq. apply compatible_iff in Hw as (a & Ha & ->).
  assert (sub_sender e = a) as Hs.
  { assert (String.length (sub_sender e) = String.length a) as Hl.
    { unfold equals in Heq. rewrite addr_string_length, string_length_app, hex_encode_length in Heq.
      destruct (Nat.eqb_spec (2 + 2 * String.length (sub_sender e)) (String.length "0x" + 2 * String.length a)); [|discriminate].
      cbn in *. lia. }
    rewrite equals_addr in Heq by done. injection Heq as Heq. by apply bool_decide_eq_true in Heq. }
  exists v. by rewrite Hs.
Qed.

(** What one subscription event does to the recorded collaterals. *)
Lemma handle_sub_coll E e val s s' i : handle_sub E e val s = Ok s' →
  v_coll <$> st_vals s' !! i = v_coll <$> st_vals s !! i ∨
  (sub_id e = i ∧ owned_by val (sub_sender e) ∧ (st_coll s ≤ sub_coll e)%Z ∧ st_vals s !! i = None ∧
   v_coll <$> st_vals s' !! i = Some (sub_coll e)).
Proof.
  intros H. unfold handle_sub in H.
  destruct val as [v|]; [|left; by injection H as <-].
  destruct (negb (sub_id e =? b_index v)%N); [discriminate|].
  destruct (negb (can_subscribe v)); [left; by injection H as <-|].
  destruct (get_compatible_address_byte (b_creds v)) as [w|] eqn:Hw; [|left; by injection H as <-].
  destruct (equals _ w) as [eq|] eqn:Heq; [|discriminate]. cbn [rbind] in H.
  destruct eq; cbn [negb] in H; [|left; by injection H as <-].
  pose proof (sub_owned _ _ _ _ Hw Heq) as Ho.
  destruct (is_banned s (sub_id e)); [left; by eapply (coll_upd (sub_id e))|].
  destruct (is_subscribed s (sub_id e)); [left; by eapply (coll_upd (sub_id e))|].
  unfold is_collateral_enough in H. destruct (Z.leb_spec (st_coll s) (sub_coll e)) as [Hc|Hc]; cbn [negb andb] in H; [|left; by injection H as <-].
  inv_res. subst s'. rewrite coll_fsm. erewrite (coll_upd (sub_id e)); [|done|done]. erewrite (coll_upd (sub_id e)); [|done|done].
  unfold is_tracked. destruct (st_vals s !! sub_id e) eqn:Hx; [by left|]. cbn.
  destruct (decide (sub_id e = i)) as [<-|]; [|left; by rewrite lookup_insert_ne]. right. rewrite lookup_insert. done.
Qed.

Lemma subs_loop_coll E l s s' i : subs_loop E l s = Ok s' →
  v_coll <$> st_vals s' !! i = v_coll <$> st_vals s !! i ∨
  (st_vals s !! i = None ∧ ∃ e val, (e, val) ∈ l ∧ sub_id e = i ∧ owned_by val (sub_sender e) ∧ (st_coll s ≤ sub_coll e)%Z ∧
   v_coll <$> st_vals s' !! i = Some (sub_coll e)).
Proof.
  revert s. induction l as [|[e v] l IH]; intros s H; cbn [subs_loop] in H; [left; by injection H as <-|].
  destruct (handle_sub E e v s) as [s1|] eqn:H1; [|discriminate]. cbn [rbind] in H.
  assert (st_coll s1 = st_coll s) as Hst.
  { apply handle_sub_frame in H1 as [H1 _]. unfold static in H1. by injection H1. }
  apply (handle_sub_coll _ _ _ _ _ i) in H1 as [H1|(Hi & Ho & Hc & Hn & H1)]; apply IH in H as [H|(Hn2 & e2 & v2 & Hin & Hi2 & Ho2 & Hc2 & H)].
  - left. congruence.
  - right. split; [|exists e2, v2; rewrite <-Hst; split; [by right|done]]. rewrite Hn2 in H1. by destruct (st_vals s !! i).
  - right. split; [done|]. exists e, v. split; [by left|]. rewrite H. done.
  - rewrite Hn2 in H1. discriminate.
Qed.

(** What the rest of the slot does. *)
Lemma trace_coll C s s' i : wf_env (cx_env C) → trace C s s' →
  v_coll <$> st_vals s' !! i = v_coll <$> st_vals s !! i ∨
  (st_vals s !! i = None ∧ ∃ z a k, cx_new C i z a k ∧ v_coll <$> st_vals s' !! i = Some z).
Proof.
  intros W H. induction H as [s|s1 s2 s3 Hp _ IH]; [by left|].
  pose proof (prim_vstep _ _ _ i W Hp) as Hst.
  assert (v_coll <$> st_vals s2 !! i = v_coll <$> st_vals s1 !! i ∨
    (st_vals s1 !! i = None ∧ ∃ z a k, cx_new C i z a k ∧ v_coll <$> st_vals s2 !! i = Some z)) as H1.
  { inversion Hst; try (by left). right. split; [done|]. do 3 eexists. split; [eassumption|done]. }
  destruct H1 as [H1|(Hn & z & a & k & Hnew & H1)], IH as [IH|(Hn2 & z2 & a2 & k2 & Hnew2 & IH)].
  - left. congruence.
  - right. rewrite Hn2 in H1. split; [by destruct (st_vals s1 !! i)|eauto].
  - right. split; [done|]. exists z, a, k. split; [done|]. congruence.
  - rewrite Hn2 in H1. discriminate.
Qed.

Lemma advance_coll E fb o o' n i v' : wf_env E → advance E fb o = Done o' n → st_vals (or_st o') !! i = Some v' →
  match st_vals (or_st o) !! i with
  | Some v => v_coll v' = v_coll v
  | None => first_collateral fb o o' i (v_coll v')
  end.
Proof.
  intros W (o1 & b & don & s2 & s3 & _ & _ & Hv & Hs & _ & Hd & Hp & Hc & -> & _)%advance_inv Hl.
  assert (st_coll (or_st o1) = st_coll (or_st o)) as Hcoll.
  { apply validate_config_inv in Hv as [->|(fee & lgs & l & _ & _ & ->)]; done. }
  apply validate_config_frame in Hv as (_ & _ & _ & Hvals & _ & _ & _ & _ & Hnext & _ & _ & _ & Hrec).
  pose proof (summarize_lower _ _ _ _ _ Hs) as Hlow.
  assert (st_next s2 = st_next (or_st o)) as Hn.
  { apply process_block_frame in Hp as (s0 & -> & Hst & _). apply static_set_feepct_parts in Hst as (_ & _ & _ & -> & _). done. }
  assert (sb_type b = OkPoolProposal → st_proposed s3 = st_proposed (or_st o) ++ [b]) as Hprop.
  { intros Ht. clear - Hp Hc Hrec Ht.
    apply process_block_frame in Hp as (s0 & -> & _ & p & m & w & Hr & Hcase). rewrite Ht in Hcase.
    apply cleanup_step_frame in Hc as [_ Hr3]. rewrite Hr in Hr3. unfold records in Hr3, Hrec.
    injection Hr3 as _ -> _ _. injection Hrec as _ -> _ _. by destruct Hcase as (-> & _). }
  apply process_rest_trace in Hp as (a & Ha & Hrest).
  apply handle_subs_inv in Ha as [Ha _]. apply (subs_loop_coll _ _ _ _ i) in Ha. cbn [st_vals st_coll set_events] in Ha.
  rewrite Hvals, Hcoll in Ha.
  pose (C := slot_ctx_gen E (c_network (or_cfg o1)) fb b (st_next (or_st o) mod 1200 =? 0)%N amt_any (λ _ _, False)).
  assert (ctx_ok C (λ _, True)) as Ho by (apply ctx_ok_free; [done|intros z; exact I]).
  assert (trace C a s3) as T.
  { eapply trace_trans; [eapply (Hrest _ amt_any (λ _ _, False) (λ _, True)); try done; by apply Forall_forall|].
    rewrite Hn in Hc. unfold C in *. destruct (st_next (or_st o) mod 1200 =? 0)%N; [|injection Hc as <-; apply trace_refl].
    eapply (cleanup_trace _ (λ _, True) (st_next (or_st o))); [done|done| | |].
    - intros j. by right.
    - intros t r tv w _ _ _ Hw. split; [by eapply compatible_lower|left; auto].
    - cbn [slot_ctx_gen cx_env cx_net]. by rewrite Hc. }
  apply (trace_coll C _ _ i) in T; [|done]. cbn [or_st bump_slots set_slots st_vals] in Hl. rewrite Hl in T. cbn [fmap option_fmap option_map] in T.
  destruct T as [T|(Hna & z & ad & k & Hnew & T)].
  - destruct Ha as [Ha|(Hno & e & val & Hin & Hi & Ho' & Hco & Ha)].
    + rewrite Ha in T. destruct (st_vals (or_st o) !! i); [by injection T|discriminate].
    + rewrite Hno. rewrite Ha in T. injection T as ->. by eapply fc_paid.
  - rewrite Hna in Ha. destruct Ha as [Ha|(_ & e & val & _ & _ & _ & _ & Ha)]; [|discriminate].
    destruct (st_vals (or_st o) !! i); [discriminate|]. injection T as ->.
    destruct Hnew as [_ [[-> [[Ht Hi]|Hcl]]|[]]].
    + by apply (fc_proposer _ _ _ _ b); [apply Hprop| |].
    + apply fc_target. by apply N.eqb_eq.
Qed.

Lemma run_coll o l o' i v : wf_envs l → run o l o' → st_vals (or_st o) !! i = Some v →
  ∃ v', st_vals (or_st o') !! i = Some v' ∧ v_coll v' = v_coll v.
Proof.
  intros We H. revert v We. induction H as [o|o E fb o1 n l o2 Hstep Hrun IH]; intros v We Hv; [by exists v|].
  inversion We as [|? ? We1 We2]; subst. destruct (advance_records _ _ _ _ _ We1 Hstep) as [_ Hid].
  destruct (Hid _ _ Hv) as (v1 & Hv1 & _). pose proof (advance_coll _ _ _ _ _ _ _ We1 Hstep Hv1) as Hc. rewrite Hv in Hc.
  destruct (IH _ We2 Hv1) as (v2 & Hv2 & Hc2). exists v2. split; [done|congruence].
Qed.

Lemma advance_st_coll E fb o o' n : advance E fb o = Done o' n → st_coll (or_st o') = st_coll (or_st o).
Proof.
  intros (o1 & b & don & s2 & s3 & _ & _ & Hv & _ & _ & _ & Hp & Hc & -> & _)%advance_inv.
  apply cleanup_step_frame in Hc as [Hcs _]. apply process_block_frame in Hp as (s0 & -> & Hps & _).
  rewrite Hps in Hcs. unfold static in Hcs. cbn in Hcs. injection Hcs as _ _ _ _ _ _ _ _ _ _ _ _ _ _ _ E16. cbn. rewrite E16.
  apply validate_config_inv in Hv as [->|(fee & lgs & l & _ & _ & ->)]; done.
Qed.

Lemma run_paid c o l o' : wf_envs l → run o l o' → st_coll (or_st o) = c_coll c →
  (∀ i v, st_vals (or_st o) !! i = Some v → paid_once c (or_st o) i (v_coll v)) →
  ∀ i v, st_vals (or_st o') !! i = Some v → paid_once c (or_st o') i (v_coll v).
Proof.
  intros We H. revert We. induction H as [o|o E fb o1 n l o2 Hstep Hrun IH]; intros We Hcoll Hp; [done|].
  inversion We as [|? ? We1 We2]; subst. apply IH; [done|by rewrite (advance_st_coll _ _ _ _ _ Hstep)|].
  intros i v Hv. pose proof (advance_coll _ _ _ _ _ _ _ We1 Hstep Hv) as Hc.
  apply advance_logs in Hstep as (b0 & don & p & m & w & _ & Hsubs & _).
  destruct (st_vals (or_st o) !! i) as [v0|] eqn:Hv0.
  - rewrite Hc. destruct (Hp _ _ Hv0) as [?|(? & e & Hin & ?)]; [by left|right]. split; [done|].
    exists e. split; [|done]. rewrite Hsubs. apply elem_of_app. by left.
  - destruct Hc as [e val Hin Hi _ Hle| |]; [right|by left..]. split; [by rewrite <-Hcoll|]. exists e. split; [|done].
    rewrite Hsubs. apply elem_of_app. right. by eapply elem_of_zip_l.
Qed.
Lemma fresh_paid c l o : wf_envs l → run (new_oracle c) l o →
  ∀ i v, st_vals (or_st o) !! i = Some v → paid_once c (or_st o) i (v_coll v).
Proof. intros We H. eapply (run_paid c); [exact We|exact H|done|]. intros i v Hv. cbn in Hv. by rewrite lookup_empty in Hv. Qed.
