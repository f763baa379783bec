(** Invariants of single steps and of histories. *)
From Verif Require Export InvProofs.

Lemma donations_subset E pool fb don x : get_donations E pool fb = Ok don → x ∈ don → x ∈ ev_ether_received (fb_events fb).
Proof.
  unfold get_donations. intros H Hx. destruct (fb_cblock fb); [|injection H as <-; by apply elem_of_nil in Hx].
  inv_res. case_match; [by simplify_eq|]. case_match; [|discriminate]. simplify_eq.
  by apply elem_of_list_filter in Hx as [_ Hx].
Qed.

(** ** C06 *)

Lemma fee_schedule_nonneg net slot z : fee_schedule net !! slot = Some z → (0 ≤ z ≤ 10000)%Z.
Proof.
  unfold fee_schedule. intros H; repeat case_match; try (apply lookup_singleton_Some in H as [_ <-]; lia).
  by rewrite lookup_empty in H.
Qed.

Lemma validate_feepct E fb o o1 : validate_config E fb o = Done o1 tt → (0 ≤ st_feepct (or_st o))%Z → (0 ≤ st_feepct (or_st o1))%Z.
Proof.
  intros [->|(fee & lg & l & _ & Hs & ->)]%validate_config_inv; [done|]. cbn. apply fee_schedule_nonneg in Hs. lia.
Qed.

Lemma grows_vals s1 s2 s3 : st_vals s1 = st_vals s2 → st_fees s1 = st_fees s2 → grows s2 s3 → grows s1 s3.
Proof. intros Hv Hf [? ? ?]. split; rewrite ?Hv, ?Hf; done. Qed.

Lemma advance_grows E fb o o' n : wf_env E → sane_balances E → nonneg_block E (c_pool (or_cfg o)) fb →
  ¬ era (c_network (or_cfg o)) (fb_duty_slot fb) PreFork1 →
  pend_nonneg (or_st o) → (0 ≤ st_feepct (or_st o))%Z →
  advance E fb o = Done o' n → grows (or_st o) (or_st o') ∧ pend_nonneg (or_st o') ∧ (0 ≤ st_feepct (or_st o'))%Z.
Proof.
  intros W Hb Hnb Hera Hp Hf H.
  assert (fb_duty_slot fb = st_next (or_st o)) as Hslot.
  { apply advance_inv in H as (o1 & b & don & s2 & s3 & _ & H & _). done. }
  apply (advance_trace E fb o o' n (λ z, 0 ≤ z)%Z (nn (c_network (or_cfg o)))) in H as (o1 & b & don & s3 & Hv & Hs & Hd & -> & Ht); [|done].
  pose proof (validate_feepct _ _ _ _ Hv Hf) as Hf1.
  apply validate_config_frame in Hv as (Hnet & Hpool & _ & Hvals & Hfees & _ & _ & _ & Hnext & _).
  rewrite Hnet, Hpool in *.
  assert (nn (c_network (or_cfg o)) (or_st o1)) as Hnn.
  { split; [|split]; [|by rewrite Hnext, <-Hslot|done]. intros i v. rewrite Hvals. apply Hp. }
  destruct (trace_grows E (c_network (or_cfg o)) fb b (st_next (or_st o1) mod 1200 =? 0)%N (or_st o1) s3) as [Hg (Hp' & _ & Hf')]; try done.
  { apply Ht; [by apply ctx_ok_nonneg|done|apply Hnb|intros r; by eapply Hnb|].
    apply Forall_forall. intros x Hx. eapply donations_subset in Hx; [|done].
    pose proof (nb_ether _ _ _ Hnb) as Hne. rewrite Forall_forall in Hne. by apply Hne. }
  cbn [or_st or_cfg]. split; [|split; done]. apply (grows_trans _ (or_st o1)).
  { apply (grows_vals _ (or_st o1)); [done..|apply grows_refl]. }
  destruct Hg as [? ? ?]. by split.
Qed.

Lemma run_grows o l o' : wf_envs l → sound_blocks (c_network (or_cfg o)) (c_pool (or_cfg o)) l →
  pend_nonneg (or_st o) → (0 ≤ st_feepct (or_st o))%Z →
  run o l o' → grows (or_st o) (or_st o') ∧ pend_nonneg (or_st o') ∧ (0 ≤ st_feepct (or_st o'))%Z.
Proof.
  intros We Hs Hp Hf H. revert We Hs Hp Hf. induction H as [o|o E fb o1 n l o2 Hstep Hrun IH]; intros We Hs Hp Hf.
  - split; [apply grows_refl|done].
  - inversion We as [|? ? We1 We2]. inversion Hs as [|? ? (Hs1 & Hs2 & Hs3) Hs4]. subst. cbn in *.
    destruct (advance_grows _ _ _ _ _ We1 Hs1 Hs2 Hs3 Hp Hf Hstep) as (Hg & Hp1 & Hf1).
    apply advance_cfg in Hstep as (Hn & Hpl & _). rewrite Hn, Hpl in IH.
    destruct (IH We2 Hs4 Hp1 Hf1) as (Hg2 & ? & ?). split; [by eapply grows_trans|done].
Qed.

(** ** Free traces of one step *)

Lemma advance_free_trace E fb o o' n : wf_env E → advance E fb o = Done o' n →
  ∃ o1 b s3, validate_config E fb o = Done o1 tt ∧ summarize E (or_st o1) (c_pool (or_cfg o1)) fb = Ok b ∧
    o' = Oracle (or_cfg o1) (bump_slots b s3) ∧
    st_vals (or_st o1) = st_vals (or_st o) ∧
    trace (slot_ctx E (c_network (or_cfg o)) fb b (st_next (or_st o) mod 1200 =? 0)%N amt_any) (or_st o1) s3.
Proof.
  intros W H. apply (advance_trace E fb o o' n amt_any (λ _, True)) in H as (o1 & b & don & s3 & Hv & Hs & Hd & -> & Ht); [|done].
  exists o1, b, s3. pose proof Hv as Hv'. apply validate_config_frame in Hv' as (Hnet & _ & _ & Hvals & _ & _ & _ & _ & Hnext & _).
  rewrite Hnet, Hnext in Ht.
  do 4 (split; [done|]). apply Ht; [by apply ctx_ok_free|done| |done|]; by apply Forall_forall.
Qed.

(** ** Published balances *)

Lemma vsum_nonneg f m : (∀ i v, m !! i = Some v → 0 ≤ f v)%Z → (0 ≤ vsum f m)%Z.
Proof.
  induction m as [|i v m Hi IH] using map_ind; intros H; [by rewrite vsum_empty|].
  rewrite vsum_insert_new by done. pose proof (H i v ltac:(by rewrite lookup_insert)).
  enough (0 ≤ vsum f m)%Z by lia. apply IH. intros j w Hj. apply (H j). by rewrite lookup_insert_ne by congruence.
Qed.
Lemma vsum_mono f m m' :
  (∀ i v, m !! i = Some v → ∃ v', m' !! i = Some v' ∧ f v ≤ f v')%Z →
  (∀ i v', m !! i = None → m' !! i = Some v' → 0 ≤ f v')%Z → (vsum f m ≤ vsum f m')%Z.
Proof.
  revert m'. induction m as [|i v m Hi IH] using map_ind; intros m' Ho Hn.
  - rewrite vsum_empty. apply vsum_nonneg. intros i v Hv. by apply (Hn i v).
  - destruct (Ho i v ltac:(by rewrite lookup_insert)) as (v' & Hv' & Hle).
    rewrite vsum_insert_new by done. rewrite <-(insert_delete m' i v' Hv'), vsum_insert_new by apply lookup_delete.
    enough (vsum f m ≤ vsum f (delete i m'))%Z by lia. apply IH.
    + intros j w Hj. assert (i ≠ j) by congruence. rewrite lookup_delete_ne by done. apply Ho. by rewrite lookup_insert_ne.
    + intros j w' Hj Hw'. apply lookup_delete_Some in Hw' as [? Hw']. eapply Hn; [|done]. by rewrite lookup_insert_ne.
Qed.

Lemma published_mono a s s' : grows s s' →
  (∀ i v, st_vals s !! i = Some v → ∃ v', st_vals s' !! i = Some v' ∧ same_identity v v') →
  (published a s ≤ published a s')%Z.
Proof.
  intros [_ Ho Hn] Hid. apply vsum_mono.
  - intros i v Hv. apply map_filter_lookup_Some in Hv as [Hv Ha]. destruct (Ho _ _ Hv) as (v' & Hv' & Hle).
    destruct (Hid _ _ Hv) as (w & Hw & _ & Haddr & _). assert (w = v') as -> by congruence.
    exists v'. split; [|done]. apply map_filter_lookup_Some. cbn in *. by rewrite Haddr.
  - intros i v' Hnone Hv'. apply map_filter_lookup_Some in Hv' as [Hv' Ha].
    destruct (st_vals s !! i) as [v|] eqn:Hv; [|by eapply Hn].
    apply map_filter_lookup_None in Hnone as [Hnone|Hnone]; [congruence|]. exfalso.
    destruct (Hid _ _ Hv) as (w & Hw & _ & Haddr & _). assert (w = v') as -> by congruence.
    eapply Hnone; [done|]. cbn in *. by rewrite <-Haddr.
Qed.

(** ** C53 *)

Lemma advance_records E fb o o' n : wf_env E → advance E fb o = Done o' n →
  (wf_records (or_st o) → wf_records (or_st o')) ∧
  (∀ i v, st_vals (or_st o) !! i = Some v → ∃ v', st_vals (or_st o') !! i = Some v' ∧ same_identity v v').
Proof.
  intros W H. apply advance_free_trace in H as (o1 & b & s3 & _ & _ & -> & Hvals & Ht); [|done].
  cbn [or_st bump_slots set_slots st_vals]. split.
  - intros Hw. unfold wf_records. cbn. eapply trace_record; [|exact Ht| |].
    + done.
    + intros i ov v' Hst Hov. inversion Hst; subst; try (destruct (Hov _ eq_refl); split; done). split; [done|].
      match goal with Hnew : cx_new _ _ _ _ _ |- _ => apply Hnew end.
    + intros i v. rewrite Hvals. apply Hw.
  - intros i v. rewrite <-Hvals. intros Hv. eapply trace_identity; [|exact Ht|exact Hv]. done.
Qed.

Lemma run_identity o l o' : wf_envs l → run o l o' → 
  ∀ i v, st_vals (or_st o) !! i = Some v → ∃ v', st_vals (or_st o') !! i = Some v' ∧ same_identity v v'.
Proof.
  intros We H. revert We. induction H as [o|o E fb o1 n l o2 Hstep Hrun IH]; intros We i v Hv; [exists v; done|].
  inversion We as [|? ? We1 We2]; subst. apply advance_records in Hstep as [_ Hid]; [|done].
  apply Hid in Hv as (v1 & Hv1 & Hi1). destruct (IH We2 _ _ Hv1) as (v2 & Hv2 & Hi2).
  exists v2. split; [done|]. unfold same_identity in *. intuition congruence.
Qed.
Lemma run_records o l o' : wf_envs l → run o l o' → wf_records (or_st o) → wf_records (or_st o').
Proof.
  intros We H. revert We. induction H as [o|o E fb o1 n l o2 Hstep Hrun IH]; intros We Hw; [done|].
  inversion We as [|? ? We1 We2]; subst. apply IH; [done|]. by eapply advance_records.
Qed.
Lemma fresh_records c : wf_records (or_st (new_oracle c)).
Proof. intros i v. cbn. by rewrite lookup_empty. Qed.

(** ** C10: permanence *)

Lemma advance_banned E fb o o' n i : wf_env E → advance E fb o = Done o' n →
  (∀ x, x ∈ ev_unbans (fb_events fb) → ban_id x ≠ i) → banned (or_st o) i → banned (or_st o') i.
Proof.
  intros W H Hu. apply advance_free_trace in H as (o1 & b & s3 & _ & _ & -> & Hvals & Ht); [|done].
  intros Hb. assert (banned s3 i) as Hb3; [|done]. eapply trace_banned; [|exact Ht| |].
  - done.
  - intros (x & Hx & Hi). by eapply Hu.
  - unfold banned in *. by rewrite Hvals.
Qed.
Lemma run_banned o l o' i : wf_envs l → run o l o' →
  Forall (λ x, ∀ y, y ∈ ev_unbans (fb_events x.2) → ban_id y ≠ i) l → banned (or_st o) i → banned (or_st o') i.
Proof.
  intros We H. revert We. induction H as [o|o E fb o1 n l o2 Hstep Hrun IH]; intros We Hu Hb; [done|].
  inversion We as [|? ? We1 We2]; inversion Hu; subst. apply IH; [done..|]. by eapply advance_banned.
Qed.

(** ** C14 *)

Lemma advance_slots E fb o o' n : advance E fb o = Done o' n →
  n = fb_duty_slot fb ∧ n = st_next (or_st o) ∧ n = u64_add (st_latest (or_st o)) 1 ∧
  st_latest (or_st o') = n ∧ st_next (or_st o') = u64_add n 1.
Proof.
  intros (o1 & b & don & s2 & s3 & H1 & H2 & Hv & Hs & H3 & Hd & Hp & Hc & -> & ->)%advance_inv.
  assert (st_next s3 = st_next (or_st o)) as Hn.
  { apply cleanup_step_frame in Hc as [Hst _]. apply process_block_frame in Hp as (s0 & -> & Hst0 & _).
    rewrite Hst0 in Hst. apply static_set_feepct_parts in Hst as (_ & _ & _ & -> & _). cbn.
    apply validate_config_frame in Hv. naive_solver. }
  cbn. rewrite Hn. repeat split; congruence.
Qed.

Lemma advance_rejects E fb o : fb_duty_slot fb ≠ st_next (or_st o) → ∃ e, advance E fb o = Fail o e.
Proof.
  intros H. unfold advance. case_match; [eauto|].
  destruct (N.eqb_spec (st_next (or_st o)) (fb_duty_slot fb)); [congruence|]. eauto.
Qed.

Lemma run_slots o l o' : run o l o' → (st_latest (or_st o') = st_latest (or_st o) ∧ l = []) ∨
  (l ≠ [] ∧ st_next (or_st o') = u64_add (st_latest (or_st o')) 1 ∧
   st_latest (or_st o') = u64 (st_latest (or_st o) + N.of_nat (length l)))%N.
Proof.
  intros H. induction H as [o|o E fb o1 n l o2 Hstep Hrun IH]; [by left|right].
  apply advance_slots in Hstep as (_ & H1 & H2 & H3 & H4). split; [done|].
  destruct IH as [[IH ->]|(Hne & IH1 & IH2)].
  - inversion Hrun; subst. split; [congruence|]. rewrite H3, H2. unfold u64_add. done.
  - split; [done|]. rewrite IH2, H3, H2. unfold u64_add, u64. rewrite N.add_mod_idemp_l by done. f_equal.
    cbn [length]. lia.
Qed.

(** ** C15 *)
Lemma advance_logs E fb o o' n : advance E fb o = Done o' n →
  ∃ b don p m w,
    get_donations E (c_pool (or_cfg o)) fb = Ok don ∧
    st_subs (or_st o') = st_subs (or_st o) ++ ev_subscribe (fb_events fb) ∧
    st_unsubs (or_st o') = st_unsubs (or_st o) ++ ev_unsubscribe (fb_events fb) ∧
    st_ether (or_st o') = st_ether (or_st o) ++ ev_ether_received (fb_events fb) ∧
    st_donations (or_st o') = st_donations (or_st o) ++ don ∧
    st_proposed (or_st o') = st_proposed (or_st o) ++ p ∧
    st_missed (or_st o') = st_missed (or_st o) ++ m ∧
    st_wrong (or_st o') = st_wrong (or_st o) ++ w ∧
    sb_slot b = n ∧ sb_index b = fb_duty_index fb ∧
    (p ++ m ++ w = [] ∨ p ++ m ++ w = [b]).
Proof.
  intros H. pose proof (advance_slots _ _ _ _ _ H) as (Hn & Hn2 & _).
  apply advance_inv in H as (o1 & b & don & s2 & s3 & H1 & H2 & Hv & Hs & H3 & Hd & Hp & Hc & -> & _).
  apply cleanup_step_frame in Hc as [Hst Hr]. apply process_block_frame in Hp as (s0 & -> & Hst0 & p & m & w & Hr0 & Hcase).
  apply validate_config_frame in Hv as (_ & Hpool & _ & _ & _ & _ & _ & _ & Hnext & Hsub & Huns & Heth & Hrec).
  rewrite Hst0 in Hst. apply static_set_feepct_parts in Hst as (Es & Eu & Ee & _). cbn in Es, Eu, Ee.
  rewrite Hr0 in Hr. unfold records in Hr, Hrec. injection Hr as R1 R2 R3 R4. injection Hrec as Q1 Q2 Q3 Q4.
  exists b, don, p, m, w. rewrite <-Hpool. cbn. rewrite Es, Eu, Ee, Hsub, Huns, Heth, R1, R2, R3, R4, Q1, Q2, Q3, Q4.
  do 8 (split; [done|]). split; [congruence|]. split.
  - unfold summarize in Hs. inv_res. destruct (fb_cblock fb); inv_res; subst b; done.
  - destruct (sb_type b); naive_solver.
Qed.

(** ** C26, first part *)
Lemma advance_committed E fb o o' n : advance E fb o = Done o' n → st_committed (or_st o') = st_committed (or_st o).
Proof.
  intros (o1 & b & don & s2 & s3 & H1 & H2 & Hv & Hs & H3 & Hd & Hp & Hc & -> & _)%advance_inv.
  apply cleanup_step_frame in Hc as [Hst _]. apply process_block_frame in Hp as (s0 & -> & Hst0 & _).
  rewrite Hst0 in Hst. apply static_set_feepct_parts in Hst as (_ & _ & _ & _ & _ & _ & Hcm & _). cbn in *. rewrite Hcm.
  apply validate_config_frame in Hv. naive_solver.
Qed.

(** ** C35 *)
Lemma advance_fee E fb o o' n : advance E fb o = Done o' n →
  (st_feepct (or_st o') = st_feepct (or_st o) ∧ or_cfg o' = or_cfg o ∧ ev_pool_fee (fb_events fb) = []) ∨
  ∃ fee lg z, ev_pool_fee (fb_events fb) = [(fee, lg)] ∧ z = int64_of_big fee ∧
    fee_schedule (c_network (or_cfg o)) !! n = Some z ∧
    st_feepct (or_st o') = z ∧ or_cfg o' = cset_feepct z (or_cfg o).
Proof.
  intros H. pose proof (advance_slots _ _ _ _ _ H) as (-> & _).
  apply advance_inv in H as (o1 & b & don & s2 & s3 & H1 & H2 & Hv & Hs & H3 & Hd & Hp & Hc & -> & _).
  apply cleanup_step_frame in Hc as [Hst _]. apply process_block_frame in Hp as (s0 & -> & Hst0 & _).
  rewrite Hst0 in Hst. apply static_set_feepct_parts in Hst as (_ & _ & _ & _ & _ & _ & _ & Hfp). cbn in *. rewrite Hfp.
  clear -Hv.
  unfold validate_config in Hv. case_match eqn:Hlen; [discriminate|].
  destruct (ev_pool_fee (fb_events fb)) as [|[fee lg] l].
  - left. repeat (case_match; try discriminate); simplify_eq; done.
  - right. destruct l; [|cbn in Hlen; discriminate].
    destruct (fee_schedule _ !! _) as [ex|] eqn:Hs; [|discriminate].
    destruct (Z.eqb_spec ex (int64_of_big fee)) as [->|]; [|discriminate].
    exists fee, lg, (int64_of_big fee). repeat (case_match; try discriminate); simplify_eq; done.
Qed.
Lemma run_fee_agree o l o' : run o l o' → st_feepct (or_st o) = c_feepct (or_cfg o) → st_feepct (or_st o') = c_feepct (or_cfg o').
Proof.
  intros H. induction H as [o|o E fb o1 n l o2 Hstep Hrun IH]; [done|]. intros He. apply IH.
  apply advance_fee in Hstep as [(-> & -> & _)|(fee & lg & z & _ & _ & _ & -> & ->)]; done.
Qed.

(** ** Consequences *)
Lemma run_published o l o' a : wf_envs l → sound_blocks (c_network (or_cfg o)) (c_pool (or_cfg o)) l →
  pend_nonneg (or_st o) → (0 ≤ st_feepct (or_st o))%Z → run o l o' →
  (published a (or_st o) ≤ published a (or_st o'))%Z.
Proof.
  intros We Hs Hp Hf H. destruct (run_grows _ _ _ We Hs Hp Hf H) as [Hg _]. apply published_mono; [done|].
  intros i v. by eapply run_identity.
Qed.
Lemma share_not_earning E net r s s' i v : wf_env E → increase_all E net r s = Ok s' →
  st_vals s !! i = Some v → ¬ earning v → st_vals s' !! i = Some v.
Proof.
  intros W H Hv He. apply exact_split in H as (sh & part & -> & _ & Hk & _); [|done]. rewrite lookup_credited, Hv. cbn.
  destruct (sh !! i) eqn:Hi.
  - destruct (Hk i) as (w & Hw & Hew); [by eexists|]. congruence.
  - cbn. replace (v_pend v + 0)%Z with (v_pend v) by lia. by destruct v.
Qed.
Lemma share_untracked E net r s s' i : wf_env E → increase_all E net r s = Ok s' →
  st_vals s !! i = None → st_vals s' !! i = None.
Proof.
  intros W H Hv. apply exact_split in H as (sh & part & -> & _); [|done]. by rewrite lookup_credited, Hv.
Qed.
