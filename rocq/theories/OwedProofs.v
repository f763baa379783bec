(** Accounting: how each handler changes the total owed. *)
From Verif Require Export HandlerProofs.

Definition vtot (v : vinfo) : Z := (v_acc v + v_pend v)%Z.

Lemma owed_vtot s : owed s = (vsum vtot (st_vals s) + st_fees s)%Z.
Proof. unfold owed, vtot. rewrite vsum_add. lia. Qed.

Lemma owed_insert i v w s : st_vals s !! i = Some v →
  owed (set_vals (<[i := w]> (st_vals s)) s) = (owed s + vtot w - vtot v)%Z.
Proof. intros H. rewrite !owed_vtot. cbn. rewrite (vsum_insert _ _ _ _ v H). lia. Qed.
Lemma owed_insert_new i w s : st_vals s !! i = None →
  owed (set_vals (<[i := w]> (st_vals s)) s) = (owed s + vtot w)%Z.
Proof. intros H. rewrite !owed_vtot. cbn. rewrite vsum_insert_new by done. lia. Qed.
Lemma owed_fsm i e s : owed (advance_fsm i e s) = owed s.
Proof.
  unfold advance_fsm. destruct (st_vals s !! i) as [v|] eqn:H; [|done].
  rewrite (owed_insert _ v) by done. unfold vtot. cbn. lia.
Qed.
Lemma owed_send z s : owed (send_to_pool z s) = (owed s + z)%Z.
Proof. unfold owed. cbn. lia. Qed.
Lemma owed_inc_pend i z s s' : inc_pend i z s = Ok s' → owed s' = (owed s + z)%Z.
Proof. intros (v & Hv & ->)%upd_val_inv. rewrite (owed_insert _ v) by done. unfold vtot. cbn. lia. Qed.
Lemma owed_inc_acc i z s s' : inc_acc i z s = Ok s' → owed s' = (owed s + z)%Z.
Proof. intros (v & Hv & ->)%upd_val_inv. rewrite (owed_insert _ v) by done. unfold vtot. cbn. lia. Qed.
Lemma owed_consolidate i s s' : consolidate i s = Ok s' → owed s' = owed s.
Proof. intros (v & Hv & ->)%upd_val_inv. rewrite (owed_insert _ v) by done. unfold vtot. cbn. lia. Qed.
Lemma owed_set_sub i t s s' : upd_val i (set_sub t) s = Ok s' → owed s' = owed s.
Proof. intros (v & Hv & ->)%upd_val_inv. rewrite (owed_insert _ v) by done. unfold vtot. cbn. lia. Qed.
Lemma owed_reset i v s s' : st_vals s !! i = Some v → reset_pend i s = Ok s' → owed s' = (owed s - v_pend v)%Z.
Proof.
  intros H (v' & Hv & ->)%upd_val_inv. rewrite H in Hv. injection Hv as <-.
  rewrite (owed_insert _ v) by done. unfold vtot. cbn. lia.
Qed.
Lemma owed_set_blocks a b c s : owed (set_blocks a b c s) = owed s. Proof. done. Qed.
Lemma owed_set_donations d s : owed (set_donations d s) = owed s. Proof. done. Qed.
Lemma owed_set_events a b c s : owed (set_events a b c s) = owed s. Proof. done. Qed.

(** Sharing does not touch a validator that is not earning. *)
Lemma increase_all_frame_val E net r s s' i v : wf_env E →
  increase_all E net r s = Ok s' → st_vals s !! i = Some v → ¬ earning v → st_vals s' !! i = Some v.
Proof.
  intros W H Hv He. apply increase_all_char in H as (sh & fees & Hsh & ->); [|done].
  apply shared_facts in Hsh as [_ Hdom]; [|done].
  unfold credited. cbn. fold (add_pend sh (st_vals s)). rewrite lookup_add_pend, Hv. cbn.
  destruct (sh !! i) eqn:Hi; cbn; [|by rewrite Z.add_0_r, set_pend_id].
  destruct (Hdom i) as (w & Hw & ?); [eauto|]. congruence.
Qed.

Definition quitting (e : vevent) : Prop := e = Unsubscribe ∨ e = ProposalWrongFee ∨ e = ManualBan.
Lemma fsm_quitting st e : quitting e → fsm st e ≠ Active ∧ fsm st e ≠ YellowCard.
Proof. intros [->|[->| ->]]; by destruct st. Qed.

Lemma lookup_fsm i e s v : st_vals s !! i = Some v →
  st_vals (advance_fsm i e s) !! i = Some (set_status (fsm (v_status v) e) v).
Proof. intros H. rewrite advance_fsm_eq. cbn. by rewrite lookup_alter, H. Qed.
Lemma lookup_fsm_ne i j e s : i ≠ j → st_vals (advance_fsm i e s) !! j = st_vals s !! j.
Proof. intros H. rewrite advance_fsm_eq. cbn. by rewrite lookup_alter_ne. Qed.

(** Forfeiting: change status with a quitting event, share the pending rewards, reset them. *)
Lemma forfeit_owed E net i e s p s2 s3 : wf_env E → quitting e →
  get_pend i (advance_fsm i e s) = Ok p →
  increase_all E net p (advance_fsm i e s) = Ok s2 →
  reset_pend i s2 = Ok s3 → owed s3 = owed s.
Proof.
  intros W Hq (v1 & Hv1 & ->)%get_pend_inv H2 H3.
  destruct (st_vals s !! i) as [v|] eqn:Hv.
  2:{ unfold advance_fsm in Hv1. rewrite Hv in Hv1. congruence. }
  rewrite (lookup_fsm _ _ _ _ Hv) in Hv1. injection Hv1 as <-.
  pose proof (increase_all_frame_val _ _ _ _ _ i _ W H2 (lookup_fsm _ _ _ _ Hv)) as Hv2.
  assert (¬ earning (set_status (fsm (v_status v) e) v)) as He.
  { destruct (fsm_quitting (v_status v) e Hq). intros [|]; cbn in *; congruence. }
  specialize (Hv2 He). pose proof (owed_reset _ _ _ _ Hv2 H3) as Ho. cbn in Ho.
  rewrite (increase_all_owed _ _ _ _ _ W H2), owed_fsm in Ho. cbn in Ho. lia.
Qed.

Lemma handle_sub_owed E e v s s' : handle_sub E e v s = Ok s' → owed s' = (owed s + sub_coll e)%Z.
Proof.
  unfold handle_sub. intros H. destruct v as [v|]; [|inv_res; subst; apply owed_send].
  destruct (negb (sub_id e =? b_index v)%N); [discriminate|].
  destruct (negb (can_subscribe v)); [inv_res; subst; apply owed_send|].
  destruct (get_compatible_address_byte (b_creds v)) as [w|]; [|inv_res; subst; apply owed_send].
  inv_res. destruct (negb a); [inv_res; subst; apply owed_send|].
  destruct (is_banned s (sub_id e)); [by eapply owed_inc_acc|].
  destruct (is_subscribed s (sub_id e)); [by eapply owed_inc_acc|].
  destruct (negb (is_collateral_enough s (sub_coll e))); [inv_res; subst; apply owed_send|].
  destruct (_ && _); [|inv_res; subst; apply owed_send].
  inv_res. subst. rewrite owed_fsm, (owed_inc_pend _ _ _ _ Hb1), (owed_set_sub _ _ _ _ Hb0).
  unfold is_tracked. destruct (st_vals s !! sub_id e) eqn:Ht; [done|].
  rewrite owed_insert_new by done. unfold vtot. cbn. lia.
Qed.

Definition sum_z {A} (f : A → Z) (l : list A) : Z := foldr Z.add 0%Z (f <$> l).
Lemma sum_z_cons {A} (f : A → Z) x l : sum_z f (x :: l) = (f x + sum_z f l)%Z. Proof. done. Qed.
Lemma sum_z_app {A} (f : A → Z) l k : sum_z f (l ++ k) = (sum_z f l + sum_z f k)%Z.
Proof. unfold sum_z. by rewrite fmap_app, foldr_add_app. Qed.

Lemma subs_loop_owed E l s s' : subs_loop E l s = Ok s' → owed s' = (owed s + sum_z sub_coll l.*1)%Z.
Proof.
  revert s. induction l as [|[e v] l IH]; intros s; cbn [subs_loop]; intros H; inv_res.
  - subst. unfold sum_z. cbn. lia.
  - apply IH in H as ->. rewrite (handle_sub_owed _ _ _ _ _ Hb), fmap_cons, sum_z_cons. cbn. lia.
Qed.
Lemma handle_subs_owed E l vs s s' : handle_subs E l vs s = Ok s' → owed s' = (owed s + sum_z sub_coll l)%Z.
Proof.
  unfold handle_subs. intros H. case_match; [discriminate|].
  destruct (length l =? length vs)%nat eqn:Hl; [|discriminate]. cbn in H.
  apply subs_loop_owed in H as ->. rewrite fst_zip; [done|]. apply Nat.eqb_eq in Hl. lia.
Qed.

Lemma handle_unsub_owed E net e v s s' : wf_env E → handle_unsub E net e v s = Ok s' → owed s' = owed s.
Proof.
  intros W. unfold handle_unsub. intros H.
  destruct v as [v|]; [|inv_res; by subst]. case_match; [discriminate|].
  case_match; [|inv_res; by subst]. inv_res. case_match; [inv_res; by subst|].
  case_match; [|inv_res; by subst]. inv_res.
  eapply (forfeit_owed E net (uns_id e) Unsubscribe); [done|by left|done..].
Qed.
Lemma unsubs_loop_owed E net l s s' : wf_env E → unsubs_loop E net l s = Ok s' → owed s' = owed s.
Proof.
  intros W. revert s. induction l as [|[e v] l IH]; intros s; cbn [unsubs_loop]; intros H; inv_res; [by subst|].
  apply IH in H as ->. by eapply handle_unsub_owed.
Qed.
Lemma handle_unsubs_owed E net l vs s s' : wf_env E → handle_unsubs E net l vs s = Ok s' → owed s' = owed s.
Proof. intros W. unfold handle_unsubs. intros H. repeat (case_match; try discriminate). by eapply unsubs_loop_owed. Qed.

Lemma add_subscription_owed i a k s s' : add_subscription i a k s = Ok s' → owed s' = owed s.
Proof.
  unfold add_subscription. intros H. destruct (st_vals s !! i) eqn:Hv.
  - case_match; [inv_res; by subst|]. case_match; [inv_res; subst; apply owed_fsm|].
    rewrite (owed_set_sub _ _ _ _ H). apply owed_fsm.
  - rewrite (owed_set_sub _ _ _ _ H), owed_fsm, owed_insert_new by done. unfold vtot. cbn. lia.
Qed.

Lemma handle_correct_owed E net b s s' : wf_env E → handle_correct E net b s = Ok s' →
  ∃ r, sb_reward b = Some r ∧ owed s' = (owed s + r)%Z.
Proof.
  intros W. unfold handle_correct. intros H. inv_res. subst.
  unfold deref_reward in Hb0. destruct (sb_reward b) as [r|]; [|discriminate]. inv_res. subst a0.
  exists r. split; [done|]. rewrite owed_set_blocks, (owed_consolidate _ _ _ Hb2), (increase_all_owed _ _ _ _ _ W Hb1).
  rewrite owed_fsm, (add_subscription_owed _ _ _ _ _ Hb). done.
Qed.

Lemma handle_bls_owed b s s' : handle_bls b s = Ok s' → ∃ r, sb_reward b = Some r ∧ owed s' = (owed s + r)%Z.
Proof.
  unfold handle_bls, deref_reward. intros H. case_match; try discriminate.
  destruct (sb_reward b) as [r|]; inv_res. subst. eexists. split; [done|]. by rewrite owed_set_blocks, owed_send.
Qed.

Lemma handle_ban_validator_owed E net b s s' : wf_env E → handle_ban_validator E net b s = Ok s' → owed s' = owed s.
Proof.
  intros W. unfold handle_ban_validator. intros H. inv_res. subst. rewrite owed_set_blocks.
  eapply (forfeit_owed E net (sb_index b) ProposalWrongFee); [done|by right; left|done..].
Qed.

Lemma handle_missed_owed b s : owed (handle_missed b s) = owed s.
Proof. unfold handle_missed. rewrite owed_set_blocks. apply owed_fsm. Qed.

Lemma bans_loop_owed l t s t' s' : bans_loop l t s = Ok (t', s') → (owed s' + t' = owed s + t)%Z.
Proof.
  revert t s. induction l as [|b l IH]; intros t s; cbn [bans_loop]; intros H; inv_res; [by simplify_eq|].
  case_match; [by eapply IH|]. inv_res. apply IH in H. apply get_pend_inv in Hb as (v & Hv & ->).
  rewrite (owed_reset _ _ _ _ Hv Hb0), owed_fsm in H. lia.
Qed.
Lemma handle_bans_owed E net l s s' : wf_env E → handle_bans E net l s = Ok s' → owed s' = owed s.
Proof.
  intros W. unfold handle_bans. intros H. case_match; [inv_res; by subst|].
  case_match; [discriminate|]. inv_res. apply bans_loop_owed in Hb.
  destruct (Z.ltb_spec z 0); [discriminate|]. destruct (Z.ltb_spec 0 z).
  - apply increase_all_owed in H as ->; [lia|done].
  - inv_res. subst. lia.
Qed.
Lemma unbans_loop_owed l s : owed (unbans_loop l s) = owed s.
Proof. revert s. induction l as [|b l IH]; intros s; cbn [unbans_loop]; [done|]. case_match; by rewrite IH, ?owed_fsm. Qed.
Lemma handle_unbans_owed l s s' : handle_unbans l s = Ok s' → owed s' = owed s.
Proof. unfold handle_unbans. intros H. case_match; [discriminate|]. inv_res. subst. apply unbans_loop_owed. Qed.

Lemma donations_loop_owed E net l s s' : wf_env E → donations_loop E net l s = Ok s' → owed s' = (owed s + sum_z er_amount l)%Z.
Proof.
  intros W. revert s. induction l as [|d l IH]; intros s; cbn [donations_loop]; intros H; inv_res.
  - subst. unfold sum_z. cbn. lia.
  - apply IH in H as ->. rewrite owed_set_donations, (increase_all_owed _ _ _ _ _ W Hb), sum_z_cons. lia.
Qed.
Lemma handle_donations_owed E net l s s' : wf_env E → handle_donations E net l s = Ok s' → owed s' = (owed s + sum_z er_amount l)%Z.
Proof. intros W. unfold handle_donations. intros H. case_match; [|discriminate]. by eapply donations_loop_owed. Qed.

(** Cleanup *)
Lemma cleanup_one_owed E slot m v d s s' d' :
  m !! b_index v ≠ Some (b_index v) →
  cleanup_one E slot m v d s = Done s' d' → (owed s' + d' = owed s + d)%Z.
Proof.
  intros Hself. unfold cleanup_one. intros H.
  case_match; [by simplify_eq|]. destruct (st_vals s !! b_index v) as [vi|] eqn:Hv; [|discriminate].
  case_match; [by simplify_eq|].
  pose proof (lookup_fsm _ Unsubscribe _ _ Hv) as Hv1.
  set (s1 := advance_fsm (b_index v) Unsubscribe s) in *.
  assert (owed s1 = owed s) as Ho by apply owed_fsm.
  assert (∀ s2 dist, (owed s2 + dist = owed s + d + v_pend vi)%Z → st_vals s2 !! b_index v = st_vals s1 !! b_index v →
    match reset_pend (b_index v) s2 with Ok s3 => Done s3 dist | Die d => Dead d end = Done s' d' → (owed s' + d' = owed s + d)%Z) as Hfin.
  { intros s2 dist Ho2 Hl2 Hr. case_match; [|discriminate]. simplify_eq.
    rewrite Hv1 in Hl2. erewrite (owed_reset _ _ _ _ Hl2); [|done]. cbn. lia. }
  destruct (m !! b_index v) as [t|] eqn:Hm.
  2:{ eapply Hfin; [|done|exact H]. lia. }
  assert (t ≠ b_index v) as Hne by congruence.
  unfold cleanup_consolidate in H. destruct (is_tracked s1 t && negb (is_banned s1 t)) eqn:Hc.
  - destruct (inc_pend t (v_pend vi) s1) as [s2|] eqn:Hi; [|discriminate]. eapply Hfin; [| |exact H].
    + rewrite (owed_inc_pend _ _ _ _ Hi). lia.
    + apply upd_val_inv in Hi as (w & Hw & ->). cbn. by rewrite lookup_insert_ne.
  - unfold is_tracked in *. destruct (st_vals s1 !! t) eqn:Ht; cbn in H, Hc.
    + apply negb_false_iff in Hc. rewrite Hc in H. eapply Hfin; [|done|exact H]. lia.
    + destruct (e_vals E [t] slot) as [rr|]; [|discriminate].
      destruct ((list_to_map rr : gmap N bval) !! t) as [tv|]; [|discriminate].
      destruct (get_compatible_address_byte (b_creds tv)) as [wa|]; [|discriminate].
      eapply Hfin; [| |exact H].
      * rewrite owed_insert_new by done. unfold vtot. cbn. lia.
      * cbn. rewrite lookup_insert_ne by done. done.
Qed.

Lemma cleanup_loop_owed E slot m r d s s' d' :
  (∀ i, m !! i ≠ Some i) →
  cleanup_loop E slot m r d s = Done s' d' → (owed s' + d' = owed s + d)%Z.
Proof.
  intros Hself. revert d s. induction r as [|kv r IH]; intros d s; cbn [cleanup_loop]; intros H; [by simplify_eq|].
  destruct (cleanup_one E slot m kv.2 d s) as [s1 d1|s1 e|?] eqn:H1; try discriminate.
  apply IH in H. apply cleanup_one_owed in H1; [lia|done].
Qed.

Lemma source_to_target_lookup l i t : source_to_target l !! i = Some t → (i, t) ∈ l.
Proof.
  unfold source_to_target.
  assert (∀ (l : list (N * N)) (m : gmap N N), fold_left (λ m c, <[c.1:=c.2]> m) l m !! i = Some t → (i, t) ∈ l ∨ m !! i = Some t) as H.
  { clear l. induction l as [|[a b] l IH]; intros m H; cbn in H; [by right|].
    apply IH in H as [H|H]; [left; by right|]. cbn in H. destruct (decide (a = i)) as [->|Hne].
    - rewrite lookup_insert in H. simplify_eq. left. by left.
    - rewrite lookup_insert_ne in H by done. by right. }
  intros H1. apply H in H1 as [H1|H1]; [done|]. by rewrite lookup_empty in H1.
Qed.

Lemma cleanup_owed E net slot s s' : wf_env E →
  (∀ l i, e_cons E slot = Some l → (i, i) ∉ l) →
  cleanup E net slot s = Done s' tt → owed s' = owed s.
Proof.
  intros W Hself. unfold cleanup. intros H.
  case_match; [|by simplify_eq]. case_match; [by simplify_eq|].
  destruct (if (default 0 (slot_electra net) <=? slot)%N then e_cons E slot else Some []) as [pcs|] eqn:Hc; [|discriminate].
  case_match; [|discriminate].
  destruct (cleanup_loop E slot (source_to_target pcs) l0 0 s) as [s1 d|?|?] eqn:Hl; try discriminate.
  apply cleanup_loop_owed in Hl.
  2:{ intros i Hi. apply source_to_target_lookup in Hi. destruct (default 0%N (slot_electra net) <=? slot)%N.
      - by eapply Hself in Hi.
      - injection Hc as <-. by apply elem_of_nil in Hi. }
  destruct (Z.eqb_spec d 0); [simplify_eq; lia|]. case_match; [|discriminate]. simplify_eq.
  erewrite (increase_all_owed _ _ _ _ _ W); [|done]. lia.
Qed.
