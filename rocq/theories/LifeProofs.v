(** Subscriptions, unsubscriptions, bans: what each event does. *)
From Verif Require Export RunProofs.

(** ** Status tests *)

Lemma is_banned_spec s i : is_banned s i = true ↔ banned s i.
Proof.
  unfold is_banned, banned. destruct (st_vals s !! i) as [v|].
  - split.
    + intros H. exists v. split; [done|]. by destruct (v_status v).
    + intros (w & [= <-] & ->). done.
  - split; [done|]. intros (w & ? & _). discriminate.
Qed.
Lemma is_subscribed_spec s i : known_statuses s → is_subscribed s i = true ↔ subscribed s i.
Proof.
  intros Hk. unfold is_subscribed, subscribed. destruct (st_vals s !! i) as [v|] eqn:Hv.
  - split.
    + intros H. exists v. split; [done|]. apply Hk in Hv as [?|[?|[?|[Hv|Hv]]]]; [auto..|by rewrite Hv in H|by rewrite Hv in H].
    + intros (w & [= <-] & [->|[->| ->]]); done.
  - split; [done|]. intros (w & ? & _). discriminate.
Qed.
Lemma can_subscribe_spec v : can_subscribe v = true ↔ may_join v.
Proof. unfold can_subscribe, may_join. destruct (b_status v); split; auto; intros; repeat destruct_or?; discriminate. Qed.
Lemma not_true_false (b : bool) (P : Prop) : (b = true ↔ P) → b = false ↔ ¬ P.
Proof. destruct b; naive_solver. Qed.

(** ** Deposits *)

Lemma upd_val_at i f s x : st_vals s !! i = Some x → upd_val i f s = Ok (with_val i (f x) s).
Proof. intros H. unfold upd_val. by rewrite H. Qed.
Lemma advance_fsm_at i e s x : st_vals s !! i = Some x → advance_fsm i e s = with_val i (set_status (fsm (v_status x) e) x) s.
Proof. intros H. unfold advance_fsm. by rewrite H. Qed.
Lemma with_val_at i v s : st_vals (with_val i v s) !! i = Some v.
Proof. apply lookup_insert. Qed.
Lemma with_val_twice i v w s : with_val i v (with_val i w s) = with_val i v s.
Proof. unfold with_val, set_vals. cbn. by rewrite insert_insert. Qed.

Lemma handle_sub_spec E e val s : known_statuses s → wf_request (sub_id e) (sub_sender e) val →
  ∃ vd s', handle_sub E e val s = Ok s' ∧
    deposit s (sub_id e) (sub_sender e) (sub_coll e) val vd ∧
    deposited s (sub_id e) (sub_coll e) val vd s'.
Proof.
  intros Hk [Hlen Hidx]. unfold handle_sub.
  destruct val as [v|].
  2:{ exists ToPool. eexists. split; [done|]. split; [|constructor]. apply dep_stranger. intros (? & ? & _). done. }
  rewrite (Hidx v eq_refl), N.eqb_refl. cbn [negb].
  destruct (can_subscribe v) eqn:Hc; cbn [negb].
  2:{ apply (not_true_false _ _ (can_subscribe_spec v)) in Hc.
      exists ToPool. eexists. split; [done|]. split; [|constructor]. by eapply dep_exiting. }
  apply can_subscribe_spec in Hc.
  destruct (get_compatible_address_byte (b_creds v)) as [w|] eqn:Hw.
  2:{ exists ToPool. eexists. split; [done|]. split; [|constructor]. apply dep_stranger.
      intros (v' & [= <-] & Ha). by apply (proj1 (compatible_none _) Hw (sub_sender e)). }
  apply compatible_iff in Hw as (a & Ha & ->).
  assert (String.length (sub_sender e) = String.length a) as Hl by (destruct Ha; congruence).
  rewrite equals_addr by done. cbn [rbind].
  destruct (bool_decide_reflect (sub_sender e = a)) as [Hs|Hs]; cbn [negb].
  2:{ exists ToPool. eexists. split; [done|]. split; [|constructor]. apply dep_stranger.
      intros (v' & [= <-] & Ha'). apply Hs. by eapply exec_address_fun. }
  assert (owned_by (Some v) (sub_sender e)) as Ho by (exists v; by rewrite Hs).
  destruct (is_banned s (sub_id e)) eqn:Hb.
  { apply is_banned_spec in Hb. destruct Hb as (x & Hx & Hst). exists ToAccumulated. unfold inc_acc, upd_val. rewrite Hx.
    eexists. split; [done|]. split; [|by constructor]. eapply dep_again; try done. right. by exists x. }
  apply (not_true_false _ _ (is_banned_spec s (sub_id e))) in Hb.
  destruct (is_subscribed s (sub_id e)) eqn:Hsub.
  { apply is_subscribed_spec in Hsub; [|done]. pose proof Hsub as (x & Hx & Hst). exists ToAccumulated. unfold inc_acc, upd_val. rewrite Hx.
    eexists. split; [done|]. split; [|by constructor]. eapply dep_again; try done. by left. }
  apply (not_true_false _ _ (is_subscribed_spec s (sub_id e) Hk)) in Hsub.
  unfold is_collateral_enough. destruct (Z.leb_spec (st_coll s) (sub_coll e)) as [Hcol|Hcol]; cbn [negb andb].
  2:{ exists ToPool. eexists. split; [done|]. split; [|constructor]. by eapply dep_poor. }
  unfold is_tracked. exists ToPending.
  destruct (st_vals s !! sub_id e) as [x|] eqn:Hx.
  - assert (v_status x = NotSubscribed) as Hst.
    { apply Hk in Hx as Hkx. unfold known_status in Hkx. unfold subscribed, banned in *. naive_solver. }
    rewrite (upd_val_at _ _ _ _ Hx). cbn [rbind]. unfold inc_pend. rewrite (upd_val_at _ _ _ _ (with_val_at _ _ _)). cbn [rbind].
    rewrite (advance_fsm_at _ _ _ _ (with_val_at _ _ _)), !with_val_twice.
    eexists. split; [done|]. split; [by eapply dep_ok|]. cbn [set_pend set_sub v_status v_pend]. rewrite Hst. cbn [fsm].
    eapply (ded_old _ _ _ _ x Hx).
  - match goal with |- context [upd_val _ _ (set_vals (<[_ := ?v]> _) _)] => set (v0 := v) end.
    change (set_vals (<[sub_id e := v0]> (st_vals s)) s) with (with_val (sub_id e) v0 s).
    rewrite (upd_val_at _ _ _ _ (with_val_at _ _ _)). cbn [rbind]. unfold inc_pend. rewrite (upd_val_at _ _ _ _ (with_val_at _ _ _)). cbn [rbind].
    rewrite (advance_fsm_at _ _ _ _ (with_val_at _ _ _)), !with_val_twice.
    eexists. split; [done|]. split; [by eapply dep_ok|]. subst v0. cbn [set_pend set_sub v_status v_pend fsm].
    eapply (ded_new _ _ _ _ v a Hx); [done|exact Ha].
Qed.

(** ** Forfeits *)

Lemma forfeit_spec E net i e s p s2 s3 : wf_env E →
  (∀ st, fsm st e ≠ st → fsm st e ≠ Active ∧ fsm st e ≠ YellowCard) →
  (∀ v, st_vals s !! i = Some v → fsm (v_status v) e ≠ v_status v) →
  get_pend i (advance_fsm i e s) = Ok p → increase_all E net p (advance_fsm i e s) = Ok s2 → reset_pend i s2 = Ok s3 →
  ∃ v, st_vals s !! i = Some v ∧ forfeited i (fsm (v_status v) e) s s3.
Proof.
  intros W Hq Hne Hp Hi Hr. unfold advance_fsm in *.
  destruct (st_vals s !! i) as [v|] eqn:Hv; [|unfold get_pend in Hp; by rewrite Hv in Hp].
  exists v. split; [done|]. apply get_pend_inv in Hp as (v1 & Hv1 & ->). cbn [st_vals set_vals] in Hv1. rewrite lookup_insert in Hv1.
  injection Hv1 as <-. apply exact_split in Hi as (sh & part & -> & Hsum & Hkeys & _); [|done].
  assert (∀ j, is_Some (sh !! j) → j ≠ i ∧ ∃ w, st_vals s !! j = Some w ∧ earning w) as Hk.
  { intros j Hj. destruct (Hkeys j Hj) as (w & Hw & He). cbn [st_vals set_vals] in Hw.
    destruct (decide (i = j)) as [<-|Hij].
    - rewrite lookup_insert in Hw. injection Hw as <-. exfalso. destruct (Hq (v_status v)) as [H1 H2]; [by apply Hne|].
      destruct He as [He|He]; cbn in He; congruence.
    - rewrite lookup_insert_ne in Hw by done. split; [done|]. by exists w. }
  exists v, sh, part. split; [done|]. split; [done|]. split; [done|].
  apply upd_val_inv in Hr as (x & Hx & ->). rewrite lookup_credited in Hx. cbn [st_vals set_vals] in Hx.
  rewrite lookup_insert in Hx. cbn in Hx. injection Hx as <-.
  unfold with_val, credited, set_vals, set_fees. cbn. f_equal. apply map_eq. intros j.
  destruct (decide (i = j)) as [<-|Hij]; [by rewrite !lookup_insert|].
  rewrite !(lookup_insert_ne _ i j) by done. rewrite !map_lookup_imap. by rewrite lookup_insert_ne.
Qed.

Lemma handle_unsub_spec E net u val s s' : wf_env E → known_statuses s → wf_request (uns_id u) (uns_sender u) val →
  handle_unsub E net u val s = Ok s' →
  (owned_by val (uns_sender u) ∧ subscribed s (uns_id u) → forfeited (uns_id u) NotSubscribed s s') ∧
  (¬ (owned_by val (uns_sender u) ∧ subscribed s (uns_id u)) → s' = s).
Proof.
  intros W Hk [Hlen Hidx] H. unfold handle_unsub in H.
  destruct val as [v|].
  2:{ injection H as <-. split; [|done]. intros [(? & ? & _) _]. done. }
  rewrite (Hidx v eq_refl), N.eqb_refl in H. cbn [negb] in H.
  destruct (get_compatible_address_byte (b_creds v)) as [w|] eqn:Hw.
  2:{ injection H as <-. split; [|done]. intros [(x & [= <-] & Ha) _]. by destruct (proj1 (compatible_none _) Hw (uns_sender u)). }
  apply compatible_iff in Hw as (a & Ha & ->).
  assert (String.length (uns_sender u) = String.length a) as Hl by (destruct Ha; congruence).
  rewrite equals_addr in H by done. cbn [rbind] in H.
  destruct (bool_decide_reflect (uns_sender u = a)) as [Hs|Hs]; cbn [negb] in H.
  2:{ injection H as <-. split; [|done]. intros [(x & [= <-] & Ha') _]. exfalso. apply Hs. by eapply exec_address_fun. }
  assert (owned_by (Some v) (uns_sender u)) as Ho by (exists v; by rewrite Hs).
  destruct (is_subscribed s (uns_id u)) eqn:Hsub.
  - apply is_subscribed_spec in Hsub; [|done]. split; [|naive_solver]. intros _. inv_res.
    pose proof Hsub as (x & Hx & Hst).
    eapply (forfeit_spec E net (uns_id u) Unsubscribe s) in Hb0; [|done| | |done|done].
    + destruct Hb0 as (y & Hy & Hf). assert (y = x) as -> by congruence. by destruct Hst as [Hst|[Hst|Hst]]; rewrite Hst in Hf.
    + by intros [].
    + intros y Hy. assert (y = x) as -> by congruence. by destruct Hst as [Hst|[Hst|Hst]]; rewrite Hst.
  - apply (not_true_false _ _ (is_subscribed_spec s (uns_id u) Hk)) in Hsub. injection H as <-. split; [naive_solver|done].
Qed.

Lemma handle_ban_validator_spec E net b s s' : wf_env E → known_statuses s → subscribed s (sb_index b) →
  handle_ban_validator E net b s = Ok s' →
  ∃ s1, forfeited (sb_index b) Banned s s1 ∧
    s' = set_blocks (st_proposed s1) (st_missed s1) (st_wrong s1 ++ [b]) s1.
Proof.
  intros W Hk Hsub H. unfold handle_ban_validator in H. inv_res. subst.
  pose proof Hsub as (x & Hx & Hst).
  eapply (forfeit_spec E net (sb_index b) ProposalWrongFee s) in Hb0; [|done| | |done|done].
  - destruct Hb0 as (y & Hy & Hf). assert (y = x) as -> by congruence. exists a1. split; [|done].
    by destruct Hst as [Hst|[Hst|Hst]]; rewrite Hst in Hf.
  - by intros [].
  - intros y Hy. assert (y = x) as -> by congruence. by destruct Hst as [Hst|[Hst|Hst]]; rewrite Hst.
Qed.

(** ** Statuses stay known *)

Lemma fsm_known st e : known_status st → known_status (fsm st e).
Proof. unfold known_status. intros H. destruct e, st; cbn; auto 10. Qed.
Lemma trace_known C s s' : wf_env (cx_env C) → trace C s s' → known_statuses s → known_statuses s'.
Proof.
  intros W Ht Hk0. unfold known_statuses. apply (trace_record C s s' (λ _ v, known_status (v_status v)) W Ht); [|done].
  intros i ov v' Hst Hov. inversion Hst; subst; try (by apply (Hov _ eq_refl)).
  - cbn. apply fsm_known. by apply Hov.
  - cbn. unfold known_status. auto.
Qed.
Lemma advance_known E fb o o' n : wf_env E → advance E fb o = Done o' n → known_statuses (or_st o) → known_statuses (or_st o').
Proof.
  intros W H Hk. apply advance_free_trace in H as (o1 & b & s3 & _ & _ & -> & Hvals & Ht); [|done].
  assert (known_statuses s3) as Hs; [|done]. eapply trace_known; [|exact Ht|]; [done|].
  intros i v. rewrite Hvals. apply Hk.
Qed.
Lemma run_known o l o' : wf_envs l → run o l o' → known_statuses (or_st o) → known_statuses (or_st o').
Proof.
  intros We H. revert We. induction H as [o|o E fb o1 n l o2 Hstep Hrun IH]; intros We Hw; [done|].
  inversion We as [|? ? We1 We2]; subst. apply IH; [done|]. by eapply advance_known.
Qed.
Lemma fresh_known c : known_statuses (or_st (new_oracle c)).
Proof. intros i v. cbn. by rewrite lookup_empty. Qed.

(** ** Banned validators hold nothing *)

(** No banned validator except possibly [i] holds pending rewards. *)
Definition be_ex (i : N) (s : ost) : Prop :=
  ∀ j v, j ≠ i → st_vals s !! j = Some v → v_status v = Banned → v_pend v = 0%Z.
Lemma be_weaken i s : banned_empty s → be_ex i s.
Proof. intros H j v _. apply H. Qed.
Lemma be_vals s s' : st_vals s' = st_vals s → banned_empty s → banned_empty s'.
Proof. unfold banned_empty. by intros ->. Qed.

Lemma be_fsm i e s : be_ex i s → be_ex i (advance_fsm i e s).
Proof. intros H j v Hj Hv. rewrite lookup_fsm', decide_False in Hv by done. by apply (H j). Qed.
Lemma be_fsm_safe i e s : (∀ st, fsm st e = Banned → st = Banned) → banned_empty s → banned_empty (advance_fsm i e s).
Proof.
  intros He H j v Hv Hb. rewrite lookup_fsm' in Hv. destruct (decide (i = j)); [|by eapply H].
  apply fmap_Some in Hv as (w & Hw & ->). cbn in *. eapply H; [done|]. by apply He.
Qed.
Lemma be_share E net r s s' : wf_env E → increase_all E net r s = Ok s' →
  (banned_empty s → banned_empty s') ∧ (∀ i, be_ex i s → be_ex i s').
Proof.
  intros W H. apply exact_split in H as (sh & part & -> & _ & Hk & _); [|done].
  assert (∀ j w, st_vals (credited sh part s) !! j = Some w → v_status w = Banned →
    st_vals s !! j = Some w) as Hsame.
  { intros j w Hw Hb. rewrite lookup_credited in Hw. apply fmap_Some in Hw as (v & Hv & ->). cbn in Hb.
    rewrite Hv. destruct (sh !! j) as [z|] eqn:Hj.
    - destruct (Hk j) as (x & Hx & He); [by eexists|]. assert (x = v) as -> by congruence. destruct He; congruence.
    - cbn. replace (v_pend v + 0)%Z with (v_pend v) by lia. by destruct v. }
  split.
  - intros H j w Hw Hb. apply (H j w); [by apply Hsame|done].
  - intros i H j w Hj Hw Hb. apply (H j w); [done|by apply Hsame|done].
Qed.
Lemma be_reset i s s' : reset_pend i s = Ok s' → be_ex i s → banned_empty s'.
Proof.
  intros Hr H j v Hv Hb. unfold reset_pend in Hr. rewrite (lookup_upd _ _ _ _ _ Hr) in Hv.
  destruct (decide (i = j)) as [->|]; [|by eapply (H j)]. apply fmap_Some in Hv as (w & _ & ->). done.
Qed.
Lemma be_upd i f s s' : upd_val i f s = Ok s' → banned_empty s →
  (∀ v, st_vals s !! i = Some v → v_status (f v) = Banned → v_pend v = v_pend (f v) ∧ v_status v = Banned ∨ v_pend (f v) = 0%Z) →
  banned_empty s'.
Proof.
  intros Hu H Hf j v Hv Hb. rewrite (lookup_upd _ _ _ _ _ Hu) in Hv.
  destruct (decide (i = j)) as [->|]; [|by eapply (H j)]. apply fmap_Some in Hv as (w & Hw & ->).
  destruct (Hf _ Hw Hb) as [[<- ?]|?]; [by eapply H|done].
Qed.
Lemma be_new i v s : v_status v ≠ Banned → banned_empty s → banned_empty (set_vals (<[i := v]> (st_vals s)) s).
Proof.
  intros Hv H j w Hw Hb. cbn in Hw. destruct (decide (i = j)) as [->|]; [rewrite lookup_insert in Hw; simplify_eq|].
  rewrite lookup_insert_ne in Hw by done. by eapply H.
Qed.
Lemma be_forfeit E net i e s p s2 s3 : wf_env E → banned_empty s →
  increase_all E net p (advance_fsm i e s) = Ok s2 → reset_pend i s2 = Ok s3 → banned_empty s3.
Proof.
  intros W H Hi Hr. eapply be_reset; [done|]. eapply be_share; [done..|]. by apply be_fsm, be_weaken.
Qed.

Lemma be_handle_sub E e val s s' : handle_sub E e val s = Ok s' → banned_empty s → banned_empty s'.
Proof.
  intros H Hbe. unfold handle_sub in H.
  assert (banned_empty (send_to_pool (sub_coll e) s)) as Hpool by (by eapply be_vals).
  destruct val as [v|]; [|by injection H as <-].
  destruct (negb (sub_id e =? b_index v)%N); [discriminate|].
  destruct (negb (can_subscribe v)); [by injection H as <-|].
  destruct (get_compatible_address_byte (b_creds v)) as [w|]; [|by injection H as <-].
  destruct (equals _ w) as [eq|]; [|discriminate]. cbn [rbind] in H.
  destruct (negb eq); [by injection H as <-|].
  destruct (is_banned s (sub_id e)) eqn:Hb; [by eapply be_upd; [done..|]; left|].
  destruct (is_subscribed s (sub_id e)); [by eapply be_upd; [done..|]; left|].
  destruct (negb (is_collateral_enough s (sub_coll e))); [by injection H as <-|].
  destruct (_ && _); [|by injection H as <-]. inv_res. subst.
  apply be_fsm_safe; [by intros []|].
  assert (banned_empty (if is_tracked s (sub_id e) then s
     else set_vals (<[sub_id e:=VInfo NotSubscribed 0 0 (sub_coll e) w (sub_id e) (hexutil_encode (b_pubkey v)) Manual]> (st_vals s)) s)) as H1.
  { destruct (is_tracked s (sub_id e)); [done|]. by apply be_new. }
  assert (¬ banned a (sub_id e)) as Hnb.
  { intros (x & Hx & Hxb). rewrite (lookup_upd _ _ _ _ _ Hb0), decide_True in Hx by done.
    apply fmap_Some in Hx as (y & Hy & ->). cbn in Hxb.
    destruct (is_tracked s (sub_id e)); [|cbn in Hy; rewrite lookup_insert in Hy; by simplify_eq].
    enough (is_banned s (sub_id e) = true) by congruence. apply is_banned_spec. by exists y. }
  assert (banned_empty a) as Ha by (eapply be_upd; [exact Hb0|done|by left]).
  eapply be_upd; [exact Hb1|done|]. intros x Hx Hxb. exfalso. apply Hnb. by exists x.
Qed.
Lemma be_handle_subs E l vs s s' : handle_subs E l vs s = Ok s' → banned_empty s → banned_empty s'.
Proof.
  unfold handle_subs. intros H. case_match; [discriminate|]. case_match; [discriminate|].
  revert s H. induction (zip l vs) as [|[e v] r IH]; intros s H Hb; cbn [subs_loop] in H; [by injection H as <-|].
  destruct (handle_sub E e v s) eqn:Hs; [|discriminate]. cbn [rbind] in H. eapply IH; [done|]. by eapply be_handle_sub.
Qed.
Lemma be_handle_unsub E net u val s s' : wf_env E → handle_unsub E net u val s = Ok s' → banned_empty s → banned_empty s'.
Proof.
  intros W H Hbe. unfold handle_unsub in H.
  destruct val as [v|]; [|by injection H as <-]. destruct (negb _); [discriminate|].
  destruct (get_compatible_address_byte (b_creds v)) as [w|]; [|by injection H as <-].
  destruct (equals _ w) as [eq|]; [|discriminate]. cbn [rbind] in H. destruct (negb eq); [by injection H as <-|].
  destruct (is_subscribed s (uns_id u)); [|by injection H as <-]. inv_res. by eapply be_forfeit.
Qed.
Lemma be_handle_unsubs E net l vs s s' : wf_env E → handle_unsubs E net l vs s = Ok s' → banned_empty s → banned_empty s'.
Proof.
  intros W. unfold handle_unsubs. intros H. case_match; [discriminate|]. case_match; [discriminate|].
  revert s H. induction (zip l vs) as [|[e v] r IH]; intros s H Hb; cbn [unsubs_loop] in H; [by injection H as <-|].
  destruct (handle_unsub E net e v s) eqn:Hs; [|discriminate]. cbn [rbind] in H. eapply IH; [done|]. by eapply be_handle_unsub.
Qed.
Lemma be_handle_correct E net b s s' : wf_env E → handle_correct E net b s = Ok s' → banned_empty s → banned_empty s'.
Proof.
  intros W H Hbe. unfold handle_correct in H. inv_res. subst.
  assert (banned_empty a) as Ha.
  { unfold add_subscription in Hb. destruct (st_vals s !! sb_index b).
    - destruct (is_subscribed s (sb_index b)); [by injection Hb as <-|].
      assert (banned_empty (advance_fsm (sb_index b) AutoSubscription s)) by (apply be_fsm_safe; [by intros []|done]).
      destruct (is_banned _ _); [by injection Hb as <-|]. by eapply be_upd; [done..|]; left.
    - eapply be_upd; [done| |by left]. apply be_fsm_safe; [by intros []|]. by apply be_new. }
  assert (banned_empty a1) as Ha1.
  { eapply be_share; [done..|]. apply be_fsm_safe; [by intros []|done]. }
  assert (banned_empty a2) as Ha2 by (eapply be_upd; [done..|by right]).
  done.
Qed.
Lemma be_handle_bans E net l s s' : wf_env E → handle_bans E net l s = Ok s' → banned_empty s → banned_empty s'.
Proof.
  intros W H Hbe. unfold handle_bans in H. destruct l as [|b0 l0]; [by injection H as <-|].
  destruct (negb _); [discriminate|]. destruct (bans_loop (b0 :: l0) 0 s) as [[t s1]|] eqn:Hl; [|discriminate].
  cbn [rbind] in H.
  assert (banned_empty s1) as H1.
  { clear H. revert Hl Hbe. generalize 0%Z. generalize (b0 :: l0). intros l. revert s.
    induction l as [|b l IH]; intros s t0 Hl Hbe; cbn [bans_loop] in Hl; [by injection Hl as _ <-|].
    destruct (negb _); [by eapply IH|]. inv_res. eapply IH; [done|]. eapply be_reset; [done|]. by apply be_fsm, be_weaken. }
  destruct (t <? 0)%Z; [discriminate|]. destruct (0 <? t)%Z; [|by injection H as <-]. by eapply be_share.
Qed.
Lemma be_handle_unbans l s s' : handle_unbans l s = Ok s' → banned_empty s → banned_empty s'.
Proof.
  unfold handle_unbans. intros H. destruct (negb _); [discriminate|]. injection H as <-. clear.
  revert s. induction l as [|b l IH]; intros s Hbe; cbn [unbans_loop]; [done|].
  destruct (is_banned s (ban_id b)); [|by apply IH]. apply IH. apply be_fsm_safe; [by intros []|done].
Qed.
Lemma be_handle_donations E net l s s' : wf_env E → handle_donations E net l s = Ok s' → banned_empty s → banned_empty s'.
Proof.
  intros W. unfold handle_donations. intros H. destruct (same_block _ l); [|discriminate].
  revert s H. induction l as [|d l IH]; intros s H Hbe; cbn [donations_loop] in H; [by injection H as <-|].
  inv_res. eapply IH; [done|]. apply (be_vals a); [done|]. by eapply be_share.
Qed.

Lemma be_cleanup_one E slot m v d s s' d' : cleanup_one E slot m v d s = Done s' d' → banned_empty s → banned_empty s'.
Proof.
  intros H Hbe. unfold cleanup_one in H. destruct (bstate_is_active _); [by injection H as <- _|].
  destruct (st_vals s !! b_index v) as [vi|]; [|discriminate].
  destruct (v_pend vi =? 0)%Z; [by injection H as <- _|].
  assert (banned_empty (advance_fsm (b_index v) Unsubscribe s)) as H1 by (apply be_fsm_safe; [by intros []|done]).
  set (s1 := advance_fsm _ _ s) in *.
  match type of H with (match ?x with Done _ _ => _ | _ => _ end) = _ => destruct x as [s2 d2|?|?] eqn:Hm end; [|discriminate..].
  destruct (reset_pend (b_index v) s2) as [s3|] eqn:Hr; [|discriminate]. injection H as <- _.
  eapply be_reset; [done|]. apply be_weaken.
  destruct (m !! b_index v) as [t|]; [|by injection Hm as <- _].
  unfold cleanup_consolidate in Hm. destruct (is_tracked s1 t) eqn:Ht; cbn [andb negb] in Hm.
  - destruct (is_banned s1 t) eqn:Hb; cbn [negb] in Hm; [by injection Hm as <- _|].
    destruct (inc_pend t (v_pend vi) s1) as [s2'|] eqn:Hi; [|discriminate]. injection Hm as <- _.
    eapply be_upd; [exact Hi|done|]. intros x Hx Hxb. exfalso.
    enough (is_banned s1 t = true) by congruence. apply is_banned_spec. by exists x.
  - destruct (e_vals E [t] slot) as [r|]; [|discriminate]. destruct ((list_to_map r : gmap N bval) !! t) as [tv|]; [|discriminate].
    destruct (get_compatible_address_byte _) as [w|]; [|discriminate]. injection Hm as <- _. by apply be_new.
Qed.
Lemma be_cleanup E net slot s s' : wf_env E → cleanup E net slot s = Done s' tt → banned_empty s → banned_empty s'.
Proof.
  intros W H Hbe. unfold cleanup in H. destruct (_ <=? slot)%N; [|by injection H as <-].
  destruct (e_iter E (st_vals s)).*1 as [|i0 l0]; [by injection H as <-|].
  destruct (if (_ <=? slot)%N then _ else _) as [pcs|]; [|discriminate].
  destruct (e_vals E (i0 :: l0) slot) as [r|]; [|discriminate].
  destruct (cleanup_loop E slot (source_to_target pcs) r 0 s) as [s1 d1|?|?] eqn:Hl; [|discriminate..].
  assert (banned_empty s1) as H1.
  { clear H. revert Hl Hbe. generalize 0%Z. revert s. induction r as [|kv r IH]; intros s d0 Hl Hbe; cbn [cleanup_loop] in Hl; [by injection Hl as <- _|].
    destruct (cleanup_one _ _ _ _ _ _) as [s2 d2|?|?] eqn:Ho; [|discriminate..]. eapply IH; [done|]. by eapply be_cleanup_one. }
  destruct (d1 =? 0)%Z; [by injection H as <-|]. destruct (increase_all E net d1 s1) eqn:Hi; [|discriminate].
  injection H as <-. by eapply be_share.
Qed.

Lemma be_process E net fb b don s s' : wf_env E → process_block E net fb b don s = Ok s' → banned_empty s → banned_empty s'.
Proof.
  intros W H Hbe. unfold process_block in H. inv_res.
  set (s0 := set_events _ _ _ _) in *. assert (banned_empty s0) as H0 by done.
  assert (banned_empty a) as Ha by (by eapply be_handle_subs).
  assert (banned_empty a2) as Ha2.
  { destruct (sb_type b) eqn:Hbt; inv_res; subst; try done.
    - case_match; [|done]. unfold handle_missed. apply (be_vals (advance_fsm (sb_index b) ProposalMissed a)); [done|]. apply be_fsm_safe; [by intros []|done].
    - case_match; inv_res; [|by subst]. unfold handle_ban_validator in *. inv_res. subst.
      assert (banned_empty a6) as H6 by (by eapply be_forfeit). done.
    - by eapply be_handle_correct.
    - unfold handle_bls in *. case_match; try discriminate. inv_res. by subst. }
  assert (banned_empty a3) as Ha3 by (by eapply be_handle_unsubs).
  assert (banned_empty a4) as Ha4 by (by eapply be_handle_donations).
  assert (banned_empty a5) as Ha5 by (by eapply be_handle_bans).
  by eapply be_handle_unbans.
Qed.
Lemma be_advance E fb o o' n : wf_env E → advance E fb o = Done o' n → banned_empty (or_st o) → banned_empty (or_st o').
Proof.
  intros W (o1 & b & don & s2 & s3 & _ & _ & Hv & Hs & _ & Hd & Hp & Hc & -> & _)%advance_inv Hbe.
  apply validate_config_frame in Hv as (_ & _ & _ & Hvals & _).
  assert (banned_empty s2) as H2. { eapply be_process; [done..|]. by eapply be_vals. }
  assert (banned_empty s3) as H3. { destruct (_ =? _)%N; [by eapply be_cleanup|by injection Hc as <-]. }
  done.
Qed.
Lemma be_run o l o' : wf_envs l → run o l o' → banned_empty (or_st o) → banned_empty (or_st o').
Proof.
  intros We H. revert We. induction H as [o|o E fb o1 n l o2 Hstep Hrun IH]; intros We Hw; [done|].
  inversion We as [|? ? We1 We2]; subst. apply IH; [done|]. by eapply be_advance.
Qed.
Lemma be_fresh c : banned_empty (or_st (new_oracle c)).
Proof. intros i v. cbn. by rewrite lookup_empty. Qed.

(** ** Accumulated rewards *)

Lemma acc_upd j f s s' i : upd_val j f s = Ok s' → (∀ v, v_acc (f v) = v_acc v) → acc_of s' i = acc_of s i.
Proof.
  intros Hu Hf. unfold acc_of. rewrite (lookup_upd _ _ _ _ _ Hu). destruct (decide (j = i)); [|done].
  destruct (st_vals s !! i); cbn; [by rewrite Hf|done].
Qed.
Lemma acc_fsm j e s i : acc_of (advance_fsm j e s) i = acc_of s i.
Proof. unfold acc_of. rewrite lookup_fsm'. destruct (decide (j = i)); [|done]. by destruct (st_vals s !! i). Qed.

Lemma handle_sub_acc E e val s s' i : handle_sub E e val s = Ok s' →
  acc_of s' i = acc_of s i ∨
  (sub_id e = i ∧ owned_by val (sub_sender e) ∧ (is_subscribed s i = true ∨ banned s i) ∧ acc_of s' i = (acc_of s i + sub_coll e)%Z).
Proof.
  intros H. unfold handle_sub in H.
  assert (acc_of (send_to_pool (sub_coll e) s) i = acc_of s i) as Hpool by done.
  destruct val as [v|]; [|left; by injection H as <-].
  destruct (negb (sub_id e =? b_index v)%N); [discriminate|].
  destruct (negb (can_subscribe v)); [left; by injection H as <-|].
  destruct (get_compatible_address_byte (b_creds v)) as [w|] eqn:Hw; [|left; by injection H as <-].
  destruct (equals _ w) as [eq|] eqn:Heq; [|discriminate]. cbn [rbind] in H.
  destruct eq; cbn [negb] in H; [|left; by injection H as <-].
  apply compatible_iff in Hw as (a & Ha & ->).
  assert (sub_sender e = a) as Hs.
  { assert (String.length (sub_sender e) = String.length a) as Hl.
    { unfold equals in Heq. rewrite addr_string_length, string_length_app, hex_encode_length in Heq.
      destruct (Nat.eqb_spec (2 + 2 * String.length (sub_sender e)) (String.length "0x" + 2 * String.length a)); [|discriminate].
      cbn in *. lia. }
    rewrite equals_addr in Heq by done. injection Heq as Heq. by apply bool_decide_eq_true in Heq. }
  assert (owned_by (Some v) (sub_sender e)) as Ho by (exists v; by rewrite Hs).
  assert (∀ s2, inc_acc (sub_id e) (sub_coll e) s = Ok s2 →
    acc_of s2 i = acc_of s i ∨ (sub_id e = i ∧ acc_of s2 i = (acc_of s i + sub_coll e)%Z)) as Hinc.
  { intros s2 H2. unfold acc_of. rewrite (lookup_upd _ _ _ _ _ H2). destruct (decide (sub_id e = i)) as [<-|]; [|by left].
    right. split; [done|]. apply upd_val_inv in H2 as (x & -> & _). done. }
  destruct (is_banned s (sub_id e)) eqn:Hb.
  { destruct (Hinc _ H) as [?|[Hi ?]]; [by left|right]. subst i. do 2 (split; [done|]). split; [|done]. right. by apply is_banned_spec. }
  destruct (is_subscribed s (sub_id e)) eqn:Hsub.
  { destruct (Hinc _ H) as [?|[Hi ?]]; [by left|right]. subst i. do 2 (split; [done|]). split; [|done]. by left. }
  destruct (negb (is_collateral_enough s (sub_coll e))); [left; by injection H as <-|].
  destruct (_ && _); [|left; by injection H as <-]. left. inv_res. subst s'.
  rewrite acc_fsm. erewrite (acc_upd (sub_id e)); [|done|done]. erewrite (acc_upd (sub_id e)); [|done|done].
  unfold is_tracked. destruct (st_vals s !! sub_id e) eqn:Hx; [done|]. unfold acc_of. cbn.
  destruct (decide (sub_id e = i)) as [<-|]; [by rewrite lookup_insert, Hx|by rewrite lookup_insert_ne].
Qed.

Lemma subs_loop_acc E l s s' i : subs_loop E l s = Ok s' →
  ∃ L, L `sublist_of` l ∧ Forall (λ x, sub_id x.1 = i ∧ owned_by x.2 (sub_sender x.1)) L ∧
    acc_of s' i = (acc_of s i + foldr Z.add 0 ((λ x, sub_coll x.1) <$> L))%Z.
Proof.
  revert s. induction l as [|[e v] l IH]; intros s H; cbn [subs_loop] in H.
  - injection H as <-. exists []. split; [done|]. split; [done|]. cbn. lia.
  - destruct (handle_sub E e v s) as [s1|] eqn:H1; [|discriminate]. cbn [rbind] in H.
    destruct (IH _ H) as (L & HL & HF & Hacc).
    apply (handle_sub_acc _ _ _ _ _ i) in H1 as [H1|(Hi & Ho & _ & H1)].
    + exists L. split; [by constructor|]. split; [done|]. lia.
    + exists ((e, v) :: L). split; [by constructor|]. split; [by constructor|]. cbn. lia.
Qed.

Lemma trace_acc_of C s s' i : wf_env (cx_env C) → trace C s s' → (∀ z, ¬ cx_acc C i z) → ¬ cx_cons C i →
  acc_of s' i = acc_of s i.
Proof.
  intros W H Ha Hc. induction H as [s|s1 s2 s3 Hp _ IH]; [done|]. rewrite IH.
  pose proof (prim_vstep _ _ _ i W Hp) as Hst. unfold acc_of.
  inversion Hst as [|w Hw1 Hw2|w e He Hw1 Hw2|w z Hw1 Hw2|w z Hz _ Hw1 Hw2|w Hz Hw1 Hw2|w t Hw1 Hw2|]; try done.
  by destruct (Ha z).
Qed.

Lemma handle_subs_inv E l vs s s' : handle_subs E l vs s = Ok s' → subs_loop E (zip l vs) s = Ok s' ∧ length l = length vs.
Proof.
  unfold handle_subs. intros H. destruct (negb _); [discriminate|].
  destruct (Nat.eqb_spec (length l) (length vs)); [|discriminate]. done.
Qed.

Lemma summarize_bits E s pool fb b : summarize E s pool fb = Ok b → sb_slot b = fb_duty_slot fb ∧ sb_index b = fb_duty_index fb.
Proof.
  unfold summarize. intros Hs. inv_res. destruct (fb_cblock fb); inv_res; subst b; done.
Qed.
Lemma summarize_lower E s pool fb b : summarize E s pool fb = Ok b → sb_type b = OkPoolProposal → lower_address (sb_withdrawal b).
Proof.
  unfold summarize. intros Hs.
  destruct (withdrawal_and_type (fb_validator fb)) as [[wa wt]|] eqn:Hw; [|discriminate]. cbn [rbind] in Hs.
  destruct (fb_cblock fb); [|injection Hs as <-; done]. inv_res. subst b. cbn. intros Hok.
  eapply withdrawal_lower; [done|]. intros ->. by case_match.
Qed.

Lemma advance_acc E fb o o' n i : wf_env E → advance E fb o = Done o' n →
  (fb_duty_index fb = i ∧ ∃ b, st_proposed (or_st o') = st_proposed (or_st o) ++ [b] ∧ sb_index b = i ∧ sb_type b = OkPoolProposal) ∨
  ∃ L, L `sublist_of` zip (ev_subscribe (fb_events fb)) (fb_subs fb) ∧
    Forall (λ x, sub_id x.1 = i ∧ owned_by x.2 (sub_sender x.1)) L ∧
    acc_of (or_st o') i = (acc_of (or_st o) i + foldr Z.add 0 ((λ x, sub_coll x.1) <$> L))%Z.
Proof.
  intros W (o1 & b & don & s2 & s3 & _ & _ & Hv & Hs & _ & Hd & Hp & Hc & -> & _)%advance_inv.
  apply validate_config_frame in Hv as (_ & _ & _ & Hvals & _ & _ & _ & _ & _ & _ & _ & _ & Hrec).
  pose proof (summarize_bits _ _ _ _ _ Hs) as [_ Hidx].
  destruct (decide (sb_index b = i ∧ sb_type b = OkPoolProposal)) as [[Hi Ht]|Hno].
  - left. split; [congruence|]. exists b. split; [|done]. cbn.
    apply process_block_frame in Hp as (s0 & -> & _ & p & m & w & Hr & Hcase). rewrite Ht in Hcase.
    apply cleanup_step_frame in Hc as [_ Hr3]. rewrite Hr in Hr3. unfold records in Hr3, Hrec.
    injection Hr3 as _ -> _ _. injection Hrec as _ -> _ _. by destruct Hcase as (-> & _).
  - right. pose proof (summarize_lower _ _ _ _ _ Hs) as Hlow.
    assert (∀ s0, st_vals s0 = st_vals (or_st o1) → acc_of s0 i = acc_of (or_st o) i) as H0.
    { intros s0 Hs0. unfold acc_of. by rewrite Hs0, Hvals. }
    assert (st_next s2 = st_next (or_st o1)) as Hn.
    { apply process_block_frame in Hp as (s0 & -> & Hst & _). by apply static_set_feepct_parts in Hst as (_ & _ & _ & -> & _). }
    apply process_rest_trace in Hp as (a & Ha & Hrest).
    apply handle_subs_inv in Ha as [Ha _]. apply (subs_loop_acc _ _ _ _ i) in Ha as (L & HL & HF & Hacc).
    exists L. do 2 (split; [done|]). rewrite (H0 (set_events _ _ _ _)) in Hacc by done. rewrite <-Hacc.
    pose (C := slot_ctx_gen E (c_network (or_cfg o1)) fb b (st_next (or_st o1) mod 1200 =? 0)%N amt_any (λ _ _, False)).
    assert (ctx_ok C (λ _, True)) as Ho by (apply ctx_ok_free; [done|intros z; exact I]).
    assert (trace C a s2) as T1.
    { eapply (Hrest _ amt_any (λ _ _, False) (λ _, True)); try done. by apply Forall_forall. }
    assert (trace C s2 s3) as T2.
    { rewrite Hn in Hc. unfold C in *. destruct (st_next (or_st o1) mod 1200 =? 0)%N; [|injection Hc as <-; apply trace_refl].
      eapply (cleanup_trace _ (λ _, True) (st_next (or_st o1))); [done|done| | |].
      - intros j. by right.
      - intros t r tv w _ _ _ Hw. split; [by eapply compatible_lower|left; auto].
      - cbn [slot_ctx_gen cx_env cx_net]. by rewrite Hc. }
    assert (acc_of s3 i = acc_of a i) as Hfin; [|done].
    eapply (trace_acc_of C); [done|by eapply trace_trans|by intros z []|]. cbn. naive_solver.
Qed.

(** ** The diagram *)

Lemma moves_fsm st e st' : moves st e st' ↔ fsm st e = st'.
Proof.
  assert (∀ x, (st, e, x) ∈ diagram → fsm st e = x) as Hin.
  { intros x H. assert (bool_decide ((st, e, x) ∈ diagram) = true) as Hb by (by apply bool_decide_eq_true). clear H.
    destruct st, e, x; vm_compute in Hb |- *; congruence. }
  assert ((st, e, fsm st e) ∈ diagram ∨ fsm st e = st) as Hor.
  { destruct st, e; (right; reflexivity) || (left; by refine (proj1 (bool_decide_eq_true _) _)). }
  split.
  - intros [x Hx|Hn]; [by apply Hin|]. destruct Hor as [Hd|]; [by destruct (Hn _ Hd)|done].
  - intros <-. destruct (decide ((st, e, fsm st e) ∈ diagram)) as [Hd|Hd]; [by constructor|].
    destruct Hor as [|Heq]; [done|]. rewrite Heq at 1. rewrite Heq in Hd. replace (fsm st e) with st. apply moves_stay.
    intros x Hx. pose proof (Hin _ Hx) as <-. by rewrite Heq in Hx.
Qed.

Lemma fsm_spec i e s :
  (st_vals s !! i = None → advance_fsm i e s = s) ∧
  (∀ v, st_vals s !! i = Some v → ∃ st', moves (v_status v) e st' ∧ advance_fsm i e s = with_val i (set_status st' v) s).
Proof.
  unfold advance_fsm. split.
  - by intros ->.
  - intros v Hv. exists (fsm (v_status v) e). split; [by apply moves_fsm|]. by rewrite Hv.
Qed.

Lemma summarize_missed E s pool fb b : summarize E s pool fb = Ok b → sb_type b = MissedProposal ↔ fb_cblock fb = None.
Proof.
  unfold summarize. destruct (withdrawal_and_type _) as [[wa wt]|]; [|discriminate]. cbn [rbind].
  destruct (fb_cblock fb); [|by intros [= <-]].
  destruct (get_proposer fb) as [prop|]; [|discriminate]. cbn [rbind].
  destruct (sent_reward _ _ _ _) as [[[r ok] rt]|]; [|discriminate]. cbn [rbind].
  destruct (get_number fb); [|discriminate]. cbn [rbind]. intros [= <-]. cbn. by destruct ok, wt.
Qed.

Lemma trace_status C s s' i : wf_env (cx_env C) → trace C s s' →
  rtc (λ a b, ∃ e, cx_evt C i e ∧ moves a e b) (status s i) (status s' i).
Proof.
  intros W H. induction H as [s|s1 s2 s3 Hp _ IH]; [done|].
  pose proof (prim_vstep _ _ _ i W Hp) as Hst. unfold status in *.
  inversion Hst as [|w Hw1 Hw2|w e He Hw1 Hw2|w z Hw1 Hw2|w z Hz _ Hw1 Hw2|w Hz Hw1 Hw2|w t Hw1 Hw2|? ? ? ? ? ? Hw1 Hw2];
    try (rewrite <-?Hw2 in IH; exact IH); try congruence.
  eapply rtc_l; [|rewrite <-Hw2 in IH; exact IH]. exists e. split; [done|]. by apply moves_fsm.
Qed.

Lemma advance_status E fb o o' n i : wf_env E → advance E fb o = Done o' n →
  rtc (λ a b, ∃ e, occurs fb i e ∧ moves a e b) (status (or_st o) i) (status (or_st o') i).
Proof.
  intros W H. pose proof (advance_slots _ _ _ _ _ H) as (Hn & Hn' & _).
  apply advance_free_trace in H as (o1 & b & s3 & Hv & Hs & -> & Hvals & Ht); [|done].
  eapply (trace_status _ _ _ i) in Ht; [|done].
  replace (status (or_st o) i) with (status (or_st o1) i) by (unfold status; by rewrite Hvals).
  change (status (or_st (Oracle (or_cfg o1) (bump_slots b s3))) i) with (status s3 i).
  pose proof (summarize_missed _ _ _ _ _ Hs) as Hm. pose proof (summarize_bits _ _ _ _ _ Hs) as [_ Hi].
  eapply rtc_subrel; [|exact Ht]. intros a c (e & He & Hmv). exists e. split; [|done].
  destruct e; cbn in He |- *; try done.
  all: first [ destruct He as [He|He]; [by left|right; apply N.eqb_eq in He; congruence]
             | destruct He as [Hb <-]; split; [done|]; (by apply Hm) || (intros Hc%Hm; congruence) ].
Qed.

(** ** Ownership *)
Lemma stranger_sub E e val s : known_statuses s → wf_request (sub_id e) (sub_sender e) val →
  ¬ owned_by val (sub_sender e) → handle_sub E e val s = Ok (set_fees (st_fees s + sub_coll e) s).
Proof.
  intros Hk Hw Hn. destruct (handle_sub_spec E e val s Hk Hw) as (vd & s' & -> & Hd & He).
  destruct Hd; try done; inversion He; done.
Qed.
Lemma stranger_unsub E net u val s : wf_request (uns_id u) (uns_sender u) val →
  ¬ owned_by val (uns_sender u) → handle_unsub E net u val s = Ok s.
Proof.
  intros [Hlen Hidx] Hn. unfold handle_unsub. destruct val as [v|]; [|done].
  rewrite (Hidx v eq_refl), N.eqb_refl. cbn [negb].
  destruct (get_compatible_address_byte (b_creds v)) as [w|] eqn:Hw; [|done].
  apply compatible_iff in Hw as (a & Ha & ->).
  assert (String.length (uns_sender u) = String.length a) as Hl by (destruct Ha; congruence).
  rewrite equals_addr by done. cbn [rbind].
  destruct (bool_decide_reflect (uns_sender u = a)) as [Hs|Hs]; cbn [negb]; [|done].
  destruct Hn. exists v. by rewrite Hs.
Qed.
Lemma forfeit_keeps i st s s' v : forfeited i st s s' → st_vals s !! i = Some v →
  st_vals s' !! i = Some (set_status st (set_pend 0 v)) ∧
  (∀ j w, j ≠ i → st_vals s !! j = Some w → ∃ w', st_vals s' !! j = Some w' ∧ v_acc w' = v_acc w ∧ v_status w' = v_status w).
Proof.
  intros (x & sh & part & Hx & _ & _ & ->) Hv. assert (x = v) as -> by congruence. split; [apply with_val_at|].
  intros j w Hj Hw. unfold with_val. cbn [st_vals set_vals]. rewrite lookup_insert_ne by done. rewrite lookup_credited, Hw.
  eexists. by split.
Qed.

Lemma moves_fun st e st1 st2 : moves st e st1 → moves st e st2 → st1 = st2.
Proof. intros H1%moves_fsm H2%moves_fsm. congruence. Qed.
Lemma deposit_fun s i sender coll val vd1 vd2 : deposit s i sender coll val vd1 → deposit s i sender coll val vd2 → vd1 = vd2.
Proof. intros H1 H2. destruct H1, H2; simplify_eq; try done; try tauto; lia. Qed.
