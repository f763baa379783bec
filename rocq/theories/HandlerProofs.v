(** Facts about each handler: frame, accounting. *)
From Verif Require Export RewardProofs.

Ltac inv_res :=
  repeat match goal with
  | H : Ok _ = Ok _ |- _ => apply (f_equal (λ x, match x with Ok a => Some a | _ => None end)) in H; injection H as H
  | H : Die _ = Ok _ |- _ => discriminate H
  | H : Ok _ = Die _ |- _ => discriminate H
  | H : rbind ?m _ = Ok _ |- _ =>
      let E := fresh "Hb" in destruct m eqn:E; cbn [rbind] in H; [|discriminate H]
  | H : (match ?x with (_, _) => _ end) = Ok _ |- _ => destruct x
  end.

(** ** Frame: the part of the state that handlers never write *)

Definition static (s : ost) :=
  (st_hash s, st_latest s, st_latest_block s, st_next s, st_committed s,
   (st_subs s, st_unsubs s, st_ether s),
   (st_feepct s, st_pool s, st_network s, st_fees_addr s, st_cp_size s, st_dep_block s, st_dep_slot s, st_coll s)).

(** The block records. *)
Definition records (s : ost) := (st_donations s, st_proposed s, st_missed s, st_wrong s).

Lemma upd_val_inv i f s s' : upd_val i f s = Ok s' →
  ∃ v, st_vals s !! i = Some v ∧ s' = set_vals (<[i := f v]> (st_vals s)) s.
Proof. unfold upd_val. destruct (st_vals s !! i); naive_solver. Qed.

Lemma get_pend_inv i s p : get_pend i s = Ok p → ∃ v, st_vals s !! i = Some v ∧ p = v_pend v.
Proof. unfold get_pend. destruct (st_vals s !! i); naive_solver. Qed.

Lemma set_vals_id s : set_vals (st_vals s) s = s.
Proof. by destruct s. Qed.

Lemma advance_fsm_eq i e s : advance_fsm i e s = set_vals (alter (λ v, set_status (fsm (v_status v) e) v) i (st_vals s)) s.
Proof.
  unfold advance_fsm. destruct (st_vals s !! i) as [v|] eqn:H.
  - f_equal. apply map_eq. intros j. destruct (decide (i = j)) as [->|Hne].
    + by rewrite lookup_insert, lookup_alter, H.
    + by rewrite lookup_insert_ne, lookup_alter_ne.
  - assert (alter (λ v, set_status (fsm (v_status v) e) v) i (st_vals s) = st_vals s) as ->.
    { apply map_eq. intros j. destruct (decide (i = j)) as [->|Hne].
      - by rewrite lookup_alter, H.
      - by rewrite lookup_alter_ne. }
    by rewrite set_vals_id.
Qed.

Lemma static_set_vals m s : static (set_vals m s) = static s. Proof. done. Qed.
Lemma static_set_fees z s : static (set_fees z s) = static s. Proof. done. Qed.
Lemma static_set_blocks a b c s : static (set_blocks a b c s) = static s. Proof. done. Qed.
Lemma static_set_donations d s : static (set_donations d s) = static s. Proof. done. Qed.
Lemma static_send z s : static (send_to_pool z s) = static s. Proof. done. Qed.
Lemma static_fsm i e s : static (advance_fsm i e s) = static s.
Proof. rewrite advance_fsm_eq. done. Qed.
Lemma static_upd i f s s' : upd_val i f s = Ok s' → static s' = static s.
Proof. intros (v & _ & ->)%upd_val_inv. done. Qed.
Lemma records_set_vals m s : records (set_vals m s) = records s. Proof. done. Qed.
Lemma records_set_fees z s : records (set_fees z s) = records s. Proof. done. Qed.
Lemma records_send z s : records (send_to_pool z s) = records s. Proof. done. Qed.
Lemma records_fsm i e s : records (advance_fsm i e s) = records s.
Proof. rewrite advance_fsm_eq. done. Qed.
Lemma records_upd i f s s' : upd_val i f s = Ok s' → records s' = records s.
Proof. intros (v & _ & ->)%upd_val_inv. done. Qed.

Lemma apply_rewards_frame l s s' : apply_rewards l s = Ok s' → static s' = static s ∧ records s' = records s.
Proof.
  revert s. induction l as [|[i z] l IH]; intros s; cbn [apply_rewards]; intros H; inv_res; [by subst|].
  apply IH in H as [-> ->]. unfold inc_pend in Hb. by rewrite (static_upd _ _ _ _ Hb), (records_upd _ _ _ _ Hb).
Qed.

Lemma increase_all_frame E net r s s' : increase_all E net r s = Ok s' → static s' = static s ∧ records s' = records s.
Proof.
  unfold increase_all. intros H. repeat (case_match; try discriminate); inv_res; subst; try done;
  repeat (case_match; try discriminate); inv_res; by apply apply_rewards_frame in H.
Qed.

Ltac frame_solve :=
  repeat match goal with
  | H : upd_val _ _ _ = Ok _ |- _ =>
      let H1 := fresh in let H2 := fresh in
      pose proof (static_upd _ _ _ _ H) as H1; pose proof (records_upd _ _ _ _ H) as H2;
      clear H
  | H : increase_all _ _ _ _ = Ok _ |- _ => apply increase_all_frame in H as [? ?]
  | H : inc_pend _ _ _ = Ok _ |- _ => unfold inc_pend in H
  | H : inc_acc _ _ _ = Ok _ |- _ => unfold inc_acc in H
  | H : reset_pend _ _ = Ok _ |- _ => unfold reset_pend in H
  | H : consolidate _ _ = Ok _ |- _ => unfold consolidate in H
  end;
  rewrite ?static_fsm, ?static_send, ?static_set_vals, ?static_set_blocks, ?static_set_donations,
    ?records_fsm, ?records_send, ?records_set_vals in *;
  try congruence.

Lemma handle_sub_frame E e v s s' : handle_sub E e v s = Ok s' → static s' = static s ∧ records s' = records s.
Proof.
  unfold handle_sub. intros H.
  repeat (case_match; try discriminate); inv_res; subst; try (split; reflexivity);
  repeat (case_match; try discriminate); inv_res; subst; frame_solve; split; frame_solve.
Qed.

Lemma subs_loop_frame E l s s' : subs_loop E l s = Ok s' → static s' = static s ∧ records s' = records s.
Proof.
  revert s. induction l as [|[e v] l IH]; intros s; cbn [subs_loop]; intros H; inv_res; [by subst|].
  apply IH in H as [-> ->]. by eapply handle_sub_frame.
Qed.

Lemma handle_subs_frame E l vs s s' : handle_subs E l vs s = Ok s' → static s' = static s ∧ records s' = records s.
Proof. unfold handle_subs. intros H. repeat (case_match; try discriminate). by eapply subs_loop_frame. Qed.

Lemma handle_unsub_frame E net e v s s' : handle_unsub E net e v s = Ok s' → static s' = static s ∧ records s' = records s.
Proof.
  unfold handle_unsub. intros H.
  repeat (case_match; try discriminate); inv_res; subst; try (split; reflexivity);
  repeat (case_match; try discriminate); inv_res; subst; frame_solve; split; frame_solve.
Qed.

Lemma unsubs_loop_frame E net l s s' : unsubs_loop E net l s = Ok s' → static s' = static s ∧ records s' = records s.
Proof.
  revert s. induction l as [|[e v] l IH]; intros s; cbn [unsubs_loop]; intros H; inv_res; [by subst|].
  apply IH in H as [-> ->]. by eapply handle_unsub_frame.
Qed.
Lemma handle_unsubs_frame E net l vs s s' : handle_unsubs E net l vs s = Ok s' → static s' = static s ∧ records s' = records s.
Proof. unfold handle_unsubs. intros H. repeat (case_match; try discriminate). by eapply unsubs_loop_frame. Qed.

Lemma add_subscription_frame i a k s s' : add_subscription i a k s = Ok s' → static s' = static s ∧ records s' = records s.
Proof.
  unfold add_subscription. intros H.
  repeat (case_match; try discriminate); inv_res; subst; frame_solve; split; frame_solve.
Qed.

Lemma handle_correct_frame E net b s s' : handle_correct E net b s = Ok s' →
  static s' = static s ∧ records s' = (st_donations s, st_proposed s ++ [b], st_missed s, st_wrong s).
Proof.
  unfold handle_correct. intros H. inv_res. subst.
  apply add_subscription_frame in Hb as [? ?]. frame_solve. split; [frame_solve|].
  assert (records a2 = records s) as Hr by frame_solve. unfold records in *. cbn. injection Hr as -> -> -> ->. done.
Qed.

Lemma handle_bls_frame b s s' : handle_bls b s = Ok s' →
  static s' = static s ∧ records s' = (st_donations s, st_proposed s ++ [b], st_missed s, st_wrong s).
Proof. unfold handle_bls. intros H. case_match; try discriminate. inv_res. by subst. Qed.

Lemma handle_ban_validator_frame E net b s s' : handle_ban_validator E net b s = Ok s' →
  static s' = static s ∧ records s' = (st_donations s, st_proposed s, st_missed s, st_wrong s ++ [b]).
Proof.
  unfold handle_ban_validator. intros H. inv_res. subst. frame_solve. split; [frame_solve|].
  assert (records a1 = records s) as Hr by frame_solve. unfold records in *. cbn. injection Hr as -> -> -> ->. done.
Qed.

Lemma handle_missed_frame b s :
  static (handle_missed b s) = static s ∧
  records (handle_missed b s) = (st_donations s, st_proposed s, st_missed s ++ [b], st_wrong s).
Proof. unfold handle_missed. rewrite advance_fsm_eq. done. Qed.

Lemma bans_loop_frame l t s t' s' : bans_loop l t s = Ok (t', s') → static s' = static s ∧ records s' = records s.
Proof.
  revert t s. induction l as [|b l IH]; intros t s; cbn [bans_loop]; intros H; inv_res; [by simplify_eq|].
  case_match; [by eapply IH|]. inv_res. apply IH in H as [-> ->]. frame_solve. split; frame_solve.
Qed.
Lemma handle_bans_frame E net l s s' : handle_bans E net l s = Ok s' → static s' = static s ∧ records s' = records s.
Proof.
  unfold handle_bans. intros H. repeat (case_match; try discriminate); inv_res; subst; try done.
  repeat (case_match; try discriminate); inv_res; apply bans_loop_frame in Hb as [? ?]; frame_solve; split; frame_solve.
Qed.
Lemma unbans_loop_frame l s : static (unbans_loop l s) = static s ∧ records (unbans_loop l s) = records s.
Proof.
  revert s. induction l as [|b l IH]; intros s; cbn [unbans_loop]; [done|].
  case_match; destruct (IH (advance_fsm (ban_id b) ManualUnban s)); destruct (IH s); frame_solve; split; frame_solve.
Qed.
Lemma handle_unbans_frame l s s' : handle_unbans l s = Ok s' → static s' = static s ∧ records s' = records s.
Proof. unfold handle_unbans. intros H. case_match; [discriminate|]. inv_res. subst. apply unbans_loop_frame. Qed.

Lemma donations_loop_frame E net l s s' : donations_loop E net l s = Ok s' →
  static s' = static s ∧ records s' = (st_donations s ++ l, st_proposed s, st_missed s, st_wrong s).
Proof.
  revert s. induction l as [|d l IH]; intros s; cbn [donations_loop]; intros H; inv_res.
  - subst. by rewrite app_nil_r.
  - apply increase_all_frame in Hb as [Hs Hr]. apply IH in H as [-> ->]. rewrite static_set_donations. split; [done|].
    unfold records in Hr. injection Hr as H1 H2 H3 H4. cbn. rewrite H1, H2, H3, H4. by rewrite <-app_assoc.
Qed.
Lemma handle_donations_frame E net l s s' : handle_donations E net l s = Ok s' →
  static s' = static s ∧ records s' = (st_donations s ++ l, st_proposed s, st_missed s, st_wrong s).
Proof. unfold handle_donations. intros H. case_match; [|discriminate]. by eapply donations_loop_frame. Qed.

(** Cleanup. *)
Definition out_st {A} (o : outcome ost A) : option ost :=
  match o with Done s _ => Some s | Fail s _ => Some s | Dead _ => None end.

Lemma cleanup_one_frame E slot m v d s s' : out_st (cleanup_one E slot m v d s) = Some s' →
  static s' = static s ∧ records s' = records s.
Proof.
  unfold cleanup_one, cleanup_consolidate. intros H.
  repeat (case_match; try discriminate); cbn in H; simplify_eq; try done; frame_solve; split; frame_solve.
Qed.
Lemma cleanup_loop_frame E slot m r d s s' : out_st (cleanup_loop E slot m r d s) = Some s' →
  static s' = static s ∧ records s' = records s.
Proof.
  revert d s. induction r as [|kv r IH]; intros d s; cbn [cleanup_loop]; intros H; [cbn in H; by simplify_eq|].
  destruct (cleanup_one E slot m kv.2 d s) as [s1 d1|s1 e|?] eqn:H1.
  - apply IH in H as [-> ->]. eapply cleanup_one_frame. by rewrite H1.
  - cbn in H. simplify_eq. eapply cleanup_one_frame. by rewrite H1.
  - done.
Qed.
Lemma cleanup_frame E net slot s s' : out_st (cleanup E net slot s) = Some s' →
  static s' = static s ∧ records s' = records s.
Proof.
  unfold cleanup. intros H.
  case_match; [|cbn in H; by simplify_eq].
  case_match; [cbn in H; by simplify_eq|].
  case_match; [|cbn in H; by simplify_eq].
  case_match; [|cbn in H; by simplify_eq].
  destruct (cleanup_loop _ _ _ _ _ _) as [s1 d|s1 e|?] eqn:Hloop in H; [|cbn in H|done].
  - assert (static s1 = static s ∧ records s1 = records s) as [? ?] by (eapply cleanup_loop_frame; by rewrite Hloop).
    repeat (case_match; try discriminate); cbn in H; try discriminate H; injection H as <-; frame_solve; split; frame_solve.
  - simplify_eq. eapply cleanup_loop_frame. by rewrite Hloop.
Qed.
