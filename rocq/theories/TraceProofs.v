(** Every handler is a sequence of primitive writes. Invariants are then proved once per primitive. *)
From Verif Require Export ShareProofs.

(** What a handler is allowed to do. *)
Record ctx := Ctx {
  cx_env : env; cx_net : string;
  cx_evt : N → vevent → Prop;       (* state machine events *)
  cx_acc : N → Z → Prop;            (* direct additions to accumulated rewards *)
  cx_cons : N → Prop;               (* pending turned into accumulated *)
  cx_new : N → Z → string → string → Prop; (* index, collateral, address, key of new records *)
  cx_amt : Z → Prop }.              (* amounts moved *)

Inductive prim (C : ctx) : ost → ost → Prop :=
| p_fsm i e s : cx_evt C i e → prim C s (advance_fsm i e s)
| p_pool z s : cx_amt C z → prim C s (send_to_pool z s)
| p_share r s s' : cx_amt C r → increase_all (cx_env C) (cx_net C) r s = Ok s' → prim C s s'
| p_pend i z s s' : cx_amt C z → inc_pend i z s = Ok s' → prim C s s'
| p_acc i z s s' : cx_acc C i z → cx_amt C z → inc_acc i z s = Ok s' → prim C s s'
| p_reset i s s' : reset_pend i s = Ok s' → prim C s s'
| p_cons i s s' : cx_cons C i → consolidate i s = Ok s' → prim C s s'
| p_sub i t s s' : upd_val i (set_sub t) s = Ok s' → prim C s s'
| p_new i p coll addr key s : st_vals s !! i = None → cx_new C i coll addr key → cx_amt C p →
    prim C s (set_vals (<[i := VInfo NotSubscribed 0 p coll addr i key Manual]> (st_vals s)) s)
| p_rec s s' : st_vals s' = st_vals s → st_fees s' = st_fees s → st_next s' = st_next s → st_feepct s' = st_feepct s →
    prim C s s'.

Definition trace (C : ctx) : ost → ost → Prop := rtc (prim C).

Record ctx_ok (C : ctx) (I : ost → Prop) : Prop := CtxOk {
  co_env : wf_env (cx_env C);
  co_zero : cx_amt C 0%Z;
  co_add : ∀ a b, cx_amt C a → cx_amt C b → cx_amt C (a + b)%Z;
  co_pend : ∀ s i v, I s → st_vals s !! i = Some v → cx_amt C (v_pend v);
  co_inv : ∀ s s', prim C s s' → I s → I s' }.

Lemma trace_inv C I s s' : ctx_ok C I → trace C s s' → I s → I s'.
Proof. intros Ho H. induction H as [|a b c Hp _ IH]; [done|]. intros Ha. apply IH. by eapply co_inv. Qed.

Lemma get_pend_amt C I i s p : ctx_ok C I → I s → get_pend i s = Ok p → cx_amt C p.
Proof. intros Ho Hs (v & Hv & ->)%get_pend_inv. by eapply co_pend. Qed.

Lemma trace_one C s s' : prim C s s' → trace C s s'.
Proof. apply rtc_once. Qed.
Lemma trace_refl C s : trace C s s.
Proof. apply rtc_refl. Qed.
Lemma trace_trans C s1 s2 s3 : trace C s1 s2 → trace C s2 s3 → trace C s1 s3.
Proof. apply rtc_transitive. Qed.
Lemma trace_step C s1 s2 s3 : prim C s1 s2 → trace C s2 s3 → trace C s1 s3.
Proof. apply rtc_l. Qed.

Lemma is_tracked_none s i : is_tracked s i = false ↔ st_vals s !! i = None.
Proof. unfold is_tracked. destruct (st_vals s !! i); naive_solver. Qed.

(** *** Subscriptions *)

(** What one subscription event may do. *)
Definition sub_allowed (C : ctx) (e : ev_sub) (v : option bval) : Prop :=
  cx_amt C (sub_coll e) ∧ cx_evt C (sub_id e) ManualSubscription ∧ cx_acc C (sub_id e) (sub_coll e) ∧
  ∀ v' waddr, v = Some v' → b_index v' = sub_id e → get_compatible_address_byte (b_creds v') = Some waddr →
     cx_new C (sub_id e) (sub_coll e) waddr (hexutil_encode (b_pubkey v')).

Lemma handle_sub_trace C I E e v s s' : ctx_ok C I → sub_allowed C e v →
  handle_sub E e v s = Ok s' → trace C s s'.
Proof.
  intros Ho (Hamt & Hevt & Hacc & Hnew). unfold handle_sub. intros H.
  destruct v as [v|]; [|inv_res; subst; by apply trace_one, p_pool].
  destruct (N.eqb_spec (sub_id e) (b_index v)) as [Hidx|]; [|discriminate]. cbn [negb] in H.
  destruct (negb (can_subscribe v)); [inv_res; subst; by apply trace_one, p_pool|].
  destruct (get_compatible_address_byte (b_creds v)) as [w|] eqn:Hw; [|inv_res; subst; by apply trace_one, p_pool].
  inv_res. destruct (negb a); [inv_res; subst; by apply trace_one, p_pool|].
  destruct (is_banned s (sub_id e)); [by eapply trace_one, p_acc|].
  destruct (is_subscribed s (sub_id e)); [by eapply trace_one, p_acc|].
  destruct (negb (is_collateral_enough s (sub_coll e))); [inv_res; subst; by apply trace_one, p_pool|].
  destruct (_ && _); [|inv_res; subst; by apply trace_one, p_pool].
  inv_res. subst.
  eapply trace_trans with (s2 := if is_tracked s (sub_id e) then s else _).
  { destruct (is_tracked s (sub_id e)) eqn:Ht; [apply trace_refl|]. apply is_tracked_none in Ht.
    apply trace_one, p_new; [done| |by eapply co_zero]. by eapply Hnew. }
  eapply trace_step; [by eapply p_sub|]. eapply trace_step; [by eapply p_pend|]. by apply trace_one, p_fsm.
Qed.

Lemma subs_loop_trace C I E l s s' : ctx_ok C I → Forall (λ x, sub_allowed C x.1 x.2) l →
  subs_loop E l s = Ok s' → trace C s s'.
Proof.
  intros Ho. revert s. induction l as [|[e v] l IH]; intros s Hl; cbn [subs_loop]; intros H; inv_res; [subst; apply trace_refl|].
  inversion Hl; subst. eapply trace_trans; [by eapply handle_sub_trace|by apply IH].
Qed.
Lemma handle_subs_trace C I E l vs s s' : ctx_ok C I → Forall (λ x, sub_allowed C x.1 x.2) (zip l vs) →
  handle_subs E l vs s = Ok s' → trace C s s'.
Proof. intros Ho Hl. unfold handle_subs. intros H. repeat (case_match; try discriminate). by eapply subs_loop_trace. Qed.

(** *** Forfeiting *)
Lemma forfeit_trace C I i e s p s2 s3 : ctx_ok C I → I s → cx_evt C i e →
  get_pend i (advance_fsm i e s) = Ok p →
  increase_all (cx_env C) (cx_net C) p (advance_fsm i e s) = Ok s2 →
  reset_pend i s2 = Ok s3 → trace C s s3.
Proof.
  intros Ho Hs He Hp H2 H3.
  assert (prim C s (advance_fsm i e s)) as P1 by (by apply p_fsm).
  eapply trace_step; [done|]. eapply trace_step; [eapply p_share; [|done]|by eapply trace_one, p_reset].
  eapply get_pend_amt; [done| |done]. by eapply co_inv.
Qed.

Lemma handle_unsub_trace C I e v s s' : ctx_ok C I → I s → cx_evt C (uns_id e) Unsubscribe →
  handle_unsub (cx_env C) (cx_net C) e v s = Ok s' → trace C s s'.
Proof.
  intros Ho Hs He. unfold handle_unsub. intros H.
  destruct v as [v|]; [|inv_res; subst; apply trace_refl]. case_match; [discriminate|].
  case_match; [|inv_res; subst; apply trace_refl]. inv_res. case_match; [inv_res; subst; apply trace_refl|].
  case_match; [|inv_res; subst; apply trace_refl]. inv_res. by eapply forfeit_trace.
Qed.
Lemma unsubs_loop_trace C I l s s' : ctx_ok C I → I s → Forall (λ x, cx_evt C (uns_id x.1) Unsubscribe) l →
  unsubs_loop (cx_env C) (cx_net C) l s = Ok s' → trace C s s'.
Proof.
  intros Ho. revert s. induction l as [|[e v] l IH]; intros s Hs Hl; cbn [unsubs_loop]; intros H; inv_res; [subst; apply trace_refl|].
  inversion Hl; subst. assert (trace C s a) as Ht by (by eapply handle_unsub_trace).
  eapply trace_trans; [done|]. apply IH; [by eapply trace_inv|done..].
Qed.
Lemma handle_unsubs_trace C I l vs s s' : ctx_ok C I → I s → Forall (λ x, cx_evt C (uns_id x) Unsubscribe) l →
  handle_unsubs (cx_env C) (cx_net C) l vs s = Ok s' → trace C s s'.
Proof.
  intros Ho Hs Hl. unfold handle_unsubs. intros H. repeat (case_match; try discriminate).
  eapply unsubs_loop_trace; [done..| |done]. apply Forall_forall. intros [x y] Hxy. cbn.
  rewrite Forall_forall in Hl. apply Hl. by apply elem_of_zip_l in Hxy.
Qed.

(** *** Proposals *)
Lemma add_subscription_trace C I i a k s s' : ctx_ok C I → cx_evt C i AutoSubscription → cx_new C i 0 a k →
  add_subscription i a k s = Ok s' → trace C s s'.
Proof.
  intros Ho He Hn. unfold add_subscription. intros H. destruct (st_vals s !! i) eqn:Hv.
  - case_match; [inv_res; subst; apply trace_refl|]. case_match; [inv_res; subst; by apply trace_one, p_fsm|].
    eapply trace_step; [by apply p_fsm|]. by eapply trace_one, p_sub.
  - eapply trace_step; [apply p_new; [done..|by eapply co_zero]|].
    eapply trace_step; [by apply p_fsm|]. by eapply trace_one, p_sub.
Qed.

Lemma p_blocks C a b c s : prim C s (set_blocks a b c s).
Proof. by apply p_rec. Qed.

Lemma handle_correct_trace C I b s s' : ctx_ok C I →
  cx_evt C (sb_index b) AutoSubscription → cx_evt C (sb_index b) ProposalOk →
  cx_new C (sb_index b) 0 (sb_withdrawal b) (sb_key b) → (∀ r, sb_reward b = Some r → cx_amt C r) → cx_cons C (sb_index b) →
  handle_correct (cx_env C) (cx_net C) b s = Ok s' → trace C s s'.
Proof.
  intros Ho He1 He2 Hn Hr Hc. unfold handle_correct. intros H. inv_res. subst.
  unfold deref_reward in Hb0. destruct (sb_reward b) as [r|]; [|discriminate]. injection Hb0 as <-.
  eapply trace_trans; [by eapply add_subscription_trace|].
  eapply trace_step; [by apply p_fsm|]. eapply trace_step; [by eapply p_share; [apply Hr|]|].
  eapply trace_step; [by eapply p_cons|]. apply trace_one, p_blocks.
Qed.

Lemma handle_bls_trace C b s s' : (∀ r, sb_reward b = Some r → cx_amt C r) → handle_bls b s = Ok s' → trace C s s'.
Proof.
  intros Hr. unfold handle_bls, deref_reward. intros H. case_match; try discriminate.
  destruct (sb_reward b) as [r|]; [|discriminate]. cbn [rbind] in H. injection H as <-.
  eapply trace_step; [by apply p_pool, Hr|]. apply trace_one, p_blocks.
Qed.

Lemma handle_ban_validator_trace C I b s s' : ctx_ok C I → I s → cx_evt C (sb_index b) ProposalWrongFee →
  handle_ban_validator (cx_env C) (cx_net C) b s = Ok s' → trace C s s'.
Proof.
  intros Ho Hs He. unfold handle_ban_validator. intros H. inv_res. subst.
  eapply trace_trans; [by eapply forfeit_trace|]. apply trace_one, p_blocks.
Qed.

Lemma handle_missed_trace C b s : cx_evt C (sb_index b) ProposalMissed → trace C s (handle_missed b s).
Proof. intros He. eapply trace_step; [by apply p_fsm|]. apply trace_one, p_blocks. Qed.

(** *** Bans *)
Lemma bans_loop_trace C I l t s t' s' : ctx_ok C I → I s → cx_amt C t → Forall (λ x, cx_evt C (ban_id x) ManualBan) l →
  bans_loop l t s = Ok (t', s') → trace C s s' ∧ cx_amt C t'.
Proof.
  intros Ho. revert t s. induction l as [|b l IH]; intros t s Hs Ht Hl; cbn [bans_loop]; intros H; inv_res.
  - simplify_eq. split; [apply trace_refl|done].
  - inversion Hl; subst. case_match; [by eapply IH|]. inv_res.
    assert (prim C s (advance_fsm (ban_id b) ManualBan s)) as P1 by (by apply p_fsm).
    assert (prim C (advance_fsm (ban_id b) ManualBan s) a0) as P2 by (by eapply p_reset).
    assert (I (advance_fsm (ban_id b) ManualBan s)) as I1 by (by eapply co_inv).
    apply IH in H as [H ?]; [|by eapply co_inv| |done].
    + split; [|done]. by do 2 (eapply trace_step; [done|]).
    + eapply co_add; [done..|]. by eapply get_pend_amt.
Qed.
Lemma handle_bans_trace C I l s s' : ctx_ok C I → I s → Forall (λ x, cx_evt C (ban_id x) ManualBan) l →
  handle_bans (cx_env C) (cx_net C) l s = Ok s' → trace C s s'.
Proof.
  intros Ho Hs Hl. unfold handle_bans. intros H. destruct l as [|b0 l0]; [inv_res; subst; apply trace_refl|].
  case_match; [discriminate|]. inv_res.
  apply (bans_loop_trace C I) in Hb as [Ht Hz]; [|done|done|by eapply co_zero|done].
  case_match; [discriminate|]. case_match.
  - eapply trace_trans; [done|]. by eapply trace_one, p_share.
  - inv_res. by subst.
Qed.
Lemma unbans_loop_trace C l s : Forall (λ x, cx_evt C (ban_id x) ManualUnban) l → trace C s (unbans_loop l s).
Proof.
  revert s. induction l as [|b l IH]; intros s Hl; cbn [unbans_loop]; [apply trace_refl|]. inversion Hl; subst.
  case_match; [|by apply IH]. eapply trace_step; [by apply p_fsm|by apply IH].
Qed.
Lemma handle_unbans_trace C l s s' : Forall (λ x, cx_evt C (ban_id x) ManualUnban) l → handle_unbans l s = Ok s' → trace C s s'.
Proof. intros Hl. unfold handle_unbans. intros H. case_match; [discriminate|]. inv_res. subst. by apply unbans_loop_trace. Qed.

(** *** Donations *)
Lemma donations_loop_trace C l s s' : Forall (λ x, cx_amt C (er_amount x)) l →
  donations_loop (cx_env C) (cx_net C) l s = Ok s' → trace C s s'.
Proof.
  revert s. induction l as [|d l IH]; intros s Hl; cbn [donations_loop]; intros H; inv_res; [subst; apply trace_refl|].
  inversion Hl; subst. eapply trace_step; [by eapply p_share|].
  eapply trace_step; [|by apply IH]. by apply p_rec.
Qed.
Lemma handle_donations_trace C l s s' : Forall (λ x, cx_amt C (er_amount x)) l →
  handle_donations (cx_env C) (cx_net C) l s = Ok s' → trace C s s'.
Proof. intros Hl. unfold handle_donations. intros H. case_match; [|discriminate]. by eapply donations_loop_trace. Qed.

(** *** Cleanup *)
Lemma source_target l i t : source_to_target l !! i = Some t → (i, t) ∈ l.
Proof.
  unfold source_to_target. assert (∀ (m : gmap N N) l, fold_left (λ m c, <[c.1 := c.2]> m) l m !! i = Some t → m !! i = Some t ∨ (i, t) ∈ l) as H.
  { clear. intros m l. revert m. induction l as [|[a b] l IH]; intros m; cbn [fold_left]; [by left|].
    intros [H|H]%IH; [|right; by right]. cbn in H. apply lookup_insert_Some in H as [[-> ->]|[_ H]]; [right; by left|by left]. }
  intros [H1|H1]%H; [by rewrite lookup_empty in H1|done].
Qed.
Lemma cleanup_one_trace C I slot m v d s : ctx_ok C I → I s → cx_amt C d →
  cx_evt C (b_index v) Unsubscribe →
  (∀ t r tv waddr, m !! b_index v = Some t → e_vals (cx_env C) [t] slot = Some r → (list_to_map r : gmap N bval) !! t = Some tv →
     get_compatible_address_byte (b_creds tv) = Some waddr → cx_new C t 0 waddr (hexutil_encode (b_pubkey tv))) →
  match cleanup_one (cx_env C) slot m v d s with
  | Done s' d' => trace C s s' ∧ cx_amt C d'
  | Fail s' _ => trace C s s'
  | Dead _ => True
  end.
Proof.
  intros Ho Hs Hd He Hn. unfold cleanup_one.
  destruct (bstate_is_active (b_status v)); [by split; [apply trace_refl|]|].
  destruct (st_vals s !! b_index v) as [vi|] eqn:Hv; [|done].
  destruct (v_pend vi =? 0)%Z; [by split; [apply trace_refl|]|].
  assert (cx_amt C (v_pend vi)) as Hp by (by eapply co_pend).
  set (s1 := advance_fsm (b_index v) Unsubscribe s).
  assert (prim C s s1) as P1 by (by apply p_fsm).
  assert (∀ s2 d2, trace C s1 s2 → cx_amt C d2 →
    match match reset_pend (b_index v) s2 with Ok s3 => Done s3 d2 | Die d => Dead d end with
    | Done s' d' => trace C s s' ∧ cx_amt C d' | Fail s' _ => trace C s s' | Dead _ => True end) as Hfin.
  { intros s2 d2 Ht Hd2. destruct (reset_pend (b_index v) s2) eqn:Hr; [|done]. split; [|done].
    eapply trace_step; [done|]. eapply trace_trans; [done|]. by eapply trace_one, p_reset. }
  destruct (m !! b_index v) as [t|] eqn:Hm.
  2:{ apply Hfin; [apply trace_refl|by eapply co_add]. }
  unfold cleanup_consolidate.
  destruct (is_tracked s1 t && negb (is_banned s1 t)) eqn:Hc.
  { destruct (inc_pend t (v_pend vi) s1) eqn:Hi; [|done]. apply Hfin; [by eapply trace_one, p_pend|done]. }
  destruct (is_tracked s1 t) eqn:Ht; cbn [negb andb] in *.
  { apply negb_false_iff in Hc. rewrite Hc. apply Hfin; [apply trace_refl|by eapply co_add]. }
  apply is_tracked_none in Ht.
  destruct (e_vals (cx_env C) [t] slot) as [r|] eqn:Hr; [|by apply trace_one].
  destruct ((list_to_map r : gmap N bval) !! t) as [tv|] eqn:Htv; [|by apply trace_one].
  destruct (get_compatible_address_byte (b_creds tv)) as [w|] eqn:Hw; [|done].
  apply Hfin; [|done]. apply trace_one, p_new; [done|by eapply Hn|done].
Qed.

Lemma cleanup_loop_trace C I slot m r d s : ctx_ok C I → I s → cx_amt C d →
  (∀ i, cx_evt C i Unsubscribe) →
  (∀ t r tv waddr, (∃ k, m !! k = Some t) → e_vals (cx_env C) [t] slot = Some r → (list_to_map r : gmap N bval) !! t = Some tv →
     get_compatible_address_byte (b_creds tv) = Some waddr → cx_new C t 0 waddr (hexutil_encode (b_pubkey tv))) →
  match cleanup_loop (cx_env C) slot m r d s with
  | Done s' d' => trace C s s' ∧ cx_amt C d'
  | Fail s' _ => trace C s s'
  | Dead _ => True
  end.
Proof.
  intros Ho Hs Hd He Hn. revert s d Hs Hd. induction r as [|kv r IH]; intros s d Hs Hd; cbn [cleanup_loop];
    [by split; [apply trace_refl|]|].
  pose proof (cleanup_one_trace C I slot m kv.2 d s Ho Hs Hd (He _)
    (λ t r tv w Ht, Hn t r tv w (ex_intro _ _ Ht))) as H1.
  destruct (cleanup_one _ _ _ _ _ _) as [s1 d1|s1 e|?]; [|done..]. destruct H1 as [H1 Hd1].
  specialize (IH s1 d1 (trace_inv _ _ _ _ Ho H1 Hs) Hd1).
  destruct (cleanup_loop _ _ _ _ _ _) as [s2 d2|s2 e|?]; [|by eapply trace_trans|done].
  destruct IH. split; [|done]. by eapply trace_trans.
Qed.

Lemma cleanup_trace C I slot s : ctx_ok C I → I s →
  (∀ i, cx_evt C i Unsubscribe) →
  (∀ t r tv waddr, (∃ k pcs, e_cons (cx_env C) slot = Some pcs ∧ (k, t) ∈ pcs) → e_vals (cx_env C) [t] slot = Some r → (list_to_map r : gmap N bval) !! t = Some tv →
     get_compatible_address_byte (b_creds tv) = Some waddr → cx_new C t 0 waddr (hexutil_encode (b_pubkey tv))) →
  ∀ s', out_st (cleanup (cx_env C) (cx_net C) slot s) = Some s' → trace C s s'.
Proof.
  intros Ho Hs He Hn s'. unfold cleanup.
  destruct (_ <=? slot)%N; [|intros [= <-]; apply trace_refl].
  destruct (e_iter (cx_env C) (st_vals s)).*1 as [|i0 l0]; [intros [= <-]; apply trace_refl|].
  destruct (if (_ <=? slot)%N then _ else _) as [pcs|] eqn:Hpcs; [|intros [= <-]; apply trace_refl].
  destruct (e_vals (cx_env C) (i0 :: l0) slot) as [r|]; [|intros [= <-]; apply trace_refl].
  match goal with |- context [cleanup_loop _ _ ?m ?r _ _] =>
    pose proof (cleanup_loop_trace C I slot m r 0 s Ho Hs (co_zero _ _ Ho) He) as H3 end.
  specialize (H3 ltac:(intros t r' tv w (k & Hk); apply Hn; pose proof (source_target _ _ _ Hk) as Hin;
    exists k, pcs; split; [|done]; destruct (_ <=? slot)%N; [done|]; injection Hpcs as <-; by apply elem_of_nil in Hin)).
  destruct (cleanup_loop _ _ _ _ _ _) as [s1 d1|s1 e|?]; [|intros [= <-]; done|done].
  destruct H3 as [H3 Hd]. destruct (d1 =? 0)%Z; [intros [= <-]; done|].
  destruct (increase_all _ _ _ _) eqn:Hi; [|done]. cbn. intros [= <-].
  eapply trace_trans; [done|]. by eapply trace_one, p_share.
Qed.
