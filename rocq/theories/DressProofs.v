(** Processing slots neither reads nor changes the recorded hash and the frozen checkpoints. *)
From Verif Require Export Advance.

Definition dress (h : string) (c : gmap N onchain_state) (s : ost) : ost := set_committed c (set_hash h s).
Definition rmap {A B} (f : A → B) (r : res A) : res B := match r with Ok a => Ok (f a) | Die d => Die d end.
Definition omap' {A B X} (f : A → B) (r : outcome A X) : outcome B X :=
  match r with Done a x => Done (f a) x | Fail a e => Fail (f a) e | Dead d => Dead d end.

Section dress.
  Context (h : string) (c : gmap N onchain_state).
  Local Notation D := (dress h c).

  Lemma rbind_rmap {A B C} (f : A → B) (m : res A) (k : B → res C) : rbind (rmap f m) k = rbind m (λ x, k (f x)).
  Proof. by destruct m. Qed.
  Lemma rmap_rbind {A B C} (f : B → C) (m : res A) (k : A → res B) : rmap f (rbind m k) = rbind m (λ x, rmap f (k x)).
  Proof. by destruct m. Qed.
  Lemma rbind_ext {A B} (m : res A) (k k' : A → res B) : (∀ x, k x = k' x) → rbind m k = rbind m k'.
  Proof. intros H. destruct m; cbn; [apply H|done]. Qed.

  Lemma dress_fsm i e s : advance_fsm i e (D s) = D (advance_fsm i e s).
  Proof. unfold advance_fsm. change (st_vals (D s)) with (st_vals s). by destruct (st_vals s !! i). Qed.
  Lemma dress_upd i f s : upd_val i f (D s) = rmap D (upd_val i f s).
  Proof. unfold upd_val. change (st_vals (D s)) with (st_vals s). by destruct (st_vals s !! i). Qed.
  Lemma dress_pool z s : send_to_pool z (D s) = D (send_to_pool z s).
  Proof. done. Qed.
  Lemma dress_apply l : ∀ s, apply_rewards l (D s) = rmap D (apply_rewards l s).
  Proof.
    induction l as [|[i z] l IH]; intros s; [done|]. cbn [apply_rewards]. unfold inc_pend. rewrite dress_upd, rbind_rmap, rmap_rbind.
    apply rbind_ext. intros; apply IH.
  Qed.
  Lemma dress_increase E net r s : increase_all E net r (D s) = rmap D (increase_all E net r s).
  Proof.
    unfold increase_all. change (eligible_indices E (D s)) with (eligible_indices E s). change (st_feepct (D s)) with (st_feepct s).
    change (st_next (D s)) with (st_next s). destruct (eligible_indices E s); [done|].
    destruct (_ <? _)%Z; [done|]. rewrite rmap_rbind. apply rbind_ext. intros [].
    all: rewrite rmap_rbind; apply rbind_ext; intros [? ?]; rewrite dress_pool; apply dress_apply.
  Qed.
  Lemma dress_donations E net l s : handle_donations E net l (D s) = rmap D (handle_donations E net l s).
  Proof.
    unfold handle_donations. destruct (same_block _ _); [|done]. revert s.
    induction l as [|d l IH]; intros s; [done|]. cbn [donations_loop]. rewrite dress_increase, rbind_rmap, rmap_rbind.
    apply rbind_ext. intros s1. apply (IH (set_donations (st_donations s1 ++ [d]) s1)).
  Qed.
  Lemma dress_add i a k s : add_subscription i a k (D s) = rmap D (add_subscription i a k s).
  Proof.
    unfold add_subscription. change (st_vals (D s)) with (st_vals s). destruct (st_vals s !! i).
    - change (is_subscribed (D s) i) with (is_subscribed s i). destruct (is_subscribed s i); [done|]. cbv zeta.
      rewrite dress_fsm. change (is_banned (D ?s) i) with (is_banned s i).
      destruct (is_banned _ i); [done|]. apply dress_upd.
    - cbv zeta. set (s1 := set_vals _ s). change (set_vals _ (D s)) with (D s1). rewrite dress_fsm. apply dress_upd.
  Qed.
  Lemma dress_correct E net b s : handle_correct E net b (D s) = rmap D (handle_correct E net b s).
  Proof.
    unfold handle_correct. rewrite dress_add, rbind_rmap, rmap_rbind. apply rbind_ext. intros s1. cbv zeta.
    rewrite dress_fsm, rmap_rbind. apply rbind_ext. intros r. rewrite dress_increase, rbind_rmap, rmap_rbind.
    apply rbind_ext. intros s2. unfold consolidate. rewrite dress_upd, rbind_rmap, rmap_rbind. by apply rbind_ext.
  Qed.
  Lemma dress_bls b s : handle_bls b (D s) = rmap D (handle_bls b s).
  Proof. unfold handle_bls. destruct (sb_type b); try done. rewrite rmap_rbind. by apply rbind_ext. Qed.
  Lemma dress_sub E e v s : handle_sub E e v (D s) = rmap D (handle_sub E e v s).
  Proof.
    unfold handle_sub. destruct v as [v|]; [|done]. destruct (negb _); [done|]. destruct (negb _); [done|].
    destruct (get_compatible_address_byte _); [|done]. rewrite rmap_rbind. apply rbind_ext. intros eq.
    destruct (negb eq); [done|]. change (is_banned (D s) ?i) with (is_banned s i).
    change (is_subscribed (D s) ?i) with (is_subscribed s i). change (is_tracked (D s) ?i) with (is_tracked s i).
    change (is_collateral_enough (D s) ?i) with (is_collateral_enough s i).
    destruct (is_banned s _); [apply dress_upd|]. destruct (is_subscribed s _); [apply dress_upd|].
    destruct (is_collateral_enough s _); [|done]. cbn [negb andb]. cbv zeta.
    set (s1 := if is_tracked s _ then s else _). 
    assert ((if is_tracked s (sub_id e) then D s else set_vals (<[sub_id e := VInfo NotSubscribed 0 0 (sub_coll e) s0 (sub_id e)
      (hexutil_encode (b_pubkey v)) Manual]> (st_vals (D s))) (D s)) = D s1) as -> by (unfold s1; by destruct (is_tracked s _)).
    rewrite dress_upd, rbind_rmap, rmap_rbind. apply rbind_ext. intros s2. unfold inc_pend.
    rewrite dress_upd, rbind_rmap, rmap_rbind. apply rbind_ext. intros s3. cbn [rmap]. by rewrite dress_fsm.
  Qed.
  Lemma dress_subs E l v s : handle_subs E l v (D s) = rmap D (handle_subs E l v s).
  Proof.
    unfold handle_subs. destruct (negb _); [done|]. destruct (negb _); [done|]. generalize (zip l v). intros lv. revert s.
    induction lv as [|[e w] lv IH]; intros s; [done|]. cbn [subs_loop]. rewrite dress_sub, rbind_rmap, rmap_rbind. by apply rbind_ext.
  Qed.
  Lemma dress_unsub E net e v s : handle_unsub E net e v (D s) = rmap D (handle_unsub E net e v s).
  Proof.
    unfold handle_unsub. destruct v as [v|]; [|done]. destruct (negb _); [done|].
    destruct (get_compatible_address_byte _); [|done]. rewrite rmap_rbind. apply rbind_ext. intros eq.
    destruct (negb eq); [done|]. change (is_subscribed (D s) ?i) with (is_subscribed s i).
    destruct (is_subscribed s _); [|done]. cbv zeta. rewrite dress_fsm. change (get_pend ?i (D ?s)) with (get_pend i s).
    rewrite rmap_rbind. apply rbind_ext. intros p. rewrite dress_increase, rbind_rmap, rmap_rbind. apply rbind_ext. intros; apply dress_upd.
  Qed.
  Lemma dress_unsubs E net l v s : handle_unsubs E net l v (D s) = rmap D (handle_unsubs E net l v s).
  Proof.
    unfold handle_unsubs. destruct (negb _); [done|]. destruct (negb _); [done|]. generalize (zip l v). intros lv. revert s.
    induction lv as [|[e w] lv IH]; intros s; [done|]. cbn [unsubs_loop]. rewrite dress_unsub, rbind_rmap, rmap_rbind. by apply rbind_ext.
  Qed.
  Lemma dress_bans_loop l : ∀ t s, bans_loop l t (D s) = rmap (λ ts, (ts.1, D ts.2)) (bans_loop l t s).
  Proof.
    induction l as [|b l IH]; intros t s; [done|]. cbn [bans_loop]. change (is_subscribed (D s) ?i) with (is_subscribed s i).
    destruct (negb _); [apply IH|]. cbv zeta. rewrite dress_fsm. change (get_pend ?i (D ?s)) with (get_pend i s).
    rewrite rmap_rbind. apply rbind_ext. intros p. unfold reset_pend. rewrite dress_upd, rbind_rmap, rmap_rbind. by apply rbind_ext.
  Qed.
  Lemma dress_bans E net l s : handle_bans E net l (D s) = rmap D (handle_bans E net l s).
  Proof.
    unfold handle_bans. destruct l as [|b l]; [done|]. destruct (negb _); [done|]. rewrite dress_bans_loop, rbind_rmap, rmap_rbind.
    apply rbind_ext. intros [t s1]. cbn [fst snd]. destruct (_ <? _)%Z; [done|]. destruct (_ <? _)%Z; [|done]. apply dress_increase.
  Qed.
  Lemma dress_unbans l s : handle_unbans l (D s) = rmap D (handle_unbans l s).
  Proof.
    unfold handle_unbans. destruct (negb _); [done|]. cbn. f_equal. revert s.
    induction l as [|b l IH]; intros s; [done|]. cbn [unbans_loop]. change (is_banned (D s) ?i) with (is_banned s i).
    destruct (is_banned s _); [|done]. by rewrite dress_fsm.
  Qed.
  Lemma dress_ban_validator E net b s : handle_ban_validator E net b (D s) = rmap D (handle_ban_validator E net b s).
  Proof.
    unfold handle_ban_validator. cbv zeta. rewrite dress_fsm. change (get_pend ?i (D ?s)) with (get_pend i s).
    rewrite rmap_rbind. apply rbind_ext. intros p. rewrite dress_increase, rbind_rmap, rmap_rbind. apply rbind_ext. intros s2.
    unfold reset_pend. rewrite dress_upd, rbind_rmap, rmap_rbind. by apply rbind_ext.
  Qed.
  Lemma dress_missed b s : handle_missed b (D s) = D (handle_missed b s).
  Proof. unfold handle_missed. cbv zeta. by rewrite dress_fsm. Qed.

  Lemma dress_cleanup_one E slot m v d s : cleanup_one E slot m v d (D s) = omap' D (cleanup_one E slot m v d s).
  Proof.
    unfold cleanup_one. cbv zeta. destruct (bstate_is_active _); [done|]. change (st_vals (D s)) with (st_vals s).
    destruct (st_vals s !! _) as [vi|]; [|done]. destruct (_ =? _)%Z; [done|]. rewrite dress_fsm.
    set (s1 := advance_fsm _ _ s).
    assert (∀ r, match omap' D r with
      | Done s2 dist2 => match reset_pend (b_index v) s2 with Ok s3 => Done s3 dist2 | Die d0 => Dead d0 end
      | Fail s2 e => Fail s2 e
      | Dead d0 => Dead d0
      end = omap' D match r with
      | Done s2 dist2 => match reset_pend (b_index v) s2 with Ok s3 => Done s3 dist2 | Die d0 => Dead d0 end
      | Fail s2 e => Fail s2 e
      | Dead d0 => Dead d0
      end :> outcome ost Z) as Hk.
    { intros [s2 d2|s2 e|dd]; try done. cbn [omap']. unfold reset_pend. rewrite dress_upd. by destruct (upd_val _ _ s2). }
    rewrite <-Hk. f_equal. destruct (m !! _) as [t|]; [|done]. unfold cleanup_consolidate.
    change (is_banned (D s1) t) with (is_banned s1 t). change (is_tracked (D s1) t) with (is_tracked s1 t).
    destruct (_ && _). { unfold inc_pend. rewrite dress_upd. by destruct (upd_val _ _ s1). }
    destruct (negb _); [|by destruct (is_banned s1 t)]. destruct (e_vals _ _ _); [|done].
    destruct (_ !! t); [|done]. by destruct (get_compatible_address_byte _).
  Qed.
  Lemma dress_cleanup E net slot s : cleanup E net slot (D s) = omap' D (cleanup E net slot s).
  Proof.
    unfold cleanup. destruct (_ <=? _)%N; [|done]. change (st_vals (D s)) with (st_vals s). cbv zeta.
    destruct (_.*1); [done|]. destruct (if _ : bool then _ else _) as [pcs|]; [|done].
    destruct (e_vals _ _ _) as [r|]; [|done].
    assert (∀ d s, cleanup_loop E slot (source_to_target pcs) r d (D s) = omap' D (cleanup_loop E slot (source_to_target pcs) r d s)) as ->.
    { clear. induction r as [|kv r IH]; intros d s; [done|]. cbn [cleanup_loop]. rewrite dress_cleanup_one.
      destruct (cleanup_one _ _ _ _ _ s); [apply IH|done|done]. }
    destruct (cleanup_loop _ _ _ _ _ s) as [s1 d|s1 e|dd]; try done. cbn [omap']. destruct (_ =? _)%Z; [done|].
    rewrite dress_increase. by destruct (increase_all _ _ _ s1).
  Qed.

  Lemma dress_process E net fb b don s : process_block E net fb b don (D s) = rmap D (process_block E net fb b don s).
  Proof.
    unfold process_block. cbv zeta. set (s0 := set_events _ _ _ s). change (set_events _ _ _ (D s)) with (D s0).
    rewrite dress_subs, rbind_rmap, rmap_rbind. apply rbind_ext. intros s1.
    change (is_subscribed (D ?s) ?i) with (is_subscribed s i).
    set (s2 := match sb_type b with MissedProposal => _ | _ => s1 end).
    assert (match sb_type b with
            | MissedProposal => if is_subscribed s1 (sb_index b) then handle_missed b (D s1) else D s1
            | _ => D s1 end = D s2) as ->.
    { unfold s2. destruct (sb_type b); try done. destruct (is_subscribed _ _); [apply dress_missed|done]. }
    set (m3 := match sb_type b with OkPoolProposalBlsKeys => handle_bls b s2 | _ => Ok s2 end).
    assert (match sb_type b with OkPoolProposalBlsKeys => handle_bls b (D s2) | _ => Ok (D s2) end = rmap D m3) as ->.
    { unfold m3. destruct (sb_type b); try done. apply dress_bls. }
    rewrite rbind_rmap, rmap_rbind. apply rbind_ext. intros s3.
    set (m4 := match sb_type b with OkPoolProposal => handle_correct E net b s3 | _ => Ok s3 end).
    assert (match sb_type b with OkPoolProposal => handle_correct E net b (D s3) | _ => Ok (D s3) end = rmap D m4) as ->.
    { unfold m4. destruct (sb_type b); try done. apply dress_correct. }
    rewrite rbind_rmap, rmap_rbind. apply rbind_ext. intros s4.
    change (is_subscribed (D ?s) ?i) with (is_subscribed s i).
    set (m5 := match sb_type b with WrongFeeRecipient => _ | _ => Ok s4 end).
    assert (match sb_type b with
            | WrongFeeRecipient => if is_subscribed s4 (sb_index b) then handle_ban_validator E net b (D s4) else Ok (D s4)
            | _ => Ok (D s4) end = rmap D m5) as ->.
    { unfold m5. destruct (sb_type b); try done. destruct (is_subscribed _ _); [apply dress_ban_validator|done]. }
    rewrite rbind_rmap, rmap_rbind. apply rbind_ext. intros s5.
    rewrite dress_unsubs, rbind_rmap, rmap_rbind. apply rbind_ext. intros s6.
    rewrite dress_donations, rbind_rmap, rmap_rbind. apply rbind_ext. intros s7.
    rewrite dress_bans, rbind_rmap, rmap_rbind. apply rbind_ext. intros s8. apply dress_unbans.
  Qed.
End dress.

Definition dress_oracle (h : string) (c : gmap N onchain_state) (o : oracle) : oracle := Oracle (or_cfg o) (dress h c (or_st o)).
Lemma dress_validate h c E fb o : validate_config E fb (dress_oracle h c o) = omap' (dress_oracle h c) (validate_config E fb o).
Proof.
  unfold validate_config. cbv zeta. destruct (_ || _); [done|].
  change (or_cfg (dress_oracle h c o)) with (or_cfg o).
  set (m := match ev_pool_fee (fb_events fb) with [] => inl o | _ => _ end).
  match goal with |- match ?m' with _ => _ end = _ =>
    assert (m' = match m with inl o1 => inl (dress_oracle h c o1) | inr e => inr e end) as -> end.
  { unfold m. destruct (ev_pool_fee (fb_events fb)) as [|[fee ?] ?]; [done|]. destruct (fee_schedule _ !! _); [|done].
    by destruct (_ =? _)%Z. }
  destruct m as [o1|e]; [|done]. change (or_cfg (dress_oracle h c o1)) with (or_cfg o1).
  match goal with |- match ?m' with _ => _ end = _ => destruct m' as [[]|] end; [|done|done].
  destruct (negb _); [done|]. by destruct (negb _).
Qed.
Lemma dress_advance h c E fb o : advance E fb (dress_oracle h c o) = omap' (dress_oracle h c) (advance E fb o).
Proof.
  unfold advance. cbv zeta. change (st_next (or_st (dress_oracle h c o))) with (st_next (or_st o)).
  change (st_latest (or_st (dress_oracle h c o))) with (st_latest (or_st o)).
  destruct (negb _); [done|]. destruct (negb _); [done|]. rewrite dress_validate.
  destruct (validate_config E fb o) as [o1 []|o1 e|d]; [|done|done]. cbn [omap'].
  change (or_cfg (dress_oracle h c o1)) with (or_cfg o1). change (or_st (dress_oracle h c o1)) with (dress h c (or_st o1)).
  change (summarize E (dress h c (or_st o1))) with (summarize E (or_st o1)).
  destruct (summarize _ _ _ _) as [b|d]; [|done]. change (st_next (dress h c (or_st o1))) with (st_next (or_st o1)).
  destruct (negb _); [done|]. destruct (get_donations _ _ _) as [don|d]; [|done]. rewrite dress_process.
  destruct (process_block _ _ _ _ _ (or_st o1)) as [s2|d]; [|done]. cbn [rmap].
  change (st_next (dress h c s2)) with (st_next s2).
  destruct (_ =? _)%N; [|done]. rewrite dress_cleanup. by destruct (cleanup _ _ _ s2).
Qed.
