(** Well-formed blocks are always processed. *)
From Verif Require Export SlotProofs.

Lemma era_fun net slot m m' : era net slot m → era net slot m' → m = m'.
Proof. rewrite !era_method. congruence. Qed.

(** ** Sharing always succeeds *)
Lemma total_positive r : r ≠ [] → (∀ k v, (k, v) ∈ r → (0 < b_effbal v < 9223372036854775808)%N) → (0 < total_balance r)%Z.
Proof.
  intros Hne Hb. rewrite total_balance_sum.
  assert (∀ r, (∀ k v, (k, v) ∈ r → (0 < b_effbal v < 9223372036854775808)%N) → (0 ≤ foldr Z.add 0 ((λ kv : N * bval, eff kv.2) <$> r))%Z) as Hnn.
  { intros l Hl. apply foldr_add_nonneg, Forall_forall. intros z ([k v] & -> & Hin)%elem_of_list_fmap. cbn.
    apply Hl in Hin. rewrite eff_nonneg by lia. lia. }
  destruct r as [|[k v] r]; [done|]. cbn [fmap list_fmap foldr snd].
  assert (0 < eff v)%Z.
  { destruct (Hb k v) as [? ?]; [by left|]. rewrite eff_nonneg by lia. lia. }
  assert (0 ≤ foldr Z.add 0 ((λ kv : N * bval, eff kv.2) <$> r))%Z; [|unfold fmap in *; lia].
  apply Hnn. intros k' v' Hin. apply (Hb k'). by right.
Qed.

Lemma increase_all_ok E net r s : wf_env E → responsive E → (st_feepct s ≤ 10000)%Z → (∃ m, era net (st_next s) m) →
  ∃ s', increase_all E net r s = Ok s'.
Proof.
  intros W R Hf [m Hm]. apply era_method in Hm.
  destruct (decide (elig_map (st_vals s) = ∅)) as [He|He].
  { eexists. apply increase_all_char; [done|]. do 2 eexists. split; [by apply sh_none|done]. }
  destruct m.
  - eexists. apply increase_all_char; [done|]. do 2 eexists. split; [by apply sh_pre|done].
  - eexists. apply increase_all_char; [done|]. do 2 eexists. split; [by apply sh_fork1|done].
  - destruct (e_vals E (eligible_indices E s) (st_next s)) as [resp|] eqn:Hr; [|by destruct (re_vals _ R _ _ Hr)].
    eexists. apply increase_all_char; [done|]. do 2 eexists. split; [eapply sh_electra; try done|done].
    assert (0 < total_balance resp)%Z; [|lia]. apply total_positive.
    + intros ->. pose proof (proj2 (eligible_nil E s W)) as Hn.
      destruct (eligible_indices E s) as [|i l] eqn:Hel; [by apply He, (eligible_nil E s W)|].
      pose proof (wf_vals_exact E W _ _ _ i Hr) as [_ Hx]. apply elem_of_nil in Hx; [done|by left].
    + intros k v Hin. by eapply re_balance.
Qed.

(** ** The state the handlers keep *)
Definition sane (net : string) (s : ost) : Prop :=
  nn net s ∧ (st_feepct s ≤ 10000)%Z ∧ ∃ m, era net (st_next s) m.
Lemma ctx_ok_sane E net fb b clean : wf_env E → sane_balances E →
  ctx_ok (slot_ctx E net fb b clean (λ z, 0 ≤ z)%Z) (sane net).
Proof.
  intros W Hb. pose proof (ctx_ok_nonneg E net fb b clean W Hb) as [H1 H2 H3 H4 H5]. split; try done.
  - intros s i v (Hn & _). by apply H4.
  - intros s s' Hp (Hn & Hf & He). pose proof (prim_static_bits _ _ _ Hp) as [-> ->] || idtac.
    pose proof (prim_static_bits _ _ _ Hp) as [E1 E2]. split; [by eapply H5|]. by rewrite E1, E2.
Qed.
Lemma sane_share E net r s : wf_env E → responsive E → sane net s → ∃ s', increase_all E net r s = Ok s'.
Proof. intros W R (_ & Hf & He). by apply increase_all_ok. Qed.
Lemma responsive_sane E : responsive E → sane_balances E.
Proof. intros R req slot r k v Hr Hin. pose proof (re_balance _ R _ _ _ _ _ Hr Hin). lia. Qed.

Lemma same_block_ok {A} (blk : A → N) bn l : Forall (λ x, blk x = bn) l → same_block blk l = true.
Proof.
  intros H. destruct l as [|x l]; [done|]. unfold same_block. apply forallb_forall. intros y Hy.
  rewrite Forall_forall in H. apply N.eqb_eq. rewrite (H y) by (by apply elem_of_list_In). symmetry. apply H. by left.
Qed.

Lemma upd_val_ok i f s : is_Some (st_vals s !! i) → ∃ s', upd_val i f s = Ok s'.
Proof. intros [v Hv]. unfold upd_val. rewrite Hv. eauto. Qed.
Lemma get_pend_ok i s : is_Some (st_vals s !! i) → ∃ p, get_pend i s = Ok p.
Proof. intros [v Hv]. unfold get_pend. rewrite Hv. eauto. Qed.
Lemma fsm_some i e s j : is_Some (st_vals s !! j) → is_Some (st_vals (advance_fsm i e s) !! j).
Proof. rewrite lookup_fsm'. intros [v ->]. destruct (decide _); by eexists. Qed.
Lemma upd_some i f s s' j : upd_val i f s = Ok s' → is_Some (st_vals s !! j) → is_Some (st_vals s' !! j).
Proof. intros H [v Hv]. rewrite (lookup_upd _ _ _ _ _ H), Hv. destruct (decide _); by eexists. Qed.
Lemma share_some E net r s s' j : wf_env E → increase_all E net r s = Ok s' → is_Some (st_vals s !! j) → is_Some (st_vals s' !! j).
Proof. intros W H [v Hv]. apply increase_all_char in H as (sh & fees & _ & ->); [|done]. rewrite lookup_credited, Hv. by eexists. Qed.
Lemma subscribed_some s i : is_subscribed s i = true → is_Some (st_vals s !! i).
Proof. unfold is_subscribed. destruct (st_vals s !! i); [by eexists|done]. Qed.
Lemma banned_some s i : is_banned s i = true → is_Some (st_vals s !! i).
Proof. unfold is_banned. destruct (st_vals s !! i); [by eexists|done]. Qed.

(** ** Handlers *)
Lemma equals_owner m a c w : String.length a = 20%nat → get_compatible_address_byte c = Some w →
  ∃ x, equals (addr_string m a) w = Ok x.
Proof. intros Ha (b & [Hb _] & ->)%compatible_iff. rewrite equals_addr by congruence. eauto. Qed.

Lemma handle_sub_ok E e v s : wf_request (sub_id e) (sub_sender e) v → ∃ s', handle_sub E e v s = Ok s'.
Proof.
  intros [Hl Hv]. unfold handle_sub. destruct v as [v|]; [|eauto]. rewrite (Hv v) by done. rewrite N.eqb_refl. cbn [negb].
  destruct (negb (can_subscribe v)); [eauto|]. destruct (get_compatible_address_byte (b_creds v)) as [w|] eqn:Hw; [|eauto].
  destruct (equals_owner (e_mask E) _ _ _ Hl Hw) as [x ->]. cbn [rbind]. destruct (negb x); [eauto|].
  destruct (is_banned s (sub_id e)) eqn:Hb; [by apply upd_val_ok, banned_some|].
  destruct (is_subscribed s (sub_id e)) eqn:Hs; [by apply upd_val_ok, subscribed_some|].
  destruct (negb (is_collateral_enough s (sub_coll e))); [eauto|]. destruct (_ && _); [|eauto].
  set (s1 := if is_tracked s (sub_id e) then s else _).
  assert (is_Some (st_vals s1 !! sub_id e)) as H1.
  { unfold s1, is_tracked. destruct (st_vals s !! sub_id e) eqn:Ht; [by rewrite Ht; eexists|]. cbn. rewrite lookup_insert. by eexists. }
  destruct (upd_val_ok _ (set_sub Manual) _ H1) as [s2 H2]. rewrite H2. cbn [rbind].
  destruct (upd_val_ok (sub_id e) (λ v, set_pend (v_pend v + sub_coll e) v) s2) as [s3 H3]; [by eapply upd_some|].
  unfold inc_pend. rewrite H3. cbn [rbind]. eauto.
Qed.
Lemma subs_loop_ok E l s : Forall (λ x, wf_request (sub_id x.1) (sub_sender x.1) x.2) l → ∃ s', subs_loop E l s = Ok s'.
Proof.
  revert s. induction l as [|[e v] l IH]; intros s Hl; cbn [subs_loop]; [eauto|]. inversion Hl; subst.
  destruct (handle_sub_ok E e v s) as [s1 ->]; [done|]. cbn [rbind]. by apply IH.
Qed.
Lemma Forall2_zip {A B} (P : A → B → Prop) l k : Forall2 P l k → Forall (λ x, P x.1 x.2) (zip l k) ∧ length l = length k.
Proof. induction 1 as [|x y l k Hxy _ [IH1 IH2]]; cbn; [done|]. split; [by constructor|by f_equal]. Qed.
Lemma handle_subs_ok E l vs s bn : Forall2 (λ x v, wf_request (sub_id x) (sub_sender x) v) l vs →
  Forall (λ x, l_block (sub_log x) = bn) l → ∃ s', handle_subs E l vs s = Ok s'.
Proof.
  intros H2 Hb. unfold handle_subs. rewrite (same_block_ok _ bn) by done. cbn [negb].
  apply Forall2_zip in H2 as [H2 ->]. rewrite Nat.eqb_refl. cbn [negb]. by apply subs_loop_ok.
Qed.

Lemma forfeit_ok E net i e s : wf_env E → responsive E → sane net (advance_fsm i e s) → is_Some (st_vals s !! i) →
  ∃ p s2 s3, get_pend i (advance_fsm i e s) = Ok p ∧ increase_all E net p (advance_fsm i e s) = Ok s2 ∧ reset_pend i s2 = Ok s3.
Proof.
  intros W R Hs Hi. destruct (get_pend_ok i (advance_fsm i e s)) as [p Hp]; [by apply fsm_some|].
  destruct (sane_share E net p _ W R Hs) as [s2 H2].
  destruct (upd_val_ok i (set_pend 0) s2) as [s3 H3]; [eapply share_some; [done..|by apply fsm_some]|]. by exists p, s2, s3.
Qed.
Lemma sane_fsm net i e s : sane net s → sane net (advance_fsm i e s).
Proof.
  intros ((Hp & He & Hf) & Hf' & Hm).
  assert (st_next (advance_fsm i e s) = st_next s ∧ st_feepct (advance_fsm i e s) = st_feepct s) as [Hn Hfe].
  { rewrite advance_fsm_eq. done. }
  unfold sane, nn. rewrite Hn, Hfe. split; [|done]. split; [|done].
  intros j v. rewrite lookup_fsm'. destruct (decide (i = j)); [|apply Hp].
  destruct (st_vals s !! j) as [w|] eqn:Hw; cbn; [|done]. intros [= <-]. exact (Hp j w Hw).
Qed.

Lemma handle_unsub_ok E net e v s : wf_env E → responsive E → sane net s →
  wf_request (uns_id e) (uns_sender e) v → ∃ s', handle_unsub E net e v s = Ok s'.
Proof.
  intros W R Hs [Hl Hv]. unfold handle_unsub. destruct v as [v|]; [|eauto]. rewrite (Hv v) by done. rewrite N.eqb_refl. cbn [negb].
  destruct (get_compatible_address_byte (b_creds v)) as [w|] eqn:Hw; [|eauto].
  destruct (equals_owner (e_mask E) _ _ _ Hl Hw) as [x ->]. cbn [rbind]. destruct (negb x); [eauto|].
  destruct (is_subscribed s (uns_id e)) eqn:Hsub; [|eauto].
  destruct (forfeit_ok E net (uns_id e) Unsubscribe s W R) as (p & s2 & s3 & -> & H2 & H3); [by apply sane_fsm|by apply subscribed_some|].
  cbn [rbind]. rewrite H2. cbn [rbind]. eauto.
Qed.
Lemma unsubs_loop_ok C E net l s : wf_env E → responsive E → ctx_ok C (sane net) → cx_env C = E → cx_net C = net →
  sane net s → Forall (λ x, wf_request (uns_id x.1) (uns_sender x.1) x.2 ∧ cx_evt C (uns_id x.1) Unsubscribe) l →
  ∃ s', unsubs_loop E net l s = Ok s'.
Proof.
  intros W R Ho <- <-. revert s. induction l as [|[e v] l IH]; intros s Hs Hl; cbn [unsubs_loop]; [eauto|].
  inversion Hl as [|? ? [Hw He] Hl']; subst.
  destruct (handle_unsub_ok (cx_env C) (cx_net C) e v s) as [s1 H1]; [done..|]. rewrite H1. cbn [rbind].
  apply IH; [|done]. eapply trace_inv; [exact Ho| |exact Hs]. by eapply handle_unsub_trace.
Qed.

Lemma add_subscription_ok i a k s : ∃ s', add_subscription i a k s = Ok s' ∧ is_Some (st_vals s' !! i).
Proof.
  unfold add_subscription. destruct (st_vals s !! i) as [v|] eqn:Hv.
  - assert (is_Some (st_vals s !! i)) as Hi by (by eexists).
    destruct (is_subscribed s i); [eauto|]. destruct (is_banned _ i); [eexists; split; [done|by apply fsm_some]|].
    destruct (upd_val_ok i (set_sub Auto) (advance_fsm i AutoSubscription s)) as [s' H']; [by apply fsm_some|].
    exists s'. split; [done|]. eapply upd_some; [done|]. by apply fsm_some.
  - set (s1 := set_vals _ s). assert (is_Some (st_vals s1 !! i)) as Hi by (cbn; rewrite lookup_insert; by eexists).
    destruct (upd_val_ok i (set_sub Auto) (advance_fsm i AutoSubscription s1)) as [s' H']; [by apply fsm_some|].
    exists s'. split; [done|]. eapply upd_some; [done|]. by apply fsm_some.
Qed.
Lemma handle_correct_ok E net b s : wf_env E → responsive E → sane net s → is_Some (sb_reward b) →
  ∃ s', handle_correct E net b s = Ok s'.
Proof.
  intros W R (_ & Hf & Hm) [r Hr]. unfold handle_correct.
  destruct (add_subscription_ok (sb_index b) (sb_withdrawal b) (sb_key b) s) as (s1 & H1 & Hi). rewrite H1. cbn [rbind].
  unfold deref_reward. rewrite Hr. cbn [rbind].
  pose proof (add_subscription_frame _ _ _ _ _ H1) as [Hst _]. apply static_set_feepct_parts in Hst as (_ & _ & _ & Hn & _ & _ & _ & Hf').
  destruct (increase_all_ok E net r (advance_fsm (sb_index b) ProposalOk s1)) as [s3 H3]; [done..| | |].
  { rewrite advance_fsm_eq. cbn. by rewrite Hf'. }
  { rewrite advance_fsm_eq. cbn. by rewrite Hn. }
  rewrite H3. cbn [rbind].
  assert (is_Some (st_vals s3 !! sb_index b)) as [v Hv].
  { eapply share_some; [done..|]. by apply fsm_some. }
  unfold consolidate, upd_val. rewrite Hv. cbn [rbind]. eauto.
Qed.
Lemma handle_ban_ok E net b s : wf_env E → responsive E → sane net s → is_Some (st_vals s !! sb_index b) →
  ∃ s', handle_ban_validator E net b s = Ok s'.
Proof.
  intros W R Hs Hi. unfold handle_ban_validator.
  destruct (forfeit_ok E net (sb_index b) ProposalWrongFee s W R) as (p & s2 & s3 & -> & H2 & H3); [by apply sane_fsm|done|].
  cbn [rbind]. rewrite H2. cbn [rbind]. rewrite H3. cbn [rbind]. eauto.
Qed.
Lemma donations_loop_ok C net l s : responsive (cx_env C) → ctx_ok C (sane net) → cx_net C = net →
  sane net s → Forall (λ x, cx_amt C (er_amount x)) l → ∃ s', donations_loop (cx_env C) net l s = Ok s'.
Proof.
  intros R Ho <-. revert s. induction l as [|d l IH]; intros s Hs Hl; cbn [donations_loop]; [eauto|]. inversion Hl; subst.
  destruct (sane_share (cx_env C) (cx_net C) (er_amount d) s (co_env _ _ Ho) R Hs) as [s1 Hsh]. rewrite Hsh. cbn [rbind].
  apply IH; [|done]. eapply trace_inv; [exact Ho| |exact Hs]. eapply trace_step; [by eapply p_share|]. by apply trace_one, p_rec.
Qed.
Lemma bans_loop_ok l t s : ∃ t' s', bans_loop l t s = Ok (t', s').
Proof.
  revert t s. induction l as [|b l IH]; intros t s; cbn [bans_loop]; [eauto|].
  destruct (is_subscribed s (ban_id b)) eqn:Hs; cbn [negb]; [|apply IH]. apply subscribed_some in Hs.
  destruct (get_pend_ok (ban_id b) (advance_fsm (ban_id b) ManualBan s)) as [p ->]; [by apply fsm_some|]. cbn [rbind].
  destruct (upd_val_ok (ban_id b) (set_pend 0) (advance_fsm (ban_id b) ManualBan s)) as [s2 H2]; [by apply fsm_some|].
  unfold reset_pend. rewrite H2. cbn [rbind]. apply IH.
Qed.
Lemma handle_bans_ok C net l s bn : responsive (cx_env C) → ctx_ok C (sane net) → cx_net C = net → (∀ z, cx_amt C z → (0 ≤ z)%Z) →
  sane net s → Forall (λ x, cx_evt C (ban_id x) ManualBan) l → Forall (λ x, l_block (ban_log x) = bn) l →
  ∃ s', handle_bans (cx_env C) net l s = Ok s'.
Proof.
  intros R Ho <- Hz Hs He Hb. unfold handle_bans. destruct l as [|b0 l0]; [eauto|].
  rewrite (same_block_ok _ bn) by done. cbn [negb]. destruct (bans_loop_ok (b0 :: l0) 0 s) as (t & s1 & H1).
  rewrite H1. cbn [rbind].
  destruct (bans_loop_trace C (sane (cx_net C)) _ _ _ _ _ Ho Hs (co_zero _ _ Ho) He H1) as [Ht Ha]. apply Hz in Ha.
  destruct (Z.ltb_spec t 0); [lia|]. destruct (0 <? t)%Z; [|eauto].
  apply sane_share; [apply Ho|done|]. by eapply trace_inv.
Qed.

(** ** Cleanup *)
Lemma consolidate_ok E slot i t p d s : wf_env E → responsive E →
  (∀ req r v, e_vals E req slot = Some r → (t, v) ∈ r → ∃ w, exec_address (b_creds v) w) →
  ∃ s' d', cleanup_consolidate E slot i t p d s = Done s' d' ∧ ∀ j, is_Some (st_vals s !! j) → is_Some (st_vals s' !! j).
Proof.
  intros W R Ht. unfold cleanup_consolidate. destruct (is_tracked s t) eqn:Htr; cbn [andb negb].
  - destruct (is_banned s t); cbn [negb]; [eauto|].
    destruct (upd_val_ok t (λ v, set_pend (v_pend v + p) v) s) as [s1 H1].
    { unfold is_tracked in Htr. destruct (st_vals s !! t); [by eexists|done]. }
    unfold inc_pend. rewrite H1. do 2 eexists. split; [done|]. intros j. by eapply upd_some.
  - destruct (e_vals E [t] slot) as [r|] eqn:Hr; [|by destruct (re_vals _ R _ _ Hr)].
    pose proof (proj2 (wf_vals_exact _ W _ _ _ t Hr)) as Hin. destruct (list_to_map r !! t) as [tv|] eqn:Htv.
    + destruct (Ht _ _ tv Hr) as [w Hw]; [by apply elem_of_list_to_map_2|].
      destruct (get_compatible_address_byte (b_creds tv)) as [w'|] eqn:Hc.
      * do 2 eexists. split; [done|]. intros j Hj. cbn. destruct (decide (t = j)) as [->|Hne]; [by rewrite lookup_insert; eexists|by rewrite lookup_insert_ne].
      * by destruct (proj1 (compatible_none _) Hc w).
    + apply not_elem_of_list_to_map in Htv. destruct Htv. apply Hin. by left.
Qed.
Lemma cleanup_one_ok E slot pcs v d s : wf_env E → responsive E → (pcs = [] ∨ e_cons E slot = Some pcs) →
  is_Some (st_vals s !! b_index v) →
  ∃ s' d', cleanup_one E slot (source_to_target pcs) v d s = Done s' d' ∧ ∀ j, is_Some (st_vals s !! j) → is_Some (st_vals s' !! j).
Proof.
  intros W R Hc [vi Hv]. unfold cleanup_one. destruct (bstate_is_active (b_status v)); [eauto|]. rewrite Hv.
  destruct (v_pend vi =? 0)%Z; [eauto|]. set (s1 := advance_fsm (b_index v) Unsubscribe s).
  assert (∀ j, is_Some (st_vals s !! j) → is_Some (st_vals s1 !! j)) as H1 by (intros j; apply fsm_some).
  assert (∃ s2 d2, match source_to_target pcs !! b_index v with
                   | Some t => cleanup_consolidate E slot (b_index v) t (v_pend vi) d s1
                   | None => Done s1 (d + v_pend vi)%Z end = Done s2 d2 ∧
                   ∀ j, is_Some (st_vals s1 !! j) → is_Some (st_vals s2 !! j)) as (s2 & d2 & -> & H2).
  { destruct (source_to_target pcs !! b_index v) as [t|] eqn:Ht; [|eauto]. apply source_target in Ht.
    destruct Hc as [->|Hc]; [by apply elem_of_nil in Ht|]. apply consolidate_ok; [done..|].
    intros req r tv Hr Hin. by eapply re_target. }
  destruct (upd_val_ok (b_index v) (set_pend 0) s2) as [s3 H3]; [by apply H2, H1; eexists|].
  unfold reset_pend. rewrite H3. do 2 eexists. split; [done|]. intros j Hj. eapply upd_some; [done|]. auto.
Qed.
Lemma cleanup_loop_ok E slot pcs r d s : wf_env E → responsive E → (pcs = [] ∨ e_cons E slot = Some pcs) →
  Forall (λ kv : N * bval, is_Some (st_vals s !! b_index kv.2)) r →
  ∃ s' d', cleanup_loop E slot (source_to_target pcs) r d s = Done s' d'.
Proof.
  intros W R Hc. revert d s. induction r as [|kv r IH]; intros d s Hr; cbn [cleanup_loop]; [eauto|].
  inversion Hr as [|? ? H1 H2]; subst. destruct (cleanup_one_ok E slot pcs kv.2 d s W R Hc H1) as (s1 & d1 & -> & Hs1).
  apply IH. eapply Forall_impl; [exact H2|]. cbn. auto.
Qed.
Lemma cleanup_ok C net slot s : responsive (cx_env C) → ctx_ok C (sane net) → cx_net C = net →
  sane net s → (∀ i, cx_evt C i Unsubscribe) →
  (∀ t r tv waddr, e_vals (cx_env C) [t] slot = Some r → (list_to_map r : gmap N bval) !! t = Some tv →
     get_compatible_address_byte (b_creds tv) = Some waddr → cx_new C t 0 waddr (hexutil_encode (b_pubkey tv))) →
  ∃ s', cleanup (cx_env C) net slot s = Done s' tt.
Proof.
  intros R Ho <- Hs He Hn. pose proof (co_env _ _ Ho) as W. unfold cleanup. destruct (_ <=? slot)%N; [|eauto].
  destruct (e_iter (cx_env C) (st_vals s)).*1 as [|i0 l0] eqn:Hit; [eauto|].
  assert (∃ pcs, (if (default 0%N (slot_electra (cx_net C)) <=? slot)%N then e_cons (cx_env C) slot else Some []) = Some pcs ∧
    (pcs = [] ∨ e_cons (cx_env C) slot = Some pcs)) as (pcs & -> & Hpcs).
  { destruct (_ <=? slot)%N; [|eauto]. destruct (e_cons (cx_env C) slot) as [l|] eqn:Hl; [eauto|]. by destruct (re_cons _ R slot). }
  destruct (e_vals (cx_env C) (i0 :: l0) slot) as [r|] eqn:Hr; [|by destruct (re_vals _ R _ _ Hr)].
  destruct (cleanup_loop_ok (cx_env C) slot pcs r 0 s W R Hpcs) as (s1 & d & Hl).
  { apply Forall_forall. intros [k v] Hin. cbn. rewrite (wf_vals_index _ W _ _ _ _ _ Hr Hin).
    assert (k ∈ r.*1) as Hk by (apply elem_of_list_fmap; by exists (k, v)).
    apply (wf_vals_exact _ W _ _ _ k Hr) in Hk. rewrite <-Hit in Hk. rewrite (wf_iter _ W) in Hk.
    apply elem_of_list_fmap in Hk as ([k' vi] & -> & Hk). apply elem_of_map_to_list in Hk. by eexists. }
  rewrite Hl. destruct (d =? 0)%Z; [eauto|].
  pose proof (cleanup_loop_trace C (sane (cx_net C)) slot (source_to_target pcs) r 0 s Ho Hs (co_zero _ _ Ho) He (λ t r' tv w _, Hn t r' tv w)) as Ht.
  rewrite Hl in Ht. destruct Ht as [Ht _].
  destruct (sane_share (cx_env C) (cx_net C) d s1 W R) as [s2 ->]; [by eapply trace_inv|eauto].
Qed.

(** ** Reading the block *)
Lemma withdrawal_ok v : String.length (b_creds v) = 32%nat → ∃ a w, withdrawal_and_type v = Ok (a, w).
Proof.
  intros H. unfold withdrawal_and_type. rewrite hex_encode_length, H. cbn [Nat.mul Nat.add Nat.eqb negb].
  repeat case_match; eauto.
Qed.
Lemma mev_ok E fb p txs : payload_of fb p → p_txs p = Some <$> txs → Forall (λ t, is_Some (tx_sender t)) txs →
  addrs20 fb → ordinary fb → fb_chain fb ∈ [1; 17000; 560048]%N → ∃ r m a, mev_reward E fb = Ok (r, m, a).
Proof.
  intros Hp Htx Hs H20 Hord Hch. pose proof (proj2 (get_payload_spec _ _) Hp) as Hpay. unfold mev_reward, get_txs, get_fee_recipient.
  rewrite Hpay. cbn [rbind]. destruct (head (rev (p_txs p))) as [ot|] eqn:Hh; [|eauto].
  assert (ot ∈ p_txs p) as Hin. { apply last_snoc in Hh as [l' ->]. apply elem_of_app. right. by left. }
  rewrite Htx in Hin. apply elem_of_list_fmap in Hin as (t & -> & Hin).
  assert (Some t ∈ p_txs p) as Hin' by (rewrite Htx; by apply elem_of_list_fmap_1).
  destruct (tx_to t) as [to|] eqn:Hto; [|eauto]. rewrite Forall_forall in Hs. destruct (Hs t Hin) as [snd Hsnd]. rewrite Hsnd.
  assert (∃ wl, whitelisted_builders (fb_chain fb) = Some wl) as [wl Hwl].
  { repeat (apply elem_of_cons in Hch as [->|Hch]; [by eexists|]). by apply elem_of_nil in Hch. }
  rewrite Hwl. destruct Hp as (c & Hc & Hv1 & Hv2 & ->).
  assert ((if (fb_chain fb =? MainnetChainId)%N then let! s := get_slot fb in Ok (s =? exception_slot)%N else Ok false) = Ok false) as ->.
  { destruct (N.eqb_spec (fb_chain fb) MainnetChainId) as [H1|]; [|done]. unfold get_slot, need_cblock. rewrite Hc. cbn [rbind].
    pose proof (Hord H1 c Hc) as Hne. destruct (cb_version c); try done; cbn [rbind]; unfold exception_slot; by rewrite (proj2 (N.eqb_neq _ _) Hne). }
  cbn [rbind].
  assert (payload_of fb (cb_payload c)) as Hp by (by exists c).
  pose proof (a20_from _ H20 _ _ _ Hp Hin' Hsnd) as Lsnd. pose proof (a20_fee _ H20 _ Hp) as Lfee.
  rewrite equals_addrs by done. cbn [rbind]. destruct (bool_decide _); cbn [rbind].
  { case_match; eauto. }
  destruct (is_in_whitelist E _ wl snd Lsnd Hwl) as (x & -> & _). cbn [rbind]. destruct x; [|eauto]. case_match; eauto.
Qed.
Lemma complete_payload fb base txs rs : complete_block fb base txs rs → ∃ c p, fb_cblock fb = Some c ∧ cb_version c ≠ VEmpty ∧ payload_of fb p ∧ p_txs p = Some <$> txs.
Proof.
  intros [(c & h & Hc & Hb & Htx & _) _ _]. exists c, (cb_payload c). split; [done|].
  assert (cb_version c ≠ VEmpty ∧ cb_version c ≠ VAltair) as [H1 H2].
  { destruct Hb as [[[H|H] _]|[[H|[H|H]] _]]; rewrite H; done. }
  split; [done|]. split; [by exists c|done].
Qed.
Lemma sent_reward_ok E pool pool20 sub fb base txs rs : names pool20 pool → addrs20 fb → ordinary fb →
  fb_chain fb ∈ [1; 17000; 560048]%N → complete_block fb base txs rs → Forall (λ t, is_Some (tx_sender t)) txs →
  ∃ r ok rt, sent_reward E pool sub fb = Ok (Some r, ok, rt).
Proof.
  intros Hn H20 Hord Hch Hc Hs. destruct (complete_payload _ _ _ _ Hc) as (c & p & _ & _ & Hp & Htx).
  destruct (mev_ok E fb p txs) as (r & m & a & Hm); [done..|]. unfold sent_reward. rewrite Hm. cbn [rbind].
  pose proof (mev_reward_spec E fb r m a H20 Hord Hm) as Hspec. destruct m.
  - destruct Hspec as (x & _ & Lx & ->). rewrite (names_equals_lower _ _ _ _ Hn Lx). cbn [rbind]. eauto.
  - unfold get_fee_recipient. rewrite (proj2 (get_payload_spec _ _) Hp). cbn [rbind].
    rewrite (names_equals _ _ _ _ Hn (a20_fee _ H20 _ Hp)). cbn [rbind]. destruct (_ || _); [|eauto].
    rewrite (vanilla_tip _ _ _ _ Hc). cbn [rbind]. eauto.
Qed.
Lemma summarize_ok E s c pool pool20 fb : names pool20 pool → addrs20 fb → ordinary fb → served c pool20 fb →
  ∃ b, summarize E s pool fb = Ok b ∧ is_Some (sb_reward b) ∧ sb_slot b = fb_duty_slot fb.
Proof.
  intros Hn H20 Hord Hse. unfold summarize. destruct (withdrawal_ok _ (se_creds _ _ _ Hse)) as (a & w & ->). cbn [rbind].
  destruct (se_block _ _ _ Hse) as [->|(base & txs & rs & Hc & Hs)].
  { eexists. split; [done|]. split; [by eexists|done]. }
  destruct (complete_payload _ _ _ _ Hc) as (cb & p & Hcb & Hv & Hp & Htx).
  unfold get_proposer, get_number, need_cblock. rewrite Hcb. cbn [rbind].
  assert (∀ x : res N, (match cb_version cb with VEmpty => x | _ => Ok (cb_proposer cb) end) = Ok (cb_proposer cb)) as Hpr.
  { intros x. by destruct (cb_version cb). }
  rewrite Hpr. cbn [rbind].
  destruct (sent_reward_ok E pool pool20 (is_subscribed s (cb_proposer cb)) fb base txs rs) as (r & ok & rt & ->); try done; [apply Hse|].
  cbn [rbind]. rewrite (proj2 (get_payload_spec _ _) Hp). cbn [rbind]. eexists. split; [done|]. split; [by eexists|done].
Qed.
Lemma donations_ok E c pool pool20 fb : names pool20 pool → addrs20 fb → ordinary fb → served c pool20 fb →
  ∃ don, get_donations E pool fb = Ok don.
Proof.
  intros Hn H20 Hord Hse. unfold get_donations. destruct (se_block _ _ _ Hse) as [->|(base & txs & rs & Hc & Hs)]; [eauto|].
  destruct (complete_payload _ _ _ _ Hc) as (cb & p & Hcb & Hv & Hp & Htx). rewrite Hcb.
  destruct (mev_ok E fb p txs) as (r & m & a & Hm); try done; [apply Hse|]. rewrite Hm. cbn [rbind].
  pose proof (mev_reward_spec E fb r m a H20 Hord Hm) as Hspec. destruct m; cbn [rbind negb]; [|eauto].
  destruct Hspec as (x & Hx & Lx & ->). rewrite (names_equals_lower _ _ _ _ Hn Lx). cbn [rbind].
  destruct (bool_decide_reflect (x = pool20)) as [->|]; cbn [negb]; [|eauto].
  destruct (se_mev _ _ _ Hse r Hx) as (e & He & <-).
  rewrite (proj2 (existsb_exists _ _)); [eauto|]. exists e. split; [by apply elem_of_list_In|apply Z.eqb_refl].
Qed.
Lemma validate_ok E fb o pool20 : (∃ f20, names f20 (c_fees_addr (or_cfg o))) → served (or_cfg o) pool20 fb →
  ∃ o1, validate_config E fb o = Done o1 tt.
Proof.
  intros Hf Hse. destruct (validate_params E fb o Hf) as [Hvp _].
  { intros a l Hin. by destruct (an_recipient _ _ (se_params _ _ _ Hse) a l Hin). }
  rewrite Hvp by apply Hse. unfold validate_config. cbn [without_params fb_events ev_pool_fee ev_fee_recipient ev_checkpoint_size ev_collateral fb_duty_slot].
  destruct (se_fee _ _ _ Hse) as [->|(z & l & -> & Hin)]; [eauto|].
  pose proof (proj2 (schedule_spec _ _ _) Hin) as ->. 
  assert (int64_of_big z = z) as ->.
  { apply int64_of_big_small. repeat (apply elem_of_cons in Hin as [[= _ _ ->]|Hin]; [lia|]). by apply elem_of_nil in Hin. }
  rewrite Z.eqb_refl. cbn. eauto.
Qed.

(** ** The whole block *)
Lemma unsubs_ok C net l vs s bn : wf_env (cx_env C) → responsive (cx_env C) → ctx_ok C (sane net) → cx_net C = net → sane net s →
  Forall2 (λ x v, wf_request (uns_id x) (uns_sender x) v) l vs → Forall (λ x, l_block (uns_log x) = bn) l →
  Forall (λ x, cx_evt C (uns_id x) Unsubscribe) l → ∃ s', handle_unsubs (cx_env C) net l vs s = Ok s'.
Proof.
  intros W R Ho Hnet Hs H2 Hb He. unfold handle_unsubs. rewrite (same_block_ok _ bn) by done. cbn [negb].
  apply Forall2_zip in H2 as [H2 ->]. rewrite Nat.eqb_refl. cbn [negb].
  eapply unsubs_loop_ok; try done. apply Forall_forall. intros [x v] Hx. rewrite Forall_forall in H2. rewrite Forall_forall in He.
  split; [by apply H2|]. apply He. by apply elem_of_zip_l in Hx.
Qed.

Lemma process_ok E net c pool20 fb b don clean s : wf_env E → responsive E → served c pool20 fb → sane net s →
  Forall (λ x, 0 ≤ sub_coll x)%Z (ev_subscribe (fb_events fb)) →
  (∀ r, sb_reward b = Some r → (0 ≤ r)%Z) → is_Some (sb_reward b) →
  (sb_type b = OkPoolProposal → lower_address (sb_withdrawal b)) →
  Forall (λ x, 0 ≤ er_amount x)%Z don → (∀ x, x ∈ don → x ∈ ev_ether_received (fb_events fb)) →
  ∃ s', process_block E net fb b don s = Ok s' ∧ trace (slot_ctx E net fb b clean (λ z, 0 ≤ z)%Z) s s'.
Proof.
  intros W R Hse Hs Hsub Hrew Hr Haddr Hdon Hdin.
  set (C := slot_ctx E net fb b clean (λ z, 0 ≤ z)%Z).
  assert (ctx_ok C (sane net)) as Ho by (by apply ctx_ok_sane, responsive_sane).
  destruct (se_number _ _ _ Hse) as (bn & Hn1 & Hn2 & Hn3 & Hn4 & Hn5).
  assert (∃ s', process_block E net fb b don s = Ok s') as [s' Hp].
  2:{ exists s'. split; [done|]. eapply process_block_trace; [exact Ho|done..]. }
  unfold process_block. set (s0 := set_events _ _ _ s).
  assert (sane net s0) as Hs0 by done.
  destruct (handle_subs_ok E (ev_subscribe (fb_events fb)) (fb_subs fb) s0 bn) as [s1 H1]; [apply Hse|done|]. rewrite H1. cbn [rbind].
  assert (sane net s1) as Hs1.
  { eapply trace_inv; [exact Ho| |exact Hs0]. eapply handle_subs_trace; [exact Ho| |done]. apply Forall_forall. intros [x v] Hx.
    apply elem_of_zip_l in Hx. rewrite Forall_forall in Hsub. split; [by apply Hsub|]. split; [by exists x|]. split; [by exists x|].
    intros v' w _ _ Hw. split; [by eapply compatible_lower|right; by exists x]. }
  match goal with |- context [rbind (match sb_type b with OkPoolProposalBlsKeys => handle_bls b ?y | _ => _ end) _] => set (s2 := y) end.
  assert (∀ k : ost → res ost, (∀ x, sane net x → ∃ y, k x = Ok y) → ∃ y,
    (let! s3 := (match sb_type b with OkPoolProposalBlsKeys => handle_bls b s2 | _ => Ok s2 end) in
     let! s4 := (match sb_type b with OkPoolProposal => handle_correct E net b s3 | _ => Ok s3 end) in
     let! s5 := (match sb_type b with
              | WrongFeeRecipient => if is_subscribed s4 (sb_index b) then handle_ban_validator E net b s4 else Ok s4
              | _ => Ok s4
              end) in k s5) = Ok y) as Hmid.
  { intros k Hk. unfold s2. destruct (sb_type b) eqn:Hbt; cbn [rbind]; try by apply Hk.
    - apply Hk. destruct (is_subscribed s1 (sb_index b)); [|done].
      eapply trace_inv; [exact Ho| |exact Hs1]. by apply handle_missed_trace.
    - destruct (is_subscribed s1 (sb_index b)) eqn:Hsb; cbn [rbind]; [|by apply Hk].
      destruct (handle_ban_ok E net b s1 W R Hs1 (subscribed_some _ _ Hsb)) as [x Hx]. rewrite Hx. cbn [rbind]. apply Hk.
      eapply trace_inv; [exact Ho| |exact Hs1]. eapply (handle_ban_validator_trace C); [exact Ho|done| |exact Hx]. done.
    - destruct (handle_correct_ok E net b s1 W R Hs1 Hr) as [x Hx]. rewrite Hx. cbn [rbind]. apply Hk.
      eapply trace_inv; [exact Ho| |exact Hs1]. eapply (handle_correct_trace C); [exact Ho|done|done| | |done|exact Hx].
      + split; [by apply Haddr|left; auto].
      + done.
    - assert (∃ x, handle_bls b s1 = Ok x) as [x Hx].
      { unfold handle_bls, deref_reward. rewrite Hbt. destruct Hr as [r ->]. cbn [rbind]. eauto. }
      rewrite Hx. cbn [rbind]. apply Hk.
      eapply trace_inv; [exact Ho| |exact Hs1]. eapply (handle_bls_trace C); [|exact Hx]. done. }
  apply Hmid. intros s5 Hs5.
  assert (Forall (λ x, cx_evt C (uns_id x) Unsubscribe) (ev_unsubscribe (fb_events fb))) as Hev.
  { apply Forall_forall. intros x Hx. left. by exists x. }
  destruct (unsubs_ok C net (ev_unsubscribe (fb_events fb)) (fb_unsubs fb) s5 bn W R Ho eq_refl Hs5) as [s6 H6]; [apply Hse|done..|].
  change (cx_env C) with E in H6. rewrite H6. cbn [rbind].
  assert (sane net s6) as Hs6.
  { eapply trace_inv; [exact Ho| |exact Hs5]. eapply (handle_unsubs_trace C); [exact Ho|done|done|exact H6]. }
  assert (∃ s7, handle_donations E net don s6 = Ok s7) as [s7 H7].
  { unfold handle_donations. rewrite (same_block_ok _ bn).
    - by apply (donations_loop_ok C).
    - apply Forall_forall. intros x Hx. rewrite Forall_forall in Hn1. by apply Hn1, Hdin. }
  rewrite H7. cbn [rbind].
  assert (sane net s7) as Hs7.
  { eapply trace_inv; [exact Ho| |exact Hs6]. eapply (handle_donations_trace C); [|exact H7]. done. }
  assert (Forall (λ x, cx_evt C (ban_id x) ManualBan) (ev_bans (fb_events fb))) as Hban.
  { apply Forall_forall. intros x Hx. by exists x. }
  destruct (handle_bans_ok C net (ev_bans (fb_events fb)) s7 bn R Ho eq_refl) as [s8 H8]; [done..|].
  change (cx_env C) with E in H8. rewrite H8. cbn [rbind]. unfold handle_unbans. rewrite (same_block_ok _ bn) by done. cbn [negb]. eauto.
Qed.

Lemma summarize_address E s pool fb b : summarize E s pool fb = Ok b → sb_type b = OkPoolProposal → lower_address (sb_withdrawal b).
Proof.
  unfold summarize. intros Hs. destruct (withdrawal_and_type (fb_validator fb)) as [[wa wt]|] eqn:Hw; [|discriminate]. cbn [rbind] in Hs.
  destruct (fb_cblock fb); [|injection Hs as <-; done]. inv_res. subst b. cbn. intros Hok.
  eapply withdrawal_lower; [done|]. intros ->. by case_match.
Qed.

(** C58 *)
Lemma advance_ok E fb o pool20 : wf_env E → responsive E → names pool20 (c_pool (or_cfg o)) → addrs20 fb → ordinary fb →
  served (or_cfg o) pool20 fb → ready o (fb_duty_slot fb) → nonneg_block E (c_pool (or_cfg o)) fb →
  ∃ o' n, advance E fb o = Done o' n.
Proof.
  intros W R Hn H20 Hord Hse [Hslot Hlat Hera Hfee Hf20 Hpend] Hnb. unfold advance.
  rewrite (proj2 (N.eqb_eq _ _) Hlat), (proj2 (N.eqb_eq _ _) Hslot). cbn [negb].
  destruct (validate_ok E fb o pool20 Hf20 Hse) as [o1 Hv]. rewrite Hv.
  assert (0 ≤ st_feepct (or_st o1) ≤ 10000)%Z as Hfee1.
  { apply validate_config_inv in Hv as [->|(fee & lg & l & _ & Hs & ->)]; [done|]. cbn.
    apply schedule_spec in Hs. repeat (apply elem_of_cons in Hs as [Hs|Hs]; [injection Hs as _ _ ->; lia|]). by apply elem_of_nil in Hs. }
  apply validate_config_frame in Hv as (Hnet & Hpool & _ & Hvals & Hfees & _ & _ & _ & Hnext & _).
  rewrite Hnet, Hpool, Hnext in *. set (net := c_network (or_cfg o)) in *. set (pool := c_pool (or_cfg o)) in *.
  destruct (summarize_ok E (or_st o1) (or_cfg o) pool pool20 fb Hn H20 Hord Hse) as (b & Hb & Hr & Hsl). rewrite Hb, Hsl.
  rewrite (proj2 (N.eqb_eq _ _) Hslot). cbn [negb].
  destruct (donations_ok E (or_cfg o) pool pool20 fb Hn H20 Hord Hse) as (don & Hd). rewrite Hd.
  assert (sane net (or_st o1)) as Hs.
  { unfold sane, nn. rewrite Hnext, Hslot. split; [|split; [lia|destruct Hera; eauto]]. split; [|split; [|lia]].
    - intros i v. rewrite Hvals. apply Hpend.
    - intros Hpre. destruct Hera as [He|He]; by pose proof (era_fun _ _ _ _ Hpre He). }
  set (clean := (st_next (or_st o) mod 1200 =? 0)%N).
  destruct (process_ok E net (or_cfg o) pool20 fb b don clean (or_st o1)) as (s2 & H2 & Ht); try done.
  { apply Hnb. }
  { intros r. by eapply Hnb. }
  { by eapply summarize_address. }
  { apply Forall_forall. intros x Hx. eapply donations_subset in Hx; [|done].
    pose proof (nb_ether _ _ _ Hnb) as Hne. rewrite Forall_forall in Hne. by apply Hne. }
  { intros x Hx. by eapply donations_subset. }
  rewrite H2. rewrite (process_next _ _ _ _ _ _ _ H2), Hnext. fold clean. destruct clean eqn:Hcl; [|eauto].
  set (C := slot_ctx E net fb b true (λ z, 0 ≤ z)%Z) in *.
  assert (ctx_ok C (sane net)) as Ho by (by apply ctx_ok_sane, responsive_sane).
  destruct (cleanup_ok C net (st_next (or_st o)) s2) as [s3 H3]; try done.
  { by eapply trace_inv. }
  { intros i. by right. }
  { intros t r tv w _ _ Hw. split; [by eapply compatible_lower|left; auto]. }
  change (cx_env C) with E in H3. rewrite H3. eauto.
Qed.

(** Being ready is kept, so a whole chain of good slots is processed. *)
Lemma served_cfg c c' pool20 fb : c_network c' = c_network c → c_fees_addr c' = c_fees_addr c → c_cp_size c' = c_cp_size c →
  c_coll c' = c_coll c → served c pool20 fb → served c' pool20 fb.
Proof.
  intros H1 H2 H3 H4 [A1 A2 A3 A4 A5 A6 A7 [B1 B2 B3 B4] A9]. split; try done; [split; rewrite ?H2, ?H3, ?H4; done|by rewrite H1].
Qed.
Lemma advance_cfg_all E fb o o' n : advance E fb o = Done o' n →
  c_network (or_cfg o') = c_network (or_cfg o) ∧ c_pool (or_cfg o') = c_pool (or_cfg o) ∧
  c_fees_addr (or_cfg o') = c_fees_addr (or_cfg o) ∧ c_cp_size (or_cfg o') = c_cp_size (or_cfg o) ∧ c_coll (or_cfg o') = c_coll (or_cfg o).
Proof.
  intros (o1 & b & don & s2 & s3 & _ & _ & Hv & _ & _ & _ & _ & _ & -> & _)%advance_inv.
  apply validate_config_inv in Hv as [->|(fee & lg & l & _ & _ & ->)]; done.
Qed.
Lemma advance_fee_bound E fb o o' n : advance E fb o = Done o' n → (0 ≤ st_feepct (or_st o) ≤ 10000)%Z →
  (0 ≤ st_feepct (or_st o') ≤ 10000)%Z.
Proof.
  intros [(H1 & H2 & H3)|(fee & lg & z & H1 & H2 & H3 & H4 & H5)]%advance_fee Hf; [by rewrite H1|].
  rewrite H4. apply schedule_spec in H3.
  repeat (apply elem_of_cons in H3 as [Hs|H3]; [injection Hs as _ _ Hz; lia|]). by apply elem_of_nil in H3.
Qed.
Lemma advance_ready E fb o o' n slot : wf_env E → responsive E → nonneg_block E (c_pool (or_cfg o)) fb →
  ready o (fb_duty_slot fb) → advance E fb o = Done o' n → (fb_duty_slot fb + 1 < two64)%N → slot = (fb_duty_slot fb + 1)%N →
  era (c_network (or_cfg o)) slot Fork1 ∨ era (c_network (or_cfg o)) slot Electra → ready o' slot.
Proof.
  intros W R Hnb [Hslot Hlat Hera Hfee Hf20 Hpend] H Hb -> Hera'.
  pose proof (advance_slots _ _ _ _ _ H) as (-> & _ & _ & Hl' & Hn').
  pose proof (advance_cfg_all _ _ _ _ _ H) as (Hnet & Hpool & Hfa & _).
  assert (u64_add (fb_duty_slot fb) 1 = fb_duty_slot fb + 1)%N as Hu by (by apply u64_small).
  split.
  - by rewrite Hn'.
  - by rewrite Hl', Hn'.
  - by rewrite Hnet.
  - by eapply advance_fee_bound.
  - by rewrite Hfa.
  - eapply advance_grows in H as (_ & Hp & _); try done; [by apply responsive_sane| |lia].
    intros Hpre. destruct Hera as [He|He]; by pose proof (era_fun _ _ _ _ Hpre He).
Qed.
Lemma run_ok c pool20 l o slot : names pool20 (c_pool c) → or_cfg o = c → ready o slot →
  Forall (λ x, good_slot c pool20 x.1 x.2) l → consecutive slot l → (slot + N.of_nat (length l) < two64)%N →
  ∃ o', run o l o'.
Proof.
  intros Hn Hc. assert (c_network (or_cfg o) = c_network c ∧ c_pool (or_cfg o) = c_pool c ∧ c_fees_addr (or_cfg o) = c_fees_addr c ∧
    c_cp_size (or_cfg o) = c_cp_size c ∧ c_coll (or_cfg o) = c_coll c) as Hcfg by (by rewrite Hc).
  clear Hc. revert o slot Hcfg.
  induction l as [|[E fb] l IH]; intros o slot Hcfg Hr Hl Hcons Hb; [eexists; constructor|].
  destruct Hcons as [Hslot Hcons]. cbn in Hslot. inversion Hl as [|? ? [G1 G2 G3 G4 G5 G6 G7] Hl']; subst. cbn in G1, G2, G3, G4, G5, G6, G7.
  destruct Hcfg as (C1 & C2 & C3 & C4 & C5).
  destruct (advance_ok E fb o pool20) as (o1 & n & H1); try done.
  { by rewrite C2. }
  { by apply (served_cfg c). }
  { by rewrite C2. }
  cbn [length] in Hb. destruct l as [|[E2 fb2] l2].
  { exists o1. econstructor; [exact H1|constructor]. }
  destruct (IH o1 (fb_duty_slot fb + 1)%N) as [o2 H2]; try done.
  - apply advance_cfg_all in H1 as (D1 & D2 & D3 & D4 & D5). rewrite D1, D2, D3, D4, D5. done.
  - eapply advance_ready; try done; [by rewrite C2|lia|]. rewrite C1.
    inversion Hl' as [|? ? G8 _]; subst. destruct Hcons as [<- _]. apply (gs_era _ _ _ _ G8).
  - lia.
  - exists o2. by econstructor.
Qed.

Lemma good_advance E fb o pool20 : names pool20 (c_pool (or_cfg o)) → good_slot (or_cfg o) pool20 E fb → ready o (fb_duty_slot fb) →
  ∃ o', advance E fb o = Done o' (fb_duty_slot fb).
Proof.
  intros Hn [G1 G2 G3 G4 G5 G6 _] Hr. destruct (advance_ok E fb o pool20) as (o' & n & H); try done.
  exists o'. rewrite H. apply advance_slots in H as (-> & _). done.
Qed.
Lemma good_run o l slot pool20 : names pool20 (c_pool (or_cfg o)) → ready o slot →
  Forall (λ x, good_slot (or_cfg o) pool20 x.1 x.2) l → consecutive slot l → (slot + N.of_nat (length l) < 2 ^ 64)%N →
  ∃ o', run o l o' ∧ st_next (or_st o') = (slot + N.of_nat (length l))%N.
Proof.
  intros Hn Hr Hl Hc Hb. destruct (run_ok (or_cfg o) pool20 l o slot) as [o' H]; [done..|]. exists o'. split; [done|].
  pose proof (rd_slot _ _ Hr) as Hs. destruct (run_order _ _ _ H) as [He _]; [by rewrite Hs|]. by rewrite He, Hs.
Qed.
Lemma good_donation E fb o pool20 : names pool20 (c_pool (or_cfg o)) → good_slot (or_cfg o) pool20 E fb → ready o (fb_duty_slot fb) →
  fb_cblock fb ≠ None → (∀ r, ¬ mev_payment fb r pool20) →
  ∃ o' n, advance E fb o = Done o' n ∧ st_donations (or_st o') = st_donations (or_st o) ++ ev_ether_received (fb_events fb).
Proof.
  intros Hn G Hr Hb Hm. destruct (good_advance E fb o pool20) as [o' H]; [done..|]. exists o', (fb_duty_slot fb). split; [done|].
  destruct (advance_all_logs _ _ _ _ _ pool20 Hn (gs_addrs _ _ _ _ G) (gs_ordinary _ _ _ _ G) H) as (_ & _ & _ & don & -> & _ & _ & Hd).
  by rewrite Hd.
Qed.
