(** The events of blocks that are not finalized yet, as applied by the API, against the oracle processing those blocks. *)
From Verif Require Import ApiProofs.
From Verif Require Export ResumeProofs SlotProofs BlockProofs ApiSpec.

(** ** One request *)

(** The books show the same statuses and withdrawal addresses. *)
Definition same_faces (s s' : ost) : Prop :=
  ∀ i, (λ v, (v_status v, v_addr v)) <$> st_vals s' !! i = (λ v, (v_status v, v_addr v)) <$> st_vals s !! i.

(** What the overlay maintains: the entries are those of the validators withdrawing to [a], with the status the oracle
    would show in [s]. *)
Definition mirrors (bs : gmap N bval) (a : string) (m : gmap N vinfo) (s : ost) : Prop :=
  (∀ i, is_Some (m !! i) ↔ withdrawing bs a i) ∧
  ∀ i v, m !! i = Some v → v_status v = shown s i ∧ v_addr v = "0x" +:+ hex_encode a ∧ v_index v = i.

(** The pending rewards of the entries are those of the oracle: of all entries if [q], else of those that are not
    subscribed. *)
Definition purses (q : bool) (m : gmap N vinfo) (s : ost) : Prop :=
  ∀ i v, m !! i = Some v → q = true ∨ ¬ subscribed s i → v_pend v = pending_at s i.

Record tidy (bs : gmap N bval) (s : ost) : Prop := Tidy { td_known : known_statuses s; td_fresh : up_to_date bs s }.

Lemma same_faces_refl s : same_faces s s. Proof. done. Qed.
Lemma same_faces_trans s1 s2 s3 : same_faces s1 s2 → same_faces s2 s3 → same_faces s1 s3.
Proof. intros H1 H2 i. by rewrite H2, H1. Qed.
Lemma same_faces_vals s s' : st_vals s' = st_vals s → same_faces s s'.
Proof. intros H i. by rewrite H. Qed.
Lemma same_faces_lookup s s' i v' : same_faces s s' → st_vals s' !! i = Some v' →
  ∃ v, st_vals s !! i = Some v ∧ v_status v = v_status v' ∧ v_addr v = v_addr v'.
Proof.
  intros H Hv. specialize (H i). rewrite Hv in H. destruct (st_vals s !! i) as [v|]; [|discriminate]. injection H as H1 H2. by exists v.
Qed.
Lemma same_faces_shown s s' i : same_faces s s' → shown s' i = shown s i.
Proof.
  intros H. unfold shown. specialize (H i). destruct (st_vals s !! i) as [v|], (st_vals s' !! i) as [v'|]; try discriminate; [|done].
  injection H as H _. cbn. by rewrite H.
Qed.
Lemma same_faces_tidy bs s s' : same_faces s s' → tidy bs s → tidy bs s'.
Proof.
  intros H [Hk [Hi Hu]]. split.
  - intros i v' (v & Hv & <- & _)%(same_faces_lookup s); [|done]. by eapply Hk.
  - split; [done|]. intros i v' (v & Hv & _ & <-)%(same_faces_lookup s); [|done]. by eapply Hu.
Qed.
Lemma same_faces_mirrors bs a m s s' : same_faces s s' → mirrors bs a m s → mirrors bs a m s'.
Proof.
  intros H [H1 H2]. split; [done|]. intros i v Hv. rewrite (same_faces_shown s s') by done. by apply H2.
Qed.
Lemma same_faces_subscribed s s' i : same_faces s s' → subscribed s' i → subscribed s i.
Proof. intros H (v' & Hv & Hs). apply (same_faces_lookup s) in Hv as (v & Hv & He & _); [|done]. exists v. by rewrite He. Qed.
Lemma same_faces_credited sh part s : same_faces s (credited sh part s).
Proof. intros i. rewrite lookup_credited. by destruct (st_vals s !! i). Qed.

Lemma subscribed_shown s i : subscribed s i ↔ shown s i = Active ∨ shown s i = YellowCard ∨ shown s i = RedCard.
Proof.
  unfold subscribed, shown. split.
  - intros (v & -> & H). done.
  - destruct (st_vals s !! i) as [v|]; cbn; [|naive_solver]. intros H. by exists v.
Qed.
Lemma banned_shown s i : banned s i ↔ shown s i = Banned.
Proof.
  unfold banned, shown. split.
  - intros (v & -> & H). done.
  - destruct (st_vals s !! i) as [v|]; cbn; [|done]. intros H. by exists v.
Qed.
Lemma shown_cases s i : known_statuses s →
  shown s i = Untracked ∨ shown s i = NotSubscribed ∨ banned s i ∨ subscribed s i.
Proof.
  intros Hk. rewrite banned_shown, subscribed_shown. unfold shown. destruct (st_vals s !! i) as [v|] eqn:Hv; cbn; [|by left].
  apply Hk in Hv. unfold known_status in Hv. tauto.
Qed.

Lemma address_equal_exec mask a b : String.length a = 20%nat → String.length b = 20%nat →
  address_equal ("0x" +:+ hex_encode a) (addr_string mask b) = Ok (bool_decide (a = b)).
Proof.
  intros Ha Hb. rewrite address_equal_ok; [|by rewrite string_length_app, hex_encode_length, Ha|by rewrite addr_string_length, Hb].
  rewrite to_lower_addr, to_lower_hex. f_equal.
  destruct (bool_decide_reflect (a = b)) as [->|Hn]; [apply String.eqb_refl|].
  apply String.eqb_neq. intros H. apply Hn, hex_encode_inj. by apply app_prefix_inj in H.
Qed.

(** Inserting the same status in both. *)
Lemma mirrors_insert bs a m s s' i v v' : mirrors bs a m s → m !! i = Some v →
  v_status v' = shown s' i → v_addr v' = v_addr v → v_index v' = v_index v → (∀ j, j ≠ i → shown s' j = shown s j) →
  mirrors bs a (<[i := v']> m) s'.
Proof.
  intros [H1 H2] Hv Hst Ha Hx Ho. split.
  - intros j. rewrite <- H1. destruct (decide (j = i)) as [->|Hj]; [|by rewrite lookup_insert_ne].
    rewrite lookup_insert, Hv. split; intros _; eexists; done.
  - intros j w. destruct (decide (j = i)) as [->|Hj].
    + rewrite lookup_insert. intros [= <-]. destruct (H2 _ _ Hv) as (_ & ? & ?). split; [done|]. split; congruence.
    + rewrite lookup_insert_ne by done. rewrite Ho by done. apply H2.
Qed.
Lemma mirrors_keep bs a m s s' : mirrors bs a m s → (∀ j, is_Some (m !! j) → shown s' j = shown s j) → mirrors bs a m s'.
Proof. intros [H1 H2] Ho. split; [done|]. intros j w Hw. rewrite Ho by (by exists w). by apply H2. Qed.

Lemma shown_with_val i v s : shown (with_val i v s) i = v_status v.
Proof. unfold shown, with_val. cbn. by rewrite lookup_insert. Qed.
Lemma shown_with_val_ne i j v s : j ≠ i → shown (with_val i v s) j = shown s j.
Proof. intros H. unfold shown, with_val. cbn. by rewrite lookup_insert_ne. Qed.

Lemma purses_keep q m s s' : purses q m s → (∀ j, is_Some (m !! j) → pending_at s' j = pending_at s j ∧ shown s' j = shown s j) → purses q m s'.
Proof.
  intros Hp H i v Hv Hq. destruct (H i) as [-> Hs]; [by eexists|]. apply (Hp i v Hv). destruct Hq as [?|Hn]; [by left|right].
  by rewrite subscribed_shown, <- Hs, <- subscribed_shown.
Qed.
Lemma purses_insert q m s s' i v : purses q m s → (∀ j, j ≠ i → pending_at s' j = pending_at s j ∧ shown s' j = shown s j) →
  v_pend v = pending_at s' i → purses q (<[i := v]> m) s'.
Proof.
  intros Hp H Hi j w. destruct (decide (j = i)) as [->|Hne].
  - rewrite lookup_insert. intros [= <-] _. done.
  - rewrite lookup_insert_ne by done. intros Hw Hq. destruct (H j Hne) as [-> Hs]. apply (Hp j w Hw). destruct Hq as [?|Hn]; [by left|right].
    by rewrite subscribed_shown, <- Hs, <- subscribed_shown.
Qed.
Lemma held_with_val i v s : pending_at (with_val i v s) i = v_pend v.
Proof. unfold pending_at, with_val. cbn. by rewrite lookup_insert. Qed.
Lemma held_with_val_ne i j v s : j ≠ i → pending_at (with_val i v s) j = pending_at s j.
Proof. intros H. unfold pending_at, with_val. cbn. by rewrite lookup_insert_ne. Qed.
Lemma held_vals s s' i : st_vals s' = st_vals s → pending_at s' i = pending_at s i.
Proof. unfold pending_at. by intros ->. Qed.

(** A subscription, in the oracle. *)
Lemma sub_effect bs E e s s' : tidy bs s → String.length (sub_sender e) = 20%nat →
  handle_sub E e (bs !! sub_id e) s = Ok s' →
  tidy bs s' ∧ st_coll s' = st_coll s ∧
  (∀ j, j ≠ sub_id e → pending_at s' j = pending_at s j ∧ shown s' j = shown s j) ∧
  ((∃ b, bs !! sub_id e = Some b ∧ may_join b ∧ exec_address (b_creds b) (sub_sender e) ∧
     ¬ subscribed s (sub_id e) ∧ ¬ banned s (sub_id e) ∧ (st_coll s ≤ sub_coll e)%Z) ∧ shown s' (sub_id e) = Active ∧ pending_at s' (sub_id e) = (pending_at s (sub_id e) + sub_coll e)%Z ∨
   (¬ ∃ b, bs !! sub_id e = Some b ∧ may_join b ∧ exec_address (b_creds b) (sub_sender e) ∧
     ¬ subscribed s (sub_id e) ∧ ¬ banned s (sub_id e) ∧ (st_coll s ≤ sub_coll e)%Z) ∧ shown s' (sub_id e) = shown s (sub_id e) ∧ pending_at s' (sub_id e) = pending_at s (sub_id e)).
Proof.
  intros [Hk [Hi Hu]] Hl H.
  destruct (handle_sub_spec E e (bs !! sub_id e) s) as (vd & s1 & H' & Hd & Hde); [done|by split; [done|apply Hi]|].
  rewrite H in H'. injection H' as <-.
  assert (st_coll s' = st_coll s) as Hc by (by destruct Hde).
  assert (∀ j, j ≠ sub_id e → pending_at s' j = pending_at s j ∧ shown s' j = shown s j) as Ho.
  { intros j Hj. destruct Hde; [done|by split; [apply held_with_val_ne|apply shown_with_val_ne]..]. }
  assert (tidy bs s') as Ht.
  { destruct Hde as [|w Hw|w Hw|v a Hn Hv Ha].
    - by apply (same_faces_tidy bs s); [by apply same_faces_vals|split].
    - apply (same_faces_tidy bs s); [|by split]. intros j. unfold with_val. cbn.
      destruct (decide (j = sub_id e)) as [->|]; [by rewrite lookup_insert, Hw|by rewrite lookup_insert_ne].
    - split; [|split; [done|]]; intros j x; unfold with_val; cbn; (destruct (decide (j = sub_id e)) as [->|];
        [rewrite lookup_insert; intros [= <-]|rewrite lookup_insert_ne by done]).
      + by left. + apply Hk. + cbn. by apply Hu. + apply Hu.
    - split; [|split; [done|]]; intros j x; unfold with_val; cbn; (destruct (decide (j = sub_id e)) as [->|];
        [rewrite lookup_insert; intros [= <-]|rewrite lookup_insert_ne by done]).
      + by left. + apply Hk. + cbn. exists a. split; [|done]. by exists v. + apply Hu. }
  do 3 (split; [done|]).
  destruct Hd as [Hno|v Hv Hj|v Hv Hj Ho' Hsb|v Hv Hj Ho' Hs Hb Hp|v Hv Hj Ho' Hs Hb Hp].
  - right. split; [|by inversion Hde]. intros (b & Hb & _ & Hx & _). apply Hno. by exists b.
  - right. split; [|by inversion Hde]. intros (b & Hb & Hj' & _). rewrite Hv in Hb. injection Hb as ->. done.
  - right. split; [intros (b & Hb & _ & _ & ? & ? & _); tauto|]. inversion Hde as [|w Hw| |]; subst.
    rewrite shown_with_val, held_with_val. unfold shown, pending_at. by rewrite Hw.
  - right. split; [intros (b & _ & _ & _ & _ & _ & ?); lia|]. by inversion Hde.
  - left. split; [|inversion Hde as [| |w Hw|v0 a0 Hw]; subst; rewrite shown_with_val, held_with_val; unfold pending_at; by rewrite Hw].
    destruct Ho' as (v' & Hv' & Hx). exists v'. split; [done|]. split; [congruence|]. done.
Qed.

(** The same subscription, in the overlay. *)
Lemma sub_mirrors q bs a E E' coll e m s s' : tidy bs s → String.length (sub_sender e) = 20%nat → st_coll s = coll →
  handle_sub E e (bs !! sub_id e) s = Ok s' → mirrors bs a m s →
  ∃ m', overlay_sub E' coll e (bs !! sub_id e) m = Ok m' ∧ mirrors bs a m' s' ∧ (purses q m s → purses q m' s').
Proof.
  intros Ht Hl Hc H Hm. destruct (sub_effect _ _ _ _ _ Ht Hl H) as (_ & _ & Ho & Hcase). destruct Ht as [Hk _].
  unfold overlay_sub. destruct (m !! sub_id e) as [v|] eqn:Hv.
  2:{ exists m. split; [done|]. split; [apply (mirrors_keep bs a m s); [done|]|intros Hp; apply (purses_keep q m s s' Hp)];
      intros j [w Hw]; apply Ho; congruence. }
  destruct (proj2 Hm _ _ Hv) as (Hst & Ha & Hx).
  destruct (proj1 (proj1 Hm (sub_id e)) (ex_intro _ _ Hv)) as (b & Hb & Hea).
  assert (String.length a = 20%nat) as Hla by (by destruct Hea).
  rewrite Ha, address_equal_exec by done. cbn [rbind].
  assert (shown s' (sub_id e) = shown s (sub_id e) ∧ pending_at s' (sub_id e) = pending_at s (sub_id e) →
    mirrors bs a m s' ∧ (purses q m s → purses q m s')) as Hkeep.
  { intros [Hn Hh]. split; [apply (mirrors_keep bs a m s); [done|]|intros Hp; apply (purses_keep q m s s' Hp)];
      intros j _; (destruct (decide (j = sub_id e)) as [->|]; [done|by apply Ho]). }
  destruct (bool_decide_reflect (a = sub_sender e)) as [->|Hne]; cbn [negb].
  2:{ exists m. split; [done|]. apply Hkeep. destruct Hcase as [[(b' & Hb' & _ & Hx' & _) _]|[_ ?]]; [|done].
      rewrite Hb in Hb'. injection Hb' as <-. by destruct (Hne (exec_address_fun _ _ _ Hea Hx')). }
  destruct (Z.leb_spec coll (sub_coll e)) as [Hle|Hlt]; cbn [negb].
  2:{ exists m. split; [done|]. apply Hkeep. destruct Hcase as [[(b' & _ & _ & _ & _ & _ & ?) _]|[_ ?]]; [lia|done]. }
  rewrite Hb in *. destruct (can_subscribe b) eqn:Hcs; cbn [negb].
  2:{ exists m. split; [done|]. apply Hkeep. destruct Hcase as [[(b' & [= <-] & Hj & _) _]|[_ ?]]; [|done].
      apply can_subscribe_spec in Hj. congruence. }
  apply can_subscribe_spec in Hcs.
  destruct (shown_cases s (sub_id e) Hk) as [Hsh|[Hsh|[Hsh|Hsh]]].
  1,2: assert (¬ subscribed s (sub_id e)) as Hns by (rewrite subscribed_shown, Hsh; intros [?|[?|?]]; discriminate);
    assert (¬ banned s (sub_id e)) as Hnb by (rewrite banned_shown, Hsh; done);
    rewrite Hst, Hsh; eexists; (split; [done|]);
    (assert (shown s' (sub_id e) = Active ∧ pending_at s' (sub_id e) = (pending_at s (sub_id e) + sub_coll e)%Z) as [Hs' Hh']
      by (destruct Hcase as [[_ ?]|[Hno _]]; [done|]; destruct Hno; exists b; subst coll; done));
    (split; [apply (mirrors_insert bs _ m s s' _ v); try done; intros j Hj; by apply Ho|]);
    intros Hp; (apply (purses_insert q m s s'); [done|done|]); cbn; rewrite Hh', (Hp _ _ Hv); [done|by right].
  - assert (mirrors bs (sub_sender e) m s' ∧ (purses q m s → purses q m s')).
    { apply Hkeep. destruct Hcase as [[(b' & _ & _ & _ & _ & ? & _) _]|[_ ?]]; done. }
    apply banned_shown in Hsh. rewrite Hst, Hsh. by exists m.
  - assert (mirrors bs (sub_sender e) m s' ∧ (purses q m s → purses q m s')).
    { apply Hkeep. destruct Hcase as [[(b' & _ & _ & _ & ? & _) _]|[_ ?]]; done. }
    apply subscribed_shown in Hsh. rewrite Hst. destruct Hsh as [->|[-> | ->]]; by exists m.
Qed.

(** An unsubscription, in the oracle and in the overlay. *)
Lemma held_credited sh part s j : (∀ i, is_Some (sh !! i) → ∃ v, st_vals s !! i = Some v ∧ earning v) → ¬ subscribed s j →
  pending_at (credited sh part s) j = pending_at s j.
Proof.
  intros Hsh Hns. unfold pending_at. rewrite lookup_credited. destruct (st_vals s !! j) as [v|] eqn:Hv; [|done]. cbn.
  destruct (sh !! j) as [x|] eqn:Hx; [|cbn; lia]. destruct (Hsh j) as (v' & Hv' & He); [by eexists|]. destruct Hns. rewrite Hv in Hv'. injection Hv' as <-.
  exists v. split; [done|]. destruct He; auto.
Qed.
Lemma unsub_effect bs E net e s s' : wf_env E → tidy bs s → String.length (uns_sender e) = 20%nat →
  handle_unsub E net e (bs !! uns_id e) s = Ok s' →
  tidy bs s' ∧ st_coll s' = st_coll s ∧
  (∀ j, j ≠ uns_id e → shown s' j = shown s j) ∧
  (∀ j, j ≠ uns_id e → ¬ subscribed s j → pending_at s' j = pending_at s j) ∧
  (owned_by (bs !! uns_id e) (uns_sender e) ∧ subscribed s (uns_id e) → shown s' (uns_id e) = NotSubscribed ∧ pending_at s' (uns_id e) = 0%Z) ∧
  (¬ (owned_by (bs !! uns_id e) (uns_sender e) ∧ subscribed s (uns_id e)) → s' = s).
Proof.
  intros W [Hk [Hi Hu]] Hl H.
  assert (handle_unsub E net e (bs !! uns_id e) s = Ok s') as H' by done.
  apply handle_unsub_spec in H' as [H1 H2]; [|done|done|by split; [done|apply Hi]].
  assert (st_coll s' = st_coll s) as Hc.
  { apply handle_unsub_frame in H as [Hs _]. unfold static in Hs. by injection Hs. }
  destruct (decide (uns_sender e = uns_sender e)) as [_|]; [|done].
  assert (s' = s ∨ owned_by (bs !! uns_id e) (uns_sender e) ∧ subscribed s (uns_id e)) as [->|Hy].
  { destruct (is_subscribed s (uns_id e)) eqn:Hsub.
    - apply is_subscribed_spec in Hsub; [|done]. destruct (bs !! uns_id e) as [b|] eqn:Hb.
      + destruct (get_compatible_address_byte (b_creds b)) as [wa|] eqn:Hwa.
        * apply compatible_iff in Hwa as (a & Ha & _). destruct (decide (a = uns_sender e)) as [->|Hne].
          { right. split; [|done]. by exists b. }
          left. apply H2. intros [(b' & [= <-] & Hx) _]. by destruct (Hne (exec_address_fun _ _ _ Ha Hx)).
        * left. apply H2. intros [(b' & [= <-] & Hx) _]. by apply (proj1 (compatible_none _) Hwa _ Hx).
      + left. apply H2. intros [(b' & ? & _) _]. done.
    - left. apply H2. intros [_ Hs]. apply is_subscribed_spec in Hs; [|done]. congruence. }
  - split; [by split|]. do 3 (split; [done|]). split; [|done]. intros Hy. specialize (H1 Hy) as (v & sh & part & Hv & _ & _ & Heq).
    rewrite Heq, shown_with_val, held_with_val. done.
  - specialize (H1 Hy) as (v & sh & part & Hv & _ & Hsh & Heq). split.
    { subst s'. split; [|split; [done|]]; intros j x; unfold with_val; cbn [set_vals st_vals];
        (destruct (decide (j = uns_id e)) as [->|];
        [rewrite lookup_insert; intros [= <-]|rewrite lookup_insert_ne by done; rewrite lookup_credited]).
      - unfold known_status. cbn. tauto.
      - destruct (st_vals s !! j) as [y|] eqn:Hy'; cbn; [|done]. intros [= <-]. exact (Hk j y Hy').
      - cbn. by apply Hu.
      - destruct (st_vals s !! j) as [y|] eqn:Hy'; cbn; [|done]. intros [= <-]. exact (Hu j y Hy'). }
    split; [done|]. split; [|split; [|split; [|done]]].
    + intros j Hj. subst s'. rewrite shown_with_val_ne by done. apply same_faces_shown, same_faces_credited.
    + intros j Hj Hns. subst s'. rewrite held_with_val_ne by done. apply held_credited; [|done]. intros k Hk'. by apply Hsh.
    + intros _. by rewrite Heq, shown_with_val, held_with_val.
Qed.
Lemma unsub_mirrors bs a E E' net e m s s' : wf_env E → tidy bs s → String.length (uns_sender e) = 20%nat →
  handle_unsub E net e (bs !! uns_id e) s = Ok s' → mirrors bs a m s →
  ∃ m', overlay_unsub E' e m = Ok m' ∧ mirrors bs a m' s' ∧ (purses false m s → purses false m' s').
Proof.
  intros W Ht Hl H Hm. destruct (unsub_effect _ _ _ _ _ _ W Ht Hl H) as (_ & _ & Ho & Hoh & Hyes & Hno). destruct Ht as [Hk _].
  unfold overlay_unsub. destruct (m !! uns_id e) as [v|] eqn:Hv.
  2:{ exists m. split; [done|]. split; [apply (mirrors_keep bs a m s); [done|]; intros j [w Hw]; apply Ho; congruence|].
      intros Hp j w Hw [?|Hn]; [done|]. assert (j ≠ uns_id e) as Hj by congruence.
      assert (¬ subscribed s j) as Hn' by (rewrite subscribed_shown, <- Ho, <- subscribed_shown; done).
      rewrite Hoh by done. apply (Hp j w Hw). by right. }
  destruct (proj2 Hm _ _ Hv) as (Hst & Ha & Hx).
  destruct (proj1 (proj1 Hm (uns_id e)) (ex_intro _ _ Hv)) as (b & Hb & Hea).
  assert (String.length a = 20%nat) as Hla by (by destruct Hea).
  rewrite Ha, address_equal_exec by done. cbn [rbind].
  destruct (bool_decide_reflect (a = uns_sender e)) as [->|Hne]; cbn [negb].
  2:{ exists m. split; [done|]. rewrite Hno; [done|]. intros [(b' & Hb' & Hx') _].
      rewrite Hb in Hb'. injection Hb' as <-. by destruct (Hne (exec_address_fun _ _ _ Hea Hx')). }
  destruct (shown_cases s (uns_id e) Hk) as [Hsh|[Hsh|[Hsh|Hsh]]].
  1,2: rewrite Hno by (intros [_ Hs]; apply subscribed_shown in Hs; rewrite Hsh in Hs; destruct Hs as [?|[?|?]]; discriminate); rewrite Hst, Hsh; by exists m.
  - apply banned_shown in Hsh. rewrite Hno by (intros [_ Hs]; apply subscribed_shown in Hs; rewrite Hsh in Hs; destruct Hs as [?|[?|?]]; discriminate).
    rewrite Hst, Hsh. by exists m.
  - assert (shown s' (uns_id e) = NotSubscribed ∧ pending_at s' (uns_id e) = 0%Z) as [Hn Hh] by (apply Hyes; split; [by exists b|done]).
    assert (mirrors bs (uns_sender e) (<[uns_id e := set_pend 0 (set_status NotSubscribed v)]> m) s' ∧
      (purses false m s → purses false (<[uns_id e := set_pend 0 (set_status NotSubscribed v)]> m) s')) as Hmi.
    { split; [by apply (mirrors_insert bs _ m s s' _ v)|]. intros Hp j w. destruct (decide (j = uns_id e)) as [->|Hj].
      - rewrite lookup_insert. intros [= <-] _. by rewrite Hh.
      - rewrite lookup_insert_ne by done. intros Hw [?|Hns]; [done|].
        assert (¬ subscribed s j) as Hn' by (rewrite subscribed_shown, <- Ho, <- subscribed_shown; done).
        rewrite Hoh by done. apply (Hp j w Hw). by right. }
    apply subscribed_shown in Hsh. rewrite Hst. destruct Hsh as [->|[-> | ->]]; by eexists.
Qed.

(** ** The loops *)
Lemma subs_mirrors q bs a E E' coll l m s s' : Forall (λ e, String.length (sub_sender e) = 20%nat) l → tidy bs s → st_coll s = coll →
  subs_loop E (zip l ((λ e, bs !! sub_id e) <$> l)) s = Ok s' → mirrors bs a m s →
  tidy bs s' ∧ st_coll s' = coll ∧ (∀ j, (∀ e, e ∈ l → sub_id e ≠ j) → shown s' j = shown s j) ∧
  ∃ m', overlay_subs E' coll bs l m = Ok m' ∧ mirrors bs a m' s' ∧ (purses q m s → purses q m' s').
Proof.
  intros Hl. revert m s. induction Hl as [|e l He Hl IH]; intros m s Ht Hc H Hm; cbn in H.
  - injection H as <-. do 3 (split; [done|]). by exists m.
  - destruct (handle_sub E e (bs !! sub_id e) s) as [s1|] eqn:H1; [|discriminate]. cbn [rbind] in H.
    destruct (sub_effect _ _ _ _ _ Ht He H1) as (Ht1 & Hc1 & Ho1 & _).
    destruct (sub_mirrors q bs a E E' coll e m s s1) as (m1 & Hm1 & Hmi1 & Hp1); [done..|].
    destruct (IH m1 s1) as (Ht2 & Hc2 & Ho2 & m2 & Hm2 & Hmi2 & Hp2); [done|congruence|done|done|].
    split; [done|]. split; [done|]. split.
    + intros j Hj. rewrite Ho2 by (intros x Hx; apply Hj; by right). apply Ho1. intros ->. by apply (Hj e); [left|].
    + exists m2. cbn [overlay_subs]. rewrite Hm1. split; [done|]. split; [done|]. intros Hp. by apply Hp2, Hp1.
Qed.
Lemma unsubs_mirrors bs a E E' net l m s s' : wf_env E → Forall (λ e, String.length (uns_sender e) = 20%nat) l → tidy bs s →
  unsubs_loop E net (zip l ((λ e, bs !! uns_id e) <$> l)) s = Ok s' → mirrors bs a m s →
  tidy bs s' ∧ st_coll s' = st_coll s ∧ (∀ j, subscribed s' j → subscribed s j) ∧
  ∃ m', overlay_unsubs E' l m = Ok m' ∧ mirrors bs a m' s' ∧ (purses false m s → purses false m' s').
Proof.
  intros W Hl. revert m s. induction Hl as [|e l He Hl IH]; intros m s Ht H Hm; cbn in H.
  - injection H as <-. do 3 (split; [done|]). by exists m.
  - destruct (handle_unsub E net e (bs !! uns_id e) s) as [s1|] eqn:H1; [|discriminate]. cbn [rbind] in H.
    destruct (unsub_effect _ _ _ _ _ _ W Ht He H1) as (Ht1 & Hc1 & Ho1 & _ & Hy1 & Hn1).
    destruct (unsub_mirrors bs a E E' net e m s s1) as (m1 & Hm1 & Hmi1 & Hp1); [done..|].
    destruct (IH m1 s1) as (Ht2 & Hc2 & Ho2 & m2 & Hm2 & Hmi2 & Hp2); [done|done|done|].
    split; [done|]. split; [congruence|]. split.
    + intros j Hj%Ho2. destruct (decide (j = uns_id e)) as [->|Hne].
      * destruct (is_subscribed s (uns_id e)) eqn:Hs; [by apply is_subscribed_spec in Hs; [|apply Ht]|].
        rewrite Hn1 in Hj; [done|]. intros [_ Hs']. apply is_subscribed_spec in Hs'; [congruence|apply Ht].
      * rewrite subscribed_shown in *. by rewrite <- Ho1.
    + exists m2. cbn [overlay_unsubs]. rewrite Hm1. split; [done|]. split; [done|]. intros Hp. by apply Hp2, Hp1.
Qed.
Lemma donations_faces E net l s s' : wf_env E → donations_loop E net l s = Ok s' → same_faces s s'.
Proof.
  intros W. revert s. induction l as [|d l IH]; intros s H; cbn in H; [by injection H as <-|].
  destruct (increase_all E net (er_amount d) s) as [s1|] eqn:H1; [|discriminate]. cbn [rbind] in H.
  apply exact_split in H1 as (sh & part & -> & _); [|done]. apply IH in H.
  eapply same_faces_trans; [apply same_faces_credited|]. eapply same_faces_trans; [|exact H]. by apply same_faces_vals.
Qed.

Lemma donations_held E net l s s' : wf_env E → donations_loop E net l s = Ok s' → ∀ j, ¬ subscribed s j → pending_at s' j = pending_at s j.
Proof.
  intros W. revert s. induction l as [|d l IH]; intros s H j Hj; cbn in H; [by injection H as <-|].
  destruct (increase_all E net (er_amount d) s) as [s1|] eqn:H1; [|discriminate]. cbn [rbind] in H.
  apply exact_split in H1 as (sh & part & -> & _ & Hsh & _); [|done].
  rewrite (IH _ H). 2:{ intros Hs. apply Hj. eapply same_faces_subscribed; [|exact Hs]. eapply same_faces_trans; [apply same_faces_credited|]. by apply same_faces_vals. }
  rewrite (held_vals (credited sh part s)) by done. by apply held_credited.
Qed.

(** ** One block *)
Lemma handle_subs_loop E l vs s s' : handle_subs E l vs s = Ok s' → subs_loop E (zip l vs) s = Ok s'.
Proof. unfold handle_subs. intros H. by repeat (case_match; try discriminate). Qed.
Lemma handle_unsubs_loop E net l vs s s' : handle_unsubs E net l vs s = Ok s' → unsubs_loop E net (zip l vs) s = Ok s'.
Proof. unfold handle_unsubs. intros H. by repeat (case_match; try discriminate). Qed.
Lemma handle_donations_loop E net l s s' : handle_donations E net l s = Ok s' → donations_loop E net l s = Ok s'.
Proof. unfold handle_donations. intros H. by repeat (case_match; try discriminate). Qed.
Lemma block_mirrors q bs a pool20 coll E E' fb o o' n m :
  names pool20 (c_pool (or_cfg o)) → wf_env E → only_requests pool20 bs fb →
  ¬ subscribed (or_st o) (fb_duty_index fb) → (∀ e, e ∈ ev_subscribe (fb_events fb) → sub_id e ≠ fb_duty_index fb) →
  tidy bs (or_st o) → st_coll (or_st o) = coll → advance E fb o = Done o' n → mirrors bs a m (or_st o) →
  tidy bs (or_st o') ∧ st_coll (or_st o') = coll ∧ c_pool (or_cfg o') = c_pool (or_cfg o) ∧
  (∀ j, (∀ e, e ∈ ev_subscribe (fb_events fb) → sub_id e ≠ j) → subscribed (or_st o') j → subscribed (or_st o) j) ∧
  ∃ m1 m2, overlay_subs E' coll bs (ev_subscribe (fb_events fb)) m = Ok m1 ∧
    overlay_unsubs E' (ev_unsubscribe (fb_events fb)) m1 = Ok m2 ∧ mirrors bs a m2 (or_st o') ∧
    ((q = true → ev_unsubscribe (fb_events fb) = [] ∧ st_donations (or_st o') = st_donations (or_st o)) →
      purses q m (or_st o) → purses q m2 (or_st o')).
Proof.
  intros Hpool W [[Qb Qu] Qs Qp Qa Qo Qfs Qfu [Qls Qlu]] Hns Hnj Ht Hc Hadv Hm.
  pose proof (advance_slots _ _ _ _ _ Hadv) as (Hn1 & Hn2 & _).
  apply advance_inv in Hadv as (o1 & b & don & s2 & s3 & H1 & H2 & Hv & Hs & H3 & Hd & Hp & Hcl & -> & _).
  assert (c_pool (or_cfg o1) = c_pool (or_cfg o) ∧ st_vals (or_st o1) = st_vals (or_st o) ∧ st_coll (or_st o1) = st_coll (or_st o)
    ∧ st_next (or_st o1) = st_next (or_st o)) as (Ep & Ev & Ec & En).
  { apply validate_config_inv in Hv as [->|(? & ? & ? & _ & _ & ->)]; done. }
  rewrite <- Ep in Hpool.
  pose proof (classification _ _ _ _ _ _ Hpool Qa Qo Hs) as (Hmi & Hok & Hbl & Hwr & _).
  pose proof (summarize_bits _ _ _ _ _ Hs) as [_ Hbi].
  set (s0 := or_st o1) in *. unfold process_block in Hp. rewrite Qfs, Qfu, Qb, Qu in Hp.
  set (s0' := set_events _ _ _ s0) in Hp.
  assert (same_faces (or_st o) s0') as F0 by (by apply same_faces_vals).
  assert (tidy bs s0') as Ht0 by (by eapply same_faces_tidy).
  destruct (handle_subs E _ _ s0') as [s1|] eqn:Hsub; [|discriminate]. cbn [rbind] in Hp.
  apply handle_subs_loop in Hsub.
  assert (mirrors bs a m s0') as Hm0 by (by eapply same_faces_mirrors).
  assert (st_coll s0' = coll) as Hc0 by (by rewrite <- Hc, <- Ec).
  destruct (subs_mirrors q bs a E E' coll _ m _ _ Qls Ht0 Hc0 Hsub Hm0) as (Ht1 & Hc1 & Ho1 & m1 & Hm1 & Hmi1 & Hp1).
  assert (is_subscribed s1 (sb_index b) = false) as Hnot.
  { apply not_true_iff_false. intros Hx. apply is_subscribed_spec in Hx; [|apply Ht1]. apply Hns. rewrite Hbi in Hx.
    rewrite subscribed_shown, Ho1 in Hx by done. eapply same_faces_subscribed; [exact F0|]. by apply subscribed_shown. }
  assert (∃ s6 s7, unsubs_loop E (c_network (or_cfg o1)) (zip (ev_unsubscribe (fb_events fb)) ((λ e, bs !! uns_id e) <$> ev_unsubscribe (fb_events fb))) s1 = Ok s6
    ∧ donations_loop E (c_network (or_cfg o1)) don s6 = Ok s7 ∧ s2 = s7) as (s6 & s7 & H6 & H7 & ->).
  { destruct (sb_type b) eqn:Hty; rewrite ?Hnot in Hp; cbn [rbind] in Hp.
    4: { exfalso. by apply Qp, Hok. }
    4: { exfalso. by apply Qp, Hbl. }
    all: rewrite ?Hnot in Hp; cbn [rbind] in Hp.
    all: destruct (handle_unsubs _ _ _ _ s1) as [s6|] eqn:H6; [|discriminate]; cbn [rbind] in Hp;
      destruct (handle_donations _ _ _ s6) as [s7|] eqn:H7; [|discriminate]; cbn [rbind handle_bans] in Hp;
      unfold handle_unbans in Hp; cbn in Hp; injection Hp as <-;
      apply handle_unsubs_loop in H6; apply handle_donations_loop in H7; by exists s6, s7. }
  destruct (unsubs_mirrors bs a E E' _ _ m1 _ _ W Qlu Ht1 H6 Hmi1) as (Ht6 & Hc6 & Ho6 & m2 & Hm2 & Hmi2 & Hp2).
  assert (st_coll s7 = st_coll s6 ∧ st_next s7 = st_next (or_st o)) as [Hc7 Hn7].
  { pose proof H7 as Hst. apply donations_loop_frame in Hst as [Hst _].
    assert (st_next s6 = st_next s1) as E6 by (apply unsubs_loop_frame in H6 as [H6 _]; unfold static in H6; by injection H6).
    assert (st_next s1 = st_next s0') as E1 by (apply subs_loop_frame in Hsub as [Hf _]; unfold static in Hf; by injection Hf).
    unfold static in Hst. injection Hst as _ _ _ E7 _ _ _ _ _ _ _ _ _ _ _ Hco. split; [done|]. rewrite E7, E6, E1. done. }
  assert (st_donations s7 = st_donations (or_st o) ++ don) as Hdon.
  { pose proof H7 as Hst. apply donations_loop_frame in Hst as [_ Hst].
    assert (st_donations s6 = st_donations s1) as E6 by (apply unsubs_loop_frame in H6 as [_ H6]; unfold records in H6; by injection H6).
    assert (st_donations s1 = st_donations s0') as E1 by (apply subs_loop_frame in Hsub as [_ Hf]; unfold records in Hf; by injection Hf).
    unfold records in Hst. injection Hst as E7 _ _ _. rewrite E7, E6, E1.
    assert (st_donations (or_st o1) = st_donations (or_st o)) as <- by (by apply validate_config_inv in Hv as [->|(? & ? & ? & _ & _ & ->)]). done. }
  pose proof (donations_held _ _ _ _ _ W H7) as Hheld.
  assert (don = [] → s7 = s6) as Hno7 by (intros ->; by injection H7).
  assert (ev_unsubscribe (fb_events fb) = [] → s6 = s1 ∧ m2 = m1) as Hno6.
  { intros Hu. rewrite Hu in H6, Hm2. cbn in H6, Hm2. injection H6 as <-. by injection Hm2 as <-. }
  apply donations_faces in H7; [|done].
  rewrite Hn7, <-Hn2, Hn1 in Hcl. rewrite (proj2 (N.eqb_neq _ _) Qs) in Hcl. injection Hcl as <-.
  assert (same_faces s6 (bump_slots b s7)) as F7 by (eapply same_faces_trans; [exact H7|]; by apply same_faces_vals).
  split; [by eapply same_faces_tidy|]. split; [cbn; congruence|]. split; [done|]. split.
  - intros j Hj Hx. apply (same_faces_subscribed s6) in Hx; [|done]. apply Ho6 in Hx. rewrite subscribed_shown, Ho1 in Hx by done.
    eapply same_faces_subscribed; [exact F0|]. by apply subscribed_shown.
  - exists m1, m2. do 2 (split; [done|]). split; [by eapply same_faces_mirrors|]. intros Hq Hpu.
    assert (purses q m1 s1) as Hpu1.
    { apply Hp1, (purses_keep q m (or_st o)); [done|]. intros j _. split; [by apply held_vals|by apply same_faces_shown]. }
    destruct q.
    + destruct (Hq eq_refl) as [Hu Hd']. destruct (Hno6 Hu) as [-> ->].
      assert (don = []) as Hdn. { cbn in Hd'. rewrite Hdon in Hd'. rewrite <- (app_nil_r (st_donations (or_st o))) in Hd' at 2. by apply app_inv_head in Hd'. }
      rewrite (Hno7 Hdn). apply (purses_keep _ m1 s1); [done|]. intros j _. done.
    + intros j v Hjv [?|Hns']; [done|].
      assert (¬ subscribed s6 j) as Hns6 by (rewrite subscribed_shown, <- (same_faces_shown _ _ j F7), <- subscribed_shown; done).
      transitivity (pending_at s6 j); [apply (Hp2 Hpu1 j v Hjv); by right|]. rewrite <- (Hheld j Hns6). by apply held_vals.
Qed.

(** ** The numbers of the blocks with events *)
Definition number_of (x : env * fullblock) : list N :=
  match ev_subscribe (fb_events x.2), ev_unsubscribe (fb_events x.2) with
  | e :: _, _ => [l_block (sub_log e)]
  | [], e :: _ => [l_block (uns_log e)]
  | [], [] => []
  end.
Definition nums (l : list (env * fullblock)) : list N := l ≫= number_of.

Lemma rising_above n l : rising n l →
  Forall (λ e, n < l_block (sub_log e))%N (all_subs l) ∧ Forall (λ e, n < l_block (uns_log e))%N (all_unsubs l).
Proof.
  unfold all_subs, all_unsubs.
  induction 1 as [n|n x l Hs Hu H [IH1 IH2]|n k x l Hk Hs Hu H [IH1 IH2]]; cbn; [by split; constructor| |].
  - rewrite Hs, Hu. done.
  - rewrite !Forall_app. split; (split; [eapply Forall_impl; [eassumption|]; intros e He; cbn in He; lia
      |eapply Forall_impl; [eassumption|]; intros e He; cbn in He; lia]).
Qed.
Lemma number_of_next k x : Forall (λ e, l_block (sub_log e) = k) (ev_subscribe (fb_events x.2)) →
  Forall (λ e, l_block (uns_log e) = k) (ev_unsubscribe (fb_events x.2)) →
  (number_of x = [] ∧ ev_subscribe (fb_events x.2) = [] ∧ ev_unsubscribe (fb_events x.2) = []) ∨
  (number_of x = [k] ∧ ((∃ e, e ∈ ev_subscribe (fb_events x.2)) ∨ ∃ e, e ∈ ev_unsubscribe (fb_events x.2))).
Proof.
  unfold number_of. intros Hs Hu. destruct Hs as [|e l <- _].
  - destruct Hu as [|e l <- _]; [by left|]. right. split; [done|]. right. exists e. by left.
  - right. split; [done|]. left. exists e. by left.
Qed.
Lemma rising_nums n l : rising n l → StronglySorted N.lt (nums l) ∧ Forall (N.lt n) (nums l) ∧
  ∀ k, k ∈ nums l ↔ (∃ e, e ∈ all_subs l ∧ l_block (sub_log e) = k) ∨ (∃ e, e ∈ all_unsubs l ∧ l_block (uns_log e) = k).
Proof.
  unfold nums, all_subs, all_unsubs.
  induction 1 as [n|n x l Hs Hu H (IH1 & IH2 & IH3)|n k x l Hk Hs Hu H (IH1 & IH2 & IH3)]; cbn.
  - split; [constructor|]. split; [constructor|]. intros k. split; [by intros ?%elem_of_nil|].
    intros [(e & ?%elem_of_nil & _)|(e & ?%elem_of_nil & _)]; done.
  - unfold number_of at 1 3 5. rewrite Hs, Hu. cbn. done.
  - destruct (number_of_next k x Hs Hu) as [(-> & -> & ->)|(-> & Hex)]; cbn.
    + split; [done|]. split; [|done]. eapply Forall_impl; [exact IH2|]. intros j Hj. cbn in Hj. lia.
    + split; [by constructor|]. split.
      * constructor; [done|]. eapply Forall_impl; [exact IH2|]. intros j Hj. cbn in Hj. lia.
      * intros j. rewrite elem_of_cons, IH3. setoid_rewrite elem_of_app.
        pose proof (proj1 (Forall_forall _ _) Hs) as Hs'. pose proof (proj1 (Forall_forall _ _) Hu) as Hu'. split.
        -- intros [->|[(e & He & <-)|(e & He & <-)]].
           ++ destruct Hex as [[e He]|[e He]]; [left|right]; exists e; (split; [by left|]); [by apply Hs'|by apply Hu'].
           ++ left. exists e. split; [by right|done].
           ++ right. exists e. split; [by right|done].
        -- intros [(e & [He|He] & <-)|(e & [He|He] & <-)].
           ++ left. by apply Hs'.
           ++ right. left. by exists e.
           ++ left. by apply Hu'.
           ++ right. right. by exists e.
Qed.
Lemma once_spec l : NoDup (once l) ∧ ∀ n, n ∈ once l ↔ n ∈ l.
Proof.
  unfold once. assert (∀ acc, NoDup acc → let r := fold_left (λ acc n, if existsb (N.eqb n) acc then acc else acc ++ [n]) l acc in
    NoDup r ∧ ∀ n, n ∈ r ↔ n ∈ acc ∨ n ∈ l) as Hg.
  { induction l as [|x l IH]; intros acc Hn; cbn [fold_left].
    - split; [done|]. intros n. rewrite elem_of_nil. tauto.
    - destruct (existsb (N.eqb x) acc) eqn:Hx.
      + apply existsb_exists in Hx as (y & Hy & ->%N.eqb_eq). apply elem_of_list_In in Hy. destruct (IH acc Hn) as [H1 H2].
        split; [done|]. intros n. rewrite H2, elem_of_cons. naive_solver.
      + destruct (IH (acc ++ [x])) as [H1 H2].
        { apply NoDup_app. split; [done|]. split; [|apply NoDup_singleton]. intros y Hy ->%elem_of_list_singleton.
          apply not_true_iff_false in Hx. apply Hx, existsb_exists. exists x. split; [by apply elem_of_list_In|apply N.eqb_refl]. }
        split; [done|]. intros n. rewrite H2, elem_of_app, elem_of_list_singleton, elem_of_cons. tauto. }
  destruct (Hg []) as [H1 H2]; [constructor|]. split; [done|]. intros n. rewrite H2, elem_of_nil. tauto.
Qed.
Lemma sorted_nums n l : rising n l →
  merge_sort N.le (once (((λ e, l_block (sub_log e)) <$> all_subs l) ++ ((λ e, l_block (uns_log e)) <$> all_unsubs l))) = nums l.
Proof.
  intros H. apply rising_nums in H as (H1 & _ & H3).
  set (u := ((λ e, l_block (sub_log e)) <$> all_subs l) ++ ((λ e, l_block (uns_log e)) <$> all_unsubs l)).
  destruct (once_spec u) as [Hn Hu]. apply (StronglySorted_unique N.le).
  - apply (StronglySorted_merge_sort N.le).
  - revert H1. clear. generalize (nums l) as ks. clear. induction 1 as [|x ks H1 IH H2]; constructor; [done|]. eapply Forall_impl; [exact H2|]. intros y Hy. lia.
  - rewrite merge_sort_Permutation. apply NoDup_Permutation; [done| |].
    + revert H1. clear. generalize (nums l) as ks. clear. induction 1 as [|x ks H1 IH H2]; constructor; [|done]. intros Hx. rewrite Forall_forall in H2. specialize (H2 x Hx). lia.
    + intros k. rewrite Hu, H3. unfold u. rewrite elem_of_app, !elem_of_list_fmap. naive_solver.
Qed.

(** ** The blocks *)
Lemma filter_all {A} (P : A → Prop) `{!∀ x, Decision (P x)} l : Forall P l → filter P l = l.
Proof. induction 1 as [|x l Hx Hl IH]; [done|]. by rewrite filter_cons_True, IH. Qed.
Lemma filter_nothing {A} (P : A → Prop) `{!∀ x, Decision (P x)} l : Forall (λ x, ¬ P x) l → filter P l = [].
Proof. induction 1 as [|x l Hx Hl IH]; [done|]. by rewrite filter_cons_False, IH. Qed.
Lemma filter_middle {A} (P : A → Prop) `{!∀ x, Decision (P x)} l1 l2 l3 :
  Forall (λ x, ¬ P x) l1 → Forall P l2 → Forall (λ x, ¬ P x) l3 → filter P (l1 ++ l2 ++ l3) = l2.
Proof. intros H1 H2 H3. rewrite !filter_app, (filter_nothing P l1), (filter_all P l2), (filter_nothing P l3), app_nil_r; done. Qed.

Lemma run_donations o l o' : run o l o' → ∃ d, st_donations (or_st o') = st_donations (or_st o) ++ d.
Proof.
  induction 1 as [o|E fb o o1 n l o2 Hadv Hrun [d IH]]; [exists []; by rewrite app_nil_r|].
  apply advance_logs in Hadv as (? & don & ? & ? & ? & _ & _ & _ & _ & Hd & _). exists (don ++ d). by rewrite IH, Hd, app_assoc.
Qed.
Lemma blocks_mirrors q bs a pool20 coll E' n l : rising n l → ∀ o o' m ps pu,
  names pool20 (c_pool (or_cfg o)) → wf_envs l → run o l o' → Forall (λ x, only_requests pool20 bs x.2) l →
  outsiders (or_st o) l → tidy bs (or_st o) → st_coll (or_st o) = coll → mirrors bs a m (or_st o) →
  Forall (λ e, l_block (sub_log e) ≤ n)%N ps → Forall (λ e, l_block (uns_log e) ≤ n)%N pu →
  ∃ m', overlay_blocks E' coll bs (ps ++ all_subs l) (pu ++ all_unsubs l) (nums l) m = Ok m' ∧ mirrors bs a m' (or_st o') ∧
    ((q = true → all_unsubs l = [] ∧ st_donations (or_st o') = st_donations (or_st o)) →
      purses q m (or_st o) → purses q m' (or_st o')).
Proof.
  induction 1 as [n|n x l Hs Hu H IH|n k x l Hk Hs Hu H IH]; intros o o' m ps pu Hpool We Hr Hq Ho Ht Hc Hm Hps Hpu.
  { inversion Hr; subst. by exists m. }
  all: inversion Hr as [|? E fb o1 s ? ? Hadv Hrun]; subst; cbn [snd] in *;
    apply Forall_cons in We as [W We]; apply Forall_cons in Hq as [Hq1 Hq]; cbn [fst snd] in *;
    destruct (Ho (E, fb)) as [Hns Hnj]; [by left|];
    (destruct (block_mirrors q bs a pool20 (st_coll (or_st o)) E E' fb o o1 s m Hpool W Hq1 Hns) as (Ht1 & Hc1 & Hp1 & Ho1 & m1 & m2 & Hm1 & Hm2 & Hmi & Hpur);
      [intros e He; apply Hnj; unfold all_subs; cbn; apply elem_of_app; by left|done|done|done|done|]);
    assert (outsiders (or_st o1) l) as Hout by
      (intros y Hy; destruct (Ho y) as [Hy1 Hy2]; [by right|]; split;
        [intros Hx; apply Hy1, Ho1; [|done]; intros e He; apply Hy2; unfold all_subs; cbn; apply elem_of_app; by left
        |intros e He; apply Hy2; unfold all_subs; cbn; apply elem_of_app; by right]);
    rewrite <- Hp1 in Hpool;
    (assert ((q = true → all_unsubs ((E, fb) :: l) = [] ∧ st_donations (or_st o') = st_donations (or_st o)) →
      (q = true → ev_unsubscribe (fb_events fb) = [] ∧ st_donations (or_st o1) = st_donations (or_st o)) ∧
      (q = true → all_unsubs l = [] ∧ st_donations (or_st o') = st_donations (or_st o1))) as Hsplit by
      (intros Hall; clear -Hall Hadv Hrun; apply advance_logs in Hadv as (? & don & ? & ? & ? & _ & _ & _ & _ & Hd & _);
       apply run_donations in Hrun as [d Hd2]; split; intros Hqt; destruct (Hall Hqt) as [Hu He];
       unfold all_unsubs in Hu; cbn in Hu; apply app_eq_nil in Hu as [Hu1 Hu2];
       rewrite Hd2, Hd, <- app_assoc in He; rewrite <- (app_nil_r (st_donations (or_st o))) in He at 2;
       apply app_inv_head, app_eq_nil in He as [-> ->]; rewrite ?app_nil_r in *; done)).
  - rewrite Hs in Hm1. rewrite Hu in Hm2. cbn in Hm1, Hm2. injection Hm1 as <-. injection Hm2 as <-.
    destruct (IH o1 o' m ps pu) as (m' & Hov & Hmir & Hpu2); [done..|]. exists m'. split; [|split; [done|intros [G1 G2]%Hsplit Hp; auto]].
    unfold all_subs, all_unsubs, nums, number_of in *. cbn. rewrite Hs, Hu. done.
  - pose proof (rising_above _ _ H) as [Hab1 Hab2].
    destruct (number_of_next k (E, fb) Hs Hu) as [(Hnum & Es & Eu)|(Hnum & _)]; cbn [snd] in *.
    + rewrite Es in Hm1. rewrite Eu in Hm2. cbn in Hm1, Hm2. injection Hm1 as <-. injection Hm2 as <-.
      destruct (IH o1 o' m ps pu) as (m' & Hov & Hmir & Hpu2); [try done..| |].
      1,2: eapply Forall_impl; [eassumption|]; intros e He; cbn in He; lia.
      exists m'. split; [|split; [done|intros [G1 G2]%Hsplit Hp; auto]].
      unfold all_subs, all_unsubs, nums in *. cbn. rewrite Hnum, Es, Eu. done.
    + destruct (IH o1 o' m2 (ps ++ ev_subscribe (fb_events fb)) (pu ++ ev_unsubscribe (fb_events fb))) as (m' & Hov & Hmir & Hpu2); [try done..| |].
      1,2: apply Forall_app; split; (eapply Forall_impl; [eassumption|]; intros e He; cbn in He; lia).
      exists m'. split; [|split; [done|intros [G1 G2]%Hsplit Hp; auto]].
      assert (nums ((E, fb) :: l) = k :: nums l) as -> by (unfold nums; cbn; by rewrite Hnum).
      cbn [overlay_blocks].
      assert (filter (λ e, l_block (sub_log e) = k) (ps ++ all_subs ((E, fb) :: l)) = ev_subscribe (fb_events fb)) as ->.
      { unfold all_subs. cbn. apply filter_middle; [|done|]; (eapply Forall_impl; [eassumption|]; intros e He; cbn in He; lia). }
      assert (filter (λ e, l_block (uns_log e) = k) (pu ++ all_unsubs ((E, fb) :: l)) = ev_unsubscribe (fb_events fb)) as ->.
      { unfold all_unsubs. cbn. apply filter_middle; [|done|]; (eapply Forall_impl; [eassumption|]; intros e He; cbn in He; lia). }
      rewrite Hm1. cbn [rbind]. rewrite Hm2. cbn [rbind].
      rewrite <- !app_assoc in Hov. done.
Qed.

(** ** The validators before the overlay *)
Lemma address_equal_lower a b : String.length a = 20%nat → String.length b = 20%nat →
  address_equal ("0x" +:+ hex_encode a) ("0x" +:+ hex_encode b) = Ok (bool_decide (a = b)).
Proof.
  intros Ha Hb. rewrite address_equal_ok; [|by rewrite string_length_app, hex_encode_length, ?Ha, ?Hb..].
  rewrite !to_lower_hex. f_equal.
  destruct (bool_decide_reflect (a = b)) as [->|Hn]; [apply String.eqb_refl|].
  apply String.eqb_neq. intros H. apply Hn, hex_encode_inj. by apply app_prefix_inj in H.
Qed.
Lemma untracked_mirror a l m : String.length a = 20%nat → NoDup l.*1 → ∃ m', untracked_loop ("0x" +:+ hex_encode a) l m = Ok m' ∧
  (∀ i b, (i, b) ∈ l → exec_address (b_creds b) a →
    m' !! i = Some (VInfo Untracked 0 0 0 ("0x" +:+ hex_encode a) (b_index b) (hexutil_encode (b_pubkey b)) Manual)) ∧
  (∀ i, (∀ b, (i, b) ∈ l → ¬ exec_address (b_creds b) a) → m' !! i = m !! i).
Proof.
  intros Ha. revert m. induction l as [|[k b] l IH]; intros m Hn; cbn [untracked_loop].
  - exists m. split; [done|]. split; [|done]. intros i b ?%elem_of_nil. done.
  - cbn in Hn. apply NoDup_cons in Hn as [Hk Hn].
    assert (∀ x, (k, x) ∉ l) as Hkl by (intros x Hx; apply Hk, elem_of_list_fmap; by exists (k, x)).
    assert (∀ m0, ¬ exec_address (b_creds b) a → m0 = m → ∃ m', untracked_loop ("0x" +:+ hex_encode a) l m0 = Ok m' ∧
      (∀ i x, (i, x) ∈ (k, b) :: l → exec_address (b_creds x) a →
        m' !! i = Some (VInfo Untracked 0 0 0 ("0x" +:+ hex_encode a) (b_index x) (hexutil_encode (b_pubkey x)) Manual)) ∧
      (∀ i, (∀ x, (i, x) ∈ (k, b) :: l → ¬ exec_address (b_creds x) a) → m' !! i = m !! i)) as Hskip.
    { intros m0 Hne ->. destruct (IH m Hn) as (m' & Hm' & H1 & H2). exists m'. split; [done|]. split.
      - intros i x [[= -> ->]|Hx]%elem_of_cons Hex; [done|by apply H1].
      - intros i Hi. apply H2. intros x Hx. apply Hi. by right. }
    change (get_compatible_address (hex_encode (b_creds b))) with (get_compatible_address_byte (b_creds b)).
    destruct (get_compatible_address_byte (b_creds b)) as [wa|] eqn:Hwa.
    + apply compatible_iff in Hwa as (a' & Hex' & ->). rewrite address_equal_lower by (by destruct Hex'). cbn [rbind].
      destruct (bool_decide_reflect (a' = a)) as [->|Hne].
      * destruct (IH (<[k := VInfo Untracked 0 0 0 ("0x" +:+ hex_encode a) (b_index b) (hexutil_encode (b_pubkey b)) Manual]> m) Hn)
          as (m' & Hm' & H1 & H2).
        exists m'. split; [done|]. split.
        -- intros i x [[= -> ->]|Hx]%elem_of_cons Hex; [|by apply H1]. rewrite H2; [by rewrite lookup_insert|].
           intros x Hx. by destruct (Hkl x).
        -- intros i Hi. rewrite H2; [|intros x Hx; apply Hi; by right]. rewrite lookup_insert_ne; [done|].
           intros <-. apply (Hi b); [by left|done].
      * apply Hskip; [|done]. intros Hex. by destruct (Hne (exec_address_fun _ _ _ Hex' Hex)).
    + apply Hskip; [|done]. by apply compatible_none.
Qed.
Lemma tracked_mirror a l m : String.length a = 20%nat → NoDup l.*1 →
  (∀ i v, (i, v) ∈ l → ∃ a', String.length a' = 20%nat ∧ v_addr v = "0x" +:+ hex_encode a') →
  ∃ m', tracked_loop ("0x" +:+ hex_encode a) l m = Ok m' ∧
  (∀ i v, (i, v) ∈ l → v_addr v = "0x" +:+ hex_encode a → m' !! i = Some (set_index i v)) ∧
  (∀ i, (∀ v, (i, v) ∈ l → v_addr v ≠ "0x" +:+ hex_encode a) → m' !! i = m !! i).
Proof.
  intros Ha. revert m. induction l as [|[k v] l IH]; intros m Hn Hall; cbn [tracked_loop].
  - exists m. split; [done|]. split; [|done]. intros i b ?%elem_of_nil. done.
  - cbn in Hn. apply NoDup_cons in Hn as [Hk Hn].
    assert (∀ x, (k, x) ∉ l) as Hkl by (intros x Hx; apply Hk, elem_of_list_fmap; by exists (k, x)).
    destruct (Hall k v) as (a' & Ha' & Hv); [by left|]. rewrite Hv, address_equal_lower by done. cbn [rbind].
    assert (∀ i x, (i, x) ∈ l → ∃ a', String.length a' = 20%nat ∧ v_addr x = "0x" +:+ hex_encode a') as Hall' by (intros i x Hx; apply (Hall i); by right).
    destruct (bool_decide_reflect (a' = a)) as [->|Hne].
    + destruct (IH (<[k := set_index k v]> m) Hn Hall') as (m' & Hm' & H1 & H2). exists m'. split; [done|]. split.
      * intros i x [[= -> ->]|Hx]%elem_of_cons Hex; [|by apply H1]. rewrite H2; [by rewrite lookup_insert|].
        intros x Hx. by destruct (Hkl x).
      * intros i Hi. rewrite H2; [|intros x Hx; apply Hi; by right]. rewrite lookup_insert_ne; [done|].
        intros <-. apply (Hi v); [by left|done].
    + destruct (IH m Hn Hall') as (m' & Hm' & H1 & H2). exists m'. split; [done|]. split.
      * intros i x [[= -> ->]|Hx]%elem_of_cons Hex; [|by apply H1]. rewrite Hv in Hex. apply app_prefix_inj, hex_encode_inj in Hex. done.
      * intros i Hi. apply H2. intros x Hx. apply Hi. by right.
Qed.
Lemma initial_mirror bs a s : tidy bs s → String.length a = 20%nat →
  ∃ m1 m2, untracked_loop ("0x" +:+ hex_encode a) (map_to_list bs) ∅ = Ok m1 ∧
    tracked_loop ("0x" +:+ hex_encode a) (map_to_list (st_vals s)) m1 = Ok m2 ∧ mirrors bs a m2 s ∧
    ∀ i v, m2 !! i = Some v → v_pend v = pending_at s i ∧ v_acc v = default 0%Z (v_acc <$> st_vals s !! i).
Proof.
  intros [Hk [Hi Hu]] Ha.
  destruct (untracked_mirror a (map_to_list bs) ∅ Ha (NoDup_fst_map_to_list bs)) as (m1 & Hm1 & U1 & U2).
  destruct (tracked_mirror a (map_to_list (st_vals s)) m1 Ha (NoDup_fst_map_to_list (st_vals s))) as (m2 & Hm2 & T1 & T2).
  { intros i v Hv%elem_of_map_to_list. apply Hu in Hv as (a' & (b & _ & Hex) & Hv). exists a'. split; [by destruct Hex|done]. }
  exists m1, m2. do 2 (split; [done|]).
  assert (∀ i b, bs !! i = Some b → exec_address (b_creds b) a → ∃ v, m2 !! i = Some v ∧
    (v_status v = shown s i ∧ v_addr v = "0x" +:+ hex_encode a ∧ v_index v = i) ∧
    v_pend v = pending_at s i ∧ v_acc v = default 0%Z (v_acc <$> st_vals s !! i)) as Hin.
  { intros i b Hb Hex. destruct (st_vals s !! i) as [v|] eqn:Hv.
    - assert (v_addr v = "0x" +:+ hex_encode a) as Hva.
      { destruct (Hu i v Hv) as (a' & (b' & Hb' & Hex') & ->). rewrite Hb in Hb'. injection Hb' as <-.
        by rewrite (exec_address_fun _ _ _ Hex Hex'). }
      exists (set_index i v). split; [apply T1; [by apply elem_of_map_to_list|done]|]. unfold shown, pending_at. by rewrite Hv.
    - eexists. split.
      + rewrite T2; [apply U1; [by apply elem_of_map_to_list|done]|]. intros v Hv'%elem_of_map_to_list. congruence.
      + unfold shown, pending_at. rewrite Hv. cbn. split; [|done]. do 2 (split; [done|]). by apply Hi. }
  assert (∀ i, ¬ withdrawing bs a i → m2 !! i = None) as Hout.
  { intros i Hn. rewrite T2; [rewrite U2; [apply lookup_empty|]|].
    - intros b Hb%elem_of_map_to_list Hex. apply Hn. by exists b.
    - intros v Hv%elem_of_map_to_list He. apply Hn. destruct (Hu i v Hv) as (a' & Hwa & He').
      rewrite He in He'. apply app_prefix_inj, hex_encode_inj in He' as ->. done. }
  assert (∀ i, withdrawing bs a i ∨ ¬ withdrawing bs a i) as Hdec.
  { intros i. unfold withdrawing. destruct (bs !! i) as [b|] eqn:Hb; [|right; intros (b & ? & _); done].
    destruct (get_compatible_address_byte (b_creds b)) as [wa|] eqn:Hwa.
    - apply compatible_iff in Hwa as (a' & Hex & _). destruct (decide (a' = a)) as [->|Hne]; [left; by exists b|].
      right. intros (b' & [= <-] & Hex'). by destruct (Hne (exec_address_fun _ _ _ Hex Hex')).
    - right. intros (b' & [= <-] & Hex'). by apply (proj1 (compatible_none _) Hwa a). }
  assert (∀ i v, m2 !! i = Some v → (v_status v = shown s i ∧ v_addr v = "0x" +:+ hex_encode a ∧ v_index v = i) ∧
    v_pend v = pending_at s i ∧ v_acc v = default 0%Z (v_acc <$> st_vals s !! i)) as Hall.
  { intros i v Hv. destruct (Hdec i) as [(b & Hb & Hex)|Hn]; [|rewrite Hout in Hv by done; done].
    destruct (Hin i b Hb Hex) as (v' & Hv' & ?). rewrite Hv in Hv'. injection Hv' as <-. done. }
  split; [|intros i v Hv; by apply Hall]. split; [|intros i v Hv; by apply Hall].
  - intros i. split.
    + intros [v Hv]. destruct (Hdec i) as [?|Hn]; [done|]. rewrite Hout in Hv by done. done.
    + intros (b & Hb & Hex). destruct (Hin i b Hb Hex) as (v & Hv & _). by exists v.
Qed.

(** ** Reachable oracles *)
Lemma evolve_known H o l o' : evolve H o l o' → known_statuses (or_st o) → known_statuses (or_st o').
Proof.
  induction 1 as [o|o E fb o1 n l o2 W Hd Ha _ IH|o E s1 b l o2 W Hf _ IH]; intros Hr; [done|..]; apply IH.
  - by eapply advance_known.
  - apply freeze_inv in Hf as [(_ & -> & _)|(_ & c & _ & _ & ->)]; done.
Qed.
Lemma evolve_rewards H o l o' : evolve H o l o' → rewards_known (or_st o) → rewards_known (or_st o').
Proof.
  induction 1 as [o|o E fb o1 n l o2 W Hd Ha _ IH|o E s1 b l o2 W Hf _ IH]; intros Hr; [done|..]; apply IH.
  - eapply run_rewards; [|exact Hr]. econstructor; [exact Ha|constructor].
  - apply freeze_inv in Hf as [(_ & -> & _)|(_ & c & _ & _ & ->)]; done.
Qed.
(** What the endpoints rely on. *)
Lemma reached_service H cfg l o : evolve H (new_oracle cfg) l o →
  known_statuses (or_st o) ∧ wf_records (or_st o) ∧ rewards_known (or_st o) ∧
  c_pool (or_cfg o) = c_pool cfg ∧ st_coll (or_st o) = c_coll (or_cfg o).
Proof.
  intros He. split; [by eapply evolve_known; [|apply fresh_known]|]. split; [eapply evolve_records; [exact He|]; intros i v; cbn; by rewrite lookup_empty|].
  split; [by eapply evolve_rewards; [|apply fresh_rewards]|].
  apply (deployed_evolve cfg) in He as [D1 [P1 P2 P3 P4 P5 P6 P7] _ _]; [|apply deployed_new]. rewrite D1. done.
Qed.

Lemma bound_ok {A B} (x : res A) (f : A → res B) b : rbind x f = Ok b → ∃ a, x = Ok a ∧ f a = Ok b.
Proof. destruct x; [|discriminate]. cbn. eauto. Qed.

(** ** The overlay does not touch accumulated rewards *)
Definition earned (m : gmap N vinfo) : gmap N Z := v_acc <$> m.
Lemma earned_insert m i v v' : m !! i = Some v → v_acc v' = v_acc v → earned (<[i := v']> m) = earned m.
Proof. intros Hv Ha. unfold earned. rewrite fmap_insert, Ha. apply insert_id. by rewrite lookup_fmap, Hv. Qed.
Lemma overlay_sub_earned E coll e val m m' : overlay_sub E coll e val m = Ok m' → earned m' = earned m.
Proof.
  unfold overlay_sub. destruct (m !! sub_id e) as [v|] eqn:Hv; [|by intros [= <-]].
  destruct (address_equal _ _) as [[]|]; cbn [rbind negb]; [|by intros [= <-]|done].
  destruct (coll <=? sub_coll e)%Z; cbn [negb]; [|by intros [= <-]]. destruct val as [b|]; [|done].
  destruct (can_subscribe b); cbn [negb]; [|by intros [= <-]].
  destruct (v_status v); intros [= <-]; try done; by apply (earned_insert m (sub_id e) v).
Qed.
Lemma overlay_unsub_earned E e m m' : overlay_unsub E e m = Ok m' → earned m' = earned m.
Proof.
  unfold overlay_unsub. destruct (m !! uns_id e) as [v|] eqn:Hv; [|by intros [= <-]].
  destruct (address_equal _ _) as [[]|]; cbn [rbind negb]; [|by intros [= <-]|done].
  destruct (v_status v); intros [= <-]; try done; by apply (earned_insert m (uns_id e) v).
Qed.
Lemma overlay_earned E coll bs subs unsubs m m' : overlay E coll bs subs unsubs m = Ok m' → earned m' = earned m.
Proof.
  unfold overlay. generalize (merge_sort N.le (once (((λ e, l_block (sub_log e)) <$> subs) ++ ((λ e, l_block (uns_log e)) <$> unsubs)))) as ns.
  intros ns. revert m. induction ns as [|n ns IH]; intros m; cbn [overlay_blocks]; [by intros [= <-]|].
  intros (m1 & H1 & H)%bound_ok. apply bound_ok in H as (m2 & H2 & H). rewrite (IH _ H).
  transitivity (earned m1).
  - clear H1 H IH. revert m1 m2 H2. generalize (filter (λ e, l_block (uns_log e) = n) unsubs) as l. induction l as [|e l IH]; intros m1 m2; cbn; [by intros [= <-]|].
    intros (m3 & H3 & H2)%bound_ok. rewrite (IH _ _ H2). by apply overlay_unsub_earned in H3.
  - clear H2 H IH. revert m m1 H1. generalize (filter (λ e, l_block (sub_log e) = n) subs) as l. induction l as [|e l IH]; intros m m1; cbn; [by intros [= <-]|].
    intros (m3 & H3 & H1)%bound_ok. rewrite (IH _ _ H1). by apply overlay_sub_earned in H3.
Qed.

(** ** The answer *)
Lemma by_withdrawal_spec Hash cfg l0 o l o' n bs w a addr E vs pool20 :
  evolve Hash (new_oracle cfg) l0 o → wf_envs l → run o l o' → wf_env E →
  names pool20 (c_pool cfg) → names a addr →
  w_beacon w = Some bs → up_to_date bs (or_st o) →
  Forall (λ x, only_requests pool20 bs x.2) l → outsiders (or_st o) l → rising n l →
  w_subs w (u64_add (st_latest_block (or_st o)) 1) = Some (all_subs l) →
  w_unsubs w (u64_add (st_latest_block (or_st o)) 1) = Some (all_unsubs l) →
  validators_by_withdrawal E addr w o = Ok (Answer vs) →
  by_rising_index vs ∧
  (∀ i, (∃ x, x ∈ vs ∧ v_index (vw_info x) = i) ↔ withdrawing bs a i) ∧
  ∀ x, x ∈ vs → v_status (vw_info x) = shown (or_st o') (v_index (vw_info x)) ∧ v_addr (vw_info x) = "0x" +:+ hex_encode a ∧
    bs !! v_index (vw_info x) = Some (vw_beacon x) ∧
    v_acc (vw_info x) = default 0%Z (v_acc <$> st_vals (or_st o) !! v_index (vw_info x)) ∧
    (¬ subscribed (or_st o') (v_index (vw_info x)) ∨ all_unsubs l = [] ∧ st_donations (or_st o') = st_donations (or_st o) →
      v_pend (vw_info x) = pending_at (or_st o') (v_index (vw_info x))).
Proof.
  intros He We Hr W Hpool [Hla Hn] Hw Hup Hq Hout Hris Hws Hwu H.
  destruct (reached_service _ _ _ _ He) as (Hk & _ & _ & Hpo & Hco).
  assert (tidy bs (or_st o)) as Ht by (by split). rewrite <- Hpo in Hpool.
  destruct (initial_mirror bs a (or_st o) Ht Hla) as (m1 & m2 & Hm1 & Hm2 & Hmi & Hbooks).
  unfold validators_by_withdrawal, if_ready in H. destruct (oracle_ready 64 w (or_st o)); [|discriminate].
  destruct (is_valid_address (to_lower addr)); cbn [negb] in H; [|discriminate]. rewrite Hw, Hn, Hm1 in H. cbn [rbind] in H.
  rewrite Hm2 in H. cbn [rbind] in H.
  destruct (blocks_mirrors false bs a pool20 (c_coll (or_cfg o)) E n l Hris o o' m2 [] []) as (m3 & Hov & Hmi3 & Hpf); [done..|].
  destruct (blocks_mirrors true bs a pool20 (c_coll (or_cfg o)) E n l Hris o o' m2 [] []) as (m3' & Hov' & _ & Hpt); [done..|].
  rewrite Hov in Hov'. injection Hov' as <-.
  assert (earned m3 = earned m2) as Hearn.
  { apply (overlay_earned E (c_coll (or_cfg o)) bs (all_subs l) (all_unsubs l)). unfold overlay. by rewrite (sorted_nums n). }
  assert (∀ i v, m3 !! i = Some v → v_index v = i) as Hidx by (intros i v Hv; by apply (proj2 Hmi3) in Hv as (_ & _ & ?)).
  assert (vs = views bs (by_index (e_iter E m3).*2)) as ->.
  { destruct (Nat.eqb_spec (size m2) 0) as [Hz|Hz].
    - injection H as <-. assert (m3 = ∅) as ->.
      { apply map_empty. intros i. apply eq_None_not_Some. intros Hs. apply (proj1 Hmi3), (proj1 Hmi) in Hs.
        apply map_size_empty_inv in Hz as ->. rewrite lookup_empty in Hs. by destruct Hs. }
      pose proof (wf_iter _ W ∅) as Hp. rewrite map_to_list_empty in Hp. apply Permutation_nil_r in Hp. by rewrite Hp.
    - destruct (st_latest_block (or_st o) =? 0)%N; [discriminate|]. rewrite Hws, Hwu in H.
      unfold overlay in H. rewrite (sorted_nums n) in H by done. cbn [app] in Hov. rewrite Hov in H. cbn [rbind] in H. by injection H as <-. }
  destruct (listing E bs m3 W Hidx) as [Hsorted Hel]. split; [done|]. split.
  - intros i. split.
    + intros (x & Hx & <-). apply Hel in Hx as [Hx _]. apply (proj1 Hmi3). by eexists.
    + intros Hwi. pose proof Hwi as (b & Hb & _). apply (proj1 Hmi3) in Hwi as [v Hv]. pose proof (Hidx _ _ Hv) as Hvi.
      exists (View v b). split; [|done]. apply Hel. cbn. rewrite Hvi. done.
  - intros x [Hx Hxb]%Hel. destruct (proj2 Hmi3 _ _ Hx) as (Hst & Had & _). do 3 (split; [done|]). split.
    + assert (earned m3 !! v_index (vw_info x) = Some (v_acc (vw_info x))) as Ha by (unfold earned; by rewrite lookup_fmap, Hx).
      rewrite Hearn in Ha. unfold earned in Ha. rewrite lookup_fmap in Ha. destruct (m2 !! v_index (vw_info x)) as [y|] eqn:Hy; [|done].
      injection Ha as <-. by apply Hbooks.
    + intros [Hns|Hq'].
      * assert (purses false m3 (or_st o')) as Hp by (apply Hpf; [done|intros i v Hv _; by apply Hbooks]). apply (Hp _ _ Hx). by right.
      * assert (purses true m3 (or_st o')) as Hp by (apply Hpt; [done|intros i v Hv _; by apply Hbooks]). apply (Hp _ _ Hx). by left.
Qed.

(** ** Readiness *)
Lemma refused {A B} (f : A → B) (x : res (reply A)) c m : (let! y := x in Ok (reply_map f y)) = Ok (Refuse c m) → x = Ok (Refuse c m).
Proof. destruct x as [[a|c' m']|]; cbn; [discriminate| |discriminate]. by intros [= -> ->]. Qed.
Lemma serve_busy sha E r w o : guarded r → (∀ f, w_final w = Some f → (f < 2 ^ 64)%N) → (st_latest (or_st o) + 64 < 2 ^ 64)%N →
  (∃ m, serve sha E r w o = Ok (Refuse 503 m)) ↔ ¬ keeps_up w (or_st o).
Proof.
  intros Hg Hf Hl.
  assert (oracle_ready 64 w (or_st o) = true ↔ keeps_up w (or_st o)) as Hr.
  { unfold keeps_up. destruct (w_final w) as [f|] eqn:Hw.
    - rewrite (oracle_ready_spec w _ f) by auto. split; [intros H; by exists f|]. intros (f' & [= <-] & H). done.
    - unfold oracle_ready. rewrite Hw. split; [done|]. intros (f & ? & _). done. }
  rewrite <- Hr. destruct (oracle_ready 64 w (or_st o)) eqn:Ho.
  - split; [|done]. intros [m Hm]. exfalso. destruct r; try done; cbn [serve] in Hm; apply refused in Hm.
    + unfold all_validators, if_ready in Hm. rewrite Ho in Hm. discriminate.
    + unfold one_validator, if_ready in Hm. rewrite Ho in Hm. repeat (case_match; try discriminate).
    + unfold validators_by_withdrawal, if_ready in Hm. rewrite Ho in Hm. destruct (negb _); [discriminate|].
      destruct (w_beacon w) as [bs|]; [|discriminate]. apply bound_ok in Hm as (m1 & _ & Hm). apply bound_ok in Hm as (m2 & _ & Hm).
      repeat (case_match; try discriminate). apply bound_ok in Hm as (m3 & _ & Hm). discriminate.
    + unfold statistics, if_ready in Hm. rewrite Ho in Hm. repeat (case_match; try discriminate); inv_res; repeat (case_match; try discriminate); inv_res; discriminate.
    + unfold merkle_proof, if_ready in Hm. rewrite Ho in Hm. repeat (case_match; try discriminate); apply bound_ok in Hm as (x & _ & Hm); case_match; discriminate.
  - split; [done|]. intros _. eexists.
    destruct r; try done; cbn [serve]; unfold all_validators, one_validator, validators_by_withdrawal, statistics, merkle_proof, if_ready;
      rewrite Ho; reflexivity.
Qed.
