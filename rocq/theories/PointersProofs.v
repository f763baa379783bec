(** The model with values is exact for the program with pointers (C105). *)
From Verif Require Import PointersSpec StepProofs.

Section outcomes.
  (** The two programs end alike, and in memory everything is still apart. *)
  Definition like (R : N → Prop) (h : hst) (x : res hst) (y : res ost) : Prop :=
    match x, y with
    | Ok h', Ok s' => view h' = s' ∧ apart R h' ∧ keeps R h h'
    | Die d, Die d' => d = d'
    | _, _ => False
    end.
  Definition like_out {A} (R : N → Prop) (h : hst) (x : outcome hst A) (y : outcome ost A) : Prop :=
    match x, y with
    | Done h' a, Done s' a' => view h' = s' ∧ a = a' ∧ apart R h' ∧ keeps R h h'
    | Fail h' e, Fail s' e' => view h' = s' ∧ e = e' ∧ apart R h' ∧ keeps R h h'
    | Dead d, Dead d' => d = d'
    | _, _ => False
    end.
End outcomes.

Lemma keeps_refl R h : keeps R h h. Proof. done. Qed.
Lemma keeps_trans R h1 h2 h3 : keeps R h1 h2 → keeps R h2 h3 → keeps R h1 h3.
Proof. intros H1 H2 l Hl. rewrite H2, H1; done. Qed.
Lemma keeps_sub (R R' : N → Prop) h h' : (∀ l, R l → R' l) → keeps R' h h' → keeps R h h'.
Proof. intros H Hk l Hl. by apply Hk, H. Qed.
Lemma apart_sub (R R' : N → Prop) h : (∀ l, R l → R' l) → apart R' h → apart R h.
Proof. intros H [H1 H2 H3 H4 H5 H6]. split; eauto. intros o l Hp Hl. by eapply H2; [|apply H]. Qed.

Lemma like_ret R h : apart R h → like R h (Ok h) (Ok (view h)).
Proof. intros Ha. split; [done|]. split; [done|apply keeps_refl]. Qed.
Lemma like_bind R h x y k k' : like R h x y →
  (∀ h', apart R h' → keeps R h h' → like R h' (k h') (k' (view h'))) → like R h (rbind x k) (rbind y k').
Proof.
  intros H Hk. destruct x as [h'|d], y as [s'|d']; try done. destruct H as (<- & Ha & Hkp). cbn [rbind].
  specialize (Hk h' Ha Hkp). destruct (k h') as [h2|], (k' (view h')) as [s2|]; try done.
  destruct Hk as (? & ? & ?). split; [done|]. split; [done|]. by eapply keeps_trans.
Qed.
Lemma like_from R h h1 x y : keeps R h h1 → like R h1 x y → like R h x y.
Proof. intros Hk H. destruct x, y; try done. destruct H as (? & ? & ?). split; [done|]. split; [done|]. by eapply keeps_trans. Qed.
Lemma like_sub (R R' : N → Prop) h x y : (∀ l, R l → R' l) → like R' h x y → like R h x y.
Proof.
  intros H Hl. destruct x, y; try done. destruct Hl as (? & ? & ?). split; [done|].
  split; [by eapply apart_sub|by eapply keeps_sub].
Qed.
(** The same computation of a value on both sides. *)
Lemma like_val {A} R h (m : res A) k k' : (∀ a, m = Ok a → like R h (k a) (k' a)) → like R h (rbind m k) (rbind m k').
Proof. intros H. destruct m as [a|d]; cbn [rbind]; [by apply H|done]. Qed.

(** ** Reading *)

Definition h_write (l : N) (z : Z) (h : hst) : hst := HSt (<[l := z]> (hs_mem h)) (hs_new h) (hs_vals h) (hs_fees h) (hs_rest h).
Lemma deref_write l z h l' : deref (h_write l z h) l' = if decide (l = l') then z else deref h l'.
Proof. unfold deref. cbn. destruct (decide (l = l')) as [->|]; [by rewrite lookup_insert|by rewrite lookup_insert_ne]. Qed.
Lemma view_lookup h i : st_vals (view h) !! i = info_at h <$> hs_vals h !! i.
Proof. cbn. by rewrite lookup_fmap. Qed.
Lemma view_tracked h i : is_tracked (view h) i = match hs_vals h !! i with Some _ => true | None => false end.
Proof. unfold is_tracked. rewrite view_lookup. by destruct (hs_vals h !! i). Qed.

(** What is seen depends on the rest, the fees and the records. *)
Lemma view_ext h s : st_fees s = deref h (hs_fees h) → (∀ i, st_vals s !! i = info_at h <$> hs_vals h !! i) →
  set_fees 0 (set_vals ∅ s) = set_fees 0 (set_vals ∅ (hs_rest h)) → view h = s.
Proof.
  intros Hf Hv Hr. destruct s, (hs_rest h) eqn:Hrest. unfold view. rewrite Hrest. cbn in *.
  injection Hr as -> -> -> -> -> -> -> -> -> -> -> -> -> -> -> -> -> -> -> ->. unfold set_fees, set_vals. cbn. f_equal; [done|].
  apply map_eq. intros i. by rewrite lookup_fmap, Hv.
Qed.

(** ** Writing in place *)

Lemma apart_write R h l z : apart R h → apart R (h_write l z h).
Proof. intros [H1 H2 H3 H4 H5 H6]. by split. Qed.
Lemma keeps_write R h o l z : apart R h → place h o = Some l → keeps R h (h_write l z h).
Proof. intros Ha Hp l' Hl'. rewrite deref_write. destruct (decide (l = l')) as [->|]; [|done]. by destruct (ap_else _ _ Ha _ _ Hp). Qed.

Lemma view_write_fees R h z : apart R h → view (h_write (hs_fees h) z h) = set_fees z (view h).
Proof.
  intros Ha. apply view_ext; [| |done].
  - cbn. rewrite deref_write. by rewrite decide_True.
  - intros i. cbn. rewrite lookup_fmap. destruct (hs_vals h !! i) as [v|] eqn:Hv; [|done]. cbn. f_equal. unfold info_at.
    assert (hs_fees h ≠ hi_acc v) as H1.
    { intros E. assert (OwnFees = OwnAcc i) by (eapply (ap_own _ _ Ha); [done|cbn; by rewrite Hv, E]). done. }
    assert (hs_fees h ≠ hi_pend v) as H2.
    { intros E. assert (OwnFees = OwnPend i) by (eapply (ap_own _ _ Ha); [done|cbn; by rewrite Hv, E]). done. }
    assert (hs_fees h ≠ hi_coll v) as H3 by (intros E; by eapply (ap_coll _ _ Ha OwnFees)).
    rewrite !deref_write, !decide_False by done. done.
Qed.
Lemma view_write_pend R h i v z : apart R h → hs_vals h !! i = Some v →
  view (h_write (hi_pend v) z h) = set_vals (<[i := set_pend z (info_at h v)]> (st_vals (view h))) (view h).
Proof.
  intros Ha Hv. assert (place h (OwnPend i) = Some (hi_pend v)) as Hp by (cbn; by rewrite Hv). apply view_ext; [| |done].
  - cbn. rewrite deref_write, decide_False; [done|]. intros E.
    assert (OwnFees = OwnPend i) by (eapply (ap_own _ _ Ha); [done|by rewrite Hp, E]). done.
  - intros j. cbn [st_vals set_vals]. change (hs_vals (h_write (hi_pend v) z h)) with (hs_vals h).
    destruct (decide (i = j)) as [<-|Hne].
    + rewrite lookup_insert, Hv. cbn. f_equal. unfold info_at, set_pend. cbn. rewrite !deref_write.
      rewrite (decide_True (P := hi_pend v = hi_pend v)) by done.
      rewrite !decide_False; [done| |].
      * intros E. by eapply (ap_coll _ _ Ha _ _ i v Hp).
      * intros E. assert (OwnPend i = OwnAcc i) by (eapply (ap_own _ _ Ha); [done|cbn; by rewrite Hv, E]). done.
    + rewrite lookup_insert_ne by done. rewrite view_lookup. destruct (hs_vals h !! j) as [w|] eqn:Hw; [|done]. cbn. f_equal.
      unfold info_at. rewrite !deref_write, !decide_False; [done| | |].
      * intros E. by eapply (ap_coll _ _ Ha _ _ j w Hp).
      * intros E. assert (OwnPend i = OwnPend j) by (eapply (ap_own _ _ Ha); [done|cbn; by rewrite Hw, E]). congruence.
      * intros E. assert (OwnPend i = OwnAcc j) by (eapply (ap_own _ _ Ha); [done|cbn; by rewrite Hw, E]). done.
Qed.
Lemma view_write_acc R h i v z : apart R h → hs_vals h !! i = Some v →
  view (h_write (hi_acc v) z h) = set_vals (<[i := set_acc z (info_at h v)]> (st_vals (view h))) (view h).
Proof.
  intros Ha Hv. assert (place h (OwnAcc i) = Some (hi_acc v)) as Hp by (cbn; by rewrite Hv). apply view_ext; [| |done].
  - cbn. rewrite deref_write, decide_False; [done|]. intros E.
    assert (OwnFees = OwnAcc i) by (eapply (ap_own _ _ Ha); [done|by rewrite Hp, E]). done.
  - intros j. cbn [st_vals set_vals]. change (hs_vals (h_write (hi_acc v) z h)) with (hs_vals h).
    destruct (decide (i = j)) as [<-|Hne].
    + rewrite lookup_insert, Hv. cbn. f_equal. unfold info_at, set_acc. cbn. rewrite !deref_write.
      rewrite (decide_True (P := hi_acc v = hi_acc v)) by done.
      rewrite !decide_False; [done| |].
      * intros E. by eapply (ap_coll _ _ Ha _ _ i v Hp).
      * intros E. assert (OwnAcc i = OwnPend i) by (eapply (ap_own _ _ Ha); [done|cbn; by rewrite Hv, E]). done.
    + rewrite lookup_insert_ne by done. rewrite view_lookup. destruct (hs_vals h !! j) as [w|] eqn:Hw; [|done]. cbn. f_equal.
      unfold info_at. rewrite !deref_write, !decide_False; [done| | |].
      * intros E. by eapply (ap_coll _ _ Ha _ _ j w Hp).
      * intros E. assert (OwnAcc i = OwnPend j) by (eapply (ap_own _ _ Ha); [done|cbn; by rewrite Hw, E]). done.
      * intros E. assert (OwnAcc i = OwnAcc j) by (eapply (ap_own _ _ Ha); [done|cbn; by rewrite Hw, E]). congruence.
Qed.

(** ** New objects *)

(** Nothing in use lies at or above the next address. *)
Definition below (h : hst) : Prop := (hs_fees h < hs_new h)%N ∧
  ∀ i v, hs_vals h !! i = Some v → (hi_acc v < hs_new h ∧ hi_pend v < hs_new h ∧ hi_coll v < hs_new h)%N.
Lemma apart_below R h : apart R h → below h.
Proof.
  intros Ha. split; [by apply (ap_used _ _ Ha OwnFees)|]. intros i v Hv.
  split; [apply (ap_used _ _ Ha (OwnAcc i)); cbn; by rewrite Hv|].
  split; [apply (ap_used _ _ Ha (OwnPend i)); cbn; by rewrite Hv|by eapply (ap_used_coll _ _ Ha)].
Qed.
Lemma deref_alloc h z l h1 l' : h_alloc z h = (l, h1) → deref h1 l' = if decide (l = l') then z else deref h l'.
Proof. intros [= <- <-]. apply (deref_write (hs_new h) z h l'). Qed.
Lemma deref_alloc_old h z l h1 l' : h_alloc z h = (l, h1) → (l' < hs_new h)%N → deref h1 l' = deref h l'.
Proof. intros H Hl. rewrite (deref_alloc _ _ _ _ _ H). injection H as <- <-. rewrite decide_False; [done|lia]. Qed.
Lemma alloc_bits h z l h1 : h_alloc z h = (l, h1) → l = hs_new h ∧ hs_new h1 = (hs_new h + 1)%N ∧ hs_vals h1 = hs_vals h ∧
  hs_fees h1 = hs_fees h ∧ hs_rest h1 = hs_rest h.
Proof. by intros [= <- <-]. Qed.
Lemma view_alloc h z l h1 : below h → h_alloc z h = (l, h1) → view h1 = view h.
Proof.
  intros [Hf Hb] H. destruct (alloc_bits _ _ _ _ H) as (-> & Hn & Hv & Hfe & Hr). apply view_ext.
  - rewrite Hfe. cbn. by rewrite (deref_alloc_old _ _ _ _ _ H).
  - intros i. rewrite view_lookup, Hv. destruct (hs_vals h !! i) as [v|] eqn:Hvi; [|done]. cbn. f_equal.
    destruct (Hb _ _ Hvi) as (? & ? & ?). unfold info_at. by rewrite !(deref_alloc_old _ _ _ _ _ H).
  - by rewrite Hr.
Qed.
Lemma below_alloc h z l h1 : below h → h_alloc z h = (l, h1) → below h1.
Proof. intros [Hf Hb] [= <- <-]. split; cbn; [lia|]. intros i v Hv. destruct (Hb _ _ Hv) as (? & ? & ?). lia. Qed.
Lemma place_alloc h z l h1 o : h_alloc z h = (l, h1) → place h1 o = place h o.
Proof. intros H. destruct (alloc_bits _ _ _ _ H) as (_ & _ & Hv & Hf & _). destruct o; cbn; by rewrite ?Hv, ?Hf. Qed.
(** A new object belongs to nobody. *)
Lemma apart_alloc R h z l h1 : apart R h → h_alloc z h = (l, h1) → apart (λ l', R l' ∨ l' = l) h1 ∧ keeps R h h1 ∧ deref h1 l = z.
Proof.
  intros Ha H. split; [|split].
  - pose proof (place_alloc _ _ _ _ : ∀ o, h_alloc z h = (l, h1) → place h1 o = place h o) as Hpl.
    destruct (alloc_bits _ _ _ _ H) as (-> & Hn & Hv & Hf & _). destruct Ha as [H1 H2 H3 H4 H5 H6]. split.
    + intros o1 o2 l. rewrite !Hpl by done. apply H1.
    + intros o l Hp [Hl| ->]; rewrite Hpl in Hp by done; [by eapply H2|]. apply H4 in Hp. lia.
    + intros o l i v. rewrite Hpl, Hv by done. apply H3.
    + intros o l. rewrite Hpl, Hn by done. intros Hp. apply H4 in Hp. lia.
    + intros i v. rewrite Hv, Hn. intros Hvi. apply H5 in Hvi. lia.
    + intros l [Hl| ->]; rewrite Hn; [apply H6 in Hl|]; lia.
  - intros l' Hl'. eapply deref_alloc_old; [done|]. by eapply (ap_used_else _ _ Ha).
  - rewrite (deref_alloc _ _ _ _ _ H). by rewrite decide_True.
Qed.

(** ** A record put into the map *)

Notation put i w h := (h_vals (<[i := w]> (hs_vals h)) h).
(** An object that is in use by none of the pointers. *)
Definition unused (R : N → Prop) (h : hst) (l : N) : Prop :=
  (l < hs_new h)%N ∧ ¬ R l ∧ (∀ o, place h o ≠ Some l) ∧ (∀ i v, hs_vals h !! i = Some v → hi_coll v ≠ l).

Lemma view_put h i w : view (put i w h) = set_vals (<[i := info_at h w]> (st_vals (view h))) (view h).
Proof.
  apply view_ext; [done| |done]. intros j. cbn [st_vals set_vals hs_vals h_vals].
  destruct (decide (i = j)) as [<-|Hne]; [by rewrite !lookup_insert|]. rewrite !lookup_insert_ne by done. by rewrite view_lookup.
Qed.
Lemma place_put h i w o : place (put i w h) o =
  match o with
  | OwnFees => Some (hs_fees h)
  | OwnAcc j => if decide (i = j) then Some (hi_acc w) else place h o
  | OwnPend j => if decide (i = j) then Some (hi_pend w) else place h o
  end.
Proof.
  destruct o as [|j|j]; cbn; [done| |]; (destruct (decide (i = j)) as [<-|]; [by rewrite lookup_insert|by rewrite lookup_insert_ne]).
Qed.
Lemma apart_put R h i w : apart R h →
  (place h (OwnAcc i) = Some (hi_acc w) ∨ unused R h (hi_acc w)) →
  (place h (OwnPend i) = Some (hi_pend w) ∨ unused R h (hi_pend w)) →
  hi_acc w ≠ hi_pend w →
  ((∃ v, hs_vals h !! i = Some v ∧ hi_coll w = hi_coll v) ∨ R (hi_coll w) ∨
   unused R h (hi_coll w)) → hi_coll w ≠ hi_acc w → hi_coll w ≠ hi_pend w →
  apart R (put i w h).
Proof.
  intros Ha Hacc Hpend Hap Hc Hca Hcp.
  (* a pointer after is one before, or unused *)
  assert (∀ o l, place (put i w h) o = Some l → place h o = Some l ∨ unused R h l) as Hold.
  { intros o l. rewrite place_put. destruct o as [|j|j]; [by left| |]; destruct (decide (i = j)) as [<-|]; [|by left| |by left];
      intros [= <-]; [destruct Hacc|destruct Hpend]; auto. }
  assert (∀ o l, place (put i w h) o = Some l → o = OwnAcc i ∧ l = hi_acc w ∨ o = OwnPend i ∧ l = hi_pend w ∨
    o ≠ OwnAcc i ∧ o ≠ OwnPend i ∧ place h o = Some l) as Hwhich.
  { intros o l. rewrite place_put. destruct o as [|j|j].
    - intros H. right; right. split; [done|]. split; [done|done].
    - destruct (decide (i = j)) as [<-|Hne]; [intros [= <-]; by left|]. intros H. right; right. split; [congruence|]. by split.
    - destruct (decide (i = j)) as [<-|Hne]; [intros [= <-]; right; by left|]. intros H. right; right. split; [done|]. split; [congruence|done]. }
  assert (∀ o l x, place h o = Some l → o ≠ x → (place h x = Some l ∨ unused R h l) → False) as Hcl.
  { intros o l x Ho Hne [Hx|Hx]; [by apply Hne, (ap_own _ _ Ha _ _ l)|by destruct Hx as (_ & _ & Hx & _); apply (Hx o)]. }
  assert (∀ o l, place h o = Some l → hi_coll w ≠ l) as Hcoll.
  { intros o l Ho El. subst l. destruct Hc as [(v & Hv & E)|[HR|Hu]].
    - eapply (ap_coll _ _ Ha); [exact Ho|exact Hv|done].
    - by eapply (ap_else _ _ Ha).
    - destruct Hu as (_ & _ & Hu & _). by apply (Hu o). }
  split.
  - intros o1 o2 l H1 H2. apply Hwhich in H1, H2.
    destruct H1 as [[-> H1]|[[-> H1]|(N1 & N1' & H1)]], H2 as [[-> H2]|[[-> H2]|(N2 & N2' & H2)]]; subst; try done.
    + by destruct (Hcl _ _ (OwnAcc i) H2 N2).
    + by destruct (Hcl _ _ (OwnPend i) H2 N2').
    + by destruct (Hcl _ _ (OwnAcc i) H1 N1).
    + by destruct (Hcl _ _ (OwnPend i) H1 N1').
    + by eapply (ap_own _ _ Ha).
  - intros o l Ho. destruct (Hold _ _ Ho) as [H|(_ & H & _)]; [by eapply (ap_else _ _ Ha)|done].
  - intros o l j v Ho. cbn [h_vals hs_vals]. destruct (decide (i = j)) as [<-|Hne].
    + rewrite lookup_insert. intros [= <-]. apply Hwhich in Ho. destruct Ho as [[-> ->]|[[-> ->]|(N1 & N1' & H1)]]; [done|done|].
      by eapply Hcoll.
    + rewrite lookup_insert_ne by done. intros Hv. destruct (Hold _ _ Ho) as [H|(_ & _ & _ & H)]; [by eapply (ap_coll _ _ Ha)|by eapply H].
  - intros o l Ho. cbn [h_vals hs_new]. destruct (Hold _ _ Ho) as [H|(H & _)]; [by eapply (ap_used _ _ Ha)|done].
  - intros j v. cbn [h_vals hs_new hs_vals]. destruct (decide (i = j)) as [<-|Hne].
    + rewrite lookup_insert. intros [= <-]. destruct Hc as [(v & Hv & ->)|[HR|(Hu & _)]].
      * by eapply (ap_used_coll _ _ Ha).
      * by eapply (ap_used_else _ _ Ha).
      * done.
    + rewrite lookup_insert_ne by done. apply (ap_used_coll _ _ Ha).
  - apply (ap_used_else _ _ Ha).
Qed.
(** A record with the same pointers. *)
Lemma apart_same R h i v w : apart R h → hs_vals h !! i = Some v → hi_acc w = hi_acc v → hi_pend w = hi_pend v → hi_coll w = hi_coll v →
  apart R (put i w h).
Proof.
  intros Ha Hv H1 H2 H3. assert (place h (OwnAcc i) = Some (hi_acc v)) as P1 by (cbn; by rewrite Hv).
  assert (place h (OwnPend i) = Some (hi_pend v)) as P2 by (cbn; by rewrite Hv).
  apply apart_put; rewrite ?H1, ?H2, ?H3; try done; auto.
  - intros E. assert (OwnAcc i = OwnPend i) by (eapply (ap_own _ _ Ha); [exact P1|by rewrite P2, E]). done.
  - left. by exists v.
  - by eapply (ap_coll _ _ Ha).
  - by eapply (ap_coll _ _ Ha).
Qed.

Lemma unused_new R h z l h1 : apart R h → h_alloc z h = (l, h1) → unused R h1 l.
Proof.
  intros Ha H. destruct (alloc_bits _ _ _ _ H) as (-> & Hn & Hv & Hf & _). split; [lia|]. split; [|split].
  - intros HR. apply (ap_used_else _ _ Ha) in HR. lia.
  - intros o. rewrite (place_alloc _ _ _ _ _ H). intros Ho. apply (ap_used _ _ Ha) in Ho. lia.
  - intros i v. rewrite Hv. intros Hi E. apply (ap_used_coll _ _ Ha) in Hi. lia.
Qed.
Lemma unused_old R h z l h1 l' : unused R h l' → h_alloc z h = (l, h1) → unused R h1 l' ∧ l' ≠ l.
Proof.
  intros (H1 & H2 & H3 & H4) H. destruct (alloc_bits _ _ _ _ H) as (-> & Hn & Hv & Hf & _).
  split; [|lia]. split; [lia|]. split; [done|]. split; [intros o; by rewrite (place_alloc _ _ _ _ _ H)|by rewrite Hv].
Qed.
Lemma apart_alloc' R h z l h1 : apart R h → h_alloc z h = (l, h1) → apart R h1 ∧ keeps R h h1 ∧ deref h1 l = z ∧ unused R h1 l.
Proof.
  intros Ha H. destruct (apart_alloc _ _ _ _ _ Ha H) as (H1 & H2 & H3). split; [|split; [done|split; [done|by eapply unused_new]]].
  eapply apart_sub; [|exact H1]. intros ? ?. by left.
Qed.
Lemma unused_put R h i w l : unused R h l → l ≠ hi_acc w → l ≠ hi_pend w → l ≠ hi_coll w → unused R (put i w h) l.
Proof.
  intros (H1 & H2 & H3 & H4) N1 N2 N3. split; [done|]. split; [done|]. split.
  - intros o. rewrite place_put. destruct o as [|j|j]; [apply (H3 OwnFees)| |]; (destruct (decide (i = j)); [congruence|apply H3]).
  - intros j v. cbn [h_vals hs_vals]. destruct (decide (i = j)) as [<-|]; [rewrite lookup_insert; congruence|].
    rewrite lookup_insert_ne by done. apply H4.
Qed.
(** What a validator leaves behind. *)
Lemma unused_left R h i v w : apart R h → hs_vals h !! i = Some v → hi_acc w = hi_acc v → hi_coll w = hi_coll v →
  hi_pend w ≠ hi_pend v → unused R (put i w h) (hi_pend v).
Proof.
  intros Ha Hv H1 H2 H3. assert (place h (OwnPend i) = Some (hi_pend v)) as P by (cbn; by rewrite Hv).
  split; [by eapply (ap_used _ _ Ha)|]. split; [by eapply (ap_else _ _ Ha)|]. split.
  - intros o Ho. rewrite place_put in Ho. destruct o as [|j|j].
    + assert (OwnFees = OwnPend i) by (by eapply (ap_own _ _ Ha)). done.
    + assert (OwnAcc j = OwnPend i); [|done]. eapply (ap_own _ _ Ha); [|exact P]. destruct (decide (i = j)) as [<-|]; [|done].
      cbn. rewrite Hv. cbn. congruence.
    + destruct (decide (i = j)) as [<-|]; [congruence|]. assert (OwnPend j = OwnPend i) by (by eapply (ap_own _ _ Ha)). congruence.
  - intros j x. cbn [h_vals hs_vals]. destruct (decide (i = j)) as [<-|].
    + rewrite lookup_insert. intros [= <-]. rewrite H2. by eapply (ap_coll _ _ Ha).
    + rewrite lookup_insert_ne by done. intros Hx. by eapply (ap_coll _ _ Ha).
Qed.

(** ** Single updates *)

Lemma fsm_exact R i e h : apart R h → view (h_fsm i e h) = advance_fsm i e (view h) ∧ apart R (h_fsm i e h) ∧ ∀ l, deref (h_fsm i e h) l = deref h l.
Proof.
  intros Ha. unfold h_fsm, advance_fsm. rewrite view_lookup. destruct (hs_vals h !! i) as [v|] eqn:Hv; cbn [fmap option_fmap option_map]; [|done].
  split; [by rewrite view_put|]. split; [|done]. by eapply apart_same.
Qed.
Lemma like_h_sub R i t h : apart R h → like R h (h_sub i t h) (upd_val i (set_sub t) (view h)).
Proof.
  intros Ha. unfold h_sub, h_val, upd_val. rewrite view_lookup. destruct (hs_vals h !! i) as [v|] eqn:Hv; cbn [fmap option_fmap option_map rbind]; [|done].
  cbn [like]. split; [by rewrite view_put|]. split; [by eapply apart_same|done].
Qed.
Lemma like_inc_pend R i r h : apart R h → like R h (h_inc_pend i r h) (inc_pend i (deref h r) (view h)).
Proof.
  intros Ha. unfold h_inc_pend, h_val, inc_pend, upd_val. rewrite view_lookup.
  destruct (hs_vals h !! i) as [v|] eqn:Hv; cbn [fmap option_fmap option_map rbind like]; [|done].
  split; [by apply (view_write_pend R)|]. split; [by apply apart_write|]. eapply (keeps_write _ _ (OwnPend i)); [done|]. cbn. by rewrite Hv.
Qed.
Lemma like_inc_acc R i r h : apart R h → like R h (h_inc_acc i r h) (inc_acc i (deref h r) (view h)).
Proof.
  intros Ha. unfold h_inc_acc, h_val, inc_acc, upd_val. rewrite view_lookup.
  destruct (hs_vals h !! i) as [v|] eqn:Hv; cbn [fmap option_fmap option_map rbind like]; [|done].
  split; [by apply (view_write_acc R)|]. split; [by apply apart_write|]. eapply (keeps_write _ _ (OwnAcc i)); [done|]. cbn. by rewrite Hv.
Qed.
Lemma send_exact R r h : apart R h → view (h_send r h) = send_to_pool (deref h r) (view h) ∧ apart R (h_send r h) ∧ keeps R h (h_send r h).
Proof.
  intros Ha. split; [by apply (view_write_fees R)|]. split; [by apply apart_write|]. by eapply (keeps_write _ _ OwnFees).
Qed.
Lemma like_send R r h : apart R h → like R h (Ok (h_send r h)) (Ok (send_to_pool (deref h r) (view h))).
Proof. intros Ha. by apply send_exact. Qed.

Lemma reset_view h i v h' : below h → hs_vals h !! i = Some v → h_reset i h = Ok h' →
  view h' = set_vals (<[i := set_pend 0 (info_at h v)]> (st_vals (view h))) (view h).
Proof.
  intros Hb Hv. unfold h_reset, h_val. rewrite Hv. cbn [rbind]. destruct (h_alloc 0 h) as [l h1] eqn:Hal. intros [= <-].
  rewrite view_put, (view_alloc _ _ _ _ Hb Hal). f_equal. f_equal. unfold info_at, hset_pend, set_pend. cbn.
  destruct Hb as [_ Hb]. destruct (Hb _ _ Hv) as (? & ? & ?). rewrite (deref_alloc_old _ _ _ _ (hi_acc v) Hal), (deref_alloc_old _ _ _ _ (hi_coll v) Hal) by done.
  by rewrite (deref_alloc _ _ _ _ l Hal), decide_True.
Qed.
Lemma like_reset R i h : apart R h → like R h (h_reset i h) (reset_pend i (view h)).
Proof.
  intros Ha. unfold reset_pend, upd_val. rewrite view_lookup.
  destruct (hs_vals h !! i) as [v|] eqn:Hv; cbn [fmap option_fmap option_map];
    [|unfold h_reset, h_val; by rewrite Hv].
  destruct (h_reset i h) as [h'|d] eqn:Hr;
    [|unfold h_reset, h_val in Hr; rewrite Hv in Hr; cbn [rbind] in Hr; by destruct (h_alloc 0 h)].
  cbn [like]. split; [apply (reset_view h i v); [by eapply apart_below|done|done]|].
  unfold h_reset, h_val in Hr. rewrite Hv in Hr. cbn [rbind] in Hr. destruct (h_alloc 0 h) as [l h1] eqn:Hal. injection Hr as <-.
  destruct (apart_alloc' _ _ _ _ _ Ha Hal) as (Ha1 & Hk & _ & Hu). destruct (alloc_bits _ _ _ _ Hal) as (_ & _ & Hv1 & _ & _).
  assert (hs_vals h1 !! i = Some v) as Hvi by (by rewrite Hv1). split; [|intros l' Hl'; by apply Hk].
  assert (place h1 (OwnAcc i) = Some (hi_acc v)) as P1 by (cbn; by rewrite Hvi).
  destruct Hu as (U1 & U2 & U3 & U4). apply apart_put; cbn; try done.
  - by left.
  - by right.
  - intros E. apply (U3 (OwnAcc i)). by rewrite P1, E.
  - left. by exists v.
  - by eapply (ap_coll _ _ Ha1).
  - by eapply U4.
Qed.
Lemma like_consolidate R i h : apart R h → like R h (h_consolidate i h) (consolidate i (view h)).
Proof.
  intros Ha. unfold h_consolidate, h_val, consolidate, upd_val. rewrite view_lookup.
  destruct (hs_vals h !! i) as [v|] eqn:Hv; cbn [fmap option_fmap option_map rbind]; [|done].
  set (h1 := h_add (hi_acc v) (hi_pend v) h).
  assert (view h1 = set_vals (<[i := set_acc (deref h (hi_acc v) + deref h (hi_pend v)) (info_at h v)]> (st_vals (view h))) (view h)) as Hview
    by (by apply (view_write_acc R)).
  assert (apart R h1) as Ha1 by (by apply apart_write).
  assert (keeps R h h1) as Hk1 by (eapply (keeps_write _ _ (OwnAcc i)); [done|cbn; by rewrite Hv]).
  pose proof (like_reset R i h1 Ha1) as Hl. unfold reset_pend, upd_val in Hl. rewrite Hview in Hl. cbn [st_vals set_vals] in Hl.
  rewrite lookup_insert in Hl. apply (like_from _ _ _ _ _ Hk1) in Hl.
  destruct (h_reset i h1) as [h2|d]; [|done]. destruct Hl as (Hl & ? & ?). split; [|done].
  rewrite Hl. rewrite insert_insert. done.
Qed.

(** ** Distribution *)

Lemma like_apply R l h : apart R h → Forall (λ x, R x.2) l →
  like R h (h_apply l h) (apply_rewards ((λ x, (x.1, deref h x.2)) <$> l) (view h)).
Proof.
  intros Ha Hl. revert h Ha. induction Hl as [|[i r] l Hr Hl IH]; intros h Ha; [by apply like_ret|].
  cbn [h_apply fmap list_fmap apply_rewards fst snd]. apply like_bind; [by apply like_inc_pend|].
  intros h1 Ha1 Hk. replace ((λ x : N * N, (x.1, deref h x.2)) <$> l) with ((λ x : N * N, (x.1, deref h1 x.2)) <$> l); [by apply IH|].
  clear -Hl Hk. induction Hl as [|x l Hx Hl IH]; [done|]. cbn. rewrite Hk by done. f_equal. apply IH.
Qed.

Lemma alloc_list_exact R zs : ∀ h ls h1, apart R h → h_alloc_list zs h = (ls, h1) →
  view h1 = view h ∧ apart (λ l, R l ∨ l ∈ ls) h1 ∧ keeps R h h1 ∧ Forall2 (λ l z, deref h1 l = z) ls zs.
Proof.
  revert R. induction zs as [|z zs IH]; intros R h ls h1 Ha; cbn [h_alloc_list].
  - intros [= <- <-]. split; [done|]. split; [|done]. eapply apart_sub; [|exact Ha]. intros l [Hl|Hl]; [done|by apply elem_of_nil in Hl].
  - destruct (h_alloc z h) as [l h2] eqn:Hal. destruct (h_alloc_list zs h2) as [ls2 h3] eqn:Hls. intros [= <- <-].
    destruct (apart_alloc _ _ _ _ _ Ha Hal) as (Ha2 & Hk2 & Hd).
    destruct (IH _ _ _ _ Ha2 Hls) as (Hv & Ha3 & Hk3 & Hf). split; [|split; [|split]].
    + rewrite Hv. eapply view_alloc; [by eapply apart_below|done].
    + eapply apart_sub; [|exact Ha3]. intros l' [Hl|Hl]; [by left; left|]. apply elem_of_cons in Hl as [->|Hl]; [by left; right|by right].
    + eapply keeps_trans; [done|]. eapply keeps_sub; [|exact Hk3]. cbn; auto.
    + constructor; [|done]. rewrite Hk3 by (by right). done.
Qed.

Lemma zip_deref h (ks : list N) ls zs : length ks = length zs → Forall2 (λ l z, deref h l = z) ls zs →
  (λ x, (x.1, deref h x.2)) <$> zip ks ls = zip ks zs.
Proof.
  intros Hlen H. revert ks Hlen. induction H as [|l z ls zs Hl H IH]; intros [|k ks] Hlen; try done. cbn. cbn in Hl. rewrite Hl. f_equal.
  apply IH. cbn in Hlen. lia.
Qed.

Lemma like_increase_all R E net r h : apart R h →
  like R h (h_increase_all E net r h) (increase_all E net (deref h r) (view h)).
Proof.
  intros Ha. unfold h_increase_all, increase_all. destruct (eligible_indices E (view h)) as [|i0 elig0] eqn:Hel; [by apply like_send|].
  set (elig := i0 :: elig0) in *. destruct (10000 <? st_feepct (view h))%Z; [done|]. apply like_val. intros m _.
  assert (∀ per fees, like R h (let '(lp, h1) := h_alloc per h in let '(lf, h2) := h_alloc fees h1 in
    h_apply ((λ i, (i, lp)) <$> elig) (h_send lf h2)) (apply_rewards ((λ i, (i, per)) <$> elig) (send_to_pool fees (view h)))) as Hflat.
  { intros per fees. destruct (h_alloc per h) as [lp h1] eqn:H1. destruct (h_alloc fees h1) as [lf h2] eqn:H2.
    destruct (apart_alloc _ _ _ _ _ Ha H1) as (Ha1 & Hk1 & Hd1). destruct (apart_alloc _ _ _ _ _ Ha1 H2) as (Ha2 & Hk2 & Hd2).
    destruct (send_exact _ lf _ Ha2) as (Hv3 & Ha3 & Hk3). set (h3 := h_send lf h2) in *.
    assert (deref h3 lp = per) as Hlp by (rewrite Hk3, Hk2 by auto; done).
    rewrite Hd2, (view_alloc _ _ _ _ (apart_below _ _ Ha1) H2), (view_alloc _ _ _ _ (apart_below _ _ Ha) H1) in Hv3.
    assert (Forall (λ x : N * N, (λ l', (R l' ∨ l' = lp) ∨ l' = lf) x.2) ((λ i, (i, lp)) <$> elig)) as Hf.
    { apply Forall_fmap, Forall_true. intros i. cbn. auto. }
    pose proof (like_apply _ _ _ Ha3 Hf) as Hl. rewrite <- list_fmap_compose in Hl. rewrite <- Hv3.
    replace ((λ i, (i, per)) <$> elig) with ((λ x : N * N, (x.1, deref h3 x.2)) ∘ (λ i, (i, lp)) <$> elig)
      by (apply list_fmap_ext; intros ? ? ?; cbn; by rewrite Hlp).
    eapply like_from; [|eapply like_sub; [|exact Hl]]; [|cbn; auto].
    eapply keeps_trans; [exact Hk1|]. eapply keeps_trans; [eapply keeps_sub; [|exact Hk2]; cbn; auto|].
    eapply keeps_sub; [|exact Hk3]. cbn; auto. }
  destruct m.
  - apply like_val. intros [fees per] _. apply Hflat.
  - apply like_val. intros [fees per] _. apply Hflat.
  - apply like_val. intros [rewards fees] _. clear Hflat.
    destruct (h_alloc_list (map_to_list rewards).*2 h) as [ls h1] eqn:H1. destruct (h_alloc fees h1) as [lf h2] eqn:H2.
    destruct (alloc_list_exact _ _ _ _ _ Ha H1) as (Hv1 & Ha1 & Hk1 & Hd1). destruct (apart_alloc _ _ _ _ _ Ha1 H2) as (Ha2 & Hk2 & Hd2).
    destruct (send_exact _ lf _ Ha2) as (Hv3 & Ha3 & Hk3). set (h3 := h_send lf h2) in *.
    rewrite Hd2, (view_alloc _ _ _ _ (apart_below _ _ Ha1) H2), Hv1 in Hv3.
    assert (Forall2 (λ l z, deref h3 l = z) ls (map_to_list rewards).*2) as Hd3.
    { apply Forall2_same_length_lookup. apply Forall2_same_length_lookup in Hd1 as [Hlen Hd1]. split; [done|].
      intros j l z Hj Hz. rewrite Hk3, Hk2; [by eapply Hd1| |]; [right|left; right]; by eapply elem_of_list_lookup_2. }
    assert (Forall (λ x : N * N, (λ l', (R l' ∨ l' ∈ ls) ∨ l' = lf) x.2) (zip (map_to_list rewards).*1 ls)) as Hf.
    { apply Forall_forall. intros [k l] Hx. apply elem_of_zip_r in Hx. cbn. auto. }
    pose proof (like_apply _ _ _ Ha3 Hf) as Hl. rewrite (zip_deref _ _ _ (map_to_list rewards).*2) in Hl; [|by rewrite !fmap_length|done].
    rewrite zip_fst_snd, Hv3 in Hl.
    eapply like_from; [|eapply like_sub; [|exact Hl]]; [|cbn; auto].
    eapply keeps_trans; [exact Hk1|]. eapply keeps_trans; [eapply keeps_sub; [|exact Hk2]; cbn; auto|].
    eapply keeps_sub; [|exact Hk3]. cbn; auto.
Qed.

(** ** The handlers *)

Lemma apart_rest R h s : apart R h → apart R (h_rest s h).
Proof. intros [H1 H2 H3 H4 H5 H6]. by split. Qed.
Lemma point_keeps R h h' ls zs : keeps R h h' → point_to R h ls zs → point_to R h' ls zs.
Proof. intros Hk H. eapply Forall2_impl; [exact H|]. intros l z [Hl Hd]. split; [done|]. by rewrite Hk. Qed.
Lemma point_length R h ls zs : point_to R h ls zs → length ls = length zs.
Proof. apply Forall2_length. Qed.

Lemma like_donations_loop R E net l : ∀ h, apart R h → Forall (λ x, R x.2 ∧ deref h x.2 = er_amount x.1) l →
  like R h (h_donations_loop E net l h) (donations_loop E net l.*1 (view h)).
Proof.
  induction l as [|[d r] l IH]; intros h Ha Hl; [by apply like_ret|]. apply Forall_cons in Hl as [[Hr Hd] Hl]. cbn [snd fst] in Hr, Hd.
  cbn [h_donations_loop fmap list_fmap donations_loop fst]. rewrite <- Hd. apply like_bind; [by apply like_increase_all|].
  intros h1 Ha1 Hk1. set (h2 := h_rest _ h1).
  change (set_donations (st_donations (view h1) ++ [d]) (view h1)) with (view h2). apply (like_from _ _ h2); [done|].
  apply IH; [by apply apart_rest|]. eapply Forall_impl; [exact Hl|]. intros x [Hx Hdx]. split; [done|]. rewrite <- Hdx. by apply Hk1.
Qed.
Lemma zip_points {A} R h (f : A → Z) (l : list A) ls : point_to R h ls (f <$> l) →
  Forall (λ x, R x.2 ∧ deref h x.2 = f x.1) (zip l ls) ∧ (zip l ls).*1 = l.
Proof.
  revert ls. induction l as [|x l IH]; intros ls H; cbn in H; inversion H as [|r z ls' zs' Hr Hls]; subst; [split; [constructor|done]|].
  destruct (IH _ Hls) as [H1 H2]. cbn. split; [by constructor|by rewrite H2].
Qed.
Lemma like_donations R E net l ls h : apart R h → point_to R h ls (er_amount <$> l) →
  like R h (h_donations E net (zip l ls) h) (handle_donations E net l (view h)).
Proof.
  intros Ha Hp. destruct (zip_points _ _ _ _ _ Hp) as [H1 H2]. unfold h_donations, handle_donations. rewrite H2.
  destruct (same_block _ l); [|done]. pose proof (like_donations_loop R E net _ h Ha H1) as H. by rewrite H2 in H.
Qed.

(** A new record with a collateral of zero. *)
Lemma new_exact R i addr key h : apart R h → hs_vals h !! i = None →
  let h' := h_new i None addr key h in
  view h' = set_vals (<[i := VInfo NotSubscribed 0 0 0 addr i key Manual]> (st_vals (view h))) (view h) ∧ apart R h' ∧ keeps R h h'.
Proof.
  intros Ha Hi. unfold h_new. destruct (h_alloc 0 h) as [a h1] eqn:H1. destruct (h_alloc 0 h1) as [p h2] eqn:H2.
  destruct (h_alloc 0 h2) as [c h3] eqn:H3. cbn zeta.
  destruct (apart_alloc' _ _ _ _ _ Ha H1) as (Ha1 & Hk1 & Hd1 & U1).
  destruct (apart_alloc' _ _ _ _ _ Ha1 H2) as (Ha2 & Hk2 & Hd2 & U2).
  destruct (apart_alloc' _ _ _ _ _ Ha2 H3) as (Ha3 & Hk3 & Hd3 & U3).
  destruct (unused_old _ _ _ _ _ _ U1 H2) as [U12 N12]. destruct (unused_old _ _ _ _ _ _ U12 H3) as [U13 N13].
  destruct (unused_old _ _ _ _ _ _ U2 H3) as [U23 N23].
  assert (deref h3 a = 0%Z) as Da.
  { rewrite (deref_alloc_old _ _ _ _ _ H3), (deref_alloc_old _ _ _ _ _ H2); [done|apply U1|apply U12]. }
  assert (deref h3 p = 0%Z) as Dp by (rewrite (deref_alloc_old _ _ _ _ _ H3); [done|apply U2]).
  split; [|split].
  - rewrite view_put. unfold info_at. cbn [hi_status hi_acc hi_pend hi_coll hi_addr hi_index hi_key hi_sub]. rewrite Da, Dp, Hd3.
    rewrite (view_alloc _ _ _ _ (apart_below _ _ Ha2) H3), (view_alloc _ _ _ _ (apart_below _ _ Ha1) H2), (view_alloc _ _ _ _ (apart_below _ _ Ha) H1).
    done.
  - apply apart_put; cbn; auto.
  - eapply keeps_trans; [exact Hk1|]. eapply keeps_trans; [exact Hk2|]. exact Hk3.
Qed.
(** A new record with the collateral of the event. *)
Lemma new_exact_coll R i c addr key h : apart R h → hs_vals h !! i = None → R c →
  let h' := h_new i (Some c) addr key h in
  view h' = set_vals (<[i := VInfo NotSubscribed 0 0 (deref h c) addr i key Manual]> (st_vals (view h))) (view h) ∧ apart R h' ∧ keeps R h h'.
Proof.
  intros Ha Hi Hc. unfold h_new. destruct (h_alloc 0 h) as [a h1] eqn:H1. destruct (h_alloc 0 h1) as [p h2] eqn:H2. cbn zeta.
  destruct (apart_alloc' _ _ _ _ _ Ha H1) as (Ha1 & Hk1 & Hd1 & U1).
  destruct (apart_alloc' _ _ _ _ _ Ha1 H2) as (Ha2 & Hk2 & Hd2 & U2).
  destruct (unused_old _ _ _ _ _ _ U1 H2) as [U12 N12].
  assert (deref h2 a = 0%Z) as Da by (rewrite (deref_alloc_old _ _ _ _ _ H2); [done|apply U1]).
  split; [|split].
  - rewrite view_put. unfold info_at. cbn [hi_status hi_acc hi_pend hi_coll hi_addr hi_index hi_key hi_sub]. rewrite Da, Hd2, Hk2, Hk1 by done.
    rewrite (view_alloc _ _ _ _ (apart_below _ _ Ha1) H2), (view_alloc _ _ _ _ (apart_below _ _ Ha) H1).
    done.
  - apply apart_put; cbn; auto; intros <-; [by destruct U12 as (_ & U & _)|by destruct U2 as (_ & U & _)].
  - eapply keeps_trans; [exact Hk1|exact Hk2].
Qed.

Lemma like_add_subscription R i addr key h : apart R h →
  like R h (h_add_subscription i addr key h) (add_subscription i addr key (view h)).
Proof.
  intros Ha. unfold h_add_subscription, add_subscription. rewrite view_lookup.
  destruct (hs_vals h !! i) as [v|] eqn:Hv; cbn [fmap option_fmap option_map].
  - destruct (is_subscribed (view h) i); [by apply like_ret|].
    destruct (fsm_exact _ i AutoSubscription h Ha) as (Hv1 & Ha1 & Hd1). cbn zeta. rewrite <- Hv1.
    destruct (is_banned _ i); [split; [done|]; split; [done|]; intros l _; apply Hd1|].
    eapply like_from; [|by apply like_h_sub]. intros l _. apply Hd1.
  - destruct (new_exact R i addr key h Ha Hv) as (Hv0 & Ha0 & Hk0). cbn zeta. rewrite <- Hv0.
    destruct (fsm_exact _ i AutoSubscription _ Ha0) as (Hv1 & Ha1 & Hd1). rewrite <- Hv1.
    eapply like_from; [|by apply like_h_sub]. intros l Hl. rewrite Hd1. by apply Hk0.
Qed.

Lemma like_fsm_then R i e h (k : hst → res hst) (k' : ost → res ost) : apart R h →
  (∀ h', apart R h' → (∀ l, deref h' l = deref h l) → like R h' (k h') (k' (view h'))) →
  like R h (k (h_fsm i e h)) (k' (advance_fsm i e (view h))).
Proof.
  intros Ha H. destruct (fsm_exact _ i e _ Ha) as (Hv & Ha1 & Hd). rewrite <- Hv. eapply like_from; [|by apply H]. intros l _. apply Hd.
Qed.

Lemma reward_keeps R h h' r z : keeps R h h' → reward_at R h r z → reward_at R h' r z.
Proof. intros Hk. destruct r, z; try done. intros [H1 H2]. split; [done|]. by rewrite Hk. Qed.

Lemma like_correct R E net b r h : apart R h → reward_at R h r (sb_reward b) →
  like R h (h_correct E net b r h) (handle_correct E net b (view h)).
Proof.
  intros Ha Hr. unfold h_correct, handle_correct. apply like_bind; [by apply like_add_subscription|]. intros h1 Ha1 Hk1. cbn zeta.
  apply (like_fsm_then R (sb_index b) ProposalOk h1 (λ h2, match r with None => Die (Panic "nil reward") | Some r => rbind (h_increase_all E net r h2) (λ h3, rbind (h_consolidate (sb_index b) h3) (λ h4, let s := hs_rest h4 in
      Ok (h_rest (set_blocks (st_proposed s ++ [b]) (st_missed s) (st_wrong s) s) h4))) end)
    (λ s2, rbind (deref_reward b) (λ r, rbind (increase_all E net r s2) (λ s3, rbind (consolidate (sb_index b) s3) (λ s4, Ok (set_blocks (st_proposed s4 ++ [b]) (st_missed s4) (st_wrong s4) s4)))))); [done|].
  intros h2 Ha2 Hd2. unfold deref_reward. destruct r as [r|], (sb_reward b) as [z|] eqn:Hsb; try done. destruct Hr as [Hr Hz].
  assert (deref h2 r = z) as <- by (rewrite Hd2, Hk1; done). cbn [rbind].
  apply like_bind; [by apply like_increase_all|]. intros h3 Ha3 _. apply like_bind; [by apply like_consolidate|]. intros h4 Ha4 _.
  split; [done|]. split; [by apply apart_rest|done].
Qed.
Lemma like_bls R b r h : apart R h → reward_at R h r (sb_reward b) → like R h (h_bls b r h) (handle_bls b (view h)).
Proof.
  intros Ha Hr. unfold h_bls, handle_bls. destruct (sb_type b); try done. unfold deref_reward.
  destruct r as [r|], (sb_reward b) as [z|] eqn:Hsb; try done. destruct Hr as [Hr <-]. cbn [rbind].
  destruct (send_exact R r h Ha) as (Hv & Ha1 & Hk). rewrite <- Hv. split; [done|]. split; [by apply apart_rest|done].
Qed.

Lemma like_handle_sub R E sub c val h : apart R h → R c → deref h c = sub_coll sub →
  like R h (h_handle_sub E sub c val h) (handle_sub E sub val (view h)).
Proof.
  intros Ha Hc Hd. unfold h_handle_sub, handle_sub. rewrite <- Hd. destruct val as [v|]; [|by apply like_send].
  destruct (negb (sub_id sub =? b_index v)%N); [done|]. destruct (negb (can_subscribe v)); [by apply like_send|].
  destruct (get_compatible_address_byte (b_creds v)) as [waddr|]; [|by apply like_send].
  apply like_val. intros e _. destruct (negb e); [by apply like_send|].
  destruct (is_banned (view h) (sub_id sub)); [by apply like_inc_acc|].
  destruct (is_subscribed (view h) (sub_id sub)); [by apply like_inc_acc|].
  destruct (negb (is_collateral_enough (view h) (deref h c))); [by apply like_send|].
  destruct (negb false && negb false && is_collateral_enough (view h) (deref h c)); [|by apply like_send].
  set (h1 := if is_tracked (view h) (sub_id sub) then h else h_new (sub_id sub) (Some c) waddr (hexutil_encode (b_pubkey v)) h).
  cbn zeta.
  assert (view h1 = (if is_tracked (view h) (sub_id sub) then view h else set_vals (<[sub_id sub := VInfo NotSubscribed 0 0 (deref h c) waddr (sub_id sub)
    (hexutil_encode (b_pubkey v)) Manual]> (st_vals (view h))) (view h)) ∧ apart R h1 ∧ keeps R h h1) as (Hv1 & Ha1 & Hk1).
  { unfold h1. rewrite view_tracked. destruct (hs_vals h !! sub_id sub) as [w|] eqn:Hw; [done|].
    by apply new_exact_coll. }
  rewrite <- Hv1. eapply like_from; [exact Hk1|]. apply like_bind; [by apply like_h_sub|]. intros h2 Ha2 Hk2.
  assert (deref h c = deref h2 c) as -> by (rewrite Hk2, Hk1 by done; done).
  apply like_bind; [by apply like_inc_pend|]. intros h3 Ha3 Hk3.
  destruct (fsm_exact _ (sub_id sub) ManualSubscription _ Ha3) as (Hv4 & Ha4 & Hd4). split; [done|]. split; [done|]. intros l _. apply Hd4.
Qed.
Lemma like_subs_loop R E l : ∀ h, apart R h → Forall (λ x, R x.1.2 ∧ deref h x.1.2 = sub_coll x.1.1) l →
  like R h (h_subs_loop E l h) (subs_loop E ((λ x, (x.1.1, x.2)) <$> l) (view h)).
Proof.
  induction l as [|[[e c] v] l IH]; intros h Ha Hl; [by apply like_ret|]. apply Forall_cons in Hl as [[Hr Hd] Hl]. cbn [snd fst] in Hr, Hd.
  cbn [h_subs_loop fmap list_fmap subs_loop fst snd]. apply like_bind; [by apply like_handle_sub|].
  intros h1 Ha1 Hk1. apply IH; [done|]. eapply Forall_impl; [exact Hl|]. intros x [Hx Hdx]. split; [done|]. rewrite <- Hdx. by apply Hk1.
Qed.
Lemma zip_fst {A B C} (l : list A) (ls : list B) (vs : list C) : (λ x, (x.1.1, x.2)) <$> zip (zip l ls) vs = zip (zip l ls).*1 vs.
Proof. generalize (zip l ls). intros m. revert vs. induction m as [|[a b] m IH]; intros [|v vs]; try done. cbn. f_equal. apply IH. Qed.
Lemma like_subs R E l ls vals h : apart R h → point_to R h ls (sub_coll <$> l) →
  like R h (h_subs E (zip l ls) vals h) (handle_subs E l vals (view h)).
Proof.
  intros Ha Hp. destruct (zip_points _ _ _ _ _ Hp) as [H1 H2]. unfold h_subs, handle_subs. rewrite H2.
  assert (length (zip l ls) = length l) as -> by (rewrite <- H2 at 2; by rewrite fmap_length).
  destruct (negb (same_block _ l)); [done|]. destruct (negb (length l =? length vals)%nat); [done|].
  rewrite <- H2 at 2. rewrite <- zip_fst. apply like_subs_loop; [done|]. apply Forall_forall. intros [x v] Hx.
  apply elem_of_zip_l in Hx. by apply (proj1 (Forall_forall _ _) H1).
Qed.

Lemma like_forfeit R E net i e h : apart R h →
  like R h (h_forfeit E net i e h) (let s1 := advance_fsm i e (view h) in
    rbind (get_pend i s1) (λ p, rbind (increase_all E net p s1) (reset_pend i))).
Proof.
  intros Ha. unfold h_forfeit. cbn zeta. apply (like_fsm_then R i e h (λ h1, rbind (h_val i h1) (λ v, rbind (h_increase_all E net (hi_pend v) h1) (h_reset i)))
    (λ s1, rbind (get_pend i s1) (λ p, rbind (increase_all E net p s1) (reset_pend i)))); [done|].
  intros h1 Ha1 _. unfold h_val, get_pend. rewrite view_lookup. destruct (hs_vals h1 !! i) as [v|]; cbn [fmap option_fmap option_map rbind]; [|done].
  apply like_bind; [by apply like_increase_all|]. intros h2 Ha2 _. by apply like_reset.
Qed.
Lemma like_handle_unsub R E net u val h : apart R h → like R h (h_handle_unsub E net u val h) (handle_unsub E net u val (view h)).
Proof.
  intros Ha. unfold h_handle_unsub, handle_unsub. destruct val as [v|]; [|by apply like_ret].
  destruct (negb _); [done|]. destruct (get_compatible_address_byte _) as [waddr|]; [|by apply like_ret]. apply like_val. intros e _.
  destruct (negb e); [by apply like_ret|]. destruct (is_subscribed _ _); [|by apply like_ret]. by apply like_forfeit.
Qed.
Lemma like_unsubs_loop R E net l : ∀ h, apart R h → like R h (h_unsubs_loop E net l h) (unsubs_loop E net l (view h)).
Proof.
  induction l as [|[e v] l IH]; intros h Ha; [by apply like_ret|]. cbn [h_unsubs_loop unsubs_loop]. apply like_bind; [by apply like_handle_unsub|].
  intros h1 Ha1 _. by apply IH.
Qed.
Lemma like_unsubs R E net l vals h : apart R h → like R h (h_unsubs E net l vals h) (handle_unsubs E net l vals (view h)).
Proof. intros Ha. unfold h_unsubs, handle_unsubs. destruct (negb _); [done|]. destruct (negb _); [done|]. by apply like_unsubs_loop. Qed.

Lemma bans_loop_exact R l : ∀ t h, apart R h →
  match h_bans_loop l t h, bans_loop l t (view h) with
  | Ok (t1, h1), Ok (t2, s2) => t1 = t2 ∧ view h1 = s2 ∧ apart R h1 ∧ keeps R h h1
  | Die d, Die d' => d = d'
  | _, _ => False
  end.
Proof.
  induction l as [|b l IH]; intros t h Ha; cbn [h_bans_loop bans_loop]; [done|].
  destruct (negb (is_subscribed (view h) (ban_id b))); [by apply IH|]. cbn zeta.
  destruct (fsm_exact _ (ban_id b) ManualBan h Ha) as (Hv1 & Ha1 & Hd1). rewrite <- Hv1. set (h1 := h_fsm _ _ h) in *.
  pose proof (like_reset R (ban_id b) h1 Ha1) as Hl.
  unfold h_val, get_pend. rewrite view_lookup. destruct (hs_vals h1 !! ban_id b) as [v|] eqn:Hv; cbn [fmap option_fmap option_map rbind]; [|done].
  destruct (h_reset _ h1) as [h2|d], (reset_pend _ (view h1)) as [s2|d']; try done; cbn [rbind]. destruct Hl as (<- & Ha2 & Hk2).
  specialize (IH (t + deref h1 (hi_pend v))%Z h2 Ha2). cbn [v_pend info_at].
  destruct (h_bans_loop l _ h2) as [[t3 h3]|d], (bans_loop l _ (view h2)) as [[t4 s4]|d']; try done. destruct IH as (? & ? & ? & Hk3).
  split; [done|]. split; [done|]. split; [done|]. intros l' Hl'. rewrite Hk3, Hk2 by done. apply Hd1.
Qed.
Lemma like_bans R E net l h : apart R h → like R h (h_bans E net l h) (handle_bans E net l (view h)).
Proof.
  intros Ha. unfold h_bans, handle_bans. destruct l as [|b l]; [by apply like_ret|]. destruct (negb _); [done|].
  pose proof (bans_loop_exact R (b :: l) 0%Z h Ha) as H.
  destruct (h_bans_loop (b :: l) 0%Z h) as [[t1 h1]|d], (bans_loop (b :: l) 0%Z (view h)) as [[t2 s2]|d']; try done; cbn [rbind].
  destruct H as (<- & <- & Ha1 & Hk1). destruct (t1 <? 0)%Z; [done|]. destruct (0 <? t1)%Z; [|done].
  destruct (h_alloc t1 h1) as [r h2] eqn:H2. destruct (apart_alloc' _ _ _ _ _ Ha1 H2) as (Ha2 & Hk2 & Hd2 & _).
  rewrite <- Hd2. rewrite <- (view_alloc _ _ _ _ (apart_below _ _ Ha1) H2).
  eapply like_from; [|by apply like_increase_all]. by eapply keeps_trans.
Qed.
Lemma unbans_exact R l : ∀ h, apart R h → view (h_unbans_loop l h) = unbans_loop l (view h) ∧ apart R (h_unbans_loop l h) ∧ keeps R h (h_unbans_loop l h).
Proof.
  induction l as [|b l IH]; intros h Ha; cbn [h_unbans_loop unbans_loop]; [done|].
  destruct (is_banned (view h) (ban_id b)); [|by apply IH].
  destruct (fsm_exact _ (ban_id b) ManualUnban h Ha) as (Hv1 & Ha1 & Hd1). rewrite <- Hv1. destruct (IH _ Ha1) as (? & ? & Hk).
  split; [done|]. split; [done|]. intros l' Hl'. rewrite Hk by done. apply Hd1.
Qed.
Lemma like_unbans R l h : apart R h → like R h (h_unbans l h) (handle_unbans l (view h)).
Proof. intros Ha. unfold h_unbans, handle_unbans. destruct (negb _); [done|]. by apply unbans_exact. Qed.
Lemma like_ban_validator R E net b h : apart R h → like R h (h_ban_validator E net b h) (handle_ban_validator E net b (view h)).
Proof.
  intros Ha. unfold h_ban_validator, handle_ban_validator. pose proof (like_forfeit R E net (sb_index b) ProposalWrongFee h Ha) as H. cbn zeta in H |- *.
  destruct (h_forfeit _ _ _ _ h) as [h1|d], (get_pend _ _) as [p|d']; cbn [rbind] in *; try done.
  - destruct (increase_all _ _ _ _) as [s2|]; cbn [rbind] in *; [|done]. destruct (reset_pend _ s2) as [s3|]; cbn [rbind] in *; [|done].
    destruct H as (<- & Ha1 & Hk). split; [done|]. split; [by apply apart_rest|done].
  - destruct (increase_all _ _ _ _) as [s2|]; cbn [rbind] in *; [|done]. destruct (reset_pend _ s2) as [s3|]; cbn [rbind] in *; [|done]. done.
Qed.
Lemma missed_exact R b h : apart R h → view (h_missed b h) = handle_missed b (view h) ∧ apart R (h_missed b h) ∧ keeps R h (h_missed b h).
Proof.
  intros Ha. unfold h_missed, handle_missed. cbn zeta. destruct (fsm_exact _ (sb_index b) ProposalMissed h Ha) as (Hv1 & Ha1 & Hd1).
  rewrite <- Hv1. split; [done|]. split; [by apply apart_rest|]. intros l _. apply Hd1.
Qed.

(** ** The clean-up *)

Lemma like_out_from {A} R h h1 (x : outcome hst A) y : keeps R h h1 → like_out R h1 x y → like_out R h x y.
Proof.
  intros Hk H. destruct x, y; try done; destruct H as (? & ? & ? & ?); (split; [done|]; split; [done|]; split; [done|]; by eapply keeps_trans).
Qed.
Lemma like_done {A} R h (a : A) x y : like R h x y →
  like_out R h (match x with Ok h1 => Done h1 a | Die d => Dead d end) (match y with Ok s1 => Done s1 a | Die d => Dead d end).
Proof. destruct x, y; try done. intros (? & ? & ?). done. Qed.

(** A new target keeps the object that the source gives up. *)
Lemma moved R h i v t a c l h1 h2 h3 waddr key : apart R h → hs_vals h !! i = Some v → hs_vals h !! t = None →
  h_alloc 0 h = (a, h1) → h_alloc 0 h1 = (c, h2) →
  let ht := put t (HInfo NotSubscribed a (hi_pend v) c waddr t key Manual) h2 in
  h_alloc 0 ht = (l, h3) →
  let hf := put i (hset_pend l v) h3 in
  view hf = set_vals (<[i := set_pend 0 (info_at h v)]> (<[t := VInfo NotSubscribed 0 (deref h (hi_pend v)) 0 waddr t key Manual]> (st_vals (view h)))) (view h) ∧
  apart R hf ∧ keeps R h hf.
Proof.
  intros Ha Hv Ht H1 H2 ht H3 hf. assert (i ≠ t) as Hne by congruence.
  destruct (apart_alloc' _ _ _ _ _ Ha H1) as (Ha1 & Hk1 & Hd1 & U1).
  destruct (apart_alloc' _ _ _ _ _ Ha1 H2) as (Ha2 & Hk2 & Hd2 & U2).
  destruct (unused_old _ _ _ _ _ _ U1 H2) as [U12 N12].
  (* the same addresses without the target *)
  destruct (h_alloc 0 h2) as [l' g3] eqn:G3. destruct (apart_alloc' _ _ _ _ _ Ha2 G3) as (Ha3 & Hk3 & Hd3 & U3).
  destruct (unused_old _ _ _ _ _ _ U12 G3) as [U13 N13]. destruct (unused_old _ _ _ _ _ _ U2 G3) as [U23 N23].
  assert (l' = l) as ->. { unfold ht, h_alloc in H3, G3. cbn in H3. injection H3 as <- _. by injection G3 as <- _. }
  destruct (alloc_bits _ _ _ _ H1) as (_ & _ & V1 & _). destruct (alloc_bits _ _ _ _ H2) as (_ & _ & V2 & _). destruct (alloc_bits _ _ _ _ G3) as (_ & _ & V3 & _).
  assert (hs_vals g3 = hs_vals h) as V by congruence.
  assert (hs_vals g3 !! i = Some v) as Hvi by (by rewrite V).
  assert (hf = put t (HInfo NotSubscribed a (hi_pend v) c waddr t key Manual) (put i (hset_pend l v) g3)) as Ehf.
  { unfold hf. unfold ht, h_alloc in H3. cbn in H3. injection H3 as _ <-. unfold h_alloc in G3. injection G3 as _ <-. unfold h_vals. cbn.
    f_equal. by apply insert_commute. }
  assert (place g3 (OwnAcc i) = Some (hi_acc v)) as P1 by (cbn; by rewrite Hvi).
  assert (place g3 (OwnPend i) = Some (hi_pend v)) as P2 by (cbn; by rewrite Hvi).
  pose proof U3 as (W1 & W2 & W3 & W4).
  assert (l ≠ hi_pend v) as Nlp by (intros ->; by apply (W3 (OwnPend i))).
  assert (apart R (put i (hset_pend l v) g3)) as Ha4.
  { apply apart_put; cbn; try done.
    - by left.
    - by right.
    - intros E. apply (W3 (OwnAcc i)). by rewrite P1, E.
    - left. by exists v.
    - by eapply (ap_coll _ _ Ha3).
    - by eapply W4. }
  assert (unused R (put i (hset_pend l v) g3) (hi_pend v)) as Up by (by eapply unused_left).
  assert (∀ x, unused R g3 x → x ≠ l → unused R (put i (hset_pend l v) g3) x ∧ x ≠ hi_pend v) as Hun.
  { intros x (X1 & X2 & X3 & X4) Nx. split.
    - apply unused_put; cbn; [done| |done|].
      + intros ->. by apply (X3 (OwnAcc i)).
      + intros ->. by eapply X4.
    - intros ->. by apply (X3 (OwnPend i)). }
  destruct (Hun a U13 N13) as [Ua Na]. destruct (Hun c U23 N23) as [Uc Nc].
  assert (∀ x, deref (put i (hset_pend l v) g3) x = deref g3 x) as Dx by done.
  assert (deref g3 a = 0%Z) as Da.
  { rewrite (deref_alloc_old _ _ _ _ _ G3), (deref_alloc_old _ _ _ _ _ H2); [done|apply U1|apply U12]. }
  assert (deref g3 c = 0%Z) as Dc by (rewrite (deref_alloc_old _ _ _ _ _ G3); [done|apply U2]).
  assert (∀ x, (x < hs_new h)%N → deref g3 x = deref h x) as Dold.
  { intros x Hx. destruct (alloc_bits _ _ _ _ H1) as (_ & E1 & _). destruct (alloc_bits _ _ _ _ H2) as (_ & E2 & _).
    rewrite (deref_alloc_old _ _ _ _ _ G3), (deref_alloc_old _ _ _ _ _ H2), (deref_alloc_old _ _ _ _ _ H1); [done|lia|lia|lia]. }
  destruct (apart_below _ _ Ha) as [_ Hb]. destruct (Hb _ _ Hv) as (B1 & B2 & B3).
  rewrite Ehf. split; [|split].
  - rewrite view_put, view_put. cbn [st_vals set_vals].
    rewrite (view_alloc _ _ _ _ (apart_below _ _ Ha2) G3), (view_alloc _ _ _ _ (apart_below _ _ Ha1) H2), (view_alloc _ _ _ _ (apart_below _ _ Ha) H1).
    unfold info_at at 1 2. cbn [hi_status hi_acc hi_pend hi_coll hi_addr hi_index hi_key hi_sub hset_pend]. rewrite !Dx, Da, Dc, Hd3, !Dold by done.
    rewrite insert_commute by done. done.
  - apply apart_put; cbn; auto.
  - intros x Hx. change (deref g3 x = deref h x). rewrite Hk3, Hk2, Hk1; done.
Qed.

Lemma like_consolidation R E slot i t v dist h : apart R h → hs_vals h !! i = Some v →
  like_out R h
    (match h_consolidation E slot t (hi_pend v) dist h with
     | Done h2 dist2 => match h_reset i h2 with Ok h3 => Done h3 dist2 | Die d => Dead d end
     | Fail h2 e => Fail h2 e
     | Dead d => Dead d
     end)
    (match cleanup_consolidate E slot i t (deref h (hi_pend v)) dist (view h) with
     | Done s2 dist2 => match reset_pend i s2 with Ok s3 => Done s3 dist2 | Die d => Dead d end
     | Fail s2 e => Fail s2 e
     | Dead d => Dead d
     end).
Proof.
  intros Ha Hv. unfold h_consolidation, cleanup_consolidate. cbn zeta.
  destruct (is_tracked (view h) t && negb (is_banned (view h) t)).
  - pose proof (like_inc_pend R t (hi_pend v) h Ha) as H.
    destruct (h_inc_pend t (hi_pend v) h) as [h2|d], (inc_pend t (deref h (hi_pend v)) (view h)) as [s2|d']; try done.
    destruct H as (<- & Ha2 & Hk2). apply (like_out_from _ _ h2); [done|]. apply like_done. by apply like_reset.
  - destruct (is_tracked (view h) t) eqn:Htr; cbn [negb].
    + destruct (is_banned (view h) t); [|done]. apply like_done. by apply like_reset.
    + destruct (e_vals E [t] slot) as [r|]; [|done]. destruct ((list_to_map r : gmap N bval) !! t) as [tv|]; [|done].
      destruct (get_compatible_address_byte (b_creds tv)) as [waddr|]; [|done].
      rewrite view_tracked in Htr. destruct (hs_vals h !! t) as [w|] eqn:Ht; [done|]. assert (i ≠ t) as Hne by congruence.
      destruct (h_alloc 0 h) as [a h1] eqn:H1. destruct (h_alloc 0 h1) as [c h2] eqn:H2.
      set (ht := h_vals _ h2). destruct (h_alloc 0 ht) as [l h3] eqn:H3.
      destruct (moved R h i v t a c l h1 h2 h3 waddr (hexutil_encode (b_pubkey tv)) Ha Hv Ht H1 H2 H3) as (M1 & M2 & M3).
      unfold h_reset, h_val. destruct (alloc_bits _ _ _ _ H1) as (_ & _ & V1 & _). destruct (alloc_bits _ _ _ _ H2) as (_ & _ & V2 & _).
      assert (hs_vals ht !! i = Some v) as ->.
      { unfold ht. cbn [h_vals hs_vals]. rewrite lookup_insert_ne by done. by rewrite V2, V1. }
      cbn [rbind]. rewrite H3. unfold reset_pend, upd_val. cbn [st_vals set_vals]. rewrite lookup_insert_ne by done.
      rewrite view_lookup, Hv. cbn [fmap option_fmap option_map]. split; [by rewrite M1|]. split; [done|]. by split.
Qed.

Lemma like_cleanup_one R E slot s2t v dist h : apart R h →
  like_out R h (h_cleanup_one E slot s2t v dist h) (cleanup_one E slot s2t v dist (view h)).
Proof.
  intros Ha. unfold h_cleanup_one, cleanup_one. cbn zeta. destruct (bstate_is_active (b_status v)); [done|].
  rewrite view_lookup. destruct (hs_vals h !! b_index v) as [vi|] eqn:Hvi; cbn [fmap option_fmap option_map]; [|done].
  cbn [v_pend info_at]. destruct (deref h (hi_pend vi) =? 0)%Z; [done|].
  destruct (fsm_exact _ (b_index v) Unsubscribe h Ha) as (Hv1 & Ha1 & Hd1). rewrite <- Hv1.
  assert (hs_vals (h_fsm (b_index v) Unsubscribe h) !! b_index v = Some (hset_status (fsm (hi_status vi) Unsubscribe) vi)) as Hw.
  { unfold h_fsm. rewrite Hvi. cbn. by rewrite lookup_insert. }
  set (h1 := h_fsm _ _ h) in *. set (w := hset_status _ vi) in *. change (hi_pend vi) with (hi_pend w). rewrite <- Hd1.
  apply (like_out_from _ _ h1); [intros l _; apply Hd1|].
  destruct (s2t !! b_index v) as [t|]; [by apply like_consolidation|]. apply like_done. by apply like_reset.
Qed.
Lemma like_cleanup_loop R E slot s2t r : ∀ dist h, apart R h →
  like_out R h (h_cleanup_loop E slot s2t r dist h) (cleanup_loop E slot s2t r dist (view h)).
Proof.
  induction r as [|kv r IH]; intros dist h Ha; cbn [h_cleanup_loop cleanup_loop]; [done|].
  pose proof (like_cleanup_one R E slot s2t kv.2 dist h Ha) as H.
  destruct (h_cleanup_one E slot s2t kv.2 dist h) as [h1 d1|h1 e|d], (cleanup_one E slot s2t kv.2 dist (view h)) as [s1 d1'|s1 e'|d']; try done.
  destruct H as (<- & <- & Ha1 & Hk1). apply (like_out_from _ _ h1); [done|]. by apply IH.
Qed.
Lemma like_cleanup R E net slot h : apart R h → like_out R h (h_cleanup E net slot h) (cleanup E net slot (view h)).
Proof.
  intros Ha. unfold h_cleanup, cleanup. destruct (_ <=? slot)%N; [|done]. cbn zeta.
  destruct ((e_iter E (st_vals (view h))).*1) as [|i0 is]; [done|].
  destruct (if (_ <=? slot)%N then e_cons E slot else Some []) as [pcs|]; [|done].
  destruct (e_vals E (i0 :: is) slot) as [r|]; [|done].
  pose proof (like_cleanup_loop R E slot (source_to_target pcs) r 0%Z h Ha) as H.
  destruct (h_cleanup_loop _ _ _ _ _ h) as [h1 d1|h1 e|d], (cleanup_loop _ _ _ _ _ (view h)) as [s1 d1'|s1 e'|d']; try done.
  destruct H as (<- & <- & Ha1 & Hk1). destruct (d1 =? 0)%Z; [done|].
  destruct (h_alloc d1 h1) as [l h2] eqn:H2. destruct (apart_alloc' _ _ _ _ _ Ha1 H2) as (Ha2 & Hk2 & Hd2 & _).
  rewrite <- Hd2. rewrite <- (view_alloc _ _ _ _ (apart_below _ _ Ha1) H2).
  apply (like_out_from _ _ h2); [by eapply keeps_trans|]. apply like_done. by apply like_increase_all.
Qed.

(** ** A block *)

Lemma like_process R E net fb b don p h : apart R h →
  point_to R h (ar_subs p) (sub_coll <$> ev_subscribe (fb_events fb)) → point_to R h (ar_don p) (er_amount <$> don) →
  reward_at R h (ar_reward p) (sb_reward b) →
  like R h (h_process E net fb b don p h) (process_block E net fb b don (view h)).
Proof.
  intros Ha Hs Hd Hr. unfold h_process, process_block. cbn zeta.
  set (h0 := h_rest _ h). change (set_events _ _ _ (view h)) with (view h0). apply (like_from _ _ h0); [done|].
  assert (apart R h0) as Ha0 by (by apply apart_rest).
  apply like_bind; [by apply like_subs|]. intros h1 Ha1 Hk1.
  apply (point_keeps _ _ h1) in Hd; [|done]. apply (reward_keeps _ _ h1) in Hr; [|done].
  set (h2 := match sb_type b with MissedProposal => if is_subscribed (view h1) (sb_index b) then h_missed b h1 else h1 | _ => h1 end).
  assert (view h2 = match sb_type b with MissedProposal => if is_subscribed (view h1) (sb_index b) then handle_missed b (view h1) else view h1 | _ => view h1 end
    ∧ apart R h2 ∧ keeps R h1 h2) as (Hv2 & Ha2 & Hk2).
  { unfold h2. destruct (sb_type b); try done. destruct (is_subscribed _ _); [|done]. by apply missed_exact. }
  rewrite <- Hv2. apply (like_from _ _ h2); [done|]. apply (point_keeps _ _ h2) in Hd; [|done]. apply (reward_keeps _ _ h2) in Hr; [|done].
  apply like_bind; [destruct (sb_type b) eqn:Hb; try (by apply like_ret); by apply like_bls|]. intros h3 Ha3 Hk3.
  apply (point_keeps _ _ h3) in Hd; [|done]. apply (reward_keeps _ _ h3) in Hr; [|done].
  apply like_bind; [destruct (sb_type b); try (by apply like_ret); by apply like_correct|]. intros h4 Ha4 Hk4.
  apply (point_keeps _ _ h4) in Hd; [|done].
  apply like_bind; [destruct (sb_type b); try (by apply like_ret); destruct (is_subscribed _ _); [by apply like_ban_validator|by apply like_ret]|]. intros h5 Ha5 Hk5.
  apply (point_keeps _ _ h5) in Hd; [|done].
  apply like_bind; [by apply like_unsubs|]. intros h6 Ha6 Hk6. apply (point_keeps _ _ h6) in Hd; [|done].
  apply like_bind; [by apply like_donations|]. intros h7 Ha7 Hk7.
  apply like_bind; [by apply like_bans|]. intros h8 Ha8 Hk8. by apply like_unbans.
Qed.

Lemma arrive_exact R subs don r h p h1 : apart R h → h_arrive subs don r h = (p, h1) →
  let R' := λ l, R l ∨ brought p l in
  view h1 = view h ∧ apart R' h1 ∧ keeps R h h1 ∧ point_to R' h1 (ar_subs p) (sub_coll <$> subs) ∧
  point_to R' h1 (ar_don p) (er_amount <$> don) ∧ reward_at R' h1 (ar_reward p) r.
Proof.
  intros Ha. unfold h_arrive. destruct (h_alloc_list (sub_coll <$> subs) h) as [ls g1] eqn:H1.
  destruct (h_alloc_list (er_amount <$> don) g1) as [ld g2] eqn:H2.
  destruct (alloc_list_exact _ _ _ _ _ Ha H1) as (V1 & A1 & K1 & F1). destruct (alloc_list_exact _ _ _ _ _ A1 H2) as (V2 & A2 & K2 & F2).
  assert (∀ (P : N → Prop) g (f : N → Z) (xs : list N) (zs : list Z), Forall2 (λ l z, f l = z) xs zs → (∀ l, l ∈ xs → P l ∧ deref g l = f l) → point_to P g xs zs) as Hpt.
  { intros P g f xs zs HF HP. apply Forall2_same_length_lookup. apply Forall2_same_length_lookup in HF as [Hlen HF]. split; [done|].
    intros j l z Hl Hz. destruct (HP l) as [HP1 HP2]; [by eapply elem_of_list_lookup_2|]. split; [done|]. rewrite HP2. by eapply HF. }
  destruct r as [z|].
  - destruct (h_alloc z g2) as [l g3] eqn:H3. intros [= <- <-]. cbn zeta. cbn [ar_subs ar_don ar_reward].
    destruct (apart_alloc _ _ _ _ _ A2 H3) as (A3 & K3 & D3). split; [|split; [|split; [|split; [|split]]]].
    + rewrite (view_alloc _ _ _ _ (apart_below _ _ A2) H3). congruence.
    + eapply apart_sub; [|exact A3]. intros x [Hx|[Hx|[Hx|Hx]]]; cbn in *; auto. injection Hx as ->. auto.
    + intros x Hx. rewrite K3, K2, K1; auto.
    + eapply (Hpt _ _ _ _ _ F1). intros x Hx. split; [right; by left|]. rewrite K3, K2; auto.
    + eapply (Hpt _ _ _ _ _ F2). intros x Hx. split; [right; right; by left|]. rewrite K3; auto.
    + split; [right; by right; right|done].
  - intros [= <- <-]. cbn zeta. cbn [ar_subs ar_don ar_reward]. split; [|split; [|split; [|split; [|split]]]].
    + congruence.
    + eapply apart_sub; [|exact A2]. intros x [Hx|[Hx|[Hx|Hx]]]; cbn in *; auto. done.
    + intros x Hx. rewrite K2, K1; auto.
    + eapply (Hpt _ _ _ _ _ F1). intros x Hx. split; [right; by left|]. rewrite K2; auto.
    + eapply (Hpt _ _ _ _ _ F2). intros x Hx. split; [right; right; by left|done].
    + done.
Qed.

(** ValidateConfig changes one number. *)
Lemma validate_rest E fb c s o' : (∃ e, validate_config E fb (Oracle c s) = Fail o' e) ∨ (∃ u, validate_config E fb (Oracle c s) = Done o' u) →
  or_st o' = set_feepct (st_feepct (or_st o')) s ∧ c_pool (or_cfg o') = c_pool c.
Proof.
  unfold validate_config. cbn [or_cfg or_st]. destruct (_ || _); [intros [[e [= <- <-]]|[u ?]]; [by destruct s|done]|].
  assert (∀ o1, (o1 = Oracle c s ∨ ∃ z, o1 = Oracle (cset_feepct z c) (set_feepct z s)) →
    or_st o1 = set_feepct (st_feepct (or_st o1)) s ∧ c_pool (or_cfg o1) = c_pool c) as Hall.
  { intros o1 [->|(z & ->)]; [by destruct s|done]. }
  set (m := match ev_pool_fee (fb_events fb) with [] => _ | _ => _ end).
  assert (match m with inl o1 => o1 = Oracle c s ∨ ∃ z, o1 = Oracle (cset_feepct z c) (set_feepct z s) | inr _ => True end) as Hm.
  { unfold m. destruct (ev_pool_fee (fb_events fb)) as [|[fee ?] ?]; [by left|]. destruct (fee_schedule _ !! _); [|done].
    destruct (_ =? _)%Z; [right; by eexists|done]. }
  destruct m as [o1|e0]; [|intros [[e [= <- <-]]|[u ?]]; [by destruct s|done]]. apply Hall in Hm.
  destruct (match ev_fee_recipient (fb_events fb) with [] => _ | _ => _ end) as [[]|]; [| |intros [[? ?]|[? ?]]; done].
  - destruct (negb _); [intros [[e [= <- <-]]|[u ?]]; done|]. destruct (negb _); [intros [[e [= <- <-]]|[u ?]]; done|].
    intros [[e ?]|[u [= <- <-]]]; done.
  - intros [[e [= <- <-]]|[u ?]]; done.
Qed.

Lemma point_any (R : N → Prop) h ls zs : point_to R h ls zs → point_to (λ _, True) h ls zs.
Proof. intros H. eapply Forall2_impl; [exact H|]. intros l z [_ ?]. done. Qed.
Lemma reward_any (R : N → Prop) h r z : reward_at R h r z → reward_at (λ _, True) h r z.
Proof. destruct r, z; try done. by intros [_ ?]. Qed.

(** The two programs on one block. *)
Theorem step_like R E fb c h : apart R h →
  match h_advance E fb c h, advance E fb (Oracle c (view h)) with
  | Done (c', h') (n, p), Done o n' => o = Oracle c' (view h') ∧ n = n' ∧
      apart (λ l, R l ∨ brought p l) h' ∧ keeps R h h' ∧ as_came h' p E fb c (view h)
  | Fail (c', h') e, Fail o e' => o = Oracle c' (view h') ∧ e = e' ∧ apart R h' ∧ keeps R h h'
  | Dead d, Dead d' => d = d'
  | _, _ => False
  end.
Proof.
  intros Ha. unfold h_advance, advance. cbn [or_st or_cfg]. cbn zeta. destruct (negb _); [done|]. destruct (negb _); [done|].
  assert (∀ o1, or_st o1 = set_feepct (st_feepct (or_st o1)) (view h) →
    or_st o1 = view (h_rest (set_feepct (st_feepct (or_st o1)) (hs_rest h)) h)) as Hfee by (intros o1 ->; done).
  destruct (validate_config E fb (Oracle c (view h))) as [o1 u|o1 e|d] eqn:Hval; [| |done].
  2: { assert (or_st o1 = set_feepct (st_feepct (or_st o1)) (view h)) as Ho by (eapply validate_rest; left; by eexists).
       split; [rewrite <- (Hfee _ Ho); by destruct o1|]. split; [done|]. split; [by apply apart_rest|done]. }
  assert (or_st o1 = set_feepct (st_feepct (or_st o1)) (view h) ∧ c_pool (or_cfg o1) = c_pool c) as [Ho Hpool]
    by (eapply validate_rest; right; by eexists).
  set (h1 := h_rest (set_feepct (st_feepct (or_st o1)) (hs_rest h)) h).
  assert (or_st o1 = view h1) as Hv1 by (by apply Hfee). assert (apart R h1) as Ha1 by (by apply apart_rest).
  assert (o1 = Oracle (or_cfg o1) (view h1)) as Eo1 by (destruct o1; cbn in Hv1; by rewrite Hv1).
  rewrite Hv1. rewrite Hpool. change (summarize E (view h1) (c_pool c) fb) with (summarize E (view h) (c_pool c) fb).
  destruct (summarize E (view h) (c_pool c) fb) as [b|d] eqn:Hsum; [|done].
  destruct (negb _); [split; [done|]; split; [done|]; by split|].
  destruct (get_donations E (c_pool c) fb) as [don|d] eqn:Hdon; [|done].
  destruct (h_arrive (ev_subscribe (fb_events fb)) don (sb_reward b) h1) as [p h2] eqn:Harr.
  destruct (arrive_exact _ _ _ _ _ _ _ Ha1 Harr) as (V2 & A2 & K2 & P1 & P2 & P3).
  set (R' := λ l, R l ∨ brought p l) in *. rewrite <- V2.
  pose proof (like_process R' E (c_network (or_cfg o1)) fb b don p h2 A2 P1 P2 P3) as H.
  destruct (h_process _ _ _ _ _ _ h2) as [h3|d], (process_block _ _ _ _ _ (view h2)) as [s3|d']; try done.
  destruct H as (<- & A3 & K3).
  assert (like_out R' h3 (if (st_next (view h3) mod 1200 =? 0)%N then h_cleanup E (c_network (or_cfg o1)) (st_next (view h3)) h3 else Done h3 tt)
    (if (st_next (view h3) mod 1200 =? 0)%N then cleanup E (c_network (or_cfg o1)) (st_next (view h3)) (view h3) else Done (view h3) tt)) as H.
  { destruct (_ =? 0)%N; [by apply like_cleanup|done]. }
  assert (∀ h4, keeps R' h3 h4 → keeps R h h4) as Hkeep.
  { intros h4 H4 l Hl. rewrite H4, K3 by (by left). by apply K2. }
  destruct (if (st_next (view h3) mod 1200 =? 0)%N then h_cleanup _ _ _ h3 else Done h3 tt) as [h4 u4|h4 e|d],
    (if (st_next (view h3) mod 1200 =? 0)%N then cleanup _ _ _ (view h3) else Done (view h3) tt) as [s4 u4'|s4 e'|d']; try done.
  - destruct H as (<- & _ & A4 & K4). split; [done|]. split; [done|]. split; [by apply apart_rest|]. split; [intros l Hl; by apply Hkeep|].
    set (h5 := h_rest _ h4). assert (keeps R' h2 h5) as K5 by (eapply keeps_trans; [exact K3|exact K4]).
    split; [|split].
    + eapply point_any, point_keeps; [exact K5|done].
    + exists don. split; [done|]. eapply point_any, point_keeps; [exact K5|done].
    + exists b. split; [done|]. eapply reward_any, reward_keeps; [exact K5|done].
  - destruct H as (<- & <- & A4 & K4). split; [done|]. split; [done|]. split; [|by apply Hkeep].
    eapply apart_sub; [|exact A4]. intros l Hl. by left.
Qed.

(** ** Executions *)

Lemma came_keeps h h' p E fb c s : (∀ l, brought p l → deref h' l = deref h l) → as_came h p E fb c s → as_came h' p E fb c s.
Proof.
  assert (∀ ls zs, (∀ l, l ∈ ls → deref h' l = deref h l) → point_to (λ _, True) h ls zs → point_to (λ _, True) h' ls zs) as Hp.
  { intros ls zs Hk H. apply Forall2_same_length_lookup. apply Forall2_same_length_lookup in H as [Hlen H]. split; [done|].
    intros j l z Hl Hz. split; [done|]. rewrite Hk by (by eapply elem_of_list_lookup_2). by eapply H. }
  intros Hk (H1 & (don & H2 & H3) & (b & H4 & H5)). split; [|split].
  - apply Hp; [|done]. intros l Hl. apply Hk. by left.
  - exists don. split; [done|]. apply Hp; [|done]. intros l Hl. apply Hk. right; by left.
  - exists b. split; [done|]. destruct (ar_reward p) as [l|] eqn:Hl, (sb_reward b); try done. destruct H5 as [_ H5]. split; [done|].
    rewrite Hk; [done|]. right; by right.
Qed.

Lemma run_like R x l ps y : h_run x l ps y → apart R x.2 →
  run (Oracle x.1 (view x.2)) l (Oracle y.1 (view y.2)) ∧
  apart (λ a, R a ∨ ∃ p, p ∈ ps ∧ brought p a) y.2 ∧ keeps R x.2 y.2 ∧
  ∀ k E fb p, l !! k = Some (E, fb) → ps !! k = Some p →
    ∃ c s, run (Oracle x.1 (view x.2)) (take k l) (Oracle c s) ∧ as_came y.2 p E fb c s.
Proof.
  intros H. revert R. induction H as [x|c h E fb [c1 h1] n p l ps [c2 h2] Hadv Hrun IH]; intros R Ha.
  - split; [constructor|]. split; [eapply apart_sub; [|exact Ha]; intros a [Ha'|(p & Hp & _)]; [done|by apply elem_of_nil in Hp]|]. by split.
  - cbn [fst snd] in *. pose proof (step_like R E fb c h Ha) as Hst. rewrite Hadv in Hst.
    destruct (advance E fb (Oracle c (view h))) as [o n'|o e|d] eqn:Hv; try done. destruct Hst as (-> & -> & Ha1 & Hk1 & Hc1).
    destruct (IH _ Ha1) as (Hr & Ha2 & Hk2 & Hf). split; [by eapply run_cons|]. split; [|split].
    + eapply apart_sub; [|exact Ha2]. cbn. intros a [Ha'|(q & Hq & Hb)]; [auto|]. apply elem_of_cons in Hq as [->|Hq]; [auto|]. right. by exists q.
    + eapply keeps_trans; [exact Hk1|]. eapply keeps_sub; [|exact Hk2]. cbn. auto.
    + intros [|k] E' fb' p' Hl Hp; cbn in Hl, Hp.
      * injection Hl as <- <-. injection Hp as <-. exists c, (view h). split; [constructor|].
        eapply came_keeps; [|exact Hc1]. intros a Hb. apply Hk2. by right.
      * destruct (Hf k E' fb' p' Hl Hp) as (c' & s' & H1 & H2). exists c', s'. split; [|done]. cbn. by eapply run_cons.
Qed.
(** Every execution with values is one in memory. *)
Lemma run_back R o l o' : run o l o' → ∀ h, apart R h → view h = or_st o →
  ∃ ps h', h_run (or_cfg o, h) l ps (or_cfg o', h') ∧ view h' = or_st o'.
Proof.
  intros H. revert R. induction H as [o|o E fb o1 n l o2 Hadv Hrun IH]; intros R h Ha Hv.
  - exists [], h. split; [constructor|done].
  - pose proof (step_like R E fb (or_cfg o) h Ha) as Hst. rewrite Hv in Hst.
    assert (Oracle (or_cfg o) (or_st o) = o) as Eo by (by destruct o). rewrite Eo, Hadv in Hst.
    destruct (h_advance E fb (or_cfg o) h) as [[c1 h1] [n' p]|[c1 h1] e|d] eqn:Hh; try done. destruct Hst as (-> & -> & Ha1 & _ & _).
    destruct (IH _ h1 Ha1 eq_refl) as (ps & h' & Hr & Hv'). exists (p :: ps), h'. split; [|done]. by eapply h_run_cons.
Qed.

(** ** Loading *)

Lemma record_exact R i v h : apart R h →
  let h' := h_record i v h in
  view h' = set_vals (<[i := v]> (st_vals (view h))) (view h) ∧ apart R h'.
Proof.
  intros Ha. unfold h_record. destruct (h_alloc (v_acc v) h) as [a h1] eqn:H1. destruct (h_alloc (v_pend v) h1) as [p h2] eqn:H2.
  destruct (h_alloc (v_coll v) h2) as [c h3] eqn:H3. cbn zeta.
  destruct (apart_alloc' _ _ _ _ _ Ha H1) as (Ha1 & Hk1 & Hd1 & U1).
  destruct (apart_alloc' _ _ _ _ _ Ha1 H2) as (Ha2 & Hk2 & Hd2 & U2).
  destruct (apart_alloc' _ _ _ _ _ Ha2 H3) as (Ha3 & Hk3 & Hd3 & U3).
  destruct (unused_old _ _ _ _ _ _ U1 H2) as [U12 N12]. destruct (unused_old _ _ _ _ _ _ U12 H3) as [U13 N13].
  destruct (unused_old _ _ _ _ _ _ U2 H3) as [U23 N23].
  assert (deref h3 a = v_acc v) as Da.
  { rewrite (deref_alloc_old _ _ _ _ _ H3), (deref_alloc_old _ _ _ _ _ H2); [done|apply U1|apply U12]. }
  assert (deref h3 p = v_pend v) as Dp by (rewrite (deref_alloc_old _ _ _ _ _ H3); [done|apply U2]).
  split.
  - rewrite view_put. unfold info_at. cbn [hi_status hi_acc hi_pend hi_coll hi_addr hi_index hi_key hi_sub]. rewrite Da, Dp, Hd3.
    rewrite (view_alloc _ _ _ _ (apart_below _ _ Ha2) H3), (view_alloc _ _ _ _ (apart_below _ _ Ha1) H2), (view_alloc _ _ _ _ (apart_below _ _ Ha) H1).
    by destruct v.
  - apply apart_put; cbn; auto.
Qed.
Lemma load_exact s : view (h_load s) = s ∧ apart (λ _, False) (h_load s).
Proof.
  unfold h_load. destruct (h_alloc (st_fees s) (HSt ∅ 0 ∅ 0 s)) as [l h] eqn:H. injection H as <- <-.
  set (h := HSt _ _ _ _ _). assert (view h = set_vals ∅ s) as Hv.
  { apply view_ext; [done| |done]. intros i. cbn. by rewrite !lookup_empty. }
  assert (apart (λ _, False) h) as Ha.
  { split.
    - intros [] [] l; cbn; rewrite ?lookup_empty; done.
    - by intros o l _ [].
    - intros o l i v _. cbn. by rewrite lookup_empty.
    - intros [] l; cbn; rewrite ?lookup_empty; try done. intros [= <-]. lia.
    - intros i v. cbn. by rewrite lookup_empty.
    - by intros l []. }
  assert (∀ m, view (h_records m h) = set_vals (list_to_map m) s ∧ apart (λ _, False) (h_records m h)) as Hall.
  { induction m as [|[i v] m [IH1 IH2]]; cbn [h_records list_to_map]; [done|].
    destruct (record_exact _ i v _ IH2) as [R1 R2]. split; [|done]. rewrite R1, IH1. done. }
  destruct (Hall (map_to_list (st_vals s))) as [H1 H2]. split; [|done]. rewrite H1, list_to_map_to_list. by destruct s.
Qed.

(** ** The leaves *)

Lemma unused_write R h l z l' : unused R h l → unused R (h_write l' z h) l.
Proof. done. Qed.
Lemma view_write_unused R h l z : unused R h l → view (h_write l z h) = view h.
Proof.
  intros (_ & _ & H3 & H4). apply view_ext; [| |done].
  - cbn. rewrite deref_write, decide_False; [done|]. intros E. apply (H3 OwnFees). cbn. by rewrite E.
  - intros i. rewrite view_lookup. change (hs_vals (h_write l z h)) with (hs_vals h). destruct (hs_vals h !! i) as [v|] eqn:Hv; [|done]. cbn. f_equal.
    unfold info_at. rewrite !deref_write, !decide_False; [done| | |].
    + intros E. by eapply H4.
    + intros E. apply (H3 (OwnPend i)). cbn. by rewrite Hv, E.
    + intros E. apply (H3 (OwnAcc i)). cbn. by rewrite Hv, E.
Qed.
Lemma keeps_write_unused R h l z : unused R h l → keeps R h (h_write l z h).
Proof. intros (_ & H2 & _) l' Hl'. rewrite deref_write, decide_False; [done|congruence]. Qed.

Lemma add_to_leaf_exact R addr r leafs : ∀ h, apart R h → NoDup leafs.*2 → (∀ l, l ∈ leafs.*2 → unused R h l) → (r ∉ leafs.*2) → (r < hs_new h)%N →
  match h_add_to_leaf addr r leafs h, add_to_leaf addr (deref h r) (leafs_at h leafs) with
  | Ok (h', f), Ok (out, f') => f = f' ∧ out = leafs_at h' leafs ∧ apart R h' ∧ hs_new h' = hs_new h ∧ hs_vals h' = hs_vals h ∧ hs_fees h' = hs_fees h ∧
      view h' = view h ∧ keeps R h h' ∧ (∀ l, l ∈ leafs.*2 → unused R h' l) ∧ ∀ l, l ∉ leafs.*2 → deref h' l = deref h l
  | Die d, Die d' => d = d'
  | _, _ => False
  end.
Proof.
  induction leafs as [|[a l] leafs IH]; intros h Ha Hnd Hun Hr Hnew; [done|]. cbn [fmap list_fmap fst snd] in *.
  apply NoDup_cons in Hnd as [Hl Hnd]. apply not_elem_of_cons in Hr as [Hrl Hr].
  cbn [h_add_to_leaf leafs_at fmap list_fmap add_to_leaf fst snd leaf_addr leaf_bal].
  destruct (equals a addr) as [e|d]; cbn [rbind]; [|done].
  set (h1 := if e then h_add l r h else h).
  assert (unused R h l) as Hu by (apply Hun, elem_of_cons; by left).
  assert (apart R h1 ∧ view h1 = view h ∧ keeps R h h1 ∧ hs_new h1 = hs_new h ∧ hs_vals h1 = hs_vals h ∧ hs_fees h1 = hs_fees h ∧ (∀ x, unused R h x → unused R h1 x) ∧
    deref h1 l = (if e then deref h l + deref h r else deref h l)%Z ∧ (∀ x, x ≠ l → deref h1 x = deref h x)) as (A1 & V1 & K1 & N1 & W1 & F1 & U1 & D1 & O1).
  { unfold h1. destruct e; [|done]. change (h_add l r h) with (h_write l (deref h l + deref h r) h).
    split; [by apply apart_write|]. split; [by eapply view_write_unused|]. split; [by apply keeps_write_unused|].
    do 4 (split; [done|]). split; [by rewrite deref_write, decide_True|]. intros x Hx. rewrite deref_write, decide_False; done. }
  specialize (IH h1 A1 Hnd). rewrite (O1 r Hrl) in IH.
  assert (leafs_at h1 leafs = leafs_at h leafs) as EL.
  { apply list_fmap_ext. intros j x Hx. f_equal. apply O1. intros Ex. apply Hl. rewrite <- Ex. apply elem_of_list_lookup_2 in Hx. by apply elem_of_list_fmap_1. }
  rewrite EL in IH. fold (leafs_at h leafs). specialize (IH (λ x Hx, U1 x (Hun x (proj2 (elem_of_cons _ _ _) (or_intror Hx)))) Hr ltac:(by rewrite N1)).
  destruct (h_add_to_leaf addr r leafs h1) as [[h2 f]|d], (add_to_leaf addr (deref h r) (leafs_at h leafs)) as [[out f']|d']; try done; cbn [rbind].
  destruct IH as (-> & -> & A2 & N2 & W2 & F2 & V2 & K2 & U2 & O2). split; [done|]. split; [|split; [done|]].
  - unfold leafs_at. cbn [fmap list_fmap fst snd]. f_equal. rewrite (O2 l Hl), D1. by destruct e.
  - split; [congruence|]. split; [congruence|]. split; [congruence|]. split; [congruence|]. split; [by eapply keeps_trans|]. split.
    + intros x Hx. apply elem_of_cons in Hx as [->|Hx]; [|by apply U2]. pose proof (U1 _ Hu) as (X1 & X2 & X3 & X4).
      split; [by rewrite N2|]. split; [done|]. split.
      * intros o. destruct o; cbn; rewrite ?W2, ?F2; [apply (X3 OwnFees)|apply (X3 (OwnAcc i))|apply (X3 (OwnPend i))].
      * rewrite W2. apply X4.
    + intros x Hx. apply not_elem_of_cons in Hx as [Hx1 Hx2]. rewrite O2 by done. by apply O1.
Qed.

Lemma collect_exact R is : ∀ leafs h, apart R h → NoDup leafs.*2 → (∀ l, l ∈ leafs.*2 → unused R h l) → Forall (λ i, is_Some (hs_vals h !! i)) is →
  match h_collect is leafs h, collect (omap (λ i, st_vals (view h) !! i) is) (leafs_at h leafs) with
  | Ok (ls, h'), Ok out => out = leafs_at h' ls ∧ view h' = view h ∧ hs_vals h' = hs_vals h ∧ apart R h' ∧ keeps R h h' ∧ NoDup ls.*2 ∧ ∀ l, l ∈ ls.*2 → unused R h' l
  | Die d, Die d' => d = d'
  | _, _ => False
  end.
Proof.
  induction is as [|i is IH]; intros leafs h Ha Hnd Hun His; [done|]. apply Forall_cons in His as [[v Hv] His].
  cbn [h_collect omap list_omap]. rewrite view_lookup, Hv. cbn [fmap option_fmap option_map collect]. unfold h_val. rewrite Hv. cbn [rbind].
  destruct (apart_below _ _ Ha) as [_ Hb]. destruct (Hb _ _ Hv) as (B1 & _ & _).
  assert (place h (OwnAcc i) = Some (hi_acc v)) as P by (cbn; by rewrite Hv).
  assert (hi_acc v ∉ leafs.*2) as Hnl by (intros Hin; destruct (Hun _ Hin) as (_ & _ & X & _); by apply (X (OwnAcc i))).
  pose proof (add_to_leaf_exact R (hi_addr v) (hi_acc v) leafs h Ha Hnd Hun Hnl B1) as H. cbn [v_addr v_acc info_at].
  destruct (h_add_to_leaf (hi_addr v) (hi_acc v) leafs h) as [[h1 f]|d], (add_to_leaf (hi_addr v) (deref h (hi_acc v)) (leafs_at h leafs)) as [[out f']|d']; try done; cbn [rbind].
  destruct H as (<- & -> & A1 & N1 & W1 & F1 & V1 & K1 & U1 & O1).
  destruct f.
  - specialize (IH leafs h1 A1 Hnd U1 ltac:(by rewrite W1)). rewrite V1 in IH.
    fold (omap (λ i0, st_vals (view h) !! i0) is).
    destruct (h_collect is leafs h1) as [[ls h2]|d], (collect _ (leafs_at h1 leafs)) as [out|d']; try done.
    destruct IH as (? & ? & ? & ? & ? & ? & ?). split; [done|]. split; [congruence|]. split; [congruence|]. split; [done|]. split; [by eapply keeps_trans|done].
  - destruct (h_alloc (deref h1 (hi_acc v)) h1) as [l h2] eqn:H2.
    destruct (apart_alloc' _ _ _ _ _ A1 H2) as (A2 & K2 & D2 & U2). pose proof (view_alloc _ _ _ _ (apart_below _ _ A1) H2) as V2.
    destruct (alloc_bits _ _ _ _ H2) as (El & _ & W2 & _).
    assert (∀ x, x ∈ leafs.*2 → unused R h2 x ∧ x ≠ l) as U3 by (intros x Hx; by eapply unused_old; [apply U1|]).
    set (leafs' := leafs ++ [(to_lower (hi_addr v), l)]).
    assert (leafs'.*2 = leafs.*2 ++ [l]) as Esnd by (unfold leafs'; by rewrite fmap_app).
    assert (leafs_at h2 leafs' = leafs_at h1 leafs ++ [RawLeaf (to_lower (hi_addr v)) (deref h (hi_acc v))]) as EL.
    { unfold leafs', leafs_at. rewrite fmap_app. f_equal.
      - apply list_fmap_ext. intros j x Hx. f_equal. eapply deref_alloc_old; [done|]. apply elem_of_list_lookup_2 in Hx.
        apply U1. by apply elem_of_list_fmap_1.
      - cbn. rewrite D2. by rewrite O1. }
    specialize (IH leafs' h2 A2). rewrite Esnd, EL, V2, V1 in IH.
    fold (omap (λ i0, st_vals (view h) !! i0) is).
    assert (NoDup (leafs.*2 ++ [l])) as Hnd'.
    { apply NoDup_app. split; [done|]. split; [|apply NoDup_singleton]. intros x Hx Hx'. apply elem_of_list_singleton in Hx' as ->. by destruct (U3 _ Hx). }
    specialize (IH Hnd' ltac:(intros x Hx; apply elem_of_app in Hx as [Hx|Hx]; [by apply U3|apply elem_of_list_singleton in Hx as ->; done]) ltac:(by rewrite W2, W1)).
    destruct (h_collect is leafs' h2) as [[ls h3]|d], (collect _ _) as [out|d']; try done.
    destruct IH as (? & ? & ? & ? & K3 & ? & ?). split; [done|]. split; [congruence|]. split; [congruence|]. split; [done|].
    split; [|done]. eapply keeps_trans; [exact K1|]. eapply keeps_trans; [exact K2|exact K3].
Qed.

Lemma apart_more R (ls : list N) h : apart R h → (∀ l, l ∈ ls → unused R h l) → apart (λ l, R l ∨ l ∈ ls) h.
Proof.
  intros [H1 H2 H3 H4 H5 H6] Hu. split; auto.
  - intros o l Hp [Hl|Hl]; [by eapply H2|]. destruct (Hu _ Hl) as (_ & _ & X & _). by apply (X o).
  - intros l [Hl|Hl]; [by apply H6|by apply Hu].
Qed.

Lemma leafs_like R E h : wf_env E → apart R h →
  match h_leafs E h, collect (e_iter E (st_vals (view h))).*2 [] with
  | Ok (ls, f, h'), Ok out => out = leafs_at h' ls ∧ deref h' f = st_fees (view h) ∧ view h' = view h ∧
      apart (λ l, R l ∨ l = f ∨ l ∈ ls.*2) h' ∧ keeps R h h' ∧ NoDup (f :: ls.*2)
  | Die d, Die d' => d = d'
  | _, _ => False
  end.
Proof.
  intros HE Ha. unfold h_leafs. set (it := e_iter E (st_vals (view h))).
  assert (∀ kv, kv ∈ it → st_vals (view h) !! kv.1 = Some kv.2) as Hit.
  { intros [k v] Hkv. unfold it in Hkv. rewrite (wf_iter _ HE) in Hkv. by apply elem_of_map_to_list in Hkv. }
  assert (omap (λ i, st_vals (view h) !! i) it.*1 = it.*2) as Eom.
  { clearbody it. induction it as [|[k v] it IH]; [done|]. cbn [fmap list_fmap fst snd omap list_omap].
    assert (st_vals (view h) !! k = Some v) as -> by (apply (Hit (k, v)), elem_of_cons; by left). f_equal. apply IH. intros kv Hkv. apply Hit, elem_of_cons. by right. }
  assert (Forall (λ i, is_Some (hs_vals h !! i)) it.*1) as His.
  { apply Forall_fmap, Forall_forall. intros kv Hkv. apply Hit in Hkv. rewrite view_lookup in Hkv. cbn.
    destruct (hs_vals h !! kv.1); [by eexists|done]. }
  pose proof (collect_exact R it.*1 [] h Ha (NoDup_nil_2) ltac:(intros l Hl; by apply elem_of_nil in Hl) His) as H. rewrite Eom in H.
  change (leafs_at h []) with ([] : list rawleaf) in H.
  destruct (h_collect it.*1 [] h) as [[ls h1]|d], (collect it.*2 []) as [out|d']; try done; cbn [rbind].
  destruct H as (-> & V1 & W1 & A1 & K1 & Hnd & U1).
  destruct (h_alloc (deref h1 (hs_fees h1)) h1) as [f h2] eqn:H2. destruct (apart_alloc' _ _ _ _ _ A1 H2) as (A2 & K2 & D2 & U2).
  pose proof (view_alloc _ _ _ _ (apart_below _ _ A1) H2) as V2.
  assert (∀ l, l ∈ ls.*2 → unused R h2 l) as U3 by (intros x Hx; by eapply unused_old; [apply U1|]).
  split; [|split; [|split; [|split; [|split]]]].
  - apply list_fmap_ext. intros j x Hx. f_equal. symmetry. eapply deref_alloc_old; [done|]. apply elem_of_list_lookup_2 in Hx. apply U1. by apply elem_of_list_fmap_1.
  - rewrite D2. rewrite <- V1. done.
  - congruence.
  - eapply apart_sub; [|apply (apart_more R (f :: ls.*2) h2 A2)].
    + intros l [Hl|[->|Hl]]; [by left|right; apply elem_of_cons; by left|right; apply elem_of_cons; by right].
    + intros l Hl. apply elem_of_cons in Hl as [->|Hl]; [done|by apply U3].
  - by eapply keeps_trans.
  - apply NoDup_cons. split; [|done]. intros Hf. destruct (U1 _ Hf) as (Hlt & _). unfold h_alloc in H2. injection H2 as <- _. lia.
Qed.

(** ** From the file on *)

Lemma run_pair o l o' : run o l o' → run (Oracle (or_cfg o) (or_st o)) l (Oracle (or_cfg o') (or_st o')).
Proof. by destruct o, o'. Qed.
Lemma load_run c s l ps c' h' : h_run (c, h_load s) l ps (c', h') →
  run (Oracle c s) l (Oracle c' (view h')) ∧
  apart (λ a, ∃ p, p ∈ ps ∧ brought p a) h' ∧
  ∀ k E fb p, l !! k = Some (E, fb) → ps !! k = Some p → ∃ c0 s0, run (Oracle c s) (take k l) (Oracle c0 s0) ∧ as_came h' p E fb c0 s0.
Proof.
  intros H. destruct (load_exact s) as [Hv Ha]. destruct (run_like _ _ _ _ _ H Ha) as (Hr & Ha' & _ & Hf). cbn [fst snd] in *.
  rewrite Hv in Hr, Hf. split; [done|]. split; [|done]. eapply apart_sub; [|exact Ha']. cbn. auto.
Qed.
Lemma load_back c s l c' s' : run (Oracle c s) l (Oracle c' s') → ∃ ps h', h_run (c, h_load s) l ps (c', h') ∧ view h' = s'.
Proof. intros H. destruct (load_exact s) as [Hv Ha]. exact (run_back _ _ _ _ H (h_load s) Ha Hv). Qed.
