(** Proofs of C89 to C91. *)
From Verif Require Export RlpSpec.
From Verif Require Import CheckpointProofs OnchainProofs AbiProofs BlockProofs SlotProofs.

(** ** Prefixes *)
Scheme wire_mut := Induction for wire Sort Prop with wires_mut := Induction for wires Sort Prop.
Combined Scheme wire_both from wire_mut, wires_mut.

Lemma leading_zero_spec s : leading_zero s = false ↔ ∀ r, s ≠ String zero r.
Proof.
  destruct s as [|c s]; cbn; [split; done|]. rewrite N.eqb_neq. split.
  - intros Hc r [= -> _]. by apply Hc.
  - intros Hs Hc. apply (Hs s). f_equal. rewrite <- (ascii_N_embedding c), Hc. done.
Qed.
Lemma substring_split n s : (n ≤ String.length s)%nat → s = substring 0 n s +:+ sdrop n s ∧ String.length (substring 0 n s) = n.
Proof.
  intros (a & b & -> & <-)%string_split. rewrite substring_app, sdrop_app. done.
Qed.
Lemma short_value_bound w k : (String.length w ≤ k)%nat → (be_value w < 256 ^ N.of_nat k)%N.
Proof.
  intros Hk. eapply N.lt_le_trans; [apply be_value_bound|]. apply N.pow_le_mono_r; lia.
Qed.

Lemma read_size_spec k s n r : read_size k s = Some (n, r) ↔
  ∃ w, s = w +:+ r ∧ String.length w = k ∧ be_value w = n ∧ (∀ x, w ≠ String zero x) ∧ (56 ≤ n)%N.
Proof.
  unfold read_size. split.
  - destruct (Nat.ltb_spec (String.length s) k) as [|Hk]; [done|]. cbv zeta.
    destruct (leading_zero _) eqn:Hz; [done|]. cbn [orb].
    destruct (N.ltb_spec (word_number (substring 0 k s)) 56) as [|Hn]; [done|]. intros [= <- <-].
    destruct (substring_split k s Hk) as [Hs Hl]. exists (substring 0 k s). split; [done|]. split; [done|]. split; [done|].
    split; [by apply leading_zero_spec|done].
  - intros (w & -> & <- & <- & Hz%leading_zero_spec & Hn). rewrite string_length_app.
    destruct (Nat.ltb_spec (String.length w + String.length r) (String.length w)); [lia|]. cbv zeta.
    rewrite substring_app, sdrop_app, Hz. cbn [orb]. change (word_number w) with (be_value w).
    destruct (N.ltb_spec (be_value w) 56); [lia|done].
Qed.

Lemma N_of_small n : (n < 256)%N → N_of_ascii (ascii_of_N n) = n.
Proof. apply N_ascii_embedding. Qed.
Lemma ascii_char c n : N_of_ascii c = n → c = ascii_of_N n.
Proof. intros <-. by rewrite ascii_N_embedding. Qed.

Lemma own_prefix_spec s : own_prefix s = true ↔ ∃ c, s = String c "" ∧ (N_of_ascii c < 128)%N.
Proof.
  split.
  - destruct s as [|c [|]]; cbn; [done| |done]. intros H%N.ltb_lt. by exists c.
  - intros (c & -> & Hc). cbn. by apply N.ltb_lt.
Qed.
Lemma own_prefix_false s : own_prefix s = false ↔ ∀ c, s = String c "" → (128 ≤ N_of_ascii c)%N.
Proof.
  split.
  - intros H c ->. cbn in H. by apply N.ltb_ge in H.
  - intros H. apply not_true_iff_false. intros (c & Hs & Hc)%own_prefix_spec. specialize (H c Hs). lia.
Qed.

Lemma split_sound s l body rest : split_item s = Some (l, body, rest) → ∃ h, s = h +:+ (body +:+ rest) ∧ heads l body h ∧ h +:+ body ≠ "".
Proof.
  unfold split_item. destruct (read_kind s) as [[[[l' own] n] r]|] eqn:Hk; [|done]. cbn [mbind option_bind].
  destruct (N.ltb_spec (N.of_nat (String.length r)) n) as [|Hn]; [done|]. cbv zeta.
  destruct (negb l' && negb own && own_prefix (substring 0 (N.to_nat n) r)) eqn:Ho; [done|]. intros [= <- <- <-].
  destruct (substring_split (N.to_nat n) r) as [Hr Hl]; [lia|].
  set (body := substring 0 (N.to_nat n) r) in *. set (rest := sdrop (N.to_nat n) r) in *.
  assert (∀ l x w, (55 < n)%N → be_value w = n → (∀ y, w ≠ String zero y) → (String.length w ≤ 8)%nat → 
     x = ascii_of_N ((if l : bool then 247 else 183) + N.of_nat (String.length w)) → heads l body (String x w)) as Hlong.
  { intros l0 x w H1 H2 H3 H4 ->. apply heads_long; [lia|lia|done|done]. }
  unfold read_kind in Hk. destruct s as [|c s]; [done|]. pose proof (N_of_ascii_lt c) as Hc.
  destruct (N.ltb_spec (N_of_ascii c) 128) as [H1|H1].
  { injection Hk as <- <- <- <-. exists "". split; [exact Hr|]. subst body. destruct s; cbn; (split; [by constructor|done]). }
  destruct (N.ltb_spec (N_of_ascii c) 184) as [H2|H2].
  { injection Hk as <- <- <- <-. cbn [negb andb] in Ho. exists (String c ""). split; [by rewrite Hr|]. split; [|done].
    rewrite (ascii_char c (128 + N.of_nat (String.length body))) by lia.
    apply (heads_short false); [lia|]. intros x _. revert x. by apply own_prefix_false. }
  destruct (N.ltb_spec (N_of_ascii c) 192) as [H3|H3].
  { destruct (read_size _ s) as [[n' r']|] eqn:Hrs; [|done]. injection Hk as <- <- <- <-.
    apply read_size_spec in Hrs as (w & -> & Hw & Hv & Hz & Hge). exists (String c w). split; [cbn; by rewrite Hr at 1|]. split; [|done].
    apply (Hlong false); [lia|done|done|lia|]. apply ascii_char. lia. }
  destruct (N.ltb_spec (N_of_ascii c) 248) as [H4|H4].
  { injection Hk as <- <- <- <-. exists (String c ""). split; [by rewrite Hr|]. split; [|done].
    rewrite (ascii_char c (192 + N.of_nat (String.length body))) by lia.
    apply (heads_short true); [lia|]. done. }
  { destruct (read_size _ s) as [[n' r']|] eqn:Hrs; [|done]. injection Hk as <- <- <- <-.
    apply read_size_spec in Hrs as (w & -> & Hw & Hv & Hz & Hge). exists (String c w). split; [cbn; by rewrite Hr at 1|]. split; [|done].
    apply (Hlong true); [lia|done|done|lia|]. apply ascii_char. lia. }
Qed.

Lemma split_complete l body h rest : heads l body h → split_item (h +:+ (body +:+ rest)) = Some (l, body, rest).
Proof.
  intros Hh. unfold split_item.
  assert (∃ own, read_kind (h +:+ (body +:+ rest)) = Some (l, own, N.of_nat (String.length body), body +:+ rest) ∧
    negb l && negb own && own_prefix body = false) as (own & -> & Ho).
  { destruct Hh as [c Hc|l b Hb Hs|l b w Hb Hv Hz Hw].
    - exists true. change ("" +:+ (String c "" +:+ rest)) with (String c rest). unfold read_kind. destruct (N.ltb_spec (N_of_ascii c) 128); [|lia]. split; reflexivity.
    - exists false. change (String ?x "" +:+ ?y) with (String x y). unfold read_kind. rewrite N_of_small by (destruct l; lia). destruct l.
      + destruct (N.ltb_spec (192 + N.of_nat (String.length b)) 128); [lia|].
        destruct (N.ltb_spec (192 + N.of_nat (String.length b)) 184); [lia|].
        destruct (N.ltb_spec (192 + N.of_nat (String.length b)) 192); [lia|].
        destruct (N.ltb_spec (192 + N.of_nat (String.length b)) 248); [|lia].
        split; [|done]. do 3 f_equal. lia.
      + destruct (N.ltb_spec (128 + N.of_nat (String.length b)) 128); [lia|].
        destruct (N.ltb_spec (128 + N.of_nat (String.length b)) 184); [|lia].
        split; [do 3 f_equal; lia|]. cbn [negb andb]. apply own_prefix_false. intros c Hc. by apply Hs.
    - exists false. assert (1 ≤ String.length w)%nat as Hpos.
      { destruct w as [|x w]; [|cbn; lia]. cbn in Hv. lia. }
      assert (∀ k, k = String.length w → read_size k (w +:+ (b +:+ rest)) = Some (N.of_nat (String.length b), b +:+ rest)) as Hrs.
      { intros k ->. apply read_size_spec. exists w. split; [done|]. split; [done|]. split; [done|]. split; [done|lia]. }
      change (String ?c w +:+ ?x) with (String c (w +:+ x)). unfold read_kind. rewrite N_of_small by (destruct l; lia). destruct l.
      + destruct (N.ltb_spec (247 + N.of_nat (String.length w)) 128); [lia|].
        destruct (N.ltb_spec (247 + N.of_nat (String.length w)) 184); [lia|].
        destruct (N.ltb_spec (247 + N.of_nat (String.length w)) 192); [lia|].
        destruct (N.ltb_spec (247 + N.of_nat (String.length w)) 248); [lia|].
        rewrite Hrs by lia. done.
      + destruct (N.ltb_spec (183 + N.of_nat (String.length w)) 128); [lia|].
        destruct (N.ltb_spec (183 + N.of_nat (String.length w)) 184); [lia|].
        destruct (N.ltb_spec (183 + N.of_nat (String.length w)) 192); [|lia].
        rewrite Hrs by lia. split; [done|]. cbn [negb andb]. apply own_prefix_false. intros c ->. cbn in Hb. lia. }
  cbn [mbind option_bind]. rewrite string_length_app.
  destruct (N.ltb_spec (N.of_nat (String.length body + String.length rest)) (N.of_nat (String.length body))); [lia|]. cbv zeta.
  rewrite Nat2N.id, substring_app, Ho, sdrop_app. done.
Qed.

(** ** Values *)
Lemma items_sound fuel s l : items fuel s = Some l → wires l s.
Proof.
  revert s l. induction fuel as [|fuel IH]; intros s l.
  { destruct s; cbn; [|done]. intros [= <-]. constructor. }
  destruct s as [|c s]; [cbn; intros [= <-]; constructor|]. cbn [items]. generalize (String c s). clear c s. intros s.
  destruct (split_item s) as [[[k body] rest]|] eqn:Hs; [|done]. cbn [mbind option_bind].
  apply split_sound in Hs as (h & -> & Hh & _).
  destruct k; cbn [fmap option_fmap option_map].
  - destruct (items fuel body) as [l1|] eqn:H1; [|done]. cbn. destruct (items fuel rest) as [l2|] eqn:H2; [|done]. intros [= <-].
    rewrite <- string_app_assoc. constructor; [|by apply IH]. constructor; [by apply IH|done].
  - cbn. destruct (items fuel rest) as [l2|] eqn:H2; [|done]. intros [= <-].
    rewrite <- string_app_assoc. constructor; [|by apply IH]. by constructor.
Qed.
Lemma heads_nonempty l b h : heads l b h → (1 ≤ String.length (h +:+ b))%nat ∧ (l = true → 1 ≤ String.length h)%nat.
Proof. destruct 1; rewrite ?string_length_app; cbn [String.length]; (split; [lia|]); intros; try done; lia. Qed.
Lemma items_complete fuel s l : wires l s → (String.length s ≤ fuel)%nat → items fuel s = Some l.
Proof.
  revert s l. induction fuel as [|fuel IH]; intros s l Hw Hf.
  { destruct s; [|cbn in Hf; lia]. inversion Hw as [Hl Hs|i l' a b Hi Hl Heq Hs]; [done|]. exfalso.
    apply (f_equal String.length) in Hs. rewrite string_length_app in Hs.
    destruct Hi as [s h Hh|l0 b0 h _ Hh]; apply heads_nonempty in Hh; cbn in Hs; lia. }
  destruct Hw as [|i l a b Hi Hl]; [done|].
  assert (∃ c s, a +:+ b = String c s) as (c & s & Hcs).
  { destruct (a +:+ b) as [|c s] eqn:Hab; [|by exists c, s]. apply (f_equal String.length) in Hab. rewrite string_length_app in Hab.
    destruct Hi as [s h Hh|l0 b0 h _ Hh]; apply heads_nonempty in Hh; cbn in Hab; lia. }
  rewrite Hcs. cbn [items]. rewrite <- Hcs. rewrite string_length_app in Hf. clear c s Hcs.
  destruct Hi as [s h Hh|l0 b0 h Hb Hh]; pose proof (heads_nonempty _ _ _ Hh) as [Hn1 Hn2]; rewrite string_app_assoc, (split_complete _ _ _ _ Hh);
    cbn [mbind option_bind]; rewrite string_length_app in *.
  - rewrite (IH b l) by (done || lia). done.
  - specialize (Hn2 eq_refl). rewrite (IH b0 l0) by (done || lia). cbn. rewrite (IH b l) by (done || lia). done.
Qed.
Lemma fields_spec s l : fields s = Some l ↔ wire (Seq l) s.
Proof.
  unfold fields. split.
  - destruct (items _ s) as [[|[|l'] [|]]|] eqn:Hi; try done. intros [= ->]. apply items_sound in Hi. inversion Hi as [|? ? ? ? Hw Hn]; subst.
    inversion Hn; subst. by rewrite string_app_nil_r.
  - intros Hw. rewrite (items_complete _ _ [Seq l]); [done| |lia]. rewrite <- (string_app_nil_r s). by repeat constructor.
Qed.

(** ** Fields *)
Lemma be_value_cons c w : be_value (String c w) = (N_of_ascii c * 256 ^ N.of_nat (String.length w) + be_value w)%N.
Proof.
  unfold be_value. cbn [list_ascii_of_string fold_left]. rewrite <- length_list_ascii, N.mul_0_r, N.add_0_l.
  generalize (list_ascii_of_string w) as l. intros l. generalize (N_of_ascii c) as a. induction l as [|x l IH] using rev_ind; intros a.
  { cbn. lia. }
  rewrite !fold_left_app, app_length. cbn [fold_left length]. rewrite IH, Nat.add_1_r, Nat2N.inj_succ, N.pow_succ_r'. lia.
Qed.
Lemma short_length w k : (∀ r, w ≠ String zero r) → (be_value w < 256 ^ N.of_nat k)%N → (String.length w ≤ k)%nat.
Proof.
  destruct w as [|c w]; intros Hz Hv; [cbn; lia|]. rewrite be_value_cons in Hv. apply leading_zero_spec in Hz. cbn in Hz. apply N.eqb_neq in Hz.
  cbn [String.length]. destruct (decide (S (String.length w) ≤ k)%nat) as [|Hk]; [done|]. exfalso.
  assert (256 ^ N.of_nat k ≤ 256 ^ N.of_nat (String.length w))%N as Hm by (apply N.pow_le_mono_r; lia).
  assert (1 * 256 ^ N.of_nat (String.length w) ≤ N_of_ascii c * 256 ^ N.of_nat (String.length w))%N by (apply N.mul_le_mono_r; lia). lia.
Qed.
Lemma number_spec i n : as_number None i = Some n ↔ writes n i.
Proof.
  unfold as_number, writes. destruct i as [s|l]; [|split; [done|intros (w & [=] & _)]]. split.
  - destruct (leading_zero s) eqn:Hz; [done|]. intros [= <-]. exists s. split; [done|]. split; [done|]. by apply leading_zero_spec.
  - intros (w & [= ->] & <- & Hz%leading_zero_spec). by rewrite Hz.
Qed.
Lemma number_bound_spec k i n : as_number (Some k) i = Some n ↔ writes n i ∧ (n < 256 ^ N.of_nat k)%N.
Proof.
  unfold as_number, writes. destruct i as [s|l]; [|split; [done|intros [(w & [=] & _) _]]]. split.
  - destruct (leading_zero s) eqn:Hz; [done|]. destruct (Nat.ltb_spec k (String.length s)); [done|]. intros [= <-].
    split; [|by apply short_value_bound]. exists s. split; [done|]. split; [done|]. by apply leading_zero_spec.
  - intros [(w & [= ->] & <- & Hz) Hk]. apply short_length in Hk; [|done]. apply leading_zero_spec in Hz. rewrite Hz.
    destruct (Nat.ltb_spec k (String.length w)); [lia|done].
Qed.
Lemma u64_spec i n : as_number (Some 8%nat) i = Some n ↔ writes n i ∧ is_u64 n.
Proof. rewrite number_bound_spec. done. Qed.
Lemma u256_spec i n : as_number (Some 32%nat) i = Some n ↔ writes n i ∧ (n < 2 ^ 256)%N.
Proof. rewrite number_bound_spec. done. Qed.
Lemma u8_spec i n : as_number (Some 1%nat) i = Some n ↔ writes n i ∧ (n < 256)%N.
Proof. rewrite number_bound_spec. done. Qed.
Lemma bytes_spec i s : as_bytes i = Some s ↔ i = Str s.
Proof. destruct i; cbn; split; congruence. Qed.
Lemma fixed_spec k i s : as_fixed k i = Some s ↔ i = Str s ∧ String.length s = k.
Proof.
  destruct i as [x|]; cbn; [|split; [done|intros [[=] _]]]. destruct (Nat.eqb_spec (String.length x) k) as [Hx|Hx].
  - split; [intros [= <-]; done|intros [[= ->] _]; done].
  - split; [done|]. intros [[= ->] ?]. done.
Qed.
Lemma to_spec i t : as_to i = Some t ↔ directs t i.
Proof.
  assert (∀ x, as_fixed 20 i = Some x → i ≠ Str "") as Hf by (intros x [-> Hx]%fixed_spec [= ->]; done).
  unfold as_to, directs. destruct i as [[|c s]|l].
  - destruct t as [a|]; split; try done. intros [Ha [= <-]]. done.
  - destruct (as_fixed 20 (Str (String c s))) as [x|] eqn:Hx; cbn.
    + apply fixed_spec in Hx as [[= <-] Hx]. destruct t as [a|]; split; try done; [intros [= <-]; done|intros [_ [= <-]]; done].
    + destruct t as [a|]; split; try done. intros [Ha Hs]. exfalso. assert (as_fixed 20 (Str (String c s)) = Some a) as Hc by (by apply fixed_spec). congruence.
  - destruct t as [a|]; split; try done. intros [_ [=]].
Qed.
Lemma slice_spec {A} (f : item → option A) (P : A → item → Prop) i l : (∀ i a, f i = Some a ↔ P a i) →
  as_slice f i = Some l ↔ ∃ is, i = Seq is ∧ Forall2 P l is.
Proof.
  intros Hf. destruct i as [s|is]; cbn; [split; [done|intros (is & [=] & _)]|]. rewrite mapM_Some. split.
  - intros HF. exists is. split; [done|]. apply Forall2_flip. eapply Forall2_impl; [exact HF|]. intros x y. apply Hf.
  - intros (is' & [= <-] & HF). apply Forall2_flip in HF. eapply Forall2_impl; [exact HF|]. intros x y. apply Hf.
Qed.
Lemma slice_fixed_spec k i l : as_slice (as_fixed k) i = Some l ↔ i = Seq (Str <$> l) ∧ Forall (λ x, String.length x = k) l.
Proof.
  rewrite (slice_spec _ (λ a i, i = Str a ∧ String.length a = k)) by (intros; apply fixed_spec). split.
  - intros (is & -> & HF). induction HF as [|x y l l' [-> Hx] HF [IH1 IH2]]; [done|]. injection IH1 as ->. split; [done|]. by constructor.
  - intros [-> HF]. exists (Str <$> l). split; [done|]. induction HF; cbn; by constructor.
Qed.
Lemma tuple_spec i p : as_tuple i = Some p ↔ lists p i.
Proof.
  destruct p as [a ks]. unfold lists. cbn [fst snd]. split.
  - destruct i as [|[|x [|y [|]]]]; try done. cbn. rewrite !bind_Some. intros (a' & [-> Ha]%fixed_spec & H). apply bind_Some in H as (ks' & [-> Hk]%slice_fixed_spec & [= <- <-]).
    done.
  - intros (Ha & Hk & ->). cbn [as_tuple]. rewrite (proj2 (fixed_spec 20 (Str a) a)) by done. cbn [mbind option_bind].
    rewrite (proj2 (slice_fixed_spec 32 _ ks)) by done. done.
Qed.
Lemma access_spec i al : as_slice as_tuple i = Some al ↔ ∃ ial, i = Seq ial ∧ Forall2 lists al ial.
Proof. apply slice_spec. apply tuple_spec. Qed.

Ltac binds H := repeat (let x := fresh "x" in let E := fresh "E" in apply bind_Some in H as (x & E & H)); injection H as <-.
Ltac specs := repeat match goal with
  | E : as_number (Some 8%nat) _ = Some _ |- _ => apply u64_spec in E; destruct E
  | E : as_number (Some 32%nat) _ = Some _ |- _ => apply u256_spec in E; destruct E
  | E : as_number (Some 1%nat) _ = Some _ |- _ => apply u8_spec in E; destruct E
  | E : as_number None _ = Some _ |- _ => apply number_spec in E
  | E : as_fixed _ _ = Some _ |- _ => apply fixed_spec in E; destruct E; subst
  | E : as_to _ = Some _ |- _ => apply to_spec in E
  | E : as_bytes _ = Some _ |- _ => apply bytes_spec in E; subst
  | E : as_slice as_tuple _ = Some _ |- _ => apply access_spec in E as (? & -> & ?)
  | E : as_slice (as_fixed _) _ = Some _ |- _ => apply slice_fixed_spec in E as [-> ?]
  end.
Ltac one H := rewrite H; cbn [mbind option_bind].
Ltac reads := repeat match goal with
  | Hw : writes ?n ?i, Hn : is_u64 ?n |- context [as_number (Some 8%nat) ?i] => one (proj2 (u64_spec i n) (conj Hw Hn))
  | Hw : writes ?n ?i, Hn : (?n < 2 ^ 256)%N |- context [as_number (Some 32%nat) ?i] => one (proj2 (u256_spec i n) (conj Hw Hn))
  | Hw : writes ?n ?i, Hn : (?n < 256)%N |- context [as_number (Some 1%nat) ?i] => one (proj2 (u8_spec i n) (conj Hw Hn))
  | Hw : writes ?n ?i |- context [as_number None ?i] => one (proj2 (number_spec i n) Hw)
  | Ha : String.length ?a = ?k |- context [as_fixed ?k (Str ?a)] => one (proj2 (fixed_spec k (Str a) a) (conj eq_refl Ha))
  | Ht : directs ?t ?i |- context [as_to ?i] => one (proj2 (to_spec i t) Ht)
  | Hl : Forall2 lists ?al ?i |- context [as_slice as_tuple (Seq ?i)] => one (proj2 (access_spec (Seq i) al) (ex_intro _ i (conj eq_refl Hl)))
  | Hf : Forall _ ?bs |- context [as_slice (as_fixed 32) (Seq (Str <$> ?bs))] => one (proj2 (slice_fixed_spec 32 (Seq (Str <$> bs)) bs) (conj eq_refl Hf))
  | |- context [as_bytes (Str ?d)] => one (proj2 (bytes_spec (Str d) d) eq_refl)
  end.
Lemma auth_spec i a : as_auth i = Some a ↔ authorizes a i.
Proof.
  split.
  - destruct i as [|[|i1 [|i2 [|i3 [|i4 [|i5 [|i6 [|]]]]]]]]; try done. cbn [as_auth]. intros H. binds H. specs.
    unfold authorizes. cbn. do 6 (split; [done|]). do 5 eexists. split; [reflexivity|]. do 4 (split; [eassumption|]). eassumption.
  - destruct a as [c a n v r s]. unfold authorizes. cbn [au_chain au_addr au_nonce au_v au_r au_s].
    intros (Ha & Hn & Hc & Hv & Hr & Hs & ic & in' & iv & ir & is & -> & ? & ? & ? & ? & ?). cbn [as_auth]. reads. done.
Qed.
Lemma auths_spec i l : as_slice as_auth i = Some l ↔ ∃ is, i = Seq is ∧ Forall2 authorizes l is.
Proof. apply slice_spec. apply auth_spec. Qed.

(** ** Transactions *)
(** The fields with the signature. *)
Definition filled (t : txdata) (l : list item) : Prop :=
  ∃ b v r s iv ir is, body t b ∧ signature_of t = (v, r, s) ∧ writes v iv ∧ writes r ir ∧ writes s is ∧ l = b ++ [iv; ir; is].
Ltac fill := do 7 eexists; split; [econstructor; eauto; repeat (apply Forall_cons; split; [done|]); apply Forall_nil|];
  split; [reflexivity|]; do 3 (split; [eassumption|]); reflexivity.
Ltac fill' := do 7 eexists; split; [econstructor; eauto|];
  split; [reflexivity|]; do 3 (split; [eassumption|]); reflexivity.
Ltac lists_of l n := match n with O => destruct l as [|]; try done | S ?m => destruct l as [|? l]; [done|]; lists_of l m end.
Lemma legacy_spec l t : as_legacy l = Some t ↔ filled t l ∧ announced t = "".
Proof.
  split.
  - intros H. lists_of l 9%nat. cbn [as_legacy] in H. binds H. specs. split; [|done]. fill'.
  - intros [(b & v & r & s & iv & ir & is & Hb & Hs & Hv & Hr & His & ->) Ha]. destruct Hb; try done. injection Hs as -> -> ->.
    cbn [app as_legacy]. reads. done.
Qed.
Lemma access_tx_spec l t : as_access l = Some t ↔ filled t l ∧ announced t = String "001" "".
Proof.
  split.
  - intros H. lists_of l 11%nat. cbn [as_access] in H. binds H. specs. split; [|done]. fill'.
  - intros [(b & v & r & s & iv & ir & is & Hb & Hs & Hv & Hr & His & ->) Ha]. destruct Hb; try done. injection Hs as -> -> ->.
    cbn [app as_access]. reads. done.
Qed.
Lemma dynamic_spec l t : as_dynamic l = Some t ↔ filled t l ∧ announced t = String "002" "".
Proof.
  split.
  - intros H. lists_of l 12%nat. cbn [as_dynamic] in H. binds H. specs. split; [|done]. fill'.
  - intros [(b & v & r & s & iv & ir & is & Hb & Hs & Hv & Hr & His & ->) Ha]. destruct Hb; try done. injection Hs as -> -> ->.
    cbn [app as_dynamic]. reads. done.
Qed.
Ltac limits := repeat match goal with H : Forall _ (_ :: _) |- _ => apply Forall_cons in H as [? H] end.
Lemma blob_spec l t : as_blob l = Some t ↔ filled t l ∧ announced t = String "003" "".
Proof.
  split.
  - intros H. lists_of l 14%nat. cbn [as_blob] in H. binds H. specs. split; [|done]. fill.
  - intros [(b & v & r & s & iv & ir & is & Hb & Hs & Hv & Hr & His & ->) Ha]. destruct Hb; try done. injection Hs as -> -> ->.
    limits. cbn [app as_blob]. reads. done.
Qed.
Lemma setcode_spec l t : as_setcode l = Some t ↔ filled t l ∧ announced t = String "004" "".
Proof.
  split.
  - intros H. lists_of l 13%nat. cbn [as_setcode] in H. binds H. specs.
    match goal with E : as_slice as_auth _ = Some _ |- _ => apply auths_spec in E as (? & -> & ?) end. split; [|done]. fill.
  - intros [(b & v & r & s & iv & ir & is & Hb & Hs & Hv & Hr & His & ->) Ha]. destruct Hb; try done. injection Hs as -> -> ->.
    limits. cbn [app as_setcode]. reads. 
    match goal with H : Forall2 authorizes ?aus ?iau |- _ => one (proj2 (auths_spec (Seq iau) aus) (ex_intro _ iau (conj eq_refl H))) end. reads. done.
Qed.
Lemma transmits_filled t raw : transmits t raw ↔ ∃ l e, filled t l ∧ wire (Seq l) e ∧ raw = announced t +:+ e.
Proof.
  split.
  - intros (b & v & r & s & iv & ir & is & e & Hb & Hs & Hv & Hr & His & Hw & ->). exists (b ++ [iv; ir; is]), e. split; [|done].
    by exists b, v, r, s, iv, ir, is.
  - intros (l & e & (b & v & r & s & iv & ir & is & Hb & Hs & Hv & Hr & His & ->) & Hw & ->). by exists b, v, r, s, iv, ir, is, e.
Qed.
Lemma list_first l e : wire (Seq l) e → ∃ c r, e = String c r ∧ (192 ≤ N_of_ascii c)%N.
Proof.
  inversion 1 as [|l' b h Hw Hh]; subst. inversion Hh as [|l0 b0 Hb _|l0 b0 w Hb Hv Hz Hw8]; subst.
  - exists (ascii_of_N (192 + N.of_nat (String.length b))), b. split; [done|]. rewrite N_of_small; lia.
  - exists (ascii_of_N (247 + N.of_nat (String.length w))), (w +:+ b). split; [done|]. rewrite N_of_small; lia.
Qed.
Lemma decode_spec raw t : decode_tx raw = Some t ↔ transmits t raw.
Proof.
  rewrite transmits_filled. split.
  - unfold decode_tx. destruct raw as [|c rest]; [done|]. cbv zeta. destruct (N.ltb_spec 127 (N_of_ascii c)) as [Hc|Hc].
    { intros (l & Hl%fields_spec & [Hf Ha]%legacy_spec)%bind_Some. exists l, (String c rest). by rewrite Ha. }
    destruct (Nat.leb_spec (String.length (String c rest)) 1); [done|].
    assert (∀ n, N_of_ascii c = n → String c rest = String (ascii_of_N n) "" +:+ rest) as Hn.
    { intros n <-. by rewrite ascii_N_embedding. }
    destruct (N.eqb_spec (N_of_ascii c) 1) as [H1|_].
    { intros (l & Hl%fields_spec & [Hf Ha]%access_tx_spec)%bind_Some. exists l, rest. rewrite Ha. split; [done|]. split; [done|]. exact (Hn 1%N H1). }
    destruct (N.eqb_spec (N_of_ascii c) 2) as [H1|_].
    { intros (l & Hl%fields_spec & [Hf Ha]%dynamic_spec)%bind_Some. exists l, rest. rewrite Ha. split; [done|]. split; [done|]. exact (Hn 2%N H1). }
    destruct (N.eqb_spec (N_of_ascii c) 3) as [H1|_].
    { intros (l & Hl%fields_spec & [Hf Ha]%blob_spec)%bind_Some. exists l, rest. rewrite Ha. split; [done|]. split; [done|]. exact (Hn 3%N H1). }
    destruct (N.eqb_spec (N_of_ascii c) 4) as [H1|_]; [|done].
    intros (l & Hl%fields_spec & [Hf Ha]%setcode_spec)%bind_Some. exists l, rest. rewrite Ha. split; [done|]. split; [done|]. exact (Hn 4%N H1).
  - intros (l & e & Hf & Hw & ->). destruct (list_first l e Hw) as (c & r & He & Hc).
    assert (∀ x, String.length (String x e) <=? 1 = false)%nat as Hlen by (intros x; rewrite He; done).
    apply fields_spec in Hw. destruct t; cbn [announced].
    + change ("" +:+ e) with e. rewrite He. unfold decode_tx. cbv zeta. destruct (N.ltb_spec 127 (N_of_ascii c)); [|lia].
      rewrite <- He, Hw. cbn [mbind option_bind]. by apply legacy_spec.
    + change (String "001" "" +:+ e) with (String "001" e). unfold decode_tx. rewrite Hlen, Hw. by apply access_tx_spec.
    + change (String "002" "" +:+ e) with (String "002" e). unfold decode_tx. rewrite Hlen, Hw. by apply dynamic_spec.
    + change (String "003" "" +:+ e) with (String "003" e). unfold decode_tx. rewrite Hlen, Hw. by apply blob_spec.
    + change (String "004" "" +:+ e) with (String "004" e). unfold decode_tx. rewrite Hlen, Hw. by apply setcode_spec.
Qed.

(** ** Writing *)
Lemma short_bytes_be w : (∀ r, w ≠ String zero r) → short_bytes (be_value w) = w.
Proof.
  intros Hz. destruct w as [|c w]; [done|]. unfold short_bytes.
  assert (N.to_nat ((N.size (be_value (String c w)) + 7) / 8) = String.length (String c w)) as Hk.
  { pose proof (short_value_bound (String c w) (String.length (String c w)) (le_n _)) as Hub. apply leading_zero_spec in Hz. cbn in Hz. apply N.eqb_neq in Hz.
    assert (1 * 256 ^ N.of_nat (String.length w) ≤ be_value (String c w))%N as Hlb.
    { rewrite be_value_cons. etransitivity; [apply (N.mul_le_mono_r 1 (N_of_ascii c)); lia|]. lia. }
    revert Hub Hlb. cbn [String.length]. generalize (be_value (String c w)) as n. generalize (String.length w) as m. intros m n Hub Hlb.
    rewrite N.mul_1_l in Hlb. change 256%N with (2 ^ 8)%N in *. rewrite <- N.pow_mul_r in Hub, Hlb.
    assert (0 < 2 ^ (8 * N.of_nat m))%N as Hp by (apply N.neq_0_lt_0, N.pow_nonzero; done).
    assert (0 < n)%N as Hn0 by lia. rewrite N.size_log2 by lia. apply N.log2_le_pow2 in Hlb; [|lia]. apply N.log2_lt_pow2 in Hub; [|lia].
    assert ((N.succ (N.log2 n) + 7) / 8 = N.of_nat m + 1)%N as ->; [|lia].
    symmetry. apply (N.div_unique _ _ _ (N.log2 n - 8 * N.of_nat m)%N); lia. }
  rewrite Hk. apply be_value_inj; [apply be_bytes_length|]. apply be_bytes_value. apply short_value_bound. done.
Qed.
Lemma heads_put l b h : heads l b h → h = if negb l && own_prefix b then "" else put_head l b.
Proof.
  destruct 1 as [c Hc|l b Hb Hs|l b w Hb Hv Hz Hw].
  - cbn. apply N.ltb_lt in Hc. by rewrite Hc.
  - assert (negb l && own_prefix b = false) as ->.
    { destruct l; [done|]. cbn [negb andb]. apply own_prefix_false. intros c. by apply Hs. }
    unfold put_head. cbv zeta. destruct (N.ltb_spec (N.of_nat (String.length b)) 56); [done|lia].
  - assert (negb l && own_prefix b = false) as ->.
    { destruct l; [done|]. cbn [negb andb]. apply own_prefix_false. intros c ->. cbn in Hb. lia. }
    unfold put_head. cbv zeta. destruct (N.ltb_spec (N.of_nat (String.length b)) 56); [lia|].
    rewrite <- Hv, short_bytes_be by done. done.
Qed.
Lemma encode_str s : encode_item (Str s) = ((if own_prefix s then "" else put_head false s) +:+ s)%string.
Proof. cbn [encode_item]. by destruct (own_prefix s). Qed.
Definition encodes (l : list item) : string := foldr (λ i acc, encode_item i +:+ acc) "" l.
Lemma encode_seq l : encode_item (Seq l) = put_head true (encodes l) +:+ encodes l.
Proof. done. Qed.
Lemma wire_encode_both : (∀ i s, wire i s → encode_item i = s) ∧ (∀ l s, wires l s → encodes l = s).
Proof.
  apply wire_both.
  - intros s h Hh%heads_put. cbn [negb andb] in Hh. by rewrite encode_str, <- Hh.
  - intros l b h Hw IH Hh%heads_put. cbn [negb andb] in Hh. by rewrite encode_seq, IH, <- Hh.
  - done.
  - intros i l a b _ IH1 _ IH2. cbn. by rewrite IH1, <- IH2.
Qed.
Lemma wire_encode i s : wire i s → encode_item i = s.
Proof. apply wire_encode_both. Qed.
Lemma writes_of n i : writes n i → i = of_number n.
Proof. intros (w & -> & <- & Hz). unfold of_number. by rewrite short_bytes_be. Qed.
Lemma directs_of t i : directs t i → i = of_to t.
Proof. destruct t; cbn; [by intros [_ ->]|done]. Qed.
Lemma lists_of_access al ial : Forall2 lists al ial → Seq ial = of_access al.
Proof. unfold of_access. intros HF. f_equal. induction HF as [|p i al ial (_ & _ & ->) _ IH]; [done|]. cbn. by rewrite IH. Qed.
Lemma authorizes_of aus iau : Forall2 authorizes aus iau → iau = of_auth <$> aus.
Proof.
  induction 1 as [|a i aus iau Ha _ IH]; [done|]. cbn. rewrite IH. f_equal.
  destruct Ha as (_ & _ & _ & _ & _ & _ & c & n & v & r & s & -> & Hc & Hn & Hv & Hr & Hs). unfold of_auth.
  rewrite (writes_of _ c Hc), (writes_of _ n Hn), (writes_of _ v Hv), (writes_of _ r Hr), (writes_of _ s Hs). done.
Qed.
Lemma body_unsigned t b : body t b → b = unsigned t.
Proof.
  destruct 1; cbn [unsigned];
  repeat match goal with H : writes _ ?i |- _ => apply writes_of in H; subst i | H : directs _ ?i |- _ => apply directs_of in H; subst i
    | H : Forall2 lists _ ?i |- _ => apply lists_of_access in H; rewrite H; clear H
    | H : Forall2 authorizes _ ?i |- _ => apply authorizes_of in H; subst i end; done.
Qed.
Lemma announced_prefix t : type_prefix t = announced t.
Proof. by destruct t. Qed.
Lemma signature_same t : signature_values t = signature_of t.
Proof. by destruct t. Qed.
Lemma transmits_bytes t raw : transmits t raw → tx_bytes t = raw.
Proof.
  intros (b & v & r & s & iv & ir & is & e & Hb & Hs & Hv & Hr & His & Hw & ->). unfold tx_bytes. rewrite signature_same, Hs, announced_prefix. f_equal.
  rewrite <- (body_unsigned t b Hb), <- (writes_of v iv Hv), <- (writes_of r ir Hr), <- (writes_of s is His). by apply wire_encode.
Qed.
Lemma message_bytes c t m : message c t m → sign_bytes c t = m.
Proof.
  intros (b & e & Hb & -> & Hc). unfold sign_bytes. rewrite announced_prefix, <- (body_unsigned t b Hb). f_equal. destruct c as [c|].
  - destruct Hc as (ic & Hi & Hw). rewrite <- (writes_of c ic Hi). by apply wire_encode.
  - rewrite app_nil_r. by apply wire_encode.
Qed.

(** Everything that is not too long can be written. *)
Lemma item_rect' (P : item → Prop) : (∀ s, P (Str s)) → (∀ l, Forall P l → P (Seq l)) → ∀ i, P i.
Proof.
  intros Hs Hl. fix IH 1. intros [s|l]; [apply Hs|]. apply Hl. induction l as [|i l IHl]; constructor; [apply IH|exact IHl].
Qed.
Lemma short_bytes_value n : be_value (short_bytes n) = n ∧ ∀ r, short_bytes n ≠ String zero r.
Proof.
  destruct (decide (n = 0%N)) as [->|Hn]; [done|]. unfold short_bytes. rewrite N.size_log2 by done.
  pose proof (N.log2_spec n ltac:(lia)) as [Hlb Hub].
  set (k := ((N.succ (N.log2 n) + 7) / 8)%N) in *.
  assert (8 * k ≤ N.succ (N.log2 n) + 7 < 8 * k + 8)%N as [Hk1 Hk2].
  { subst k. clear. generalize (N.succ (N.log2 n) + 7)%N. intros q. pose proof (N.mul_div_le q 8 ltac:(done)) as H1. pose proof (N.mul_succ_div_gt q 8 ltac:(done)) as H2. revert H1 H2. generalize (q `div` 8)%N. intros. lia. }
  assert (n < 256 ^ N.of_nat (N.to_nat k))%N as Hbound.
  { rewrite N2Nat.id. change 256%N with (2 ^ 8)%N. rewrite <- N.pow_mul_r. eapply N.lt_le_trans; [exact Hub|]. apply N.pow_le_mono_r; lia. }
  split; [by apply be_bytes_value|]. intros r Hr.
  pose proof (be_bytes_value _ _ Hbound) as Hv. pose proof (be_bytes_length (N.to_nat k) n) as Hl. rewrite Hr in Hv, Hl.
  rewrite be_value_cons in Hv. change (N_of_ascii zero) with 0%N in Hv. cbn [String.length] in Hl. 
  pose proof (short_value_bound r (String.length r) (le_n _)) as Hr'. 
  assert (256 ^ N.of_nat (String.length r) ≤ n)%N; [|lia].
  etransitivity; [|exact Hlb]. change 256%N with (2 ^ 8)%N. rewrite <- N.pow_mul_r. apply N.pow_le_mono_r; lia.
Qed.
Lemma of_number_writes n : writes n (of_number n).
Proof. exists (short_bytes n). split; [done|]. apply short_bytes_value. Qed.
Lemma short_bytes_length n k : (n < 256 ^ N.of_nat k)%N → (String.length (short_bytes n) ≤ k)%nat.
Proof. intros Hn. apply short_length; [apply short_bytes_value|]. by rewrite (proj1 (short_bytes_value n)). Qed.
Lemma put_heads l b : (N.of_nat (String.length b) < two64)%N → heads l b (if negb l && own_prefix b then "" else put_head l b).
Proof.
  intros Hb. destruct (negb l && own_prefix b) eqn:Ho.
  { apply andb_true_iff in Ho as [Hl (c & -> & Hc)%own_prefix_spec]. destruct l; [done|]. by constructor. }
  unfold put_head. cbv zeta. destruct (N.ltb_spec (N.of_nat (String.length b)) 56).
  - constructor; [lia|]. intros c -> . cbn [negb andb] in Ho. revert c. by apply own_prefix_false.
  - constructor; [lia|apply short_bytes_value|apply short_bytes_value|]. by apply short_bytes_length.
Qed.
Lemma encodes_wires l : Forall (λ i, (N.of_nat (String.length (encode_item i)) < two64)%N → wire i (encode_item i)) l →
  (N.of_nat (String.length (encodes l)) < two64)%N → wires l (encodes l).
Proof.
  induction 1 as [|i l Hi _ IH]; intros Hl; [constructor|]. cbn [encodes foldr] in *. rewrite string_length_app in Hl. constructor; [apply Hi; lia|]. apply IH. unfold encodes. lia.
Qed.
Lemma encode_wire i : (N.of_nat (String.length (encode_item i)) < two64)%N → wire i (encode_item i).
Proof.
  induction i as [s|l IH] using item_rect'; intros Hl.
  - rewrite encode_str in *. rewrite string_length_app in Hl. constructor. apply (put_heads false). lia.
  - rewrite encode_seq in *. rewrite string_length_app in Hl. constructor; [apply encodes_wires; [done|lia]|]. apply (put_heads true). lia.
Qed.

(** ** Senders *)
Lemma encodes_app l k : encodes (l ++ k) = encodes l +:+ encodes k.
Proof. induction l as [|i l IH]; [done|]. cbn [app encodes foldr]. fold (encodes (l ++ k)). fold (encodes l). by rewrite IH, string_app_assoc. Qed.
Lemma put_head_length l b : (N.of_nat (String.length b) < two64)%N → (String.length (put_head l b) ≤ 9)%nat.
Proof.
  intros Hb. unfold put_head. cbv zeta. destruct (N.ltb_spec (N.of_nat (String.length b)) 56); [cbn; lia|].
  cbn [String.length]. pose proof (short_bytes_length (N.of_nat (String.length b)) 8 Hb). lia.
Qed.
Lemma seq_wire l : (N.of_nat (String.length (encodes l)) < two64 - 9)%N → wire (Seq l) (encode_item (Seq l)).
Proof.
  intros Hl. apply encode_wire. rewrite encode_seq, string_length_app. unfold two64 in *.
  pose proof (put_head_length true (encodes l) ltac:(unfold two64; lia)). lia.
Qed.
Lemma number_length c : is_u64 c → (String.length (encode_item (of_number c)) ≤ 17)%nat.
Proof.
  intros Hc. pose proof (short_bytes_length c 8 Hc) as Hl. unfold of_number. rewrite encode_str, string_length_app.
  destruct (own_prefix _); [cbn; lia|]. pose proof (put_head_length false (short_bytes c) ltac:(unfold two64; lia)). lia.
Qed.
Lemma messages chain t raw : transmits t raw → (N.of_nat (String.length raw) < 2 ^ 63)%N → is_u64 chain →
  message None t (sign_bytes None t) ∧ message (Some chain) t (sign_bytes (Some chain) t).
Proof.
  intros Ht Hl Hc. pose proof (transmits_bytes t raw Ht) as Hr. destruct Ht as (b & v & r & s & _ & _ & _ & _ & Hb & Hs & _).
  unfold tx_bytes in Hr. rewrite signature_same, Hs in Hr. rewrite <- Hr in Hl. rewrite encode_seq, encodes_app, !string_length_app in Hl.
  pose proof (number_length chain Hc) as Hn.
  assert (N.of_nat (String.length (encodes (unsigned t ++ []))) < two64 - 9)%N as H1. { rewrite app_nil_r. unfold two64. lia. }
  assert (N.of_nat (String.length (encodes (unsigned t ++ [of_number chain; Str ""; Str ""]))) < two64 - 9)%N as H2.
  { rewrite encodes_app, !string_length_app. cbn [encodes foldr]. rewrite !string_length_app. cbn [String.length encode_item own_prefix put_head]. 
    change (String.length (put_head false "" +:+ "")) with 1%nat. unfold two64. lia. }
  pose proof (body_unsigned t b Hb) as ->. split; exists (unsigned t); eexists; (split; [done|]); unfold sign_bytes; rewrite announced_prefix; (split; [done|]).
  - rewrite app_nil_r in *. by apply seq_wire.
  - exists (of_number chain). split; [apply of_number_writes|]. by apply seq_wire.
Qed.
Lemma valid_spec v r s : valid_signature v r s = true ↔ v ∈ [0; 1]%N ∧ genuine r s.
Proof.
  unfold valid_signature, genuine. rewrite !andb_true_iff, orb_true_iff, !N.leb_le, !N.ltb_lt, !N.eqb_eq, !elem_of_cons.
  assert (curve_order / 2 < curve_order)%N as Hh by done. revert Hh. generalize curve_order (curve_order / 2)%N. intros n h Hh.
  split.
  - intros (((((? & ?) & ?) & ?) & ?) & Hv). split; [destruct Hv; auto|]. lia.
  - intros [[->|[->|Hx]] [? ?]]; [| |by apply elem_of_nil in Hx]; lia.
Qed.
Lemma recover_spec rec h vb r s a : (0 ≤ vb)%Z → recover_plain rec h vb r s = Some a ↔
  ∃ y, y ∈ [0; 1]%N ∧ vb = (27 + Z.of_N y)%Z ∧ genuine r s ∧ rec h y r s = Some a.
Proof.
  intros Hp. unfold recover_plain. rewrite Z.abs_eq by done. split.
  - destruct (Z.leb_spec 256 vb); [done|]. cbv zeta. destruct (valid_signature _ r s) eqn:Hv; [|done]. apply valid_spec in Hv as [Hv Hg].
    intros Hr. eexists. split; [exact Hv|]. split; [|done]. clear Hr Hg.
    assert (∀ m, (m = (vb - 27) mod 256)%Z → (m = 0 ∨ m = 1)%Z → vb = 27 + m)%Z as Hm.
    { intros m -> Hm. pose proof (Z.div_mod (vb - 27) 256 ltac:(done)) as Hd. revert Hd Hm. generalize ((vb - 27) `div` 256)%Z ((vb - 27) mod 256)%Z. intros q m Hd Hm.
      assert (q = 0)%Z; lia. }
    assert (0 ≤ (vb - 27) mod 256)%Z as Hn by (by apply Z.mod_pos_bound). rewrite Z2N.id by done. apply Hm; [done|].
    revert Hv Hn. generalize ((vb - 27) mod 256)%Z. intros m Hv Hn. rewrite !elem_of_cons in Hv. destruct Hv as [Hv|[Hv|Hx%elem_of_nil]]; [lia|lia|done].
  - intros (y & Hy & -> & Hg & Hr).
    assert (y = 0 ∨ y = 1)%N as Hy'. { rewrite !elem_of_cons in Hy. destruct Hy as [?|[?|Hx%elem_of_nil]]; auto. done. }
    assert (Z.to_N ((27 + Z.of_N y - 27) mod 256)%Z = y) as Hm by (destruct Hy' as [->| ->]; done).
    destruct (Z.leb_spec 256 (27 + Z.of_N y)); [lia|]. cbv zeta. rewrite Hm, (proj2 (valid_spec y r s)) by done. done.
Qed.
Lemma small_two y : y ∈ [0; 1]%N → (y < 2)%N.
Proof. rewrite !elem_of_cons. intros [->|[->|Hx%elem_of_nil]]; [lia|lia|done]. Qed.
Lemma sender_spec H rec chain t raw a : transmits t raw → (N.of_nat (String.length raw) < 2 ^ 63)%N → (0 < chain < 2 ^ 62)%N →
  get_sender H rec chain t = Some a ↔ signed H rec chain t a.
Proof.
  intros Ht Hl Hc. destruct (messages chain t raw Ht Hl ltac:(unfold is_u64, two64; lia)) as [Hm0 Hm1].
  unfold get_sender. destruct (N.eqb_spec chain 0); [lia|]. destruct (signature_values t) as [[v r] s] eqn:Hsig. rewrite signature_same in Hsig.
  assert (typed_chain t ≠ None → match t with Legacy _ _ _ _ _ _ _ _ _ => None | _ =>
      if negb (chain_of t =? chain)%N then None else recover_plain rec (H (sign_bytes None t)) (Z.of_N v + 27) r s end = Some a ↔ signed H rec chain t a) as Htyped.
  { intros Hn. assert (∀ o, match t with Legacy _ _ _ _ _ _ _ _ _ => None | _ => o : option string end = o) as ->.
    { intros o. by destruct t. }
    assert (typed_chain t = Some (chain_of t)) as Hch by (by destruct t). split.
    - destruct (N.eqb_spec (chain_of t) chain) as [He|]; [|done]. cbn [negb]. intros (y & Hy & Hv & Hg & Hr)%recover_spec; [|lia].
      assert (v = y) as -> by lia. eapply signed_typed; [by rewrite Hch, He|done|done|done|exact Hm0|done].
    - intros [v' r' s' y m H1|v' r' s' y m H1|v' r' s' m H1 H2 H3 H4 H5 H6]; [congruence|congruence|].
      rewrite Hch in H1. injection H1 as ->. rewrite N.eqb_refl. cbn [negb]. rewrite Hsig in H2. injection H2 as <- <- <-.
      apply message_bytes in H5 as <-. apply recover_spec; [lia|]. exists v. split; [done|]. split; [lia|]. done. }
  destruct t as [n1 p g t x d v0 r0 s0|c n1 p g t x d al v0 r0 s0|c n1 p q g t x d al v0 r0 s0|c n1 p q g t x d al bc bs v0 r0 s0|c n1 p q g t x d al aus v0 r0 s0];
    try (apply Htyped; discriminate). clear Htyped. injection Hsig as -> -> ->.
  set (t0 := Legacy n1 p g t x d v r s) in *. split.
  - destruct (is_protected v) eqn:Hp; cbn [negb].
    + destruct (N.eqb_spec (chain_of t0) chain) as [He|]; [|done]. cbn [negb].
      assert (v < two64 ∧ 35 ≤ v ∧ (v = 35 + 2 * chain ∨ v = 36 + 2 * chain))%N as (Hv1 & Hv2 & Hv3).
      { unfold is_protected in Hp. apply negb_true_iff in Hp. rewrite !orb_false_iff, !N.eqb_neq in Hp. destruct Hp as [[[H27 H28] H1] H0].
        cbn [chain_of t0] in He. subst t0. cbn [chain_of] in He. destruct (N.ltb_spec v two64) as [Hv|Hv].
        - destruct (N.eqb_spec v 27); [done|]. destruct (N.eqb_spec v 28); [done|]. cbn [orb] in He.
          destruct (N.le_gt_cases 35 v) as [H35|H35].
          + assert ((v + two64 - 35) mod two64 = v - 35)%N as Hw.
            { replace (v + two64 - 35)%N with ((v - 35) + 1 * two64)%N by lia. rewrite N.mod_add by done. apply N.mod_small. lia. }
            rewrite Hw in He. pose proof (N.mul_div_le (v - 35) 2 ltac:(done)) as Hd1. pose proof (N.mul_succ_div_gt (v - 35) 2 ltac:(done)) as Hd2.
            rewrite He in Hd1, Hd2. lia.
          + exfalso. assert ((v + two64 - 35) mod two64 = v + two64 - 35)%N as Hw by (apply N.mod_small; lia).
            rewrite Hw in He. pose proof (N.mul_succ_div_gt (v + two64 - 35) 2 ltac:(done)) as Hd2. rewrite He in Hd2. unfold two64 in *. lia.
        - exfalso. pose proof (N.mul_succ_div_gt (v - 35) 2 ltac:(done)) as Hd2. rewrite He in Hd2. unfold two64 in *. lia. }
      intros (y & Hy & Hvy & Hg & Hr)%recover_spec; [|lia].
      eapply signed_eip155; [done|done|exact Hy|lia|done|exact Hm1|done].
    + intros (y & Hy & Hvy & Hg & Hr)%recover_spec; [|lia].
      eapply signed_homestead; [done|done|exact Hy|lia|done|exact Hm0|done].
  - intros [v' r' s' y m H1 H2 Hy Hv Hg Hm Hr|v' r' s' y m H1 H2 Hy Hv Hg Hm Hr|v' r' s' m H1]; [| |done]; injection H2 as <- <- <-;
      apply message_bytes in Hm as <-; pose proof (small_two y Hy) as Hy2.
    + assert (is_protected v = false) as ->. { assert (y = 0 ∨ y = 1)%N as [->| ->] by lia; by rewrite Hv. }
      cbn [negb]. apply recover_spec; [lia|]. exists y. split; [done|]. split; [lia|done].
    + assert (is_protected v = true) as ->.
      { unfold is_protected. apply negb_true_iff. rewrite !orb_false_iff, !N.eqb_neq. lia. }
      cbn [negb]. assert (chain_of t0 = chain) as Hch.
      { subst t0. cbn [chain_of]. destruct (N.ltb_spec v two64) as [Hv64|Hv64].
        - destruct (N.eqb_spec v 27); [lia|]. destruct (N.eqb_spec v 28); [lia|]. cbn [orb].
          replace (v + two64 - 35)%N with ((2 * chain + y) + 1 * two64)%N by lia. rewrite N.mod_add by done. rewrite N.mod_small by (unfold two64 in *; lia).
          symmetry. apply (N.div_unique _ _ _ y); lia.
        - unfold two64 in *. lia. }
      rewrite Hch, N.eqb_refl. cbn [negb]. apply recover_spec; [lia|]. exists y. split; [done|]. split; [lia|done].
Qed.

(** ** Blocks *)
Lemma view_spec H rec chain raw x : view_tx H rec chain raw = Some x ↔
  ∃ t, transmits t raw ∧ x = Tx (to_of t) (Z.of_N (value_of_tx t)) (type_of t) (Z.of_N (cap_of t)) (Z.of_N (tip_of t)) (Z.of_N (cap_of t)) (H raw) (get_sender H rec chain t).
Proof.
  unfold view_tx. rewrite bind_Some. split.
  - intros (t & Ht%decode_spec & [= <-]). exists t. split; [done|]. by rewrite (transmits_bytes t raw).
  - intros (t & Ht & ->). exists t. split; [by apply decode_spec|]. by rewrite (transmits_bytes t raw).
Qed.
Lemma sends_spec t dst x : sends t dst x ↔ to_of t = Some dst ∧ value_of_tx t = x.
Proof.
  split; [by destruct 1|]. destruct t; cbn; intros [Ht <-]; try (injection Ht as ->); try (rewrite Ht); constructor.
Qed.
Lemma pays_mev_spec H rec fb raws z a : holds_raw H rec fb raws → Forall (λ raw, N.of_nat (String.length raw) < 2 ^ 63)%N raws →
  (0 < fb_chain fb < 2 ^ 62)%N → mev_payment fb z a ↔ pays_mev H rec fb raws z a.
Proof.
  intros Hcar Hlen Hch. unfold mev_payment, pays_mev. split.
  - intros (p & t & l & snd & dst & Hp & Ht & Hs & Hd & Hw & Hz & Hr). rewrite (Hcar p Hp) in Ht.
    apply fmap_app_inv in Ht as (l1 & l2 & -> & Hl2 & ->). symmetry in Hl2. apply fmap_cons_inv in Hl2 as (raw & l3 & Hv & Hnil & ->).
    symmetry in Hnil. apply fmap_nil_inv in Hnil as ->. symmetry in Hv. apply view_spec in Hv as (d & Hd' & ->). cbn in Hs, Hd, Hz.
    apply Forall_app in Hlen as [_ [Hraw _]%Forall_cons]. apply (sender_spec H rec _ d raw) in Hs; [|done|done|done].
    exists p, l1, raw, d, snd, dst, (value_of_tx d). split; [done|]. split; [done|]. split; [done|]. split; [done|]. split; [by apply sends_spec|]. done.
  - intros (p & pre & raw & t & snd & dst & x & Hp & -> & Ht & Hs & [Hd Hx]%sends_spec & Hw & Hz & Hr).
    apply Forall_app in Hlen as [_ [Hraw _]%Forall_cons]. apply (sender_spec H rec _ t raw) in Hs; [|done|done|done].
    eexists p, _, _, snd, dst. split; [done|]. split; [rewrite (Hcar p Hp), fmap_app; cbn [fmap list_fmap]|].
    { f_equal. f_equal. apply view_spec. exists t. split; [done|]. reflexivity. }
    cbn. split; [done|]. split; [done|]. split; [done|]. split; [by rewrite Hx|]. done.
Qed.
Lemma receipts_raw H rec chain nd raws rs : get_receipts nd (view_tx H rec chain <$> raws) = Ok rs →
  Forall2 (λ raw r, nd_receipt nd (H raw) = Some r ∧ ∃ t, transmits t raw) raws rs.
Proof.
  revert rs. induction raws as [|raw raws IH]; intros rs; cbn [fmap list_fmap get_receipts]; [intros [= <-]; constructor|].
  destruct (view_tx H rec chain raw) as [x|] eqn:Hx; [|done]. apply view_spec in Hx as (t & Ht & ->). cbn [tx_hash].
  destruct (nd_receipt nd (H raw)) as [r|] eqn:Hr; [|done].
  destruct (get_receipts nd (view_tx H rec chain <$> raws)) as [rs'|] eqn:Hrs; [|done]. intros [= <-]. constructor; [|by apply IH]. split; [done|]. by exists t.
Qed.
Lemma tips_raw base (ts : list txdata) xs rs : Forall2 (λ t x, gas_price base x = paid_per_gas base t) ts xs →
  tips base xs rs = foldr Z.add 0%Z (zip_with (λ t r, (paid_per_gas base t - base) * Z.of_N (rc_gas r))%Z ts rs).
Proof.
  unfold tips. intros HF. revert rs. induction HF as [|t x ts xs Ht _ IH]; intros [|r rs]; try done. cbn. by rewrite Ht, IH.
Qed.
Lemma served_complete H rec fb base raws ts rs : holds_raw H rec fb raws → served_block H fb base raws ts rs →
  ∃ xs, complete_block fb base xs rs ∧ Forall2 (λ t x, gas_price base x = paid_per_gas base t) ts xs.
Proof.
  intros Hcar [(c & h & Hc & Hb & Hh & Hbase & Hrs & Hg) Ht Hm Hsm].
  assert (payload_of fb (cb_payload c)) as Hp.
  { exists c. split; [done|]. destruct Hb as [[Hv _]|[Hv _]]; (split; [intros He; rewrite He in Hv; naive_solver|]; split; [intros He; rewrite He in Hv; naive_solver|done]). }
  assert (∃ xs, view_tx H rec (fb_chain fb) <$> raws = Some <$> xs ∧ Forall2 (λ t x, gas_price base x = paid_per_gas base t) ts xs ∧
    Forall2 (λ x r, tx_hash x = rc_tx r ∧ (tx_type x ≤ 4)%N) xs rs) as (xs & Hxs & Hf & Hk).
  { clear Hcar Hrs Hg Hsm. revert rs Hm. induction Ht as [|t raw ts raws Ht _ IH]; intros rs Hm; inversion Hm as [|? ? ? ? Hr Hm']; subst.
    { exists []. split; [done|]. split; constructor. }
    destruct (IH _ Hm') as (xs & Hxs & Hf & Hk). eexists (_ :: xs). cbn. rewrite Hxs. split.
    { f_equal. apply view_spec. exists t. split; [done|]. reflexivity. }
    split; (constructor; [|done]).
    - unfold gas_price. cbn. destruct t; done.
    - cbn. split; [done|]. destruct t; cbn; lia. }
  exists xs. split; [|done]. split; [|done|done]. exists c, h. split; [done|]. split; [done|]. split; [by rewrite (Hcar _ Hp)|]. done.
Qed.
Lemma served_tip H rec fb base raws ts rs : holds_raw H rec fb raws → served_block H fb base raws ts rs →
  proposer_tip fb = Ok (TipOk (foldr Z.add 0%Z (zip_with (λ t r, (paid_per_gas base t - base) * Z.of_N (rc_gas r))%Z ts rs))).
Proof.
  intros Hcar Hs. destruct (served_complete H rec fb base raws ts rs Hcar Hs) as (xs & Hc & Hf). rewrite <- (tips_raw base ts xs rs Hf).
  by apply BlockProofs.vanilla_tip.
Qed.
Lemma transmits_canonical t t' raw raw' : transmits t raw → transmits t' raw' → t = t' ↔ raw = raw'.
Proof.
  intros H1 H2. split; [intros <-; by rewrite <- (transmits_bytes t raw), <- (transmits_bytes t raw')|].
  intros <-. apply decode_spec in H1, H2. congruence.
Qed.
Lemma view_hash H rec chain raw x : view_tx H rec chain raw = Some x → tx_hash x = H raw.
Proof. by intros (t & _ & ->)%view_spec. Qed.
Lemma unknown_type H rec chain nd c rest pre post : (N_of_ascii c = 0 ∨ 5 ≤ N_of_ascii c ≤ 127)%N →
  decode_tx (String c rest) = None ∧
  (∀ rs, get_receipts nd (view_tx H rec chain <$> pre) = Ok rs →
    ∃ m, get_receipts nd (view_tx H rec chain <$> pre ++ String c rest :: post) = Die (Fatal m)).
Proof.
  intros Hc. assert (decode_tx (String c rest) = None) as Hd.
  { unfold decode_tx. cbv zeta. destruct (N.ltb_spec 127 (N_of_ascii c)); [lia|]. destruct (_ <=? 1)%nat; [done|].
    destruct (N.eqb_spec (N_of_ascii c) 1); [lia|]. destruct (N.eqb_spec (N_of_ascii c) 2); [lia|].
    destruct (N.eqb_spec (N_of_ascii c) 3); [lia|]. destruct (N.eqb_spec (N_of_ascii c) 4); [lia|]. done. }
  split; [done|]. induction pre as [|raw pre IH]; intros rs.
  - intros _. exists "could not decode tx". cbn [app fmap list_fmap get_receipts]. unfold view_tx at 1. rewrite Hd. done.
  - cbn [app fmap list_fmap get_receipts]. destruct (view_tx H rec chain raw) as [x|]; [|done].
    destruct (nd_receipt nd (tx_hash x)); [|done]. destruct (get_receipts nd (view_tx H rec chain <$> pre)) as [rs'|]; [|done]. intros _.
    destruct (IH rs' eq_refl) as [m Hm]. exists m. change (list_fmap string (option tx) (view_tx H rec chain) ?l) with (view_tx H rec chain <$> l). by rewrite Hm.
Qed.
Lemma other_chain H rec chain t a : (∀ c, typed_chain t = Some c → c ≠ chain) →
  (typed_chain t = None → ∃ c y r s, c ≠ chain ∧ y ∈ [0; 1]%N ∧ signature_of t = (35 + 2 * c + y, r, s)%N) → ¬ signed H rec chain t a.
Proof.
  intros Ht Hl [v r s y m H1 H2 Hy Hv|v r s y m H1 H2 Hy Hv|v r s m H1 H2].
  - destruct (Hl H1) as (c & y' & r' & s' & Hc & Hy' & Hs). rewrite H2 in Hs. assert (v = (35 + 2 * c + y')%N) as Hs' by congruence. clear Hs. apply small_two in Hy, Hy'. lia.
  - destruct (Hl H1) as (c & y' & r' & s' & Hc & Hy' & Hs). rewrite H2 in Hs. assert (v = (35 + 2 * c + y')%N) as Hs' by congruence. clear Hs. apply small_two in Hy, Hy'. lia.
  - by apply (Ht chain).
Qed.
Lemma unsigned_fatal H rec E fb p pre raw t dst x : payload_of fb p → p_txs p = view_tx H rec (fb_chain fb) <$> pre ++ [raw] →
  transmits t raw → (N.of_nat (String.length raw) < 2 ^ 63)%N → (0 < fb_chain fb < 2 ^ 62)%N → sends t dst x →
  (∀ a, ¬ signed H rec (fb_chain fb) t a) → ∃ m, mev_reward E fb = Die (Fatal m).
Proof.
  intros Hp Hx Ht Hl Hc Hs Hn. exists "could not get tx sender". unfold mev_reward.
  assert (get_txs fb = Ok (p_txs p)) as ->.
  { apply get_payload_spec in Hp. unfold get_txs. by rewrite Hp. }
  cbn [rbind]. rewrite Hx, fmap_app, rev_app_distr. cbn [rev app head fmap list_fmap].
  assert (get_sender H rec (fb_chain fb) t = None) as Hnone.
  { destruct (get_sender H rec (fb_chain fb) t) as [a|] eqn:Ha; [|done]. apply (sender_spec H rec _ t raw) in Ha; [|done|done|done]. by destruct (Hn a). }
  assert (view_tx H rec (fb_chain fb) raw = Some (Tx (to_of t) (Z.of_N (value_of_tx t)) (type_of t) (Z.of_N (cap_of t)) (Z.of_N (tip_of t)) (Z.of_N (cap_of t)) (H raw) None)) as ->.
  { apply view_spec. exists t. by rewrite Hnone. }
  apply sends_spec in Hs as [Hs _]. cbn. by rewrite Hs.
Qed.
Lemma recorded_mev H rec E s pool pool20 fb b raws z a : names pool20 pool → addrs20 fb → ordinary fb → summarize E s pool fb = Ok b →
  holds_raw H rec fb raws → Forall (λ raw, N.of_nat (String.length raw) < 2 ^ 63)%N raws → (0 < fb_chain fb < 2 ^ 62)%N →
  pays_mev H rec fb raws z a → sb_reward b = Some z ∧ sb_reward_type b = MevBlock ∧ (a = pool20 → sb_type b ≠ WrongFeeRecipient).
Proof.
  intros Hn Ha Ho Hb Hh Hf Hc Hp%pays_mev_spec; [|done|done|done].
  destruct (classification E s pool pool20 fb b Hn Ha Ho Hb) as (_ & _ & _ & Hw & Hm & _).
  destruct (Hm z a Hp) as [Hr Ht]. split; [done|]. split; [done|]. intros -> [_ Hno]%Hw. apply Hno. left. by exists z.
Qed.
