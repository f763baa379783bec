(** Proofs about utils.DeepCopy. *)
From Verif Require Export GobSpec.
From Verif Require Import JsonProofs StringProofs CheckpointProofs AbiProofs RlpProofs.

Lemma word_value w : word_number w = be_value w.
Proof. done. Qed.
Lemma read_uint_ok n r : is_u64 n → read_uint (gob_uint n +:+ r) = Some (n, r).
Proof.
  intros Hn. unfold gob_uint. destruct (n <=? 127)%N eqn:E; rewrite scons_app; cbn [read_uint].
  - apply N.leb_le in E. unfold byte. rewrite N_of_small by lia. apply N.leb_le in E. rewrite E. done.
  - apply N.leb_gt in E. assert (String.length (short_bytes n) ≤ 8)%nat as Hl by (apply short_bytes_length; exact Hn).
    assert (1 ≤ String.length (short_bytes n))%nat as H1.
    { destruct (String.length (short_bytes n)) as [|k] eqn:Ek; [|lia]. destruct (short_bytes n) eqn:Es; [|done].
      pose proof (proj1 (short_bytes_value n)) as Hv. rewrite Es in Hv. change (be_value "") with 0%N in Hv. lia. }
    unfold byte. rewrite N_of_small by lia. destruct (_ <=? 127)%N eqn:E2; [apply N.leb_le in E2; lia|].
    replace (N.to_nat (256 - (256 - N.of_nat (String.length (short_bytes n))))) with (String.length (short_bytes n)) by lia.
    rewrite string_length_app. destruct (8 <? _)%nat eqn:E3; [apply Nat.ltb_lt in E3; lia|]. destruct (_ + _ <? _)%nat eqn:E4; [apply Nat.ltb_lt in E4; lia|].
    cbn [orb]. rewrite substring_app, sdrop_app, word_value, (proj1 (short_bytes_value n)). done.
Qed.
Definition small (s : string) : Prop := (N.of_nat (String.length s) < 2 ^ 33)%N.
Lemma read_bytes_ok s r : (N.of_nat (String.length s) < 2 ^ 33)%N → read_bytes (gob_bytes s +:+ r) = Some (s, r).
Proof.
  intros Hs. unfold read_bytes, gob_bytes. rewrite sapp_assoc, read_uint_ok by (unfold is_u64; eapply N.lt_trans; [exact Hs|done]). cbn [mbind option_bind].
  destruct (2 ^ 33 <=? _)%N eqn:E1; [apply N.leb_le in E1; lia|]. rewrite string_length_app.
  destruct (_ <? _)%N eqn:E2; [apply N.ltb_lt in E2; lia|]. cbn [orb]. by rewrite Nat2N.id, substring_app, sdrop_app.
Qed.
Lemma read_big_ok z : gob_read_big (gob_big z) = Some z.
Proof.
  unfold gob_big. destruct (z <? 0)%Z eqn:E.
  - apply Z.ltb_lt in E. unfold gob_read_big. change (N_of_ascii (byte 3)) with 3%N. cbn [N.eqb Pos.eqb]. change (word_number (short_bytes (Z.abs_N z))) with (be_value (short_bytes (Z.abs_N z))). rewrite (proj1 (short_bytes_value _)). f_equal. lia.
  - apply Z.ltb_ge in E. unfold gob_read_big. change (N_of_ascii (byte 2)) with 2%N. cbn [N.eqb Pos.eqb]. change (word_number (short_bytes (Z.abs_N z))) with (be_value (short_bytes (Z.abs_N z))). rewrite (proj1 (short_bytes_value _)). f_equal. lia.
Qed.
(** ** A validator *)
Lemma fields_step o l p upd v r : (o = None → upd = v) → (∀ w rest, o = Some w → read_field p v (w +:+ rest) = Some (upd, rest)) → (p < 100)%N →
  ∀ f g next, (p + 1 = next + g)%N → (1 ≤ g)%N → (1 ≤ f)%nat → ∃ f' g' next', (f ≤ S f')%nat ∧ (p + 2 = next' + g')%N ∧ (1 ≤ g')%N ∧
    read_fields f next v (gob_fields g (o :: l) +:+ r) = read_fields f' next' upd (gob_fields g' l +:+ r).
Proof.
  intros H0 H1 Hp f g next Hg G1 F1. destruct o as [w|]; cbn [gob_fields].
  - destruct f as [|f]; [lia|]. exists f, 1%N, (next + g)%N. split; [lia|]. split; [lia|]. split; [lia|]. rewrite !sapp_assoc.
    assert (is_u64 g) as Gu by (unfold is_u64, two64; lia). pose proof (read_uint_ok g (w +:+ gob_fields 1 l +:+ r) Gu) as Hr.
    cbn [read_fields]. destruct (gob_uint g +:+ w +:+ gob_fields 1 l +:+ r) as [|c x] eqn:E; [done|]. clear E. rewrite Hr. cbn [mbind option_bind].
    destruct (g =? 0)%N eqn:Eg; [apply N.eqb_eq in Eg; lia|]. replace (next + g - 1)%N with p by lia. rewrite (H1 w _ eq_refl). done.
  - exists f, (g + 1)%N, next. split; [lia|]. split; [lia|]. split; [lia|]. by rewrite (H0 eq_refl).
Qed.
Lemma fields_end f g next v r : (1 ≤ f)%nat → read_fields f next v (gob_fields g [] +:+ r) = Some (v, r).
Proof. intros Hf. destruct f as [|f]; [lia|]. reflexivity. Qed.
Lemma uint_field_ok n w rest : is_u64 n → uint_field n = Some w → read_uint (w +:+ rest) = Some (n, rest).
Proof. intros Hn. unfold uint_field. destruct (n =? 0)%N; [done|]. intros [= <-]. by apply read_uint_ok. Qed.
Lemma uint_field_none n : uint_field n = None → n = 0%N.
Proof. unfold uint_field. destruct (n =? 0)%N eqn:E; [|done]. intros _. by apply N.eqb_eq. Qed.
Lemma text_field_ok s w rest : small s → text_field s = Some w → read_bytes (w +:+ rest) = Some (s, rest).
Proof. intros Hs. unfold text_field. destruct s as [|c s]; [done|]. intros [= <-]. by apply read_bytes_ok. Qed.
Lemma text_field_none s : text_field s = None → s = "".
Proof. by destruct s. Qed.
Lemma big_length z q : (1 < q)%N → (Z.abs_N z < 256 ^ q)%N → (N.of_nat (String.length (gob_big z)) < 2 * q)%N.
Proof.
  intros Hq Hz. unfold gob_big. cbn [String.length]. assert (String.length (short_bytes (Z.abs_N z)) ≤ N.to_nat q)%nat as Hl.
  { apply short_bytes_length. rewrite N2Nat.id. exact Hz. }
  lia.
Qed.
Lemma small_big z : (Z.abs_N z < 256 ^ (2 ^ 32))%N → small (gob_big z).
Proof. intros Hz. exact (big_length z (2 ^ 32) eq_refl Hz). Qed.
Lemma validator_ok v r : copyable v → read_fields 9 0 zero_validator (gob_validator v +:+ r) = Some (v, r).
Proof.
  intros (S1%small_big & S2%small_big & S3%small_big & S4 & S5 & U). destruct v as [st acc pend coll addr ix key sub]. cbn [v_acc v_pend v_coll v_addr v_key v_index] in *.
  unfold gob_validator, zero_validator. cbn [v_status v_acc v_pend v_coll v_addr v_key v_index v_sub].
  match goal with |- read_fields _ _ ?z (gob_fields _ (?o :: ?l) +:+ _) = _ => destruct (fields_step o l 0 (VInfo st 0 0 0 "" 0 "" Manual) z r) with (f := 9%nat) (g := 1%N) (next := 0%N) as (f1 & g1 & n1 & F1 & P1 & G1 & ->); [| |lia|lia|lia|lia|] end.
  { intros Hn%uint_field_none. by destruct st. }
  { intros w rest Hw%(uint_field_ok _ _ rest); [|by destruct st]. cbn [read_field]. rewrite Hw. by destruct st. }
  match goal with |- read_fields _ _ ?z (gob_fields _ (?o :: ?l) +:+ _) = _ => destruct (fields_step o l 1 (VInfo st acc 0 0 "" 0 "" Manual) z r) with (f := f1) (g := g1) (next := n1) as (f2 & g2 & n2 & F2 & P2 & G2 & ->); [done| |lia|lia|lia|lia|] end.
  { intros w rest [= <-]. cbn [read_field]. rewrite read_bytes_ok by done. cbn [mbind option_bind]. by rewrite read_big_ok. }
  match goal with |- read_fields _ _ ?z (gob_fields _ (?o :: ?l) +:+ _) = _ => destruct (fields_step o l 2 (VInfo st acc pend 0 "" 0 "" Manual) z r) with (f := f2) (g := g2) (next := n2) as (f3 & g3 & n3 & F3 & P3 & G3 & ->); [done| |lia|lia|lia|lia|] end.
  { intros w rest [= <-]. cbn [read_field]. rewrite read_bytes_ok by done. cbn [mbind option_bind]. by rewrite read_big_ok. }
  match goal with |- read_fields _ _ ?z (gob_fields _ (?o :: ?l) +:+ _) = _ => destruct (fields_step o l 3 (VInfo st acc pend coll "" 0 "" Manual) z r) with (f := f3) (g := g3) (next := n3) as (f4 & g4 & n4 & F4 & P4 & G4 & ->); [done| |lia|lia|lia|lia|] end.
  { intros w rest [= <-]. cbn [read_field]. rewrite read_bytes_ok by done. cbn [mbind option_bind]. by rewrite read_big_ok. }
  match goal with |- read_fields _ _ ?z (gob_fields _ (?o :: ?l) +:+ _) = _ => destruct (fields_step o l 4 (VInfo st acc pend coll addr 0 "" Manual) z r) with (f := f4) (g := g4) (next := n4) as (f5 & g5 & n5 & F5 & P5 & G5 & ->); [| |lia|lia|lia|lia|] end.
  { by intros ->%text_field_none. }
  { intros w rest Hw%(text_field_ok _ _ rest); [|done]. cbn [read_field]. by rewrite Hw. }
  match goal with |- read_fields _ _ ?z (gob_fields _ (?o :: ?l) +:+ _) = _ => destruct (fields_step o l 5 (VInfo st acc pend coll addr ix "" Manual) z r) with (f := f5) (g := g5) (next := n5) as (f6 & g6 & n6 & F6 & P6 & G6 & ->); [| |lia|lia|lia|lia|] end.
  { by intros ->%uint_field_none. }
  { intros w rest Hw%(uint_field_ok _ _ rest); [|done]. cbn [read_field]. by rewrite Hw. }
  match goal with |- read_fields _ _ ?z (gob_fields _ (?o :: ?l) +:+ _) = _ => destruct (fields_step o l 6 (VInfo st acc pend coll addr ix key Manual) z r) with (f := f6) (g := g6) (next := n6) as (f7 & g7 & n7 & F7 & P7 & G7 & ->); [| |lia|lia|lia|lia|] end.
  { by intros ->%text_field_none. }
  { intros w rest Hw%(text_field_ok _ _ rest); [|done]. cbn [read_field]. by rewrite Hw. }
  match goal with |- read_fields _ _ ?z (gob_fields _ (?o :: ?l) +:+ _) = _ => destruct (fields_step o l 7 (VInfo st acc pend coll addr ix key sub) z r) with (f := f7) (g := g7) (next := n7) as (f8 & g8 & n8 & F8 & P8 & G8 & ->); [| |lia|lia|lia|lia|] end.
  { intros Hn%uint_field_none. by destruct sub. }
  { intros w rest Hw%(uint_field_ok _ _ rest); [|by destruct sub]. cbn [read_field]. rewrite Hw. by destruct sub. }
  apply fields_end. lia.
Qed.
(** ** The map *)
Lemma entries_ok l : ∀ (m : gmap N vinfo) r, Forall (λ kv, is_u64 kv.1 ∧ copyable kv.2) l → 
  read_entries (length l) m (gob_entries l +:+ r) = Some (foldl (λ m kv, <[kv.1 := kv.2]> m) m l).
Proof.
  induction l as [|[k v] l IH]; intros m r Hl; [done|]. apply Forall_cons in Hl as [[Hk Hv] Hl]. cbn [length gob_entries read_entries fst snd foldl] in *.
  rewrite !sapp_assoc, read_uint_ok by done. cbn [mbind option_bind]. rewrite validator_ok by done. cbn [mbind option_bind]. by apply IH.
Qed.
Lemma insert_all (l : list (N * vinfo)) : ∀ (m : gmap N vinfo) k, NoDup l.*1 → 
  foldl (λ m kv, <[kv.1 := kv.2]> m) m l !! k = match (list_to_map l : gmap N vinfo) !! k with Some v => Some v | None => m !! k end.
Proof.
  induction l as [|[i v] l IH]; intros m k Hd; [cbn [foldl]; change (list_to_map [] : gmap N vinfo) with (∅ : gmap N vinfo); by rewrite lookup_empty|]. cbn [fmap list_fmap fst] in Hd. apply NoDup_cons in Hd as [Hi Hd].
  cbn [foldl fst snd list_to_map foldr uncurry]. rewrite IH by done. cbn [list_to_map foldr uncurry]. destruct (decide (i = k)) as [->|Hne].
  - rewrite lookup_insert. rewrite (not_elem_of_list_to_map_1 l k Hi). by rewrite lookup_insert.
  - rewrite !lookup_insert_ne by done. done.
Qed.
Lemma copy_ok (m m0 : gmap N vinfo) l : l ≡ₚ map_to_list m → (N.of_nat (size m) < two64)%N → (∀ k v, m !! k = Some v → is_u64 k ∧ copyable v) →
  deep_copy l m0 = Some (m ∪ m0).
Proof.
  intros Hl Hs Hm. assert (length l = size m) as Hlen by (rewrite Hl; done).
  unfold deep_copy, read_map, gob_map. rewrite read_uint_ok by done. cbn [mbind option_bind N.eqb negb].
  rewrite read_uint_ok by (rewrite Hlen; exact Hs). cbn [mbind option_bind]. rewrite Nat2N.id.
  assert (Forall (λ kv, is_u64 kv.1 ∧ copyable kv.2) l) as Hall.
  { apply Forall_forall. intros [k v] Hk. rewrite Hl in Hk. apply elem_of_map_to_list in Hk. by apply Hm. }
  assert (NoDup l.*1) as Hd by (rewrite Hl; apply NoDup_fst_map_to_list).
  pose proof (entries_ok l m0 "" Hall) as He. rewrite sapp_nil_r in He. rewrite He. f_equal. apply map_eq. intros k. rewrite insert_all by done.
  rewrite (list_to_map_proper l (map_to_list m)) by done. rewrite list_to_map_to_list, lookup_union. destruct (m !! k) as [v|], (m0 !! k); done.
Qed.
Lemma copy_empty (m : gmap N vinfo) l : l ≡ₚ map_to_list m → (N.of_nat (size m) < two64)%N → (∀ k v, m !! k = Some v → is_u64 k ∧ copyable v) →
  deep_copy l ∅ = Some m.
Proof. intros Hl Hs Hm. rewrite (copy_ok m ∅ l Hl Hs Hm). by rewrite (right_id_L ∅ (∪)). Qed.
Lemma freeze_copies H E s s' l : freeze H E s = Ok (s', true) → l ≡ₚ map_to_list (st_vals s) → (N.of_nat (size (st_vals s)) < two64)%N →
  (∀ k v, st_vals s !! k = Some v → is_u64 k ∧ copyable v) →
  ∃ c, st_committed s' !! st_latest s = Some c ∧ deep_copy l ∅ = Some (oc_vals c).
Proof.
  intros Hf Hl Hs Hm. pose proof (copy_empty _ _ Hl Hs Hm) as Hc. unfold freeze, snapshot in Hf. destruct (generate_tree H E s) as [[[raw hashes]|]|]; [|done|done].
  cbn [rbind] in Hf. destruct (freeze_loop H hashes (map_to_list raw) ∅) as [proofs|]; [|done]. cbn [rbind] in Hf. injection Hf as <-.
  eexists. split; [apply lookup_insert|exact Hc].
Qed.
