(** The state written as JSON is read back unchanged: oracle/types.go, oracle.go:495-609. *)
From Coq Require Import DecimalString HexadecimalString DecimalN DecimalZ HexadecimalN DecimalFacts HexadecimalFacts.
From Verif Require Export Codec JsonProofs PersistSpec.
From Verif Require Import Merkle MerkleProofs.
From stdpp Require Import sorting.

(** ** Scalars *)
Lemma unorm_to_uint n : Decimal.unorm (N.to_uint n) = N.to_uint n.
Proof. by rewrite <-DecimalN.Unsigned.to_of, DecimalN.Unsigned.of_to. Qed.
Lemma to_uint_nonnil n : N.to_uint n ≠ Decimal.Nil.
Proof. rewrite <-unorm_to_uint. apply DecimalFacts.unorm_nonnil. Qed.
Lemma read_u64_print n : (n < two64)%N → read_u64 (print_N n) = Some n.
Proof.
  intros Hn. unfold read_u64, print_N. rewrite DecimalString.NilZero.usu by apply to_uint_nonnil.
  rewrite DecimalN.Unsigned.of_to. apply N.ltb_lt in Hn. cbv zeta. by rewrite Hn.
Qed.
Lemma to_int_nonnil z : Z.to_int z ≠ Decimal.Pos Decimal.Nil ∧ Z.to_int z ≠ Decimal.Neg Decimal.Nil.
Proof.
  destruct z as [|p|p]; cbn; [done| |].
  - split; [|done]. intros [= H]. apply (to_uint_nonnil (Npos p)). exact H.
  - split; [done|]. intros [= H]. apply (to_uint_nonnil (Npos p)). exact H.
Qed.
Lemma read_big_print z : read_big (print_Z z) = Some z.
Proof.
  unfold read_big, print_Z. destruct (to_int_nonnil z). rewrite DecimalString.NilZero.isi by done.
  cbn [option_map]. by rewrite DecimalZ.of_to.
Qed.
Lemma read_int_print z : (-9223372036854775808 ≤ z < 9223372036854775808)%Z → read_int (print_Z z) = Some z.
Proof.
  intros [H1 H2]. unfold read_int. rewrite read_big_print. apply Z.leb_le in H1. apply Z.ltb_lt in H2. by rewrite H1, H2.
Qed.

Lemma uint_digits d : sforall is_digit (DecimalString.NilEmpty.string_of_uint d) = true.
Proof. induction d; cbn; try done. Qed.
Lemma nilzero_nonnil d : d ≠ Decimal.Nil → DecimalString.NilZero.string_of_uint d = DecimalString.NilEmpty.string_of_uint d.
Proof. by destruct d. Qed.
Lemma unorm_lit d : Decimal.unorm d = d → 
  String.length (DecimalString.NilEmpty.string_of_uint d) = 1%nat ∨ ∃ c b, DecimalString.NilEmpty.string_of_uint d = String c b ∧ (N_of_ascii c ≠ 48)%N.
Proof.
  intros H. destruct d as [|d|d|d|d|d|d|d|d|d|d]; try (right; eexists _, _; split; [reflexivity|done]).
  - by destruct (DecimalFacts.unorm_nonnil Decimal.Nil).
  - left. destruct (Decimal.uint_eq_dec (Decimal.nzhead d) Decimal.Nil) as [E|E].
    + unfold Decimal.unorm in H. cbn [Decimal.nzhead] in H. rewrite E in H. injection H as <-. done.
    + exfalso. rewrite DecimalFacts.unorm_D0, DecimalFacts.unorm_nzhead in H by done.
      by apply (DecimalFacts.nzhead_nonzero d d).
Qed.
Lemma print_N_lit n : int_lit (print_N n).
Proof.
  exists "", (print_N n). split; [done|]. split; [by left|]. unfold print_N. rewrite nilzero_nonnil by apply to_uint_nonnil.
  split; [apply uint_digits|]. apply unorm_lit, unorm_to_uint.
Qed.
Lemma print_Z_lit z : int_lit (print_Z z).
Proof.
  destruct z as [|p|p]; [exact (print_N_lit 0)|exact (print_N_lit (Npos p))|].
  exists JsonProofs.minus, (print_N (Npos p)). split; [done|]. split; [by right|]. unfold print_N.
  rewrite nilzero_nonnil by apply to_uint_nonnil. split; [apply uint_digits|]. apply unorm_lit, unorm_to_uint.
Qed.
Lemma lit_ascii lit : int_lit lit → ascii_only lit = true.
Proof.
  assert (∀ a, sforall is_digit a = true → ascii_only a = true) as Hd.
  { induction a as [|c a IH]; [done|]. cbn [sforall ascii_only]. unfold ascii_only. cbn [sforall].
    rewrite !andb_true_iff. intros [Hc Ha]. split; [|by apply IH].
    unfold is_digit in Hc. apply andb_true_iff in Hc as [_ Hc%N.leb_le]. apply N.ltb_lt. lia. }
  intros (sg & a & -> & [-> | ->] & Ha & _); [by apply Hd|]. change (ascii_only (String (ascii_of_N 45) a) = true).
  exact (Hd a Ha).
Qed.

Lemma to_hex_nonnil n : N.to_hex_uint n ≠ Hexadecimal.Nil.
Proof. rewrite <-(HexadecimalN.Unsigned.of_to n), HexadecimalN.Unsigned.to_of. apply HexadecimalFacts.unorm_nonnil. Qed.
Lemma dec_enc_hex n : (n < two64)%N → dec_hex (enc_hex n) = Some n.
Proof.
  intros Hn. unfold dec_hex, enc_hex, print_hex.
  assert (∀ s, strip "0x" ("0x" +:+ s) = Some s) as Hs by (intros s; destruct s; done).
  rewrite Hs, HexadecimalString.NilZero.usu by apply to_hex_nonnil. rewrite HexadecimalN.Unsigned.of_to.
  apply N.ltb_lt in Hn. cbv zeta. by rewrite Hn.
Qed.
Lemma ascii_only_app a b : ascii_only (a +:+ b) = ascii_only a && ascii_only b.
Proof.
  induction a as [|c a IH]; [done|]. rewrite scons_app. unfold ascii_only in *. cbn [sforall]. by rewrite IH, andb_assoc.
Qed.
Lemma hex_ascii_only n : ascii_only (print_hex n) = true.
Proof.
  unfold print_hex. rewrite ascii_only_app. cbn. destruct (N.to_hex_uint n) as [|d|d|d|d|d|d|d|d|d|d|d|d|d|d|d|d]; [done|..].
  all: unfold ascii_only; cbn [HexadecimalString.NilZero.string_of_uint HexadecimalString.NilEmpty.string_of_uint sforall];
    match goal with |- ?a && _ = true => change a with true end; cbn [andb];
    induction d; cbn; try done.
Qed.

(** ** Byte strings *)
Ltac sixteen n := destruct n as [|[[[[]|[]|]|[[]|[]|]|]|[[[]|[]|]|[[]|[]|]|]|]]; [..]; try lia; try done.
Lemma hex_val_digit n : (n < 16)%N → hex_val (hex_digit n) = n.
Proof. intros. sixteen n. Qed.
Lemma hex_decode_encode s : hex_decode (hex_encode s) = s.
Proof.
  induction s as [|c s IH]; [done|]. cbn [hex_encode hex_decode].
  pose proof (N_of_ascii_lt c) as Hc. rewrite IH, !hex_val_digit by (apply N.mod_lt || apply N.div_lt_upper_bound; lia).
  f_equal. rewrite <-(ascii_N_embedding c) at 3. f_equal. symmetry. apply N.div_mod. lia.
Qed.
Lemma hex_digit_ok n : (n < 16)%N → is_hex_char (hex_digit n) = true ∧ ascii_char (hex_digit n) = true.
Proof. intros. sixteen n. Qed.
Lemma hex_encode_ok s : sforall is_hex_char (hex_encode s) = true ∧ ascii_only (hex_encode s) = true.
Proof.
  induction s as [|c s [IH1 IH2]]; [done|]. unfold ascii_only in *. cbn [hex_encode sforall].
  pose proof (N_of_ascii_lt c) as Hc.
  destruct (hex_digit_ok (N_of_ascii c / 16)) as [-> ->]; [apply N.div_lt_upper_bound; lia|].
  destruct (hex_digit_ok (N_of_ascii c mod 16)) as [-> ->]; [apply N.mod_lt; lia|]. by rewrite IH1, IH2.
Qed.
Lemma dec_enc_bytes b : dec_bytes (enc_bytes b) = Some b.
Proof.
  unfold dec_bytes, enc_bytes, hexutil_encode.
  rewrite (proj2 (has_prefix_app _ _) (ex_intro _ (hex_encode b) eq_refl)). cbn [orb].
  change (sdrop 2 ("0x" +:+ ?s)) with s. destruct (hex_encode_ok b) as [-> _].
  rewrite hex_encode_length, Nat.even_mul. cbn. by rewrite hex_decode_encode.
Qed.
Lemma dec_enc_fixed k b : String.length b = k → dec_fixed k (enc_bytes b) = Some b.
Proof. intros H. unfold dec_fixed. rewrite dec_enc_bytes. by rewrite H, Nat.eqb_refl. Qed.

(** ** Encoders and decoders that fit together on the values satisfying [P] *)
Definition fits_codec {A} (P : A → Prop) (enc : A → json) (dec : json → option A) : Prop :=
  ∀ x, P x → dec (enc x) = Some x ∧ wf_json (enc x).
Definition not_null (j : json) : Prop := j ≠ JNull.

Lemma codec_u64 : fits_codec (λ n, (n < two64)%N) enc_u64 dec_u64.
Proof. intros n Hn. split; [by apply read_u64_print|apply print_N_lit]. Qed.
Lemma codec_big : fits_codec (λ _, True) enc_big dec_big.
Proof. intros z _. split; [apply read_big_print|apply print_Z_lit]. Qed.
Lemma codec_int : fits_codec (λ z, (-9223372036854775808 ≤ z < 9223372036854775808)%Z) enc_big dec_int.
Proof. intros z Hz. split; [by apply read_int_print|apply print_Z_lit]. Qed.
Lemma codec_str : fits_codec any_text JStr dec_str.
Proof. done. Qed.
Lemma codec_bool : fits_codec (λ _, True) JBool dec_bool.
Proof. done. Qed.
Lemma codec_hex : fits_codec (λ n, (n < two64)%N) enc_hex dec_hex.
Proof. intros n Hn. split; [by apply dec_enc_hex|done]. Qed.
Lemma codec_bytes : fits_codec (λ _, True) enc_bytes dec_bytes.
Proof.
  intros b _. split; [apply dec_enc_bytes|done].
Qed.
Lemma codec_fixed k : fits_codec (λ b, String.length b = k) enc_bytes (dec_fixed k).
Proof. intros b Hb. split; [by apply dec_enc_fixed|]. by apply codec_bytes. Qed.
Lemma codec_enum {A} (name : A → string) l (P : A → Prop) :
  (∀ x, P x → by_name name l (name x) = Some x) →
  fits_codec P (λ x, JStr (name x)) (dec_enum name l).
Proof. intros H x Hx. split; [apply H, Hx|done]. Qed.
Lemma codec_list {A} (P : A → Prop) enc dec : fits_codec P enc dec → fits_codec (Forall P) (enc_list enc) (dec_list dec).
Proof.
  intros H l Hl. split.
  - cbn. induction Hl as [|x l Hx Hl IH]; [done|]. cbn. destruct (H x Hx) as [-> _]. cbn. by rewrite IH.
  - apply wf_arr, Forall_fmap, (Forall_impl _ _ _ Hl). intros x Hx. by apply H.
Qed.

Lemma mapM_fmap_some {A B C} (f : B → option C) (g : A → B) (h : A → C) l :
  Forall (λ x, f (g x) = Some (h x)) l → mapM f (g <$> l) = Some (h <$> l).
Proof. induction 1 as [|x l Hx Hl IH]; [done|]. cbn. rewrite Hx. cbn. by rewrite IH. Qed.

(** Maps: the entries come back in another order, the map does not. *)
Lemma codec_map {K A} `{Countable K} (key : K → string) (rkey : string → option K) (Q : K → Prop) (P : A → Prop) enc dec :
  (∀ k, Q k → rkey (key k) = Some k) → fits_codec P enc dec →
  fits_codec (λ m : gmap K A, ∀ k x, m !! k = Some x → Q k ∧ P x)
    (λ m, enc_map ((λ kx, (key kx.1, kx.2)) <$> map_to_list m) enc)
    (obj (λ l, l' ← dec_entries rkey dec l; Some (list_to_map (rev l')))).
Proof.
  intros Hk Hc m Hm. unfold enc_map.
  assert (∃ l, merge_sort key_le ((λ kx, (key kx.1, kx.2)) <$> map_to_list m) = (λ kx, (key kx.1, kx.2)) <$> l ∧ map_to_list m ≡ₚ l) as (l & -> & Hl).
  { destruct (Permutation_map_inv (λ kx : K * A, (key kx.1, kx.2)) (map_to_list m)
      (l1 := merge_sort key_le ((λ kx, (key kx.1, kx.2)) <$> map_to_list m))) as (l & E & Hp).
    - apply merge_sort_Permutation.
    - exists l. done. }
  assert (Forall (λ kx, Q kx.1 ∧ P kx.2) l) as Hall.
  { rewrite <-Hl. apply Forall_forall. intros [k x] Hin%elem_of_map_to_list. by apply Hm. }
  split.
  - cbn [obj]. unfold dec_entries. rewrite <-list_fmap_compose.
    rewrite (mapM_fmap_some _ _ id).
    + cbn [mbind option_bind]. f_equal. rewrite list_fmap_id, <-(list_to_map_to_list m).
      symmetry. apply list_to_map_proper; [apply NoDup_fst_map_to_list|]. by rewrite <-reverse_Permutation_rev || (rewrite Hl; apply Permutation_rev).
    + apply (Forall_impl _ _ _ Hall). intros [k x] [Hq Hp]. cbn. rewrite (Hk k Hq). cbn. destruct (Hc x Hp) as [-> _]. done.
  - apply wf_obj. rewrite !Forall_fmap. apply (Forall_impl _ _ _ Hall). intros [k x] [Hq Hp]. cbn. by apply Hc.
Qed.
Lemma codec_nmap {A} (P : A → Prop) enc dec : fits_codec P enc dec →
  fits_codec (λ m : gmap N A, ∀ k x, m !! k = Some x → (k < two64)%N ∧ P x) (enc_nmap enc) (dec_nmap dec).
Proof.
  intros H. apply (codec_map print_N read_u64 (λ k, (k < two64)%N)); [|done].
  intros k Hk. by apply read_u64_print.
Qed.
Lemma codec_smap {A} (P : A → Prop) enc dec : fits_codec P enc dec →
  fits_codec (λ m : gmap string A, ∀ k x, m !! k = Some x → any_text k ∧ P x) (enc_smap enc) (dec_smap dec).
Proof.
  intros H m Hm. pose proof (codec_map (λ s, s) Some any_text P enc dec) as Hc.
  specialize (Hc ltac:(done) H m Hm). unfold enc_smap, dec_smap.
  assert ((λ kx : string * A, (kx.1, kx.2)) <$> map_to_list m = map_to_list m) as E.
  { rewrite <-(list_fmap_id (map_to_list m)) at 2. apply list_fmap_ext. by intros ? []. }
  cbn beta in Hc. rewrite E in Hc. exact Hc.
Qed.

(** ** Structures *)
Definition keys_apart (l : list (string * json)) : Prop := NoDup (to_lower <$> l.*1).
Lemma field_absent k l : to_lower k ∉ to_lower <$> l.*1 → field k l = None.
Proof.
  induction l as [|[k' v] l IH]; [done|]. cbn. intros [H1 H2]%not_elem_of_cons. rewrite IH by done.
  apply not_eq_sym in H1. by apply String.eqb_neq in H1 as ->.
Qed.
Lemma field_present k v l : keys_apart l → (k, v) ∈ l → field k l = Some v.
Proof.
  unfold keys_apart. induction l as [|[k' v'] l IH]; [by intros _ ?%elem_of_nil|]. cbn. intros [Hn Hd]%NoDup_cons [E|Hin]%elem_of_cons.
  - injection E as -> ->. rewrite field_absent by done. by rewrite String.eqb_refl.
  - by rewrite IH.
Qed.
Lemma may_ok {A} (P : A → Prop) enc dec zero k l x : keys_apart l → fits_codec P enc dec → (k, enc x) ∈ l →
  not_null (enc x) → P x → may dec zero k l = Some x.
Proof. intros Hl Hc Hin Hn Hx. unfold may. rewrite (field_present _ _ _ Hl Hin). destruct (Hc x Hx) as [<- _]. by destruct (enc x). Qed.
Lemma need_ok {A} (P : A → Prop) enc dec k l x : keys_apart l → fits_codec P enc dec → (k, enc x) ∈ l → P x →
  need dec k l = Some x.
Proof. intros Hl Hc Hin Hx. unfold need. rewrite (field_present _ _ _ Hl Hin). by apply Hc. Qed.
Lemma may_enum_ok {A} (P : A → Prop) enc dec zero k l x : keys_apart l → fits_codec P enc dec → (k, enc x) ∈ l → P x →
  may_enum dec zero k l = Some x.
Proof. intros Hl Hc Hin Hx. unfold may_enum. rewrite (field_present _ _ _ Hl Hin). by apply Hc. Qed.

Ltac member := repeat first [apply elem_of_list_here|apply elem_of_list_further].
Ltac apart := unfold keys_apart; cbn [fmap list_fmap fst]; apply (bool_decide_unpack _); vm_compute; exact I.
Ltac fields l L := set (L := l); assert (keys_apart L) by (unfold L; apart).
Ltac fld L c :=
  match goal with HL : keys_apart L |- _ =>
    repeat first
      [ erewrite (need_ok _ _ _ _ _ _ HL c); [|unfold L; solve [member]|first [exact I|assumption]]
      | erewrite (may_ok _ _ _ _ _ _ _ HL c); [|unfold L; solve [member]|done|first [exact I|assumption]]
      | erewrite (may_enum_ok _ _ _ _ _ _ _ HL c); [|unfold L; solve [member]|first [exact I|assumption]] ]
  end.
Ltac wf_fields := apply wf_obj; repeat (apply Forall_cons; split); try apply Forall_nil_2; cbn [snd].

Lemma codec_log : fits_codec good_log enc_log dec_log.
Proof.
  intros x (H1 & H2 & H3 & H4 & H5 & H6 & H7). unfold enc_log. split.
  - unfold dec_log. cbn [obj]. match goal with |- context [need _ "address" ?l] => fields l L end.
    fld L (codec_fixed 20). fld L (codec_fixed 32). fld L codec_bytes. fld L codec_hex. fld L codec_bool.
    fld L (codec_list _ _ _ (codec_fixed 32)). by destruct x.
  - wf_fields.
    all: try (first [by apply (codec_fixed 20)|by apply (codec_fixed 32)|by apply codec_bytes|by apply codec_hex|done]).
    by apply (codec_list _ _ _ (codec_fixed 32)).
Qed.

Lemma codec_sub : fits_codec good_sub enc_sub dec_sub.
Proof.
  intros x (H1 & H2 & H3). unfold enc_sub. split.
  - unfold dec_sub. cbn [obj]. match goal with |- context [need _ "Sender" ?l] => fields l L end.
    fld L (codec_fixed 20). fld L codec_big. fld L codec_u64. fld L codec_log. by destruct x.
  - wf_fields; first [by apply (codec_fixed 20)|by apply codec_big|by apply codec_u64|by apply codec_log].
Qed.
Lemma codec_unsub : fits_codec good_unsub enc_unsub dec_unsub.
Proof.
  intros x (H1 & H2 & H3). unfold enc_unsub. split.
  - unfold dec_unsub. cbn [obj]. match goal with |- context [need _ "Sender" ?l] => fields l L end.
    fld L (codec_fixed 20). fld L codec_u64. fld L codec_log. by destruct x.
  - wf_fields; first [by apply (codec_fixed 20)|by apply codec_big|by apply codec_u64|by apply codec_log].
Qed.
Lemma codec_ether : fits_codec good_ether enc_ether dec_ether.
Proof.
  intros x (H1 & H2). unfold enc_ether. split.
  - unfold dec_ether. cbn [obj]. match goal with |- context [need _ "Sender" ?l] => fields l L end.
    fld L (codec_fixed 20). fld L codec_big. fld L codec_log. by destruct x.
  - wf_fields; first [by apply (codec_fixed 20)|by apply codec_big|by apply codec_u64|by apply codec_log].
Qed.

Lemma codec_reward_type : fits_codec (λ _, True) (λ x, JStr (reward_type_name x)) (dec_enum reward_type_name reward_types).
Proof. apply codec_enum. by intros []. Qed.
Lemma codec_status : fits_codec (λ _, True) (λ x, JStr (status_name x)) (dec_enum status_name statuses).
Proof. apply codec_enum. by intros []. Qed.
Lemma codec_block_type : fits_codec (λ _, True) (λ x, JStr (block_type_name x)) (dec_enum block_type_name block_types).
Proof. apply codec_enum. by intros []. Qed.
Lemma codec_sub_type : fits_codec (λ _, True) (λ x, JStr (sub_type_name x)) (dec_enum sub_type_name sub_types).
Proof. apply codec_enum. by intros []. Qed.

Lemma codec_block : fits_codec (good_block any_text) enc_block dec_block.
Proof.
  intros x (H1 & H2 & H3 & H4 & H5). unfold enc_block. split.
  - unfold dec_block. cbn [obj]. match goal with |- context [may _ _ "slot" ?l] => fields l L end.
    fld L codec_u64. fld L codec_str. fld L codec_block_type. fld L codec_reward_type.
    assert (may dec_reward None "reward_wei" L = Some (sb_reward x)) as ->; [|by destruct x].
    unfold may. erewrite (field_present "reward_wei" _ L); [|done|unfold L; member].
    destruct (sb_reward x) as [z|]; [|done]. cbn. unfold enc_big, dec_reward. cbn [dec_big]. by rewrite read_big_print.
  - wf_fields; first [by apply codec_u64|by apply codec_str|by apply codec_block_type|by apply codec_reward_type|idtac].
    destruct (sb_reward x); [by apply codec_big|done].
Qed.
Lemma codec_vinfo : fits_codec (good_vinfo any_text) enc_vinfo dec_vinfo.
Proof.
  intros x (H1 & H2 & H3). unfold enc_vinfo. split.
  - unfold dec_vinfo. cbn [obj]. match goal with |- context [may_enum _ _ "status" ?l] => fields l L end.
    fld L codec_status. fld L codec_big. fld L codec_str. fld L codec_u64. fld L codec_sub_type. by destruct x.
  - wf_fields; first [by apply codec_u64|by apply codec_str|by apply codec_big|by apply codec_status|by apply codec_sub_type].
Qed.
Lemma codec_leaf : fits_codec (good_rawleaf any_text) enc_leaf dec_leaf.
Proof.
  intros x H1. unfold good_rawleaf in H1. unfold enc_leaf. split.
  - unfold dec_leaf. cbn [obj]. match goal with |- context [may _ _ "withdrawal_address" ?l] => fields l L end.
    fld L codec_big. fld L codec_str. by destruct x.
  - wf_fields; first [by apply codec_str|by apply codec_big].
Qed.
Lemma codec_onchain : fits_codec (good_onchain any_text) enc_onchain dec_onchain.
Proof.
  intros x (H1 & H2 & H3 & H4 & H5 & H6). unfold enc_onchain. split.
  - unfold dec_onchain. cbn [obj]. match goal with |- context [may _ _ "slot" ?l] => fields l L end.
    fld L codec_u64. fld L codec_str. fld L (codec_nmap _ _ _ codec_vinfo). fld L (codec_smap _ _ _ codec_leaf).
    fld L (codec_smap _ _ _ (codec_list _ _ _ codec_str)). by destruct x.
  - wf_fields; first [by apply codec_u64|by apply codec_str|by apply (codec_nmap _ _ _ codec_vinfo)
      |by apply (codec_smap _ _ _ codec_leaf)|by apply (codec_smap _ _ _ (codec_list _ _ _ codec_str))].
Qed.
Lemma codec_state : fits_codec in_range enc_state dec_state.
Proof.
  intros x ((H1 & H2 & H3 & H4) & (H5 & H6 & H7 & H8 & H9 & H10 & H11) & H12 & H13 & H14 & H15 & H16 & H17 & H18 & H19 & H20).
  unfold enc_state. split.
  - unfold dec_state. cbn [obj]. match goal with |- context [may _ _ "state_hash" ?l] => fields l L end.
    fld L codec_u64. fld L codec_str. fld L codec_big. fld L codec_int.
    fld L (codec_nmap _ _ _ codec_vinfo). fld L (codec_nmap _ _ _ codec_onchain). fld L (codec_list _ _ _ codec_sub).
    fld L (codec_list _ _ _ codec_unsub). fld L (codec_list _ _ _ codec_ether). fld L (codec_list _ _ _ codec_block).
    by destruct x.
  - wf_fields; first [by apply codec_u64|by apply codec_str|by apply codec_big|by apply codec_int
      |by apply (codec_nmap _ _ _ codec_vinfo)|by apply (codec_nmap _ _ _ codec_onchain)
      |by apply (codec_list _ _ _ codec_sub)|by apply (codec_list _ _ _ codec_unsub)
      |by apply (codec_list _ _ _ codec_ether)|by apply (codec_list _ _ _ codec_block)].
Qed.

(** ** The text of a state *)
Lemma unmarshal_marshal s : in_range s → unmarshal (marshal s) = Some s.
Proof.
  intros Hs. destruct (codec_state s Hs) as [Hd Hw]. unfold unmarshal, marshal. rewrite (parse_print _ Hw). exact Hd.
Qed.
Lemma unmarshal_cut s p x : in_range s → marshal s = p +:+ x → x ≠ "" → unmarshal p = None.
Proof.
  intros Hs Hp Hx. destruct (codec_state s Hs) as [_ Hw]. unfold unmarshal. by rewrite (parse_cut _ p x Hw Hp Hx).
Qed.

(** ** The range of the decoder *)
Definition yields {A} (dec : json → option A) (P : A → Prop) : Prop := ∀ j x, dec j = Some x → P x.
Lemma yields_u64 : yields dec_u64 is_u64.
Proof.
  intros [] n; try done. cbn. unfold read_u64. destruct (DecimalString.NilZero.uint_of_string lit); [|done].
  cbv zeta. destruct (N.ltb_spec (N.of_uint u) two64) as [E|]; [|done]. by intros [= <-].
Qed.
Lemma yields_key s n : read_u64 s = Some n → is_u64 n.
Proof. intros H. by apply (yields_u64 (JNum s)). Qed.
Lemma yields_hex : yields dec_hex is_u64.
Proof.
  intros [] n; try done. cbn. destruct (strip "0x" s); [|done]. destruct (HexadecimalString.NilZero.uint_of_string s0); [|done].
  destruct (N.ltb_spec (N.of_hex_uint u) two64) as [E|]; [|done]. by intros [= <-].
Qed.
Lemma yields_int : yields dec_int is_int64.
Proof.
  intros [] z; try done. cbn. unfold read_int. destruct (read_big lit) as [y|]; [|done].
  destruct (Z.leb_spec (-9223372036854775808) y) as [E|]; [|done].
  destruct (Z.ltb_spec y 9223372036854775808) as [E'|]; [|done]. by intros [= <-].
Qed.
Lemma yields_fixed k : yields (dec_fixed k) (λ b, String.length b = k).
Proof. intros j b. unfold dec_fixed. destruct (dec_bytes j); [|done]. case_eq (String.length s =? k)%nat; [|done]. by intros ?%Nat.eqb_eq [= <-]. Qed.
Lemma yields_list {A} (dec : json → option A) P : yields dec P → yields (dec_list dec) (Forall P).
Proof.
  intros H [] l'; try done. cbn. intros Hl%mapM_Some_1. apply Forall_forall. intros x Hx.
  destruct (elem_of_list_lookup_1 _ _ Hx) as [i Hi]. destruct (Forall2_lookup_r _ _ _ _ _ Hl Hi) as (j & _ & Hj). by eapply H.
Qed.
Lemma yields_entries {K A} (rkey : string → option K) (dec : json → option A) (Q : K → Prop) P l r :
  (∀ s k, rkey s = Some k → Q k) → yields dec P → dec_entries rkey dec l = Some r → Forall (λ kx, Q kx.1 ∧ P kx.2) r.
Proof.
  intros Hk Hd Hl%mapM_Some_1. apply Forall_forall. intros [k x] Hx.
  destruct (elem_of_list_lookup_1 _ _ Hx) as [i Hi]. destruct (Forall2_lookup_r _ _ _ _ _ Hl Hi) as ([s j] & _ & Hj).
  cbn in Hj. apply bind_Some in Hj as (k' & E1 & Hj). apply bind_Some in Hj as (x' & E2 & Hj). injection Hj as -> ->.
  split; [by eapply Hk|by eapply Hd].
Qed.
Lemma yields_map {K A} `{Countable K} (rkey : string → option K) (dec : json → option A) (Q : K → Prop) P :
  (∀ s k, rkey s = Some k → Q k) → yields dec P →
  yields (obj (λ l, l' ← dec_entries rkey dec l; Some (list_to_map (rev l') : gmap K A))) (λ m, ∀ k x, m !! k = Some x → Q k ∧ P x).
Proof.
  intros Hk Hd [] m; try done. cbn [obj]. intros Hm. apply bind_Some in Hm as (r & Hr & Hm).
  apply (yields_entries _ _ Q P) in Hr; [|done|done]. injection Hm as <-. intros k x Hx%elem_of_list_to_map_2.
  rewrite Forall_forall in Hr. apply elem_of_list_In, in_rev, elem_of_list_In in Hx. exact (Hr _ Hx).
Qed.
Lemma yields_nmap {A} (dec : json → option A) P : yields dec P → yields (dec_nmap dec) (λ m, ∀ k x, m !! k = Some x → is_u64 k ∧ P x).
Proof. intros H. apply (yields_map read_u64 dec is_u64 P); [apply yields_key|done]. Qed.
Lemma yields_smap {A} (dec : json → option A) P : yields dec P → yields (dec_smap dec) (λ m, ∀ k x, m !! k = Some x → any_text k ∧ P x).
Proof. intros H. by apply (yields_map Some dec any_text P). Qed.
Lemma yields_may {A} (dec : json → option A) P zero k l x : yields dec P → P zero → may dec zero k l = Some x → P x.
Proof. intros Hd Hz. unfold may. destruct (field k l) as [[]|]; try (by intros ?%Hd); by intros [= <-]. Qed.
Lemma yields_need {A} (dec : json → option A) P k l x : yields dec P → need dec k l = Some x → P x.
Proof. intros Hd. unfold need. destruct (field k l) as [j|]; [|done]. by intros ?%Hd. Qed.

Ltac binds := repeat match goal with H : _ ≫= _ = Some _ |- _ => apply bind_Some in H as (? & ? & H) end.
Lemma zero_u64 : is_u64 0. Proof. done. Qed.
Lemma zero_int64 : is_int64 0. Proof. done. Qed.
Lemma zero_hash : String.length (be_bytes 32 0) = 32%nat. Proof. done. Qed.
Lemma empty_map {K A} `{Countable K} (Q : K → A → Prop) : ∀ k x, (∅ : gmap K A) !! k = Some x → Q k x.
Proof. intros k x Hx. by rewrite lookup_empty in Hx. Qed.
Ltac zero := first [exact zero_u64|exact zero_int64|exact zero_hash|apply Forall_nil_2|apply (empty_map (λ k x, _ k ∧ _ x))].
Ltac ranged c := first [eapply (yields_need _ _ _ _ _ c); eassumption|eapply (yields_may _ _ _ _ _ _ c); [zero|eassumption]].
Lemma yields_log : yields dec_log good_log.
Proof.
  intros [] x; try done. cbn [dec_log obj]. intros H. binds. injection H as <-. unfold good_log. cbn.
  split; [ranged (yields_fixed 20)|]. split; [ranged (yields_list _ _ (yields_fixed 32))|]. split; [ranged yields_hex|].
  split; [ranged (yields_fixed 32)|]. split; [ranged yields_hex|]. split; [ranged (yields_fixed 32)|]. ranged yields_hex.
Qed.
Lemma yields_sub : yields dec_sub good_sub.
Proof.
  intros [] x; try done. cbn [dec_sub obj]. intros H. binds. injection H as <-. unfold good_sub. cbn.
  split; [ranged (yields_fixed 20)|]. split; [ranged yields_u64|ranged yields_log].
Qed.
Lemma yields_unsub : yields dec_unsub good_unsub.
Proof.
  intros [] x; try done. cbn [dec_unsub obj]. intros H. binds. injection H as <-. unfold good_unsub. cbn.
  split; [ranged (yields_fixed 20)|]. split; [ranged yields_u64|ranged yields_log].
Qed.
Lemma yields_ether : yields dec_ether good_ether.
Proof.
  intros [] x; try done. cbn [dec_ether obj]. intros H. binds. injection H as <-. unfold good_ether. cbn.
  split; [ranged (yields_fixed 20)|ranged yields_log].
Qed.
Lemma yields_block : yields dec_block (good_block any_text).
Proof.
  intros [] x; try done. cbn [dec_block obj]. intros H. binds. injection H as <-. unfold good_block. cbn.
  do 3 (split; [ranged yields_u64|]). done.
Qed.
Lemma yields_vinfo : yields dec_vinfo (good_vinfo any_text).
Proof.
  intros [] x; try done. cbn [dec_vinfo obj]. intros H. binds. injection H as <-. unfold good_vinfo. cbn.
  split; [done|]. split; [ranged yields_u64|done].
Qed.
Lemma yields_onchain : yields dec_onchain (good_onchain any_text).
Proof.
  intros [] x; try done. cbn [dec_onchain obj]. intros H. binds. injection H as <-. unfold good_onchain. cbn [oc_slot oc_txhash oc_root oc_vals oc_leafs oc_proofs].
  split; [ranged yields_u64|]. do 2 (split; [done|]). split; [ranged (yields_nmap _ _ yields_vinfo)|].
  split; [|split; [done|by apply Forall_true]]. done.
Qed.
Lemma yields_state : yields dec_state in_range.
Proof.
  intros [] x; try done. cbn [dec_state obj]. intros H. binds. injection H as <-. unfold in_range, shaped.
  cbn [st_hash st_pool st_network st_fees_addr st_latest st_latest_block st_next st_cp_size st_dep_block st_dep_slot st_feepct
       st_vals st_committed st_subs st_unsubs st_ether st_donations st_proposed st_missed st_wrong].
  split; [done|]. split. { do 6 (split; [ranged yields_u64|]). ranged yields_int. }
  split; [ranged (yields_nmap _ _ yields_vinfo)|]. split; [ranged (yields_nmap _ _ yields_onchain)|].
  split; [ranged (yields_list _ _ yields_sub)|]. split; [ranged (yields_list _ _ yields_unsub)|].
  do 2 (split; [ranged (yields_list _ _ yields_ether)|]). do 2 (split; [ranged (yields_list _ _ yields_block)|]).
  ranged (yields_list _ _ yields_block).
Qed.
Lemma unmarshal_range raw s : unmarshal raw = Some s → in_range s.
Proof. unfold unmarshal. intros H. apply bind_Some in H as (j & _ & H). by apply yields_state in H. Qed.
Lemma marshal_inj a b : in_range a → in_range b → marshal a = marshal b → a = b.
Proof. intros Ha%unmarshal_marshal Hb%unmarshal_marshal E. rewrite E, Hb in Ha. by injection Ha. Qed.
