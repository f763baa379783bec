(** Byte strings, hex and addresses. *)
From Verif Require Export Spec.

Local Arguments String.append !_ _ : simpl nomatch.

Lemma string_app_assoc (a b c : string) : (a +:+ b) +:+ c = a +:+ (b +:+ c).
Proof. induction a as [|x a IH]; [done|]. cbn. by rewrite IH. Qed.
Lemma string_app_nil_r (a : string) : a +:+ "" = a.
Proof. induction a as [|x a IH]; [done|]. cbn. by rewrite IH. Qed.
Lemma string_length_app (a b : string) : String.length (a +:+ b) = (String.length a + String.length b)%nat.
Proof. induction a as [|x a IH]; [done|]. cbn. by rewrite IH. Qed.
Lemma list_ascii_app (a b : string) : list_ascii_of_string (a +:+ b) = list_ascii_of_string a ++ list_ascii_of_string b.
Proof. induction a as [|x a IH]; [done|]. cbn. by rewrite IH. Qed.
Lemma length_list_ascii (a : string) : length (list_ascii_of_string a) = String.length a.
Proof. induction a as [|x a IH]; [done|]. cbn. by rewrite IH. Qed.

Lemma N_of_ascii_lt c : (N_of_ascii c < 256)%N.
Proof. apply N_ascii_bounded. Qed.

Lemma hex_digit_lower n : (n < 16)%N → lower_hex_char (hex_digit n).
Proof.
  intros Hn. unfold lower_hex_char, hex_digit. destruct (N.ltb_spec n 10).
  - rewrite N_ascii_embedding by lia. lia.
  - rewrite N_ascii_embedding by lia. lia.
Qed.
Lemma hex_encode_lower s : Forall lower_hex_char (list_ascii_of_string (hex_encode s)).
Proof.
  induction s as [|c s IH]; [constructor|]. cbn [hex_encode list_ascii_of_string].
  pose proof (N_of_ascii_lt c). constructor; [|constructor; [|done]]; apply hex_digit_lower.
  - apply N.div_lt_upper_bound; lia.
  - apply N.mod_lt. lia.
Qed.
Lemma hex_encode_length s : String.length (hex_encode s) = (2 * String.length s)%nat.
Proof. induction s as [|c s IH]; [done|]. cbn. lia. Qed.
Lemma hex_encode_app a b : hex_encode (a +:+ b) = hex_encode a +:+ hex_encode b.
Proof. induction a as [|c a IH]; [done|]. cbn. by rewrite IH. Qed.

Lemma sdrop_length n s : String.length (sdrop n s) = (String.length s - n)%nat.
Proof. revert s. induction n as [|n IH]; intros [|c s]; cbn; try done. Qed.
Lemma sdrop_list n s : list_ascii_of_string (sdrop n s) = drop n (list_ascii_of_string s).
Proof. revert s. induction n as [|n IH]; intros [|c s]; cbn; try done. Qed.
Lemma sdrop_app a b : sdrop (String.length a) (a +:+ b) = b.
Proof. induction a as [|c a IH]; [done|]. cbn. apply IH. Qed.
Lemma Forall_sdrop P n s : Forall P (list_ascii_of_string s) → Forall P (list_ascii_of_string (sdrop n s)).
Proof. rewrite sdrop_list. apply Forall_drop. Qed.

Lemma prefix_app p s : String.prefix p s = true ↔ ∃ k, s = p +:+ k.
Proof.
  revert s. induction p as [|c p IH]; intros s.
  - split; [intros _; by exists s|]. intros _. by destruct s.
  - destruct s as [|d s]; cbn.
    { split; [done|]. by intros (k & Hk). }
    destruct (ascii_dec c d) as [->|Hne].
    + rewrite IH. split; intros (k & Hk); exists k; [by rewrite Hk|]. by injection Hk.
    + split; [done|]. intros (k & Hk). injection Hk. congruence.
Qed.
Lemma has_prefix_app s p : has_prefix s p = true ↔ ∃ k, s = p +:+ k.
Proof. apply prefix_app. Qed.

(** An execution address extracted from credentials is a lowercase address. *)
Lemma sdrop24_address c : String.length (hex_encode c) = 64%nat → lower_address ("0x" +:+ sdrop 24 (hex_encode c)).
Proof.
  intros H. exists (sdrop 24 (hex_encode c)). split; [done|]. split.
  - rewrite sdrop_length, H. done.
  - apply Forall_sdrop, hex_encode_lower.
Qed.
Lemma compatible_lower c w : get_compatible_address_byte c = Some w → lower_address w.
Proof.
  unfold get_compatible_address_byte, get_compatible_address. intros H.
  destruct (Nat.eqb_spec (String.length (hex_encode c)) 64) as [Hl|]; [|discriminate]. cbn [negb] in H.
  destruct (_ || _); [|discriminate]. injection H as <-. by apply sdrop24_address.
Qed.

Lemma withdrawal_lower v w t : withdrawal_and_type v = Ok (w, t) → t ≠ BlsWithdrawal → lower_address w.
Proof.
  unfold withdrawal_and_type. intros H Ht.
  destruct (Nat.eqb_spec (String.length (hex_encode (b_creds v))) 64) as [Hl|]; [|discriminate]. cbn [negb] in H.
  destruct (is_bls_type _); [simplify_eq|]. destruct (is_eth1_type _); [injection H as <- _; by apply sdrop24_address|].
  destruct (is_electra_type _); [injection H as <- _; by apply sdrop24_address|]. simplify_eq.
Qed.

(** ** Hex is injective; case folding undoes the checksum capitals *)

Lemma hex_digit_inj a b : (a < 16)%N → (b < 16)%N → hex_digit a = hex_digit b → a = b.
Proof.
  intros Ha Hb H. apply (f_equal N_of_ascii) in H. unfold hex_digit in H.
  destruct (N.ltb_spec a 10), (N.ltb_spec b 10); rewrite !N_ascii_embedding in H by lia; lia.
Qed.
Lemma hex_encode_inj a b : hex_encode a = hex_encode b → a = b.
Proof.
  revert b. induction a as [|c a IH]; intros [|d b]; cbn; [done..|]. intros H. injection H as H1 H2 H3.
  pose proof (N_of_ascii_lt c). pose proof (N_of_ascii_lt d).
  apply hex_digit_inj in H1; [|apply N.div_lt_upper_bound; lia..].
  apply hex_digit_inj in H2; [|apply N.mod_lt; lia..].
  f_equal; [|by apply IH]. rewrite <-(ascii_N_embedding c), <-(ascii_N_embedding d). f_equal.
  rewrite (N.div_mod (N_of_ascii c) 16), (N.div_mod (N_of_ascii d) 16) by lia. lia.
Qed.

Lemma lower_lower_hex c : lower_hex_char c → lower_ascii c = c.
Proof.
  unfold lower_hex_char, lower_ascii, is_upper. intros H.
  destruct (N.leb_spec 65 (N_of_ascii c)), (N.leb_spec (N_of_ascii c) 90); cbn; try done. lia.
Qed.
Lemma lower_upper_hex c : lower_hex_char c → lower_ascii (upper_hex c) = c.
Proof.
  intros H. unfold upper_hex. unfold lower_hex_char in H.
  destruct (N.leb_spec 97 (N_of_ascii c)); cbn; [|by apply lower_lower_hex].
  destruct (N.leb_spec (N_of_ascii c) 102); cbn; [|by apply lower_lower_hex].
  unfold lower_ascii, is_upper. rewrite N_ascii_embedding by lia.
  destruct (N.leb_spec 65 (N_of_ascii c - 32)); [|lia]. destruct (N.leb_spec (N_of_ascii c - 32) 90); [|lia]. cbn.
  replace (N_of_ascii c - 32 + 32)%N with (N_of_ascii c) by lia. apply ascii_N_embedding.
Qed.
Lemma to_lower_lower s : Forall lower_hex_char (list_ascii_of_string s) → to_lower s = s.
Proof.
  induction s as [|c s IH]; [done|]. cbn. intros H. inversion H; subst. by rewrite IH, lower_lower_hex.
Qed.
Lemma to_lower_mask m i s : Forall lower_hex_char (list_ascii_of_string s) → to_lower (apply_mask m i s) = s.
Proof.
  revert i. induction s as [|c s IH]; intros i; [done|]. cbn. intros H. inversion H; subst. rewrite IH by done. f_equal.
  destruct (m i); [by apply lower_upper_hex|by apply lower_lower_hex].
Qed.
Lemma apply_mask_length m i s : String.length (apply_mask m i s) = String.length s.
Proof. revert i. induction s as [|c s IH]; intros i; [done|]. cbn. by rewrite IH. Qed.
Lemma to_lower_length s : String.length (to_lower s) = String.length s.
Proof. induction s as [|c s IH]; [done|]. cbn. by rewrite IH. Qed.
Lemma to_lower_addr m a : to_lower (addr_string m a) = "0x" +:+ hex_encode a.
Proof. unfold addr_string. cbn. by rewrite to_lower_mask by apply hex_encode_lower. Qed.
Lemma to_lower_hex a : to_lower ("0x" +:+ hex_encode a) = "0x" +:+ hex_encode a.
Proof. cbn. by rewrite to_lower_lower by apply hex_encode_lower. Qed.
Lemma addr_string_length m a : String.length (addr_string m a) = (2 + 2 * String.length a)%nat.
Proof. unfold addr_string. by rewrite string_length_app, apply_mask_length, hex_encode_length. Qed.

Lemma app_prefix_inj (p a b : string) : p +:+ a = p +:+ b → a = b.
Proof. induction p as [|c p IH]; [done|]. cbn. intros H. injection H as H. by apply IH. Qed.

(** Comparing the text of an address with the text of another compares the addresses. *)
Lemma equals_addr m a b : String.length a = String.length b →
  equals (addr_string m a) ("0x" +:+ hex_encode b) = Ok (bool_decide (a = b)).
Proof.
  intros Hl. unfold equals. rewrite addr_string_length, string_length_app, hex_encode_length, Hl. cbn [String.length].
  rewrite Nat.eqb_refl. f_equal. rewrite to_lower_addr, to_lower_hex.
  destruct (bool_decide_reflect (a = b)) as [->|Hne]; [apply String.eqb_refl|].
  apply String.eqb_neq. intros H. by apply app_prefix_inj, hex_encode_inj in H.
Qed.

(** ** Credentials *)

Lemma string_app_inj_l (a b c d : string) : String.length a = String.length b → a +:+ c = b +:+ d → a = b ∧ c = d.
Proof.
  revert b. induction a as [|x a IH]; intros [|y b]; cbn; intros Hl H; try discriminate; [done|].
  injection H as -> H. apply IH in H as [-> ->]; [done|]. congruence.
Qed.
Lemma string_split n s : (n ≤ String.length s)%nat → ∃ a b, s = a +:+ b ∧ String.length a = n.
Proof.
  revert s. induction n as [|n IH]; intros s Hn; [by exists "", s|].
  destruct s as [|c s]; cbn in Hn; [lia|]. destruct (IH s) as (a & b & -> & Ha); [lia|].
  exists (String c a), b. cbn. by rewrite Ha.
Qed.

Lemma prefix_zeros c t : String.length c = 32%nat →
  has_prefix (hex_encode c) (hex_encode (String t (zeros 11))) = true ↔ ∃ a, c = String t (zeros 11) +:+ a ∧ String.length a = 20%nat.
Proof.
  intros Hl. rewrite has_prefix_app. split.
  - intros (k & Hk). destruct (string_split 12 c) as (p & r & -> & Hp); [lia|].
    rewrite hex_encode_app in Hk. apply string_app_inj_l in Hk as [Hk _]; [|rewrite !hex_encode_length, Hp; done].
    apply hex_encode_inj in Hk as ->. exists r. split; [done|]. rewrite string_length_app in Hl. cbn in Hl. lia.
  - intros (a & -> & _). rewrite hex_encode_app. by eexists.
Qed.

Lemma compatible_iff c w : get_compatible_address_byte c = Some w ↔ ∃ a, exec_address c a ∧ w = "0x" +:+ hex_encode a.
Proof.
  unfold get_compatible_address_byte, get_compatible_address. rewrite hex_encode_length.
  destruct (Nat.eqb_spec (2 * String.length c) 64) as [Hl|Hl]; cbn [negb].
  2:{ split; [done|]. intros (a & [Ha [-> | ->]] & _); exfalso; apply Hl; cbn; rewrite Ha; done. }
  assert (String.length c = 32%nat) as Hl' by lia.
  pose proof (prefix_zeros c (ascii_of_N 1) Hl') as H1. pose proof (prefix_zeros c (ascii_of_N 2) Hl') as H2.
  change (hex_encode (String (ascii_of_N 1) (zeros 11))) with "010000000000000000000000" in H1.
  change (hex_encode (String (ascii_of_N 2) (zeros 11))) with "020000000000000000000000" in H2.
  assert (∀ t a, hex_encode (String t (zeros 11) +:+ a) = hex_encode (String t (zeros 11)) +:+ hex_encode a) as Happ
    by (intros; apply hex_encode_app).
  split.
  - intros H. destruct (has_prefix (hex_encode c) "010000000000000000000000") eqn:E1; cbn [orb] in H.
    + destruct (proj1 H1 eq_refl) as (a & -> & Ha). injection H as <-. exists a. split; [split; [done|by left]|]. done.
    + destruct (has_prefix (hex_encode c) "020000000000000000000000") eqn:E2; [|discriminate].
      destruct (proj1 H2 eq_refl) as (a & -> & Ha). injection H as <-. exists a. split; [split; [done|by right]|]. done.
  - intros (a & [Ha Hc] & ->). destruct Hc as [Hc|Hc].
    + assert (has_prefix (hex_encode c) "010000000000000000000000" = true) as -> by (apply H1; by exists a).
      cbn [orb]. rewrite Hc. done.
    + assert (has_prefix (hex_encode c) "020000000000000000000000" = true) as -> by (apply H2; by exists a).
      rewrite orb_true_r, Hc. done.
Qed.
Lemma compatible_none c : get_compatible_address_byte c = None ↔ ∀ a, ¬ exec_address c a.
Proof.
  split.
  - intros H a Ha. assert (get_compatible_address_byte c = Some ("0x" +:+ hex_encode a)) as H'; [|congruence].
    apply compatible_iff. by exists a.
  - intros H. destruct (get_compatible_address_byte c) as [w|] eqn:Hw; [|done].
    apply compatible_iff in Hw as (a & Ha & _). by destruct (H a).
Qed.
Lemma exec_address_fun c a b : exec_address c a → exec_address c b → a = b.
Proof.
  intros [Ha [->| ->]] [Hb [H|H]]; cbn in H; injection H as H; try done.
Qed.

(** The decoders agree. *)
Lemma prefix_second p a b c d r r' : has_prefix p (String a (String b r)) = true → has_prefix p (String c (String d r')) = true → b = d.
Proof.
  unfold has_prefix. destruct p as [|x [|y p]]; cbn; intros H H'; [discriminate|..]; repeat (destruct (ascii_dec _ _); subst; cbn in *; try congruence).
Qed.
Lemma withdrawal_agree v w : String.length (b_creds v) = 32%nat →
  (∃ t, t ≠ BlsWithdrawal ∧ withdrawal_and_type v = Ok (w, t)) ↔ get_compatible_address_byte (b_creds v) = Some w.
Proof.
  intros Hl. unfold withdrawal_and_type, get_compatible_address_byte, get_compatible_address, is_bls_type, is_eth1_type, is_electra_type.
  rewrite hex_encode_length, Hl. cbn [Nat.mul Nat.add Nat.eqb negb andb].
  set (c := hex_encode (b_creds v)).
  destruct (has_prefix c "00") eqn:H0.
  - destruct (has_prefix c "010000000000000000000000") eqn:H1; [by pose proof (prefix_second _ _ _ _ _ _ _ H0 H1)|].
    destruct (has_prefix c "020000000000000000000000") eqn:H2; [by pose proof (prefix_second _ _ _ _ _ _ _ H0 H2)|].
    cbn [orb]. split; [|done]. intros (t & Ht & [= _ <-]). done.
  - destruct (has_prefix c "010000000000000000000000") eqn:H1; cbn [orb].
    { split; [by intros (t & _ & [= <- _])|]. intros [= <-]. exists Eth1Withdrawal. done. }
    destruct (has_prefix c "020000000000000000000000") eqn:H2; cbn [orb].
    { split; [by intros (t & _ & [= <- _])|]. intros [= <-]. exists ElectraWithdrawal. done. }
    split; [|done]. intros (t & Ht & [= _ <-]). done.
Qed.
Lemma withdrawal_total v : String.length (b_creds v) = 32%nat → ∃ w t, withdrawal_and_type v = Ok (w, t).
Proof.
  intros Hl. unfold withdrawal_and_type. rewrite hex_encode_length, Hl. cbn [Nat.mul Nat.add Nat.eqb negb].
  repeat case_match; eauto.
Qed.
Lemma exec_not_bls c a : exec_address c a → ¬ bls_creds c.
Proof. intros [_ [->| ->]] [_ [r Hr]]; discriminate. Qed.
Lemma withdrawal_bls v w t : bls_creds (b_creds v) → withdrawal_and_type v = Ok (w, t) → t = BlsWithdrawal.
Proof.
  intros Hb H. destruct (decide (t = BlsWithdrawal)) as [|Hn]; [done|].
  assert (get_compatible_address_byte (b_creds v) = Some w) as Hc by (apply withdrawal_agree; [by destruct Hb|eauto]).
  apply compatible_iff in Hc as (a & Ha & _). by destruct (exec_not_bls _ _ Ha).
Qed.
