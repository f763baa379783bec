(** Printing and parsing JSON: the parser reads back what the printer writes, and refuses every proper prefix. *)
From Verif Require Export Json StringProofs.
From Coq Require Import DecimalFacts DecimalString.

Lemma sapp_nil_r s : s +:+ "" = s.
Proof. induction s as [|c s IH]; [done|]. change (String c (s +:+ "") = String c s). by rewrite IH. Qed.
Lemma sapp_assoc (a b c : string) : (a +:+ b) +:+ c = a +:+ b +:+ c.
Proof. induction a as [|x a IH]; [done|]. change (String x ((a +:+ b) +:+ c) = String x (a +:+ b +:+ c)). by rewrite IH. Qed.
Lemma scons_app c a b : String c a +:+ b = String c (a +:+ b).
Proof. done. Qed.

(** ** Well-formed values: what the encoder produces *)
Definition minus : string := String (ascii_of_N 45) "".
(** The integer literals: an optional minus sign, then digits without leading zeros. *)
Definition int_lit (lit : string) : Prop :=
  ∃ sg a, lit = sg +:+ a ∧ (sg = "" ∨ sg = minus) ∧ sforall is_digit a = true ∧
    (String.length a = 1%nat ∨ ∃ c b, a = String c b ∧ (N_of_ascii c ≠ 48)%N).
Fixpoint wf_json (j : json) : Prop :=
  match j with
  | JNull | JBool _ => True
  | JNum lit => int_lit lit
  | JStr _ => True
  | JArr l => foldr (λ x P, wf_json x ∧ P) True l
  | JObj l => foldr (λ kx P, wf_json kx.2 ∧ P) True l
  end.

Lemma json_ind' (P : json → Prop) :
  P JNull → (∀ b, P (JBool b)) → (∀ l, P (JNum l)) → (∀ s, P (JStr s)) →
  (∀ l, Forall P l → P (JArr l)) → (∀ l, Forall (λ kx, P kx.2) l → P (JObj l)) → ∀ j, P j.
Proof.
  intros H1 H2 H3 H4 H5 H6. fix IH 1. intros [|b|lit|s|l|l]; [done|done|done|done| |].
  - apply H5. induction l as [|x l IHl]; constructor; [apply IH|exact IHl].
  - apply H6. induction l as [|[k x] l IHl]; constructor; [apply IH|exact IHl].
Qed.
Lemma wf_arr l : wf_json (JArr l) ↔ Forall wf_json l.
Proof. cbn. induction l as [|x l IH]; cbn; [done|]. rewrite Forall_cons, IH. done. Qed.
Lemma wf_obj l : wf_json (JObj l) ↔ Forall (λ kx, wf_json kx.2) l.
Proof. cbn. induction l as [|x l IH]; cbn; [done|]. rewrite Forall_cons, IH. done. Qed.

(** ** Whitespace *)
Lemma skip_spaces d s : skip (spaces d +:+ s) = skip s.
Proof. induction d as [|d IH]; [done|]. change (skip (String " " (spaces d +:+ s)) = skip s). cbn [skip]. exact IH. Qed.
Lemma skip_nl d s : skip (nl d +:+ s) = skip s.
Proof. unfold nl. rewrite scons_app. change (skip (spaces d +:+ s) = skip s). apply skip_spaces. Qed.
Lemma skip_char c s : json_space c = false → skip (String c s) = String c s.
Proof. intros H. cbn [skip]. by rewrite H. Qed.
Lemma skip_skip s : skip (skip s) = skip s.
Proof. induction s as [|c s IH]; [done|]. cbn [skip]. destruct (json_space c) eqn:E; [done|]. by apply skip_char. Qed.

(** ** Strings *)
Lemma escaped_char c f t :
  string_body (S f) (escape_char c +:+ t) =
  match string_body f t with None => None | Some (y, r) => Some (String c y, r) end.
Proof.
  destruct c as [[] [] [] [] [] [] [] []]; reflexivity.
Qed.
Lemma quoted_body s : ∀ f r, (String.length s < f)%nat →
  string_body f (escape s +:+ dquote +:+ r) = Some (s, r).
Proof.
  induction s as [|c s IH]; intros f r Hl; cbn [String.length] in Hl; (destruct f as [|f]; [lia|]).
  - reflexivity.
  - cbn [escape]. rewrite sapp_assoc, escaped_char.
    rewrite IH; [done|lia].
Qed.

(** ** Numbers *)
Definition delim (r : string) : Prop :=
  match r with
  | EmptyString => True
  | String c _ => is_digit c = false ∧ (N_of_ascii c ≠ 46)%N ∧ (N_of_ascii c ≠ 69)%N ∧ (N_of_ascii c ≠ 101)%N
  end.
Lemma digits_app a r : sforall is_digit a = true → delim r → digit_run (a +:+ r) = (a, r).
Proof.
  intros Ha Hr. induction a as [|c a IH].
  - change (digit_run r = ("", r)). destruct r as [|c r]; [done|]. cbn [digit_run]. destruct Hr as [-> _]. done.
  - apply andb_prop in Ha as [Hc Ha]. rewrite scons_app. cbn [digit_run]. by rewrite Hc, IH.
Qed.
Lemma number_lit lit r : int_lit lit → delim r → number (lit +:+ r) = Some (lit, r).
Proof.
  intros (sg & a & -> & Hsg & Ha & Hz) Hr.
  assert (number_int (a +:+ r) = Some (a, r)) as Hi.
  { unfold number_int. rewrite digits_app by done. destruct a as [|c [|d b]].
    - destruct Hz as [Hz|(c & b & [=] & _)]. discriminate Hz.
    - done.
    - destruct Hz as [Hz|(c' & b' & [= <- <-] & Hz)]; [discriminate Hz|]. apply N.eqb_neq in Hz. by rewrite Hz. }
  assert (number_frac r = Some ("", r) ∧ number_exp r = Some ("", r)) as [Hf He].
  { destruct r as [|c r]; [done|]. destruct Hr as (_ & H1 & H2 & H3). unfold number_frac, number_exp.
    apply N.eqb_neq in H1, H2, H3. by rewrite H1, H2, H3. }
  assert (a ≠ "") as Hne by (intros ->; destruct Hz as [Hz|(c & b & [=] & _)]; discriminate Hz).
  unfold number. destruct Hsg as [->| ->].
  - change ("" +:+ a) with a. destruct a as [|c a]; [done|]. rewrite scons_app.
    assert ((N_of_ascii c =? 45)%N = false) as ->.
    { apply andb_prop in Ha as [Hc _]. unfold is_digit in Hc. apply andb_prop in Hc as [Hc _].
      apply N.leb_le in Hc. apply N.eqb_neq. lia. }
    rewrite <-scons_app, Hi. rewrite Hf, He. change ("" +:+ ?x) with x. by rewrite !sapp_nil_r.
  - unfold minus at 1. rewrite sapp_assoc, scons_app. change ((N_of_ascii (ascii_of_N 45) =? 45)%N) with true. cbv iota.
    change ("" +:+ a +:+ r) with (a +:+ r). rewrite Hi, Hf, He. by rewrite !sapp_nil_r.
Qed.
Lemma int_lit_head lit : int_lit lit → ∃ c s, lit = String c s ∧ ((N_of_ascii c =? 45)%N || is_digit c) = true.
Proof.
  intros (sg & a & -> & [->| ->] & Ha & Hz).
  - destruct a as [|c a]; [destruct Hz as [Hz|(c & b & [=] & _)]; discriminate Hz|].
    apply andb_prop in Ha as [Hc _]. exists c, a. rewrite Hc. by rewrite orb_true_r.
  - by eexists _, _.
Qed.
Lemma digit_head c : ((N_of_ascii c =? 45)%N || is_digit c) = true →
  json_space c = false ∧ (N_of_ascii c =? 123)%N = false ∧ (N_of_ascii c =? 91)%N = false ∧ (N_of_ascii c =? 34)%N = false ∧
  (N_of_ascii c =? 93)%N = false ∧ (N_of_ascii c =? 125)%N = false.
Proof. destruct c as [[] [] [] [] [] [] [] []]; vm_compute; done. Qed.

(** ** Values *)
Definition head_ok (s : string) : Prop :=
  ∃ c t, s = String c t ∧ json_space c = false ∧ (N_of_ascii c =? 93)%N = false ∧ (N_of_ascii c =? 125)%N = false.
Lemma print_head d j : wf_json j → head_ok (print d j).
Proof.
  destruct j as [|[]|lit|s|[|x l]|[|x l]]; intros Hw; try (by eexists _, _).
  destruct (int_lit_head lit Hw) as (c & t & -> & Hc). destruct (digit_head c Hc) as (? & _ & _ & _ & ? & ?).
  by exists c, t.
Qed.
Lemma commas_cons x y l : commas (x :: y :: l) = x +:+ String "," (commas (y :: l)).
Proof. done. Qed.
Lemma value_skip f s : value f (skip s) = value f s.
Proof. destruct f as [|f]; [done|]. cbn [value]. by rewrite skip_skip. Qed.

Lemma delim_comma t : delim (String "," t).
Proof. by vm_compute. Qed.
Lemma delim_nl d t : delim (nl d +:+ t).
Proof. unfold nl. rewrite scons_app. by vm_compute. Qed.

Lemma elements_print (p : json → string) d r (val : string → option (json * string)) l : ∀ k x,
  Forall (λ y, ∀ r, delim r → val (p y +:+ r) = Some (y, r)) (x :: l) →
  (length l < k)%nat →
  array_items val k (commas (p <$> (x :: l)) +:+ nl d +:+ String "]" r) = Some (x :: l, r).
Proof.
  induction l as [|y l IH]; intros k x Hp Hk; (destruct k as [|k]; [cbn in Hk; lia|]).
  - apply Forall_cons in Hp as [Hx _]. cbn [fmap list_fmap commas array_items].
    rewrite Hx by apply delim_nl. rewrite skip_nl. rewrite skip_char by done. reflexivity.
  - apply Forall_cons in Hp as [Hx Hp]. change (p <$> x :: y :: l) with (p x :: p y :: (p <$> l)).
    rewrite commas_cons, sapp_assoc, scons_app. cbn [array_items]. rewrite Hx by apply delim_comma.
    rewrite skip_char by done. change ((N_of_ascii "," =? 44)%N) with true. cbv iota.
    change (p y :: (p <$> l)) with (p <$> y :: l). rewrite IH; [done|done|cbn in Hk; lia].
Qed.

Definition entry (d : nat) (kx : string * json) : string := nl (S d) +:+ quote kx.1 +:+ ": " +:+ print (S d) kx.2.
Lemma entries_print d r (val : string → option (json * string)) l : ∀ k x,
  Forall (λ y, (∀ r, delim r → val (String " " (print (S d) y.2 +:+ r)) = Some (y.2, r)) ∧
               (S (String.length y.1 + length l) < k)%nat) (x :: l) →
  (length l < k)%nat →
  object_items val k (commas (entry d <$> (x :: l)) +:+ nl d +:+ String "}" r) = Some (x :: l, r).
Proof.
  assert (∀ k x t, (String.length x.1 < k)%nat → delim t →
     (∀ r, delim r → val (String " " (print (S d) x.2 +:+ r)) = Some (x.2, r)) →
     object_items val (S k) (entry d x +:+ t) =
       match skip t with
       | String c r' => if (N_of_ascii c =? 44)%N then
           match object_items val k r' with None => None | Some (l, r'') => Some ((x.1, x.2) :: l, r'') end
         else if (N_of_ascii c =? 125)%N then Some ([(x.1, x.2)], r') else None
       | EmptyString => None
       end) as Hstep.
  { intros k x t Hl Ht Hv. unfold entry. rewrite !sapp_assoc. cbn [object_items]. rewrite skip_nl.
    unfold quote. rewrite !sapp_assoc. unfold dquote at 1. rewrite scons_app. rewrite skip_char by done.
    change ((N_of_ascii (ascii_of_N 34) =? 34)%N) with true. cbv iota.
    change ("" +:+ ?s) with s. rewrite quoted_body by done. change (": " +:+ ?s) with (String ":" (String " " s)).
    rewrite skip_char by done. change ((N_of_ascii ":" =? 58)%N) with true. cbv iota. rewrite Hv by done. done. }
  induction l as [|y l IH]; intros k x Hp Hk; (destruct k as [|k]; [cbn in Hk; lia|]); destruct x as [kx vx].
  - apply Forall_cons in Hp as [(Hx & Hl) _]. cbn [fmap list_fmap commas]. cbn in Hl.
    rewrite Hstep; [|cbn; lia|apply delim_nl|done]. rewrite skip_nl, skip_char by done. reflexivity.
  - apply Forall_cons in Hp as [(Hx & Hl) Hp]. change (entry d <$> (kx, vx) :: y :: l) with (entry d (kx, vx) :: entry d y :: (entry d <$> l)).
    cbn in Hl, Hk. rewrite commas_cons, sapp_assoc, scons_app. rewrite Hstep; [|cbn; lia|apply delim_comma|done].
    rewrite skip_char by done. change ((N_of_ascii "," =? 44)%N) with true. cbv iota.
    change (entry d y :: (entry d <$> l)) with (entry d <$> y :: l). rewrite IH; [done| |lia].
    eapply Forall_impl; [exact Hp|]. cbn. intros z (H1 & H3). split; [done|]. lia.
Qed.

Lemma commas_length l x : x ∈ l → (String.length x ≤ String.length (commas l))%nat.
Proof.
  induction l as [|a [|b l] IH]; [by intros ?%elem_of_nil| |].
  - intros ->%elem_of_list_singleton. done.
  - rewrite commas_cons, string_length_app. cbn [String.length]. intros [->|H]%elem_of_cons; [lia|]. specialize (IH H). lia.
Qed.
Lemma commas_count l : Forall (λ x, (0 < String.length x)%nat) l → (length l ≤ String.length (commas l))%nat.
Proof.
  induction l as [|a [|b l] IH]; intros H; [done| |].
  - apply Forall_cons in H as [H _]. cbn. lia.
  - apply Forall_cons in H as [H Hf]. specialize (IH Hf). rewrite commas_cons, string_length_app. cbn [String.length] in *.
    cbn [length] in *. lia.
Qed.
Lemma commas_both l x : x ∈ l → Forall (λ x, (0 < String.length x)%nat) l →
  (String.length x + length l ≤ S (String.length (commas l)))%nat.
Proof.
  induction l as [|a [|b l] IH]; [by intros ?%elem_of_nil| |].
  - intros ->%elem_of_list_singleton _. cbn. lia.
  - intros Hx H. pose proof H as [Ha Hf]%Forall_cons. rewrite commas_cons, string_length_app. cbn [String.length].
    apply elem_of_cons in Hx as [->|Hx].
    + pose proof (commas_count _ Hf). cbn [length] in *. lia.
    + specialize (IH Hx Hf). cbn [length] in *. lia.
Qed.
Lemma escape_length s : (String.length s ≤ String.length (escape s))%nat.
Proof.
  induction s as [|c s IH]; [done|]. cbn [escape String.length]. rewrite string_length_app.
  assert (1 ≤ String.length (escape_char c))%nat by (destruct c as [[] [] [] [] [] [] [] []]; vm_compute; lia). lia.
Qed.

Lemma value_print j : wf_json j → ∀ d f r, (String.length (print d j) < f)%nat → delim r →
  value f (print d j +:+ r) = Some (j, r).
Proof.
  induction j as [|b|lit|s|l IH|l IH] using json_ind'; intros Hw d f r Hf Hr; (destruct f as [|f]; [lia|]).
  - by destruct r.
  - by destruct b, r.
  - cbn [print]. destruct (int_lit_head lit Hw) as (c & t & -> & Hc).
    destruct (digit_head c Hc) as (Hs & H1 & H2 & H3 & _). cbn [value]. rewrite scons_app, skip_char by done.
    rewrite H1, H2, H3, Hc. rewrite <-scons_app, number_lit by done. done.
  - cbn [print] in *. unfold quote in *. rewrite !string_length_app in Hf. change (String.length dquote) with 1%nat in Hf.
    rewrite !sapp_assoc. unfold dquote at 1. rewrite scons_app. cbn [value]. rewrite skip_char by done.
    change ((N_of_ascii (ascii_of_N 34) =? 123)%N) with false. change ((N_of_ascii (ascii_of_N 34) =? 91)%N) with false.
    change ((N_of_ascii (ascii_of_N 34) =? 34)%N) with true. cbv iota. change ("" +:+ ?s) with s.
    pose proof (escape_length s). rewrite quoted_body; [done|lia].
  - apply wf_arr in Hw. destruct l as [|x l]; [reflexivity|].
    set (p := λ x, nl (S d) +:+ print (S d) x).
    change (print d (JArr (x :: l))) with ("[" +:+ commas (p <$> x :: l) +:+ nl d +:+ "]") in *.
    rewrite !string_length_app in Hf. cbn [String.length] in Hf. rewrite !sapp_assoc. change ("]" +:+ r) with (String "]" r).
    change ("[" +:+ ?s) with (String "[" s). cbn [value]. rewrite skip_char by done.
    change ((N_of_ascii "[" =? 123)%N) with false. change ((N_of_ascii "[" =? 91)%N) with true. cbv iota.
    destruct (print_head (S d) x) as (c & t & Hc & Hs & H1 & H2); [by apply Forall_cons in Hw as [? _]|].
    assert (∃ t', skip (commas (p <$> x :: l) +:+ nl d +:+ String "]" r) = String c t') as [t' ->].
    { destruct l as [|y l].
      - cbn [fmap list_fmap commas]. unfold p. rewrite !sapp_assoc, skip_nl, Hc, scons_app, skip_char by done. eauto.
      - change (p <$> x :: y :: l) with (p x :: p y :: (p <$> l)). rewrite commas_cons. unfold p.
        rewrite !sapp_assoc, skip_nl, Hc, scons_app, skip_char by done. eauto. }
    rewrite H1. rewrite elements_print; [done| |].
    + apply Forall_forall. intros y Hy r' Hr'. unfold p. rewrite sapp_assoc, <-value_skip, skip_nl, value_skip.
      rewrite Forall_forall in IH. apply IH; [done| | |done].
      * rewrite Forall_forall in Hw. by apply Hw.
      * assert (String.length (p y) ≤ String.length (commas (p <$> x :: l)))%nat as Hle
          by (apply commas_length, elem_of_list_fmap; eauto).
        unfold p in Hle at 1. rewrite string_length_app in Hle. lia.
    + assert (length (p <$> x :: l) ≤ String.length (commas (p <$> x :: l)))%nat as Hle.
      { apply commas_count, Forall_fmap, Forall_true. intros y. unfold p. cbn. rewrite string_length_app. cbn. lia. }
      rewrite fmap_length in Hle. cbn [length] in Hle. lia.
  - apply wf_obj in Hw. destruct l as [|x l]; [reflexivity|].
    change (print d (JObj (x :: l))) with ("{" +:+ commas (entry d <$> x :: l) +:+ nl d +:+ "}") in *.
    rewrite !string_length_app in Hf. cbn [String.length] in Hf. rewrite !sapp_assoc. change ("}" +:+ r) with (String "}" r).
    change ("{" +:+ ?s) with (String "{" s). cbn [value]. rewrite skip_char by done.
    change ((N_of_ascii "{" =? 123)%N) with true. cbv iota.
    assert (∃ t', skip (commas (entry d <$> x :: l) +:+ nl d +:+ String "}" r) = String (ascii_of_N 34) t') as [t' ->].
    { destruct l as [|y l].
      - cbn [fmap list_fmap commas]. unfold entry, quote, dquote. rewrite !sapp_assoc, skip_nl, scons_app, skip_char by done. eauto.
      - change (entry d <$> x :: y :: l) with (entry d x :: entry d y :: (entry d <$> l)). rewrite commas_cons. unfold entry at 1, quote, dquote.
        rewrite !sapp_assoc, skip_nl, scons_app, skip_char by done. eauto. }
    change ((N_of_ascii (ascii_of_N 34) =? 125)%N) with false. cbv iota.
    assert (length (entry d <$> x :: l) ≤ String.length (commas (entry d <$> x :: l)))%nat as Hlen.
    { apply commas_count, Forall_fmap, Forall_true. intros y. unfold entry. cbn. rewrite string_length_app. cbn. lia. }
    rewrite fmap_length in Hlen. cbn [length] in Hlen.
    rewrite entries_print; [done| |lia].
    apply Forall_forall. intros y Hy. rewrite Forall_forall in Hw. pose proof (Hw y Hy) as Hwy.
    assert (String.length (entry d y) ≤ String.length (commas (entry d <$> x :: l)))%nat as Hle
      by (apply commas_length, elem_of_list_fmap; eauto).
    unfold entry at 1, quote in Hle. rewrite !string_length_app in Hle. cbn [String.length] in Hle.
    pose proof (escape_length y.1). split.
    + intros r' Hr'. rewrite <-value_skip. change (skip (String " " ?s)) with (skip s). rewrite value_skip.
      rewrite Forall_forall in IH. apply IH; [done|done| |done]. lia.
    + assert (Forall (λ x, (0 < String.length x)%nat) (entry d <$> x :: l)) as Hpos.
      { apply Forall_fmap, Forall_true. intros z. unfold entry. cbn. rewrite string_length_app. cbn. lia. }
      assert (entry d y ∈ entry d <$> x :: l) as Hin by (apply elem_of_list_fmap; eauto).
      pose proof (commas_both _ _ Hin Hpos) as Hb.
      rewrite fmap_length in Hb. unfold entry at 1, quote in Hb. rewrite !string_length_app in Hb. cbn [String.length length] in Hb. lia.
Qed.
Lemma parse_print j : wf_json j → parse (print 0 j) = Some j.
Proof.
  intros Hw. unfold parse. pose proof (value_print j Hw 0 (S (String.length (print 0 j))) "" ltac:(lia) I) as H.
  rewrite sapp_nil_r in H. rewrite H. done.
Qed.

(** ** Texts cut short: a value read from a text is read again from any longer text *)
Lemma skip_app s c r x : skip s = String c r → skip (s +:+ x) = String c (r +:+ x).
Proof.
  induction s as [|d s IH]; [done|]. rewrite scons_app. cbn [skip]. destruct (json_space d); [done|]. by intros [= -> ->].
Qed.
Lemma digit_run_ext s x : ∀ a r, digit_run s = (a, r) → r ≠ "" → digit_run (s +:+ x) = (a, r +:+ x).
Proof.
  induction s as [|d s IH]; intros a r; [by intros [= <- <-]|]. rewrite scons_app. cbn [digit_run].
  destruct (is_digit d); [|by intros [= <- <-]]. destruct (digit_run s) as [a' r'] eqn:E. intros [= <- <-] Hr.
  by rewrite (IH _ _ eq_refl Hr).
Qed.
Lemma number_int_ext s a r x : number_int s = Some (a, r) → r ≠ "" → number_int (s +:+ x) = Some (a, r +:+ x).
Proof.
  unfold number_int. destruct (digit_run s) as [a' r'] eqn:E. intros H Hr.
  assert (r' = r) as -> by (destruct a' as [|c [|]]; [done| |destruct (_ =? _)%N; [done|]]; congruence).
  rewrite (digit_run_ext _ x _ _ E Hr). destruct a' as [|c [|]]; [done| |destruct (_ =? _)%N; [done|]]; congruence.
Qed.
Lemma number_frac_ext s a r x : number_frac s = Some (a, r) → r ≠ "" → number_frac (s +:+ x) = Some (a, r +:+ x).
Proof.
  destruct s as [|c s]; [by intros [= <- <-]|]. rewrite scons_app. cbn [number_frac].
  destruct (_ =? _)%N; [|by intros [= <- <-]].
  destruct (digit_run s) as [a' r'] eqn:E. intros H Hr.
  assert (r' = r) as -> by (destruct a'; congruence).
  rewrite (digit_run_ext _ x _ _ E Hr). destruct a'; congruence.
Qed.
Lemma number_exp_ext s a r x : number_exp s = Some (a, r) → r ≠ "" → number_exp (s +:+ x) = Some (a, r +:+ x).
Proof.
  destruct s as [|c s]; [by intros [= <- <-]|]. rewrite scons_app. cbn [number_exp].
  destruct (_ || _); [|by intros [= <- <-]].
  destruct s as [|d s]; [done|]. rewrite scons_app. destruct (_ || _).
  - destruct (digit_run s) as [a' r'] eqn:E. intros H Hr. assert (r' = r) as -> by (destruct a'; congruence).
    rewrite (digit_run_ext _ x _ _ E Hr). destruct a'; congruence.
  - rewrite <-scons_app. destruct (digit_run (String d s)) as [a' r'] eqn:E. intros H Hr.
    assert (r' = r) as -> by (destruct a'; congruence).
    rewrite (digit_run_ext _ x _ _ E Hr). destruct a'; congruence.
Qed.
Lemma number_ext s a r x : number s = Some (a, r) → r ≠ "" → number (s +:+ x) = Some (a, r +:+ x).
Proof.
  assert (∀ sg s1, match number_int s1 with
    | None => None
    | Some (a, s2) =>
        match number_frac s2 with
        | None => None
        | Some (f, s3) => match number_exp s3 with None => None | Some (e, s4) => Some (sg +:+ a +:+ f +:+ e, s4) end
        end
    end = Some (a, r) → r ≠ "" →
    match number_int (s1 +:+ x) with
    | None => None
    | Some (a, s2) =>
        match number_frac s2 with
        | None => None
        | Some (f, s3) => match number_exp s3 with None => None | Some (e, s4) => Some (sg +:+ a +:+ f +:+ e, s4) end
        end
    end = Some (a, r +:+ x)) as Hgen.
  { intros sg s1. destruct (number_int s1) as [[a1 s2]|] eqn:E1; [|done].
    destruct (number_frac s2) as [[a2 s3]|] eqn:E2; [|done]. destruct (number_exp s3) as [[a3 s4]|] eqn:E3; [|done].
    intros [= <- <-] Hr.
    assert (s3 ≠ "") as H3 by (intros ->; injection E3; congruence).
    assert (s2 ≠ "") as H2 by (intros ->; injection E2; congruence).
    rewrite (number_int_ext _ _ _ x E1 H2), (number_frac_ext _ _ _ x E2 H3), (number_exp_ext _ _ _ x E3 Hr). done. }
  unfold number. destruct s as [|c s]; [done|]. rewrite scons_app. destruct (_ =? _)%N; [apply Hgen|].
  rewrite <-scons_app. apply Hgen.
Qed.
Lemma unescape_ext s a r x : unescape s = Some (a, r) → unescape (s +:+ x) = Some (a, r +:+ x).
Proof.
  destruct s as [|c s]; [done|]. rewrite scons_app. cbn [unescape].
  do 6 (match goal with |- context [if ?b then _ else _] => destruct b end; [by intros [= <- <-]|]).
  match goal with |- context [if ?b then _ else _] => destruct b end; [|done].
  destruct s as [|c1 [|c2 [|c3 [|c4 s]]]]; try done. rewrite !scons_app.
  destruct (hex_digit_val c1), (hex_digit_val c2), (hex_digit_val c3), (hex_digit_val c4); try done.
  by intros [= <- <-].
Qed.
Lemma string_body_ext f : ∀ s k r x f', string_body f s = Some (k, r) → (f ≤ f')%nat →
  string_body f' (s +:+ x) = Some (k, r +:+ x).
Proof.
  induction f as [|f IH]; intros s k r x f' H Hf; [done|]. destruct f' as [|f']; [lia|].
  destruct s as [|c s]; [done|]. rewrite scons_app. cbn [string_body] in *.
  destruct (_ =? _)%N; [by injection H as <- <-|]. destruct (_ =? _)%N.
  - destruct (unescape s) as [[y r']|] eqn:E; [|done]. rewrite (unescape_ext _ _ _ x E).
    destruct (string_body f r') as [[z r'']|] eqn:E'; [|done]. injection H as <- <-.
    rewrite (IH _ _ _ x f' E') by lia. done.
  - destruct (_ <? _)%N; [done|]. destruct (string_body f s) as [[z r'']|] eqn:E'; [|done]. injection H as <- <-.
    rewrite (IH _ _ _ x f' E') by lia. done.
Qed.
Definition extends (v v' : string → option (json * string)) : Prop :=
  ∀ s j r x, v s = Some (j, r) → r ≠ "" → v' (s +:+ x) = Some (j, r +:+ x).
Lemma array_items_ext v v' : extends v v' → ∀ f s l r x f', array_items v f s = Some (l, r) → (f ≤ f')%nat →
  array_items v' f' (s +:+ x) = Some (l, r +:+ x).
Proof.
  intros Hv. induction f as [|f IH]; intros s l r x f' H Hf; [done|]. destruct f' as [|f']; [lia|]. cbn [array_items] in *.
  destruct (v s) as [[y r1]|] eqn:E; [|done].
  destruct (skip r1) as [|c r2] eqn:E1; [done|].
  assert (r1 ≠ "") as Hr by (by intros ->). rewrite (Hv _ _ _ x E Hr), (skip_app _ _ _ x E1).
  destruct (_ =? _)%N.
  - destruct (array_items v f r2) as [[l' r3]|] eqn:E2; [|done]. injection H as <- <-.
    rewrite (IH _ _ _ x f' E2) by lia. done.
  - destruct (_ =? _)%N; [|done]. by injection H as <- <-.
Qed.
Lemma object_items_ext v v' : extends v v' → ∀ f s l r x f', object_items v f s = Some (l, r) → (f ≤ f')%nat →
  object_items v' f' (s +:+ x) = Some (l, r +:+ x).
Proof.
  intros Hv. induction f as [|f IH]; intros s l r x f' H Hf; [done|]. destruct f' as [|f']; [lia|]. cbn [object_items] in *.
  destruct (skip s) as [|c0 r0] eqn:E0; [done|]. rewrite (skip_app _ _ _ x E0). destruct (_ =? _)%N; [|done].
  destruct (string_body f r0) as [[k r1]|] eqn:E1; [|done]. rewrite (string_body_ext _ _ _ _ x f' E1) by lia.
  destruct (skip r1) as [|c2 r2] eqn:E2; [done|]. rewrite (skip_app _ _ _ x E2). destruct (_ =? _)%N; [|done].
  destruct (v r2) as [[y r3]|] eqn:E; [|done].
  destruct (skip r3) as [|c r4] eqn:E3; [done|].
  assert (r3 ≠ "") as Hr by (by intros ->). rewrite (Hv _ _ _ x E Hr), (skip_app _ _ _ x E3).
  destruct (_ =? _)%N.
  - destruct (object_items v f r4) as [[l' r5]|] eqn:E4; [|done]. injection H as <- <-.
    rewrite (IH _ _ _ x f' E4) by lia. done.
  - destruct (_ =? _)%N; [|done]. by injection H as <- <-.
Qed.
Lemma strip_app p s x r : strip p s = Some r → strip p (s +:+ x) = Some (r +:+ x).
Proof.
  unfold strip. destruct (has_prefix s p) eqn:E; [|done]. intros [= <-].
  apply has_prefix_app in E as [k ->]. rewrite sapp_assoc, !sdrop_app.
  by rewrite (proj2 (has_prefix_app _ _) (ex_intro _ (k +:+ x) eq_refl)).
Qed.
Lemma strip_spec p s r : strip p s = Some r → s = p +:+ r.
Proof.
  unfold strip. destruct (has_prefix s p) eqn:E; [|done]. intros [= <-].
  apply has_prefix_app in E as [k ->]. by rewrite sdrop_app.
Qed.
Lemma value_ext f : ∀ s j r x f', value f s = Some (j, r) → (f ≤ f')%nat → (r ≠ "" ∨ ∀ lit, j ≠ JNum lit) →
  value f' (s +:+ x) = Some (j, r +:+ x).
Proof.
  induction f as [|f IH]; intros s j r x f' H Hf Hr; [done|]. destruct f' as [|f']; [lia|].
  assert (extends (value f) (value f')) as Hext by (intros ??????; apply IH; [done|lia|by left]).
  cbn [value] in *. destruct (skip s) as [|c r0] eqn:E0; [done|]. rewrite (skip_app _ _ _ x E0).
  destruct (N_of_ascii c =? 123)%N.
  { destruct (skip r0) as [|c' r1] eqn:E1; [done|]. rewrite (skip_app _ _ _ x E1).
    destruct (_ =? _)%N; [by injection H as <- <-|].
    destruct (object_items _ _ _) as [[l r2]|] eqn:E2 in H; [|done]. injection H as <- <-.
    rewrite (object_items_ext _ _ Hext _ _ _ _ x f' E2) by lia. done. }
  destruct (N_of_ascii c =? 91)%N.
  { destruct (skip r0) as [|c' r1] eqn:E1; [done|]. rewrite (skip_app _ _ _ x E1).
    destruct (_ =? _)%N; [by injection H as <- <-|].
    destruct (array_items _ _ _) as [[l r2]|] eqn:E2 in H; [|done]. injection H as <- <-.
    rewrite (array_items_ext _ _ Hext _ _ _ _ x f' E2) by lia. done. }
  destruct (N_of_ascii c =? 34)%N.
  { destruct (string_body f r0) as [[k r1]|] eqn:E1; [|done]. injection H as <- <-.
    rewrite (string_body_ext _ _ _ _ x f' E1) by lia. done. }
  destruct (_ || _).
  { destruct (number (String c r0)) as [[n r1]|] eqn:E1; [|done]. injection H as <- <-.
    destruct Hr as [Hr|Hr]; [|by destruct (Hr n)]. rewrite <-scons_app, (number_ext _ _ _ x E1 Hr). done. }
  rewrite <-scons_app. destruct (strip "null" (String c r0)) as [r1|] eqn:E1.
  { injection H as <- <-. by rewrite (strip_app _ _ x _ E1). }
  destruct (strip "true" (String c r0)) as [r1|] eqn:E2.
  { injection H as <- <-. rewrite (strip_app _ _ x _ E2). pose proof (strip_spec _ _ _ E2) as ->. done. }
  destruct (strip "false" (String c r0)) as [r1|] eqn:E3; [|done].
  injection H as <- <-. rewrite (strip_app _ _ x _ E3). pose proof (strip_spec _ _ _ E3) as ->. done.
Qed.

(** A text that stops before the end of a printed object is refused. *)
Lemma parse_cut l p x : wf_json (JObj l) → print 0 (JObj l) = p +:+ x → x ≠ "" → parse p = None.
Proof.
  intros Hw Hp Hx. unfold parse. destruct (value (S (String.length p)) p) as [[j r]|] eqn:E; [|done].
  destruct (skip r) as [|] eqn:Er; [|done]. exfalso.
  assert (∀ lit, j ≠ JNum lit) as Hj.
  { intros lit ->. destruct p as [|c p]; [done|].
    assert (c = "{"%char) as ->.
    { destruct l as [|y l]; cbn [print] in Hp; rewrite !scons_app in Hp; injection Hp as <- _; done. }
    cbn [value] in E. rewrite skip_char in E by done. change ((N_of_ascii "{" =? 123)%N) with true in E. cbv iota in E.
    destruct (skip p) as [|c' r']; [done|]. destruct (_ =? _)%N; [done|]. destruct (object_items _ _ _) as [[]|]; done. }
  pose proof (value_print (JObj l) Hw 0 (S (String.length (print 0 (JObj l)))) "" ltac:(lia) I) as Hfull.
  rewrite sapp_nil_r in Hfull.
  pose proof (value_ext _ _ _ _ x (S (String.length (print 0 (JObj l)))) E) as He.
  rewrite Hp, string_length_app in He. specialize (He ltac:(lia) (or_intror Hj)).
  rewrite Hp, string_length_app, He in Hfull. injection Hfull as _ Hnil.
  destruct r; [by destruct x|done].
Qed.
