(** Proofs about the HTTP layer. *)
From Verif Require Import ApiProofs StringProofs.
From Verif Require Export HttpSpec.

(** ** Cleaning paths *)
Lemma split_parts s : Forall no_slash (split_at slash s).
Proof.
  induction s as [|c s IH]; [by apply Forall_singleton, not_elem_of_nil|]. cbn [split_at]. destruct (Ascii.eqb_spec c slash) as [->|Hc].
  - apply Forall_cons. split; [apply not_elem_of_nil|done].
  - pose proof (split_at_nonnil slash s) as Hn. destruct (split_at slash s) as [|w l]; [done|].
    apply Forall_cons in IH as [Hw Hl]. apply Forall_cons. split; [|done]. intros H. cbn in H. apply elem_of_cons in H as [H|H]; [|by apply Hw].
    by apply Hc.
Qed.
Lemma clean_segment l acc : Forall no_slash l → Forall segment acc → Forall segment (clean_segments l acc).
Proof.
  intros Hl. revert acc. induction Hl as [|w l Hw _ IH]; intros acc Hacc; cbn [clean_segments]; [by apply Forall_rev|].
  destruct (String.eqb_spec w "") as [|H1]; [by apply IH|]. destruct (String.eqb_spec w ".") as [|H2]; [by apply IH|]. cbn [orb].
  destruct (String.eqb_spec w "..") as [|H3]; apply IH; [destruct Hacc; [by apply Forall_nil|done]|]. apply Forall_cons. split; [|done]. by do 3 (split; [done|]).
Qed.
Lemma clean_skip l acc : clean_segments ("" :: l) acc = clean_segments l acc.
Proof. done. Qed.
Lemma clean_kept l acc : Forall segment l → clean_segments l acc = rev acc ++ l.
Proof.
  intros Hl. revert acc. induction Hl as [|w l (H1 & H2 & H3 & _) _ IH]; intros acc; cbn [clean_segments]; [by rewrite app_nil_r|].
  destruct (String.eqb_spec w ""); [done|]. destruct (String.eqb_spec w "."); [done|]. destruct (String.eqb_spec w ".."); [done|]. cbn [orb].
  rewrite IH. cbn [rev]. by rewrite <- app_assoc.
Qed.
Lemma clean_kept_last l acc : Forall segment l → clean_segments (l ++ [""]) acc = rev acc ++ l.
Proof.
  intros Hl. revert acc. induction Hl as [|w l (H1 & H2 & H3 & _) _ IH]; intros acc; cbn [clean_segments app]; [by rewrite app_nil_r|].
  destruct (String.eqb_spec w ""); [done|]. destruct (String.eqb_spec w "."); [done|]. destruct (String.eqb_spec w ".."); [done|]. cbn [orb].
  rewrite IH. cbn [rev]. by rewrite <- app_assoc.
Qed.
Lemma join_spelled l : l ≠ [] → String slash (join_segments l) = spelled_path l.
Proof.
  induction l as [|w l IH]; [done|]. intros _. destruct l as [|v l].
  - cbn [join_segments spelled_path]. by rewrite string_app_nil_r.
  - specialize (IH ltac:(done)). cbn [spelled_path] in IH |- *. rewrite <- IH. done.
Qed.
Lemma split_spelled l : Forall segment l → l ≠ [] → split_at slash (spelled_path l) = "" :: l.
Proof.
  induction l as [|w l IH]; [done|]. intros (Hw & Hl)%Forall_cons _.
  change (spelled_path (w :: l)) with (String slash (w +:+ spelled_path l)). cbn [split_at]. rewrite Ascii.eqb_refl. f_equal.
  destruct l as [|v l]; [cbn [spelled_path]; rewrite string_app_nil_r; apply split_at_free; apply Hw|].
  specialize (IH Hl ltac:(done)). change (spelled_path (v :: l)) with (String slash (v +:+ spelled_path l)) in *.
  rewrite split_at_app by apply Hw. cbn [split_at] in IH. rewrite Ascii.eqb_refl in IH. by injection IH as ->.
Qed.
Lemma split_spelled_last l : Forall segment l → split_at slash (spelled_path l +:+ "/") = "" :: l ++ [""].
Proof.
  induction l as [|w l IH]; [done|]. intros (Hw & Hl)%Forall_cons.
  change (spelled_path (w :: l) +:+ "/") with (String slash ((w +:+ spelled_path l) +:+ "/")). cbn [split_at]. rewrite Ascii.eqb_refl. f_equal.
  rewrite string_app_assoc. specialize (IH Hl). cbn [app]. destruct l as [|v l].
  - change (spelled_path [] +:+ "/") with (String slash ""). rewrite split_at_app by apply Hw. done.
  - change (spelled_path (v :: l) +:+ "/") with (String slash ((v +:+ spelled_path l) +:+ "/")) in *.
    rewrite split_at_app by apply Hw. cbn [split_at] in IH. rewrite Ascii.eqb_refl in IH. by injection IH as ->.
Qed.
Lemma ends_with_app c a b : b ≠ "" → ends_with c (a +:+ b) = ends_with c b.
Proof.
  intros Hb. induction a as [|x a IH]; [done|]. change (String x a +:+ b) with (String x (a +:+ b)). cbn [ends_with].
  destruct (a +:+ b) eqn:He; [|exact IH]. by destruct a.
Qed.
Lemma ends_with_free c a : sep_free c a → ends_with c a = false.
Proof.
  induction a as [|x a IH]; [done|]. unfold sep_free in *. cbn [list_ascii_of_string]. rewrite not_elem_of_cons. intros [Hx Ha]. cbn [ends_with].
  destruct a; [|by apply IH]. apply Ascii.eqb_neq. congruence.
Qed.
Lemma spelled_nonempty l : l ≠ [] → spelled_path l ≠ "".
Proof. by destruct l. Qed.
Lemma ends_with_spelled l : Forall segment l → l ≠ [] → ends_with slash (spelled_path l) = false.
Proof.
  induction l as [|w l IH]; [done|]. intros (Hw & Hl)%Forall_cons _. cbn [spelled_path]. destruct l as [|v l].
  - cbn [spelled_path]. rewrite string_app_nil_r, ends_with_app by apply Hw. apply ends_with_free, Hw.
  - rewrite ends_with_app; [|by destruct w]. rewrite ends_with_app by done. by apply IH.
Qed.
Lemma clean_canonical p : canonical (clean_path p).
Proof.
  unfold clean_path. destruct p as [|c r]; [by left|]. cbv zeta. set (q := if Ascii.eqb c slash then String c r else String slash (String c r)).
  pose proof (clean_segment (split_at slash q) [] (split_parts q) ltac:(done)) as Hs.
  destruct (clean_segments (split_at slash q) []) as [|w l] eqn:He.
  - cbn [join_segments]. rewrite andb_false_r. by left.
  - rewrite join_spelled by done. right. exists (w :: l). split; [done|]. split; [done|]. destruct (_ && _); [by right|by left].
Qed.
Lemma canonical_clean p : canonical p → clean_path p = p.
Proof.
  intros [->|(l & Hn & Hl & Hp)]; [done|].
  destruct l as [|w l]; [done|]. assert (∃ r, p = String slash r) as [r Hr].
  { destruct Hp as [->| ->]; by eexists. }
  unfold clean_path. rewrite Hr. cbv zeta. rewrite Ascii.eqb_refl, <- Hr. destruct Hp as [Hp|Hp].
  - rewrite Hp, split_spelled by done. rewrite clean_skip, clean_kept by done. cbn [rev app].
    rewrite join_spelled, ends_with_spelled by done. done.
  - rewrite Hp, split_spelled_last by done. rewrite clean_skip, clean_kept_last by done. cbn [rev app].
    rewrite join_spelled by done. assert (ends_with slash (spelled_path (w :: l) +:+ "/") = true) as -> by (by rewrite (ends_with_last slash _ slash)).
    destruct (String.eqb_spec (spelled_path (w :: l)) "/") as [H|]; [|done].
    apply (ends_with_spelled _ Hl) in Hn. by rewrite H in Hn.
Qed.
Lemma clean_fixed p : clean_path p = p ↔ canonical p.
Proof. split; [intros <-; apply clean_canonical|apply canonical_clean]. Qed.

(** ** Routing *)
Lemma no_slash_sforall v : sforall (λ c, negb (Ascii.eqb c slash)) v = true ↔ no_slash v.
Proof.
  rewrite sforall_spec, Forall_forall. unfold no_slash. split.
  - intros H Hin. specialize (H _ Hin). done.
  - intros H x Hx. destruct (Ascii.eqb_spec x slash) as [->|]; [|done]. by destruct H.
Qed.
Lemma segment_path1 a v : segment a → segment v → canonical ("/" +:+ a +:+ "/" +:+ v).
Proof.
  intros Ha Hv. right. exists [a; v]. split; [done|]. split; [apply Forall_cons; split; [done|]; by apply Forall_singleton|]. left. cbn [spelled_path]. by rewrite string_app_nil_r.
Qed.
Lemma segment_path2 a b v : segment a → segment b → segment v → canonical ("/" +:+ a +:+ "/" +:+ b +:+ "/" +:+ v).
Proof.
  intros Ha Hb Hv. right. exists [a; b; v]. split; [done|]. split; [apply Forall_cons; split; [done|]; apply Forall_cons; split; [done|]; by apply Forall_singleton|]. left. cbn [spelled_path]. by rewrite string_app_nil_r.
Qed.
Ltac seg := do 3 (split; [discriminate|]); unfold no_slash; cbn [list_ascii_of_string]; rewrite ?not_elem_of_cons; repeat (split; [discriminate|]); apply not_elem_of_nil.
Lemma documented_canonical p r : documented p r → canonical p.
Proof.
  destruct 1.
  all: first [apply (segment_path1 "registeredrelays" v); [seg|done] | apply (segment_path2 "memory" "validator" v); [seg|seg|done]
    | apply (segment_path2 "memory" "validatorsbyindex" v); [seg|seg|done] | apply (segment_path2 "memory" "validators" v); [seg|seg|done]
    | apply (segment_path2 "onchain" "proof" v); [seg|seg|done] | apply clean_fixed; vm_compute; reflexivity].
Qed.
Lemma match_followed s n v : segment v → match_template (Followed s n) (s +:+ v) = Some v.
Proof.
  intros (H1 & _ & _ & H4). unfold match_template. rewrite (proj2 (has_prefix_app _ s)) by eauto. rewrite sdrop_app. cbv zeta.
  destruct (String.eqb_spec v ""); [done|]. by rewrite (proj2 (no_slash_sforall v) H4).
Qed.

Definition matching (p : string) : list (template * request) :=
  omap (λ x, v ← match_template x.1 p; Some (x.1, x.2 v)) routes.
Lemma match_template_spec t p v : match_template t p = Some v →
  match t with Fixed s => p = s ∧ v = "" | Followed s _ => p = s +:+ v ∧ v ≠ "" ∧ no_slash v end.
Proof.
  destruct t as [s|s n]; cbn [match_template].
  - destruct (String.eqb_spec p s); [|discriminate]. by intros [= <-].
  - destruct (has_prefix p s) eqn:Hp; [|discriminate]. apply has_prefix_app in Hp as [k ->]. rewrite sdrop_app. cbv zeta.
    destruct (String.eqb_spec k "") as [|Hk]; [discriminate|]. cbn [orb]. destruct (sforall _ k) eqn:Hs; cbn [negb]; [|discriminate].
    intros [= <-]. split; [done|]. split; [done|]. by apply no_slash_sforall.
Qed.
Lemma match_routes_spec l m p b :
  match_routes l m p b =
  match omap (λ x, v ← match_template x.1 p; Some (x.1, x.2 v)) l with
  | [] => if b then NotAllowed else NotFound
  | (t, r) :: _ => if String.eqb m "GET" then Handle r t else NotAllowed
  end.
Proof.
  revert b. induction l as [|[t f] l IH]; intros b; [done|]. cbn [match_routes omap list_omap fst snd].
  destruct (match_template t p) as [v|]; cbn [mbind option_bind]; [|by rewrite IH]. destruct (String.eqb m "GET") eqn:Hm; [done|].
  rewrite IH. destruct (omap _ l) as [|[t' r'] l']; [done|]. done.
Qed.
Lemma matching_documented p t r : canonical p → (t, r) ∈ matching p → documented p r.
Proof.
  intros Hc. unfold matching, routes. intros (x & Hin & Hx)%elem_of_list_omap.
  assert (∀ s v, p = s +:+ v → v ≠ "" → no_slash v → clean_path (s +:+ ".") ≠ s +:+ "." → clean_path (s +:+ "..") ≠ s +:+ ".." → segment v) as Hseg.
  { intros s v Hp H1 H2 H3 H4. split; [done|]. split; [|split; [|done]]; intros ->; subst p; by apply clean_fixed in Hc. }
  rewrite !elem_of_cons, elem_of_nil in Hin.
  repeat destruct Hin as [->|Hin]; [..|done]; cbn [fst snd] in Hx; destruct (match_template _ p) as [v|] eqn:Hm; try discriminate Hx; cbn [mbind option_bind] in Hx;
    injection Hx as <- <-; apply match_template_spec in Hm; cbn in Hm.
  all: try (destruct Hm as [-> _]; by constructor).
  all: destruct Hm as (Hp & H1 & H2); pose proof (Hseg _ _ Hp H1 H2 ltac:(by vm_compute) ltac:(by vm_compute)); subst p; by constructor.
Qed.
Lemma matching_cons t f l p : omap (λ x, v ← match_template x.1 p; Some (x.1, x.2 v)) ((t, f) :: l : list (template * (string → request))) =
  match match_template t p with
  | Some v => (t, f v) :: omap (λ x, v ← match_template x.1 p; Some (x.1, x.2 v)) l
  | None => omap (λ x, v ← match_template x.1 p; Some (x.1, x.2 v)) l
  end.
Proof. cbn [omap list_omap fst snd]. by destruct (match_template t p). Qed.
Lemma prefix_none s n p : has_prefix p s = false → match_template (Followed s n) p = None.
Proof. cbn [match_template]. by intros ->. Qed.
Lemma fixed_none s p : String.eqb p s = false → match_template (Fixed s) p = None.
Proof. cbn [match_template]. by intros ->. Qed.
Ltac pick := rewrite matching_cons; first [rewrite match_followed by done | rewrite prefix_none by reflexivity | rewrite fixed_none by reflexivity].
Lemma documented_matching p r : documented p r → ∃ t, matching p = [(t, r)].
Proof.
  destruct 1.
  - eexists. unfold matching. vm_compute. reflexivity.
  - eexists. unfold matching. vm_compute. reflexivity.
  - eexists. unfold matching. vm_compute. reflexivity.
  - exists (Followed "/registeredrelays/" "valpubkey"). unfold matching, routes. do 17 pick. reflexivity.
  - eexists. unfold matching. vm_compute. reflexivity.
  - eexists. unfold matching. vm_compute. reflexivity.
  - exists (Followed "/memory/validator/" "valindex"). unfold matching, routes. do 17 pick. reflexivity.
  - exists (Followed "/memory/validatorsbyindex/" "valindices"). unfold matching, routes. do 17 pick. reflexivity.
  - exists (Followed "/memory/validators/" "withdrawalAddress"). unfold matching, routes. do 17 pick. reflexivity.
  - eexists. unfold matching. vm_compute. reflexivity.
  - eexists. unfold matching. vm_compute. reflexivity.
  - eexists. unfold matching. vm_compute. reflexivity.
  - eexists. unfold matching. vm_compute. reflexivity.
  - eexists. unfold matching. vm_compute. reflexivity.
  - eexists. unfold matching. vm_compute. reflexivity.
  - eexists. unfold matching. vm_compute. reflexivity.
  - exists (Followed "/onchain/proof/" "withdrawalAddress"). unfold matching, routes. do 17 pick. reflexivity.
Qed.
Lemma route_matching m p : canonical p → route m p =
  if String.eqb m "OPTIONS" then Preflight else
  match matching p with [] => NotFound | (t, r) :: _ => if String.eqb m "GET" then Handle r t else NotAllowed end.
Proof.
  intros Hp%clean_fixed. unfold route. rewrite Hp, String.eqb_refl. cbn [negb]. destruct (String.eqb m "OPTIONS"); [done|].
  apply (match_routes_spec routes m p false).
Qed.
Lemma route_matching_get p : canonical p → route "GET" p = match matching p with [] => NotFound | (t, r) :: _ => Handle r t end.
Proof. intros Hp. rewrite (route_matching "GET" p Hp). generalize (matching p). intros l. reflexivity. Qed.
Lemma route_options p : route "OPTIONS" p = Preflight.
Proof. reflexivity. Qed.
Lemma route_get p r : (∃ t, route "GET" p = Handle r t) ↔ documented p r.
Proof.
  split.
  - intros [t Hr]. assert (canonical p) as Hc.
    { apply clean_fixed. unfold route in Hr. cbn [String.eqb] in Hr. destruct (String.eqb_spec (clean_path p) p); [done|]. discriminate Hr. }
    rewrite (route_matching_get p Hc) in Hr.
    destruct (matching p) as [|[t' r'] l] eqn:Hm; [discriminate Hr|]. injection Hr as -> ->.
    apply (matching_documented p t r Hc). rewrite Hm. left.
  - intros Hd. destruct (documented_matching p r Hd) as [t Ht]. exists t. by rewrite (route_matching_get p (documented_canonical p r Hd)), Ht.
Qed.
Lemma route_methods m p r t : route m p = Handle r t → m = "GET".
Proof.
  unfold route. destruct (String.eqb m "OPTIONS"); [discriminate|]. destruct (negb _); [discriminate|].
  rewrite match_routes_spec. destruct (omap _ routes) as [|[t' r'] l]; [discriminate|]. destruct (String.eqb_spec m "GET"); [done|discriminate].
Qed.
Lemma route_refused m p r : documented p r → m ≠ "GET" → m ≠ "OPTIONS" → route m p = NotAllowed.
Proof.
  intros Hd H1 H2. destruct (documented_matching p r Hd) as [t Ht]. rewrite (route_matching m p (documented_canonical p r Hd)), Ht.
  destruct (String.eqb_spec m "OPTIONS"); [done|]. by destruct (String.eqb_spec m "GET").
Qed.
Lemma route_unknown m p : canonical p → (∀ r, ¬ documented p r) → m ≠ "OPTIONS" → route m p = NotFound.
Proof.
  intros Hc Hd Hm. rewrite (route_matching m p Hc). destruct (String.eqb_spec m "OPTIONS"); [done|].
  destruct (matching p) as [|[t r] l] eqn:He; [done|]. exfalso. apply (Hd r), (matching_documented p t r Hc). rewrite He. left.
Qed.
Lemma route_moved m p q : route m p = Moved q → ¬ canonical p ∧ canonical q ∧ ∀ q', route m q ≠ Moved q'.
Proof.
  assert (∀ m p q, route m p = Moved q → clean_path p ≠ p ∧ q = clean_path p) as Hr.
  { clear. intros m p q. unfold route. destruct (String.eqb m "OPTIONS"); [discriminate|].
    destruct (String.eqb_spec (clean_path p) p); cbn [negb]; [|by intros [= <-]].
    rewrite match_routes_spec. destruct (omap _ routes) as [|[t' r'] l]; [discriminate|]. destruct (String.eqb m "GET"); discriminate. }
  intros [H1 ->]%Hr. rewrite <- clean_fixed. split; [done|]. split; [apply clean_canonical|].
  intros q' [H2 _]%Hr. apply H2, clean_fixed, clean_canonical.
Qed.
Lemma moved_iff m p : m ≠ "OPTIONS" → (∃ q, route m p = Moved q) ↔ ¬ canonical p.
Proof.
  intros Hm. split.
  - intros [q Hq]. by apply route_moved in Hq as [? _].
  - intros Hc. exists (clean_path p). unfold route. destruct (String.eqb_spec m "OPTIONS"); [done|].
    destruct (String.eqb_spec (clean_path p) p) as [He|]; [|done]. by apply clean_fixed in He.
Qed.
Lemma http_unchanged sha m p w o : m ≠ "GET" ∨ (∀ r, ¬ documented p r) → after_http sha m p w o = o.
Proof.
  intros H. unfold after_http. destruct (route m p) as [| | | |r t] eqn:Hr; try done. exfalso.
  pose proof (route_methods _ _ _ _ Hr) as ->. destruct H as [|H]; [done|]. apply (H r), route_get. eauto.
Qed.

(** ** Counting *)
Lemma delegate_spec l d : (delegate_all l d).1 = Delegator
    (fold_left (λ s x, match x with WHeader c => c | _ => s end) l (if dg_wrote d then dg_status d else match l with WBody _ :: _ => 200%N | _ => dg_status d end))
    (dg_written d + sent_bytes l) (dg_wrote d || match l with [] => false | _ => true end).
Proof.
  revert d. induction l as [|x l IH]; intros [s n b].
  - cbn. rewrite orb_false_r, N.add_0_r. by destruct b.
  - cbn [delegate_all]. destruct (delegate x (Delegator s n b)) as [d1 out] eqn:Hd.
    destruct (delegate_all l d1) as [d2 out2] eqn:H2. cbn [fst].
    assert (d2 = (delegate_all l d1).1) as -> by (by rewrite H2). rewrite IH.
    destruct x as [c|k]; [cbn in Hd; injection Hd as <- _; cbn; by destruct b|].
    destruct b; cbn in Hd; injection Hd as <- _; cbn [dg_status dg_written dg_wrote fold_left orb sent_bytes foldr];
      by rewrite N.add_assoc.
Qed.
Lemma delegate_out l d : sent_bytes (delegate_all l d).2 = sent_bytes l ∧ (dg_wrote d = false → l ≠ [] → sent_status (delegate_all l d).2 = sent_status l).
Proof.
  revert d. induction l as [|x l IH]; intros [s n b]; [done|].
  cbn [delegate_all]. destruct (delegate x (Delegator s n b)) as [d1 out] eqn:Hd.
  destruct (IH d1) as [IH1 _]. destruct (delegate_all l d1) as [d2 out2]. cbn [fst snd] in *.
  assert (∀ a b, sent_bytes (a ++ b) = (sent_bytes a + sent_bytes b)%N) as Happ.
  { clear. intros a b. induction a as [|[c|k] a IH]; [done|exact IH|].
    change (sent_bytes ((WBody k :: a) ++ b)) with (k + sent_bytes (a ++ b))%N. change (sent_bytes (WBody k :: a)) with (k + sent_bytes a)%N. rewrite IH. lia. }
  rewrite Happ, IH1. destruct x as [c|k]; [cbn in Hd; injection Hd as _ <-; done|].
  change (sent_bytes (WBody k :: l)) with (k + sent_bytes l)%N.
  destruct b; cbn in Hd; injection Hd as _ <-; unfold sent_bytes at 1; cbn [app foldr]; (split; [lia|done]).
Qed.
Lemma counted_status l : header_first l → l ≠ [] → dg_status (delegate_all l new_delegator).1 = sent_status (delegate_all l new_delegator).2.
Proof.
  intros Hf Hl. rewrite (proj2 (delegate_out l new_delegator)) by done. rewrite delegate_spec. cbn [dg_status dg_wrote new_delegator].
  assert (∀ l' s, (∀ c, WHeader c ∉ l') → fold_left (λ s x, match x with WHeader c => c | WBody _ => s end) l' s = s) as Hfold.
  { clear. induction l' as [|x l' IH]; intros s H; [done|]. cbn [fold_left]. destruct x as [c|k]; [destruct (H c); left|]. apply IH.
    intros c Hc. apply (H c). by right. }
  destruct l as [|x l]; [done|]. assert (∀ c, WHeader c ∉ l) as Hno.
  { intros c (pre & post & ->)%elem_of_list_split. specialize (Hf (x :: pre) c post eq_refl). done. }
  destruct x as [c|k]; cbn [fold_left sent_status]; by rewrite Hfold.
Qed.
Lemma matching_routes p t r : (t, r) ∈ matching p → t ∈ routes.*1.
Proof.
  unfold matching. generalize routes. intros l (x & Hin & Hx)%elem_of_list_omap.
  destruct (match_template x.1 p); [|discriminate Hx]. cbn in Hx. injection Hx as <- _. by apply elem_of_list_fmap_1.
Qed.
Lemma http_counted sha E m p len w o a c ml pl : http sha E m p len w o = Ok (a, Some (c, ml, pl)) →
  ∃ rep r t, a = FromHandler rep ∧ m = "GET" ∧ documented p r ∧ serve sha E r w o = Ok rep ∧ ml = "get" ∧ pl = template_text t ∧ t ∈ routes.*1 ∧
    (len rep ≠ None → c = reply_status rep).
Proof.
  unfold http. destruct (route m p) as [| | | |r t] eqn:Hr; try discriminate. destruct (serve sha E r w o) as [rep|] eqn:Hs; [|discriminate].
  cbn [rbind]. intros H. injection H as <- <- <- <-. pose proof (route_methods _ _ _ _ Hr) as ->.
  assert (documented p r) as Hd by (apply route_get; eauto). exists rep, r, t. do 4 (split; [done|]). split; [by vm_compute|]. split; [done|]. split.
  - rewrite (route_matching_get p (documented_canonical p r Hd)) in Hr.
    destruct (matching p) as [|[t' r'] l] eqn:Hm; [discriminate Hr|]. injection Hr as -> ->.
    apply (matching_routes p t r). rewrite Hm. left.
  - intros Hl. destruct (len rep) as [n|]; [|done]. done.
Qed.
Lemma http_answered sha E p r len w o rep : documented p r → serve sha E r w o = Ok rep →
  ∃ l, http sha E "GET" p len w o = Ok (FromHandler rep, Some l).
Proof. intros [t Ht]%route_get Hs. unfold http. rewrite Ht, Hs. cbn [rbind]. by eexists. Qed.
Lemma http_never sha E m p len w o a r : http sha E m p len w o = Ok (a, None) → ∃ code, a = Plain code ∧ ¬ (m = "GET" ∧ documented p r).
Proof.
  unfold http. destruct (route m p) as [| | | |r' t] eqn:Hr; [..|by destruct (serve _ _ _ _ _)].
  all: intros H; injection H as <-; eexists; split; [reflexivity|]; intros [-> [t Ht]%route_get]; congruence.
Qed.
Lemma http_plain sha E m p len w o c : (∃ x, http sha E m p len w o = Ok (Plain c, x)) ↔ plain_status m p c.
Proof.
  split.
  - intros [x Hx]. unfold http in Hx. destruct (decide (m = "OPTIONS")) as [->|Hm].
    { rewrite route_options in Hx. injection Hx as <- _. by apply plain_preflight. }
    destruct (decide (clean_path p = p)) as [Hc%clean_fixed|Hc].
    2: { rewrite clean_fixed in Hc. destruct (proj2 (moved_iff m p Hm) Hc) as [q Hq]. rewrite Hq in Hx. injection Hx as <- _. by apply plain_moved. }
    rewrite (route_matching m p Hc) in Hx. destruct (String.eqb_spec m "OPTIONS"); [done|].
    destruct (matching p) as [|[t r] l] eqn:He.
    + injection Hx as <- _. apply plain_unknown; [done..|]. intros r Hd. destruct (documented_matching p r Hd) as [t Ht]. congruence.
    + assert (documented p r) as Hd by (apply (matching_documented p t r Hc); rewrite He; left).
      destruct (String.eqb_spec m "GET") as [->|Hg]; [by destruct (serve _ _ _ _ _)|]. injection Hx as <- _. by eapply plain_method.
  - unfold http. intros [->|Hm Hc|Hm Hc Hd|r Hm Hg Hd].
    + rewrite route_options. by eexists.
    + destruct (proj2 (moved_iff m p Hm) Hc) as [q Hq]. rewrite Hq. by eexists.
    + rewrite (route_unknown m p Hc Hd Hm). by eexists.
    + rewrite (route_refused m p r Hd Hg Hm). by eexists.
Qed.
Lemma counted_bytes l : dg_written (delegate_all l new_delegator).1 = sent_bytes l.
Proof. by rewrite delegate_spec. Qed.
