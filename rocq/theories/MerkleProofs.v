(** Proofs about leaves, trees and Merkle proofs. *)
From Verif Require Import StringProofs RewardProofs.
From Verif Require Export MerkleSpec.

(** ** Strings *)
Lemma lower_ascii_idem c : lower_ascii (lower_ascii c) = lower_ascii c.
Proof. destruct c as [[] [] [] [] [] [] [] []]; reflexivity. Qed.
Lemma to_lower_idem s : to_lower (to_lower s) = to_lower s.
Proof. induction s as [|c s IH]; [done|]. cbn. by rewrite lower_ascii_idem, IH. Qed.

Lemma compare_refl a : String.compare a a = Eq.
Proof. induction a as [|x a IH]; [done|]. cbn. unfold Ascii.compare. by rewrite N.compare_refl. Qed.
Lemma compare_trans a b c : String.compare a b = Lt → String.compare b c = Lt → String.compare a c = Lt.
Proof.
  revert b c. induction a as [|x a IH]; intros [|y b] [|z c]; cbn; try done.
  unfold Ascii.compare. intros H1 H2.
  destruct (N.compare_spec (N_of_ascii x) (N_of_ascii y)) as [E1|E1|E1]; [| |done];
  destruct (N.compare_spec (N_of_ascii y) (N_of_ascii z)) as [E2|E2|E2]; try done.
  - rewrite E1, E2, N.compare_refl. eauto.
  - rewrite E1. apply N.compare_lt_iff in E2. by rewrite E2.
  - rewrite <-E2. apply N.compare_lt_iff in E1. by rewrite E1.
  - assert (N_of_ascii x < N_of_ascii z)%N as H by lia. apply N.compare_lt_iff in H. by rewrite H.
Qed.
Lemma leb_false a b : String.leb a b = false → String.compare b a = Lt.
Proof. unfold String.leb. rewrite (String.compare_antisym a b). by destruct (String.compare b a). Qed.
Lemma leb_true a b : String.leb a b = true → a ≠ b → String.compare a b = Lt.
Proof.
  unfold String.leb. destruct (String.compare a b) eqn:E; try done. intros _ H. by apply String.compare_eq_iff in E.
Qed.
Lemma ordered_sym a b : ordered a b = ordered b a.
Proof.
  unfold ordered, String.ltb. rewrite (String.compare_antisym b a).
  destruct (String.compare a b) eqn:E; try done. by apply String.compare_eq_iff in E as ->.
Qed.
Lemma pair_hash_ordered H a b : pair_hash H a b = H (ordered a b).
Proof.
  unfold pair_hash, ordered, String.leb, String.ltb. rewrite (String.compare_antisym b a).
  by destruct (String.compare a b).
Qed.
Lemma ordered_cases a b : ordered a b = a +:+ b ∨ ordered a b = b +:+ a.
Proof. unfold ordered. destruct (String.ltb a b); auto. Qed.
Lemma ordered_length a b : String.length (ordered a b) = (String.length a + String.length b)%nat.
Proof. destruct (ordered_cases a b) as [-> | ->]; rewrite string_length_app; lia. Qed.
Lemma ordered_inj a b c d k : String.length a = k → String.length b = k → String.length c = k → String.length d = k →
  ordered a b = ordered c d → (a = c ∧ b = d) ∨ (a = d ∧ b = c).
Proof.
  intros Ha Hb Hc Hd. destruct (ordered_cases a b) as [-> | ->], (ordered_cases c d) as [-> | ->];
    intros H; apply string_app_inj_l in H; [|congruence| |congruence| |congruence| |congruence]; destruct H; auto.
Qed.

(** ** Collecting the leaves *)

Definition hits (a : string) (l : rawleaf) : bool := String.eqb (to_lower (leaf_addr l)) (to_lower a).
Definition top_up (a : string) (z : Z) (l : rawleaf) : rawleaf :=
  if hits a l then RawLeaf (leaf_addr l) (leaf_bal l + z) else l.
Definition fits_len (a : string) (l : rawleaf) : bool := (String.length (leaf_addr l) =? String.length a)%nat.

Lemma add_to_leaf_spec a z ls :
  add_to_leaf a z ls = if forallb (fits_len a) ls then Ok (top_up a z <$> ls, existsb (hits a) ls)
                       else Die (Fatal "values length mismatch").
Proof.
  induction ls as [|l ls IH]; [done|]. cbn [add_to_leaf forallb existsb]. unfold equals, fits_len at 1.
  destruct (String.length (leaf_addr l) =? String.length a)%nat; [|done]. cbn [rbind andb]. rewrite IH.
  destruct (forallb (fits_len a) ls); [|done]. done.
Qed.

(** What a list of validators puts on an address. *)
Definition on_addr (a : string) (vs : list vinfo) : Z :=
  foldr Z.add 0%Z (v_acc <$> filter (λ v, to_lower (v_addr v) = a) vs).

Record collected (vs : list vinfo) (ls : list rawleaf) : Prop := Collected {
  col_nodup : NoDup (leaf_addr <$> ls);
  col_lower : ∀ l, l ∈ ls → to_lower (leaf_addr l) = leaf_addr l;
  col_iff : ∀ a, a ∈ leaf_addr <$> ls ↔ ∃ v, v ∈ vs ∧ to_lower (v_addr v) = a;
  col_bal : ∀ l, l ∈ ls → leaf_bal l = on_addr (leaf_addr l) vs }.

Lemma on_addr_snoc a vs v : on_addr a (vs ++ [v]) = (on_addr a vs + if decide (to_lower (v_addr v) = a) then v_acc v else 0)%Z.
Proof.
  unfold on_addr. rewrite filter_app, fmap_app, foldr_app. rewrite filter_cons, filter_nil.
  destruct (decide _); cbn.
  - generalize (v_acc <$> filter (λ v0, to_lower (v_addr v0) = a) vs). intros l. induction l as [|x l IH]; cbn; lia.
  - lia.
Qed.
Lemma on_addr_none a vs : (∀ v, v ∈ vs → to_lower (v_addr v) ≠ a) → on_addr a vs = 0%Z.
Proof.
  intros H. unfold on_addr. replace (filter _ vs) with (@nil vinfo); [done|].
  symmetry. apply elem_of_nil_inv. intros v [Hv Hin]%elem_of_list_filter. by apply (H v).
Qed.

Lemma top_up_addr a z l : leaf_addr (top_up a z l) = leaf_addr l.
Proof. unfold top_up. by destruct (hits a l). Qed.
Lemma top_up_addrs a z (ls : list rawleaf) : leaf_addr <$> (top_up a z <$> ls) = leaf_addr <$> ls.
Proof. rewrite <-list_fmap_compose. apply list_fmap_ext. intros i l _. apply top_up_addr. Qed.

Lemma collected_snoc vs ls v : collected vs ls →
  collected (vs ++ [v]) (let ls' := top_up (v_addr v) (v_acc v) <$> ls in
    if existsb (hits (v_addr v)) ls then ls' else ls' ++ [RawLeaf (to_lower (v_addr v)) (v_acc v)]).
Proof.
  intros [H1 H2 H3 H4]. cbv zeta.
  assert (∀ l, l ∈ top_up (v_addr v) (v_acc v) <$> ls → leaf_bal l = on_addr (leaf_addr l) (vs ++ [v])) as Hb.
  { intros l (l0 & -> & Hin)%elem_of_list_fmap. rewrite on_addr_snoc. rewrite top_up_addr. unfold top_up, hits.
    rewrite (H2 _ Hin). destruct (String.eqb_spec (leaf_addr l0) (to_lower (v_addr v))) as [E|E];
      (destruct (decide _) as [E2|E2]; [|]); try congruence; cbn; rewrite (H4 _ Hin); lia. }
  assert (∀ l, l ∈ top_up (v_addr v) (v_acc v) <$> ls → to_lower (leaf_addr l) = leaf_addr l) as Hlow.
  { intros l (l0 & -> & Hin)%elem_of_list_fmap. rewrite top_up_addr. auto. }
  destruct (existsb (hits (v_addr v)) ls) eqn:E.
  - apply existsb_exists in E as (l & Hin%elem_of_list_In & Hh). unfold hits in Hh. apply String.eqb_eq in Hh.
    rewrite (H2 _ Hin) in Hh. split; [by rewrite top_up_addrs|done| |done].
    intros a. rewrite top_up_addrs, H3. split.
    + intros (w & Hw & <-). exists w. set_solver.
    + intros (w & [Hw| ->%elem_of_list_singleton]%elem_of_app & <-); [eauto|].
      apply H3. apply elem_of_list_fmap. eauto.
  - assert (to_lower (v_addr v) ∉ leaf_addr <$> ls) as Hnew.
    { intros (l & Hl & Hin)%elem_of_list_fmap. apply not_true_iff_false in E. apply E. apply existsb_exists.
      exists l. split; [by apply elem_of_list_In|]. unfold hits. apply String.eqb_eq. rewrite <-Hl. by rewrite to_lower_idem. }
    split.
    + rewrite fmap_app, top_up_addrs. apply NoDup_app. split; [done|]. split; [|apply NoDup_singleton].
      intros x Hx Hx2. cbn in Hx2. apply elem_of_list_singleton in Hx2 as ->. done.
    + intros l [Hl| ->%elem_of_list_singleton]%elem_of_app; [auto|]. cbn. apply to_lower_idem.
    + intros a. rewrite fmap_app, top_up_addrs, elem_of_app, H3. cbn. rewrite elem_of_list_singleton. split.
      * intros [(w & Hw & <-)| ->]; [exists w|exists v]; set_solver.
      * intros (w & [Hw| ->%elem_of_list_singleton]%elem_of_app & <-); eauto.
    + intros l [Hl| ->%elem_of_list_singleton]%elem_of_app; [auto|]. cbn. rewrite on_addr_snoc.
      rewrite decide_True by done. rewrite on_addr_none; [lia|]. intros w Hw Hww. apply Hnew. apply H3. eauto.
Qed.

Definition one_length (vs : list vinfo) : Prop := ∀ v w, v ∈ vs → w ∈ vs → String.length (v_addr v) = String.length (v_addr w).

Lemma collect_spec vs : ∀ done ls, collected done ls → one_length done →
  (one_length (done ++ vs) ∧ ∃ out, collect vs ls = Ok out ∧ collected (done ++ vs) out) ∨
  (¬ one_length (done ++ vs) ∧ collect vs ls = Die (Fatal "values length mismatch")).
Proof.
  induction vs as [|v vs IH]; intros done ls Hc Ho.
  - left. rewrite app_nil_r. eauto.
  - cbn [collect]. rewrite add_to_leaf_spec. destruct (forallb (fits_len (v_addr v)) ls) eqn:E.
    + cbn [rbind]. pose proof (collected_snoc _ _ v Hc) as Hc'. cbv zeta in Hc'.
      assert (one_length (done ++ [v])) as Ho'.
      { assert (∀ w, w ∈ done → String.length (v_addr w) = String.length (v_addr v)) as Hd.
        { intros w Hw. assert (to_lower (v_addr w) ∈ leaf_addr <$> ls) as (l & Hl & Hin)%elem_of_list_fmap
            by (apply (col_iff _ _ Hc); eauto).
          rewrite forallb_forall in E. specialize (E l). rewrite <-elem_of_list_In in E. specialize (E Hin).
          unfold fits_len in E. apply Nat.eqb_eq in E. rewrite <-E, <-Hl. by rewrite to_lower_length. }
        intros w1 w2 [Hw1| ->%elem_of_list_singleton]%elem_of_app [Hw2| ->%elem_of_list_singleton]%elem_of_app; auto.
        symmetry; auto. }
      specialize (IH _ _ Hc' Ho'). by rewrite <-app_assoc in IH.
    + right. split; [|done]. intros Hall. apply not_true_iff_false in E. apply E. apply forallb_forall.
      intros l Hin%elem_of_list_In. unfold fits_len. apply Nat.eqb_eq.
      assert (leaf_addr l ∈ leaf_addr <$> ls) as Hl by (apply elem_of_list_fmap; eauto).
      apply (col_iff _ _ Hc) in Hl as (w & Hw & Hww). rewrite <-Hww, to_lower_length. apply Hall; set_solver.
Qed.

Lemma collected_nil : collected [] [].
Proof. split; try (by intros ? ?%elem_of_nil); [constructor|]. intros a. cbn. rewrite elem_of_nil. split; [done|]. intros (v & []%elem_of_nil & _). Qed.

Lemma collect_cases vs :
  (one_length vs ∧ ∃ out, collect vs [] = Ok out ∧ collected vs out) ∨
  (¬ one_length vs ∧ collect vs [] = Die (Fatal "values length mismatch")).
Proof. apply (collect_spec vs [] []); [apply collected_nil|]. by intros v w ?%elem_of_nil. Qed.

Lemma on_addr_perm a vs1 vs2 : vs1 ≡ₚ vs2 → on_addr a vs1 = on_addr a vs2.
Proof. intros H. apply foldr_add_perm. by rewrite H. Qed.

Lemma collected_elem vs ls l : collected vs ls →
  l ∈ ls ↔ (∃ v, v ∈ vs ∧ to_lower (v_addr v) = leaf_addr l) ∧ leaf_bal l = on_addr (leaf_addr l) vs.
Proof.
  intros [H1 H2 H3 H4]. split.
  - intros Hin. split; [|auto]. apply H3. apply elem_of_list_fmap. eauto.
  - intros [Hv Hb]. apply H3 in Hv as (l' & Hl' & Hin)%elem_of_list_fmap.
    assert (leaf_bal l' = leaf_bal l) by (rewrite Hb, (H4 _ Hin); by rewrite Hl').
    destruct l, l'. cbn in *. by subst.
Qed.
Lemma collected_perm vs1 vs2 l1 l2 : vs1 ≡ₚ vs2 → collected vs1 l1 → collected vs2 l2 → l1 ≡ₚ l2.
Proof.
  intros Hp C1 C2. apply NoDup_Permutation.
  - apply (NoDup_fmap_1 leaf_addr), C1.
  - apply (NoDup_fmap_1 leaf_addr), C2.
  - intros l. rewrite (collected_elem _ _ _ C1), (collected_elem _ _ _ C2). rewrite (on_addr_perm _ _ _ Hp).
    by setoid_rewrite Hp.
Qed.

(** Their sum is the sum of the accumulated rewards. *)
Lemma leafs_total_app a b : leafs_total (a ++ b) = (leafs_total a + leafs_total b)%Z.
Proof. unfold leafs_total in *. induction a as [|l a IH]; cbn; [done|]. rewrite IH. lia. Qed.
Lemma leafs_total_perm a b : a ≡ₚ b → leafs_total a = leafs_total b.
Proof. unfold leafs_total. induction 1; cbn; lia. Qed.
Lemma accs_total_perm a b : a ≡ₚ b → accs_total a = accs_total b.
Proof. unfold accs_total. induction 1; cbn; lia. Qed.
Lemma top_up_total a z (ls : list rawleaf) : NoDup (leaf_addr <$> ls) → (∀ l, l ∈ ls → to_lower (leaf_addr l) = leaf_addr l) →
  leafs_total (top_up a z <$> ls) = (leafs_total ls + if existsb (hits a) ls then z else 0)%Z.
Proof.
  induction ls as [|l ls IH]; intros Hnd Hlow; [done|]. cbn in Hnd. apply NoDup_cons in Hnd as [Hni Hnd].
  cbn [fmap list_fmap leafs_total foldr existsb]. fold (leafs_total (top_up a z <$> ls)) (leafs_total ls).
  rewrite IH by (try done; set_solver). unfold top_up at 1. destruct (hits a l) eqn:E; cbn [leaf_bal orb].
  - replace (existsb (hits a) ls) with false; [lia|]. symmetry. apply not_true_iff_false. intros Hex.
    apply existsb_exists in Hex as (l' & Hin%elem_of_list_In & Hl'). unfold hits in *. apply String.eqb_eq in E, Hl'.
    rewrite (Hlow l) in E by set_solver. rewrite (Hlow l') in Hl' by set_solver. apply Hni. apply elem_of_list_fmap.
    exists l'. split; [congruence|done].
  - lia.
Qed.
Lemma collect_total vs : ∀ done ls out, collected done ls → collect vs ls = Ok out → leafs_total out = (leafs_total ls + accs_total vs)%Z.
Proof.
  induction vs as [|v vs IH]; intros done ls out Hc; cbn [collect].
  - intros [= <-]. cbn. lia.
  - rewrite add_to_leaf_spec. destruct (forallb _ ls); [|done]. cbn [rbind]. intros H.
    eapply IH in H; [|apply (collected_snoc _ _ v Hc)]. rewrite H. cbn [accs_total foldr]. fold (accs_total vs).
    pose proof (top_up_total (v_addr v) (v_acc v) ls (col_nodup _ _ Hc) (col_lower _ _ Hc)) as Ht.
    destruct (existsb (hits (v_addr v)) ls); [lia|]. rewrite leafs_total_app. cbn. lia.
Qed.

(** ** Sorting *)
Lemma insert_perm l ls : insert_leaf l ls ≡ₚ l :: ls.
Proof. induction ls as [|k ls IH]; cbn; [done|]. destruct (String.leb _ _); [done|]. rewrite IH. apply perm_swap. Qed.
Lemma sort_perm ls : sort_leafs ls ≡ₚ ls.
Proof. induction ls as [|l ls IH]; cbn; [done|]. fold (sort_leafs ls). rewrite insert_perm. by constructor. Qed.
Definition leaf_lt (a b : rawleaf) : Prop := String.compare (leaf_addr a) (leaf_addr b) = Lt.
Lemma insert_sorted l ls : StronglySorted leaf_lt ls → leaf_addr l ∉ leaf_addr <$> ls → StronglySorted leaf_lt (insert_leaf l ls).
Proof.
  induction 1 as [|k ls Hs IH Hf]; intros Hni; cbn; [repeat constructor|].
  apply not_elem_of_cons in Hni as [Hne Hni].
  destruct (String.leb (leaf_addr l) (leaf_addr k)) eqn:E.
  - apply leb_true in E; [|done]. constructor; [by constructor|]. constructor; [done|].
    eapply Forall_impl; [exact Hf|]. intros x Hx. by eapply compare_trans.
  - apply leb_false in E. constructor; [auto|]. rewrite insert_perm. by constructor.
Qed.
Lemma sort_sorted ls : NoDup (leaf_addr <$> ls) → StronglySorted leaf_lt (sort_leafs ls).
Proof.
  induction ls as [|l ls IH]; cbn; [constructor|]. fold (sort_leafs ls). intros [Hni Hnd]%NoDup_cons.
  apply insert_sorted; [auto|]. by rewrite sort_perm.
Qed.
Lemma sorted_perm_eq l1 l2 : StronglySorted leaf_lt l1 → StronglySorted leaf_lt l2 → l1 ≡ₚ l2 → l1 = l2.
Proof.
  intros H1. revert l2. induction H1 as [|a l1 Hs1 IH Hf1]; intros l2 H2 Hp.
  - by apply Permutation_nil_l in Hp.
  - destruct H2 as [|b l2 Hs2 Hf2]; [by apply Permutation_nil_r in Hp|].
    assert (a = b) as ->.
    { assert (a ∈ b :: l2) as [Ha|Ha]%elem_of_cons by (rewrite <-Hp; by left); [done|].
      assert (b ∈ a :: l1) as [Hb|Hb]%elem_of_cons by (rewrite Hp; by left); [done|].
      rewrite Forall_forall in Hf1. specialize (Hf1 _ Hb). rewrite Forall_forall in Hf2. specialize (Hf2 _ Ha).
      unfold leaf_lt in *. pose proof (compare_trans _ _ _ Hf1 Hf2) as Hc. by rewrite compare_refl in Hc. }
    apply Permutation_cons_inv in Hp. f_equal. auto.
Qed.
Lemma sorted_increasing ls : StronglySorted leaf_lt ls → increasing (leaf_addr <$> ls).
Proof.
  induction 1 as [|l ls Hs IH Hf]; [constructor|]. constructor; [done|]. apply Forall_fmap. exact Hf.
Qed.

(** ** AggregateValidatorsIndexes *)
Definition good_leaf (l : rawleaf) : Prop := is_hex_address (leaf_addr l) = true ∧ to_lower (leaf_addr l) = leaf_addr l.
Lemma check_leafs_ok ls : check_leafs ls = Ok tt ↔ Forall good_leaf ls.
Proof.
  induction ls as [|l ls IH]; cbn [check_leafs]; [split; auto|].
  destruct (is_hex_address (leaf_addr l)) eqn:E1; cbn [negb].
  - destruct (String.eqb_spec (to_lower (leaf_addr l)) (leaf_addr l)) as [E2|E2]; cbn [negb].
    + rewrite IH. split; [intros; constructor; done|]. by intros [_ ?]%Forall_cons.
    + split; [done|]. by intros [[_ ?] _]%Forall_cons.
  - split; [done|]. intros [[? _] _]%Forall_cons. congruence.
Qed.

Lemma aggregate_inv E s out : aggregate E s = Ok out →
  ∃ ls, collect (e_iter E (st_vals s)).*2 [] = Ok ls ∧ collected (e_iter E (st_vals s)).*2 ls ∧
    out = RawLeaf (to_lower (st_fees_addr s)) (st_fees s) :: sort_leafs ls ∧ Forall good_leaf out ∧
    (∀ l, l ∈ ls → leaf_addr l ≠ to_lower (st_pool s)).
Proof.
  unfold aggregate. destruct (collect_cases (e_iter E (st_vals s)).*2) as [[Ho (ls & Hl & Hc)]|[_ ->]]; [|done].
  rewrite Hl. cbn [rbind]. destruct (negb _); [done|]. destruct (existsb _ _) eqn:Ex; [done|].
  destruct (check_leafs _) as [[]|] eqn:Hk; [|done]. cbn [rbind]. intros [= <-].
  exists ls. do 3 (split; [done|]). split; [by apply check_leafs_ok|]. intros l Hin Heq.
  apply not_true_iff_false in Ex. apply Ex. apply existsb_exists. exists l.
  split; [apply elem_of_list_In; by rewrite sort_perm|]. apply String.eqb_eq. rewrite <-Heq. by apply (col_lower _ _ Hc).
Qed.

Lemma iter_vals E s : wf_env E → (e_iter E (st_vals s)).*2 ≡ₚ (map_to_list (st_vals s)).*2.
Proof. intros W. by rewrite (wf_iter _ W). Qed.
Lemma vals_elem (m : gmap N vinfo) v : v ∈ (map_to_list m).*2 ↔ ∃ i, m !! i = Some v.
Proof.
  rewrite elem_of_list_fmap. split.
  - intros ([i w] & -> & Hin). exists i. by apply elem_of_map_to_list in Hin.
  - intros (i & Hi). exists (i, v). split; [done|]. by apply elem_of_map_to_list.
Qed.
Lemma withdraws_iter E s a : wf_env E →
  (∃ v, v ∈ (e_iter E (st_vals s)).*2 ∧ to_lower (v_addr v) = a) ↔ withdraws_to s a.
Proof.
  intros W. unfold withdraws_to. setoid_rewrite (iter_vals E s W). setoid_rewrite vals_elem. naive_solver.
Qed.
Lemma on_addr_vsum (m : gmap N vinfo) a : on_addr a (map_to_list m).*2 = vsum v_acc (filter (λ kv, to_lower (v_addr kv.2) = a) m).
Proof.
  induction m as [|i v m Hm IH] using map_ind.
  - by rewrite map_filter_empty.
  - assert (on_addr a (map_to_list (<[i:=v]> m)).*2 = on_addr a (v :: (map_to_list m).*2)) as ->.
    { apply on_addr_perm. by rewrite map_to_list_insert. }
    unfold on_addr in *. rewrite filter_cons. destruct (decide (to_lower (v_addr v) = a)) as [Ea|Ea].
    + cbn. rewrite IH. rewrite map_filter_insert_True by done. rewrite vsum_insert_new; [done|].
      apply map_filter_lookup_None. by left.
    + rewrite IH. rewrite map_filter_insert_False by done. by rewrite delete_notin by done.
Qed.
Lemma on_addr_iter E s a : wf_env E → to_lower a = a → on_addr a (e_iter E (st_vals s)).*2 = published a s.
Proof. intros W Ha. rewrite (on_addr_perm _ _ _ (iter_vals E s W)), on_addr_vsum. unfold published. by rewrite Ha. Qed.
Lemma accs_iter E s : wf_env E → accs_total (e_iter E (st_vals s)).*2 = vsum v_acc (st_vals s).
Proof.
  intros W. rewrite (accs_total_perm _ _ (iter_vals E s W)). unfold accs_total, vsum.
  induction ((map_to_list (st_vals s)).*2) as [|v l IH]; cbn; [done|]. by rewrite IH.
Qed.

(** C21 *)
Lemma aggregate_spec E s out : wf_env E → aggregate E s = Ok out →
  ∃ rest, out = RawLeaf (to_lower (st_fees_addr s)) (st_fees s) :: rest ∧
    increasing (leaf_addr <$> rest) ∧
    (∀ a, a ∈ leaf_addr <$> rest ↔ withdraws_to s a) ∧
    (∀ l, l ∈ rest → leaf_bal l = published (leaf_addr l) s) ∧
    (∀ l, l ∈ out → to_lower (leaf_addr l) = leaf_addr l ∧ is_hex_address (leaf_addr l) = true) ∧
    foldr (λ l z, leaf_bal l + z)%Z 0%Z out = (vsum v_acc (st_vals s) + st_fees s)%Z.
Proof.
  intros W (ls & Hl & Hc & -> & Hg & Hp)%aggregate_inv. exists (sort_leafs ls). split; [done|].
  split; [apply sorted_increasing, sort_sorted, Hc|].
  split. { intros a. rewrite sort_perm. rewrite (col_iff _ _ Hc). by apply withdraws_iter. }
  split. { intros l Hin. rewrite sort_perm in Hin. rewrite (col_bal _ _ Hc l Hin).
    apply on_addr_iter; [done|]. by apply (col_lower _ _ Hc). }
  split. { intros l Hin. rewrite Forall_forall in Hg. destruct (Hg _ Hin). done. }
  cbn [foldr leaf_bal]. fold (leafs_total (sort_leafs ls)). rewrite (leafs_total_perm _ _ (sort_perm ls)).
  rewrite (collect_total _ _ _ _ collected_nil Hl), (accs_iter _ _ W). cbn. lia.
Qed.

Lemma existsb_pool ls p : (∀ l, l ∈ ls → to_lower (leaf_addr l) ≠ to_lower p) →
  existsb (λ l, String.eqb (to_lower (leaf_addr l)) (to_lower p)) ls = false.
Proof.
  intros H. apply not_true_iff_false. intros (l & Hin%elem_of_list_In & E)%existsb_exists.
  apply String.eqb_eq in E. by apply (H l).
Qed.

(** When it succeeds. *)
Lemma aggregate_succeeds E s : wf_env E → pool_apart s →
  is_hex_address (to_lower (st_fees_addr s)) = true →
  (∀ i v, st_vals s !! i = Some v → String.length (v_addr v) = 42%nat ∧ is_hex_address (to_lower (v_addr v)) = true) →
  ∃ out, aggregate E s = Ok out.
Proof.
  intros W Hpool Hfees Hv. unfold aggregate.
  assert (∀ v, v ∈ (e_iter E (st_vals s)).*2 → ∃ i, st_vals s !! i = Some v) as Hin.
  { intros v H. rewrite (iter_vals E s W) in H. by apply vals_elem. }
  destruct (collect_cases (e_iter E (st_vals s)).*2) as [[Ho (ls & Hl & Hc)]|[Hno _]].
  - rewrite Hl. cbn [rbind]. rewrite (collect_total _ _ _ _ collected_nil Hl). cbn [leafs_total foldr].
    rewrite Z.add_0_l, Z.eqb_refl. cbn [negb]. rewrite existsb_pool.
    + destruct (check_leafs _) as [[]|d] eqn:Hk; [cbn; eauto|]. exfalso.
      assert (check_leafs (RawLeaf (to_lower (st_fees_addr s)) (st_fees s) :: sort_leafs ls) = Ok tt) as Hk'; [|congruence].
      apply check_leafs_ok. constructor.
      * split; [done|]. apply to_lower_idem.
      * rewrite sort_perm. apply Forall_forall. intros l Hli. split; [|by apply (col_lower _ _ Hc)].
        assert (leaf_addr l ∈ leaf_addr <$> ls) as Hla by (apply elem_of_list_fmap; eauto).
        apply (col_iff _ _ Hc) in Hla as (v & Hvv & <-). apply Hin in Hvv as (i & Hi). by apply (Hv i).
    + intros l Hli. rewrite sort_perm in Hli. rewrite (col_lower _ _ Hc l Hli). intros Heq. apply Hpool.
      rewrite <-Heq. apply (withdraws_iter E s _ W). apply (col_iff _ _ Hc). apply elem_of_list_fmap; eauto.
  - exfalso. apply Hno. intros v w [i Hi]%Hin [j Hj]%Hin. apply Hv in Hi as [-> _], Hj as [-> _]. done.
Qed.

(** C22 *)
Lemma aggregate_same E1 E2 s : wf_env E1 → wf_env E2 → aggregate E1 s = aggregate E2 s.
Proof.
  intros W1 W2. unfold aggregate.
  assert ((e_iter E1 (st_vals s)).*2 ≡ₚ (e_iter E2 (st_vals s)).*2) as Hp.
  { by rewrite (iter_vals E1 s W1), (iter_vals E2 s W2). }
  rewrite (accs_total_perm _ _ Hp).
  assert (one_length (e_iter E1 (st_vals s)).*2 ↔ one_length (e_iter E2 (st_vals s)).*2) as Hol.
  { unfold one_length. by setoid_rewrite Hp. }
  destruct (collect_cases (e_iter E1 (st_vals s)).*2) as [[Ho1 (l1 & H1 & C1)]|[Ho1 H1]],
    (collect_cases (e_iter E2 (st_vals s)).*2) as [[Ho2 (l2 & H2 & C2)]|[Ho2 H2]];
    rewrite H1, H2; cbn [rbind]; try tauto.
  pose proof (collected_perm _ _ _ _ Hp C1 C2) as Hll. rewrite (leafs_total_perm _ _ Hll).
  assert (sort_leafs l1 = sort_leafs l2) as ->; [|done].
  apply sorted_perm_eq; [apply sort_sorted, C1|apply sort_sorted, C2|]. by rewrite !sort_perm.
Qed.
