(** Reward sharing: characterisation of [increase_all]. *)
From Verif Require Export Spec.

(** ** Sums *)

Lemma foldr_add_perm (l1 l2 : list Z) : l1 ≡ₚ l2 → foldr Z.add 0%Z l1 = foldr Z.add 0%Z l2.
Proof. induction 1; cbn; lia. Qed.
Lemma foldr_add_app (l1 l2 : list Z) : foldr Z.add 0%Z (l1 ++ l2) = (foldr Z.add 0 l1 + foldr Z.add 0 l2)%Z.
Proof. induction l1; cbn; lia. Qed.

Lemma vsum_empty f : vsum f ∅ = 0%Z.
Proof. unfold vsum. by rewrite map_to_list_empty. Qed.
Lemma vsum_insert_new f m i v : m !! i = None → vsum f (<[i:=v]> m) = (f v + vsum f m)%Z.
Proof.
  intros H. unfold vsum.
  rewrite (foldr_add_perm _ (f <$> (((i, v) :: map_to_list m).*2))); [done|].
  by rewrite map_to_list_insert.
Qed.
Lemma vsum_insert f m i v v' : m !! i = Some v' → vsum f (<[i:=v]> m) = (vsum f m + f v - f v')%Z.
Proof.
  intros H.
  assert (vsum f m = f v' + vsum f (delete i m))%Z as Hm.
  { rewrite <-(vsum_insert_new f _ i) by apply lookup_delete. by rewrite insert_delete. }
  rewrite <-insert_delete_insert. rewrite vsum_insert_new by apply lookup_delete. lia.
Qed.
Lemma zsum_empty : zsum ∅ = 0%Z.
Proof. unfold zsum. by rewrite map_to_list_empty. Qed.
Lemma zsum_insert_new m i z : m !! i = None → zsum (<[i:=z]> m) = (z + zsum m)%Z.
Proof.
  intros H. unfold zsum.
  rewrite (foldr_add_perm _ ((((i, z) :: map_to_list m).*2))); [done|].
  by rewrite map_to_list_insert.
Qed.
Lemma zsum_list_to_map (l : list (N * Z)) : NoDup l.*1 → zsum (list_to_map l) = foldr Z.add 0%Z l.*2.
Proof.
  intros H. unfold zsum. apply foldr_add_perm. by rewrite map_to_list_to_map.
Qed.

Lemma vsum_ext f g m : (∀ i v, m !! i = Some v → f v = g v) → vsum f m = vsum g m.
Proof.
  induction m as [|i v m Hi IH] using map_ind; intros H.
  - by rewrite !vsum_empty.
  - rewrite !vsum_insert_new by done. rewrite (H i v) by apply lookup_insert.
    rewrite IH; [done|]. intros j w Hj. apply (H j). rewrite lookup_insert_ne; naive_solver.
Qed.
Lemma vsum_add f g m : vsum (λ v, f v + g v)%Z m = (vsum f m + vsum g m)%Z.
Proof.
  induction m as [|i v m Hi IH] using map_ind; [by rewrite !vsum_empty|].
  rewrite !vsum_insert_new by done. lia.
Qed.
Lemma vsum_nonneg f m : (∀ i v, m !! i = Some v → 0 ≤ f v)%Z → (0 ≤ vsum f m)%Z.
Proof.
  induction m as [|i v m Hi IH] using map_ind; intros H; [by rewrite vsum_empty|].
  rewrite vsum_insert_new by done. pose proof (H i v (lookup_insert _ _ _)).
  assert (0 ≤ vsum f m)%Z; [|lia]. apply IH. intros j w Hj. apply (H j). rewrite lookup_insert_ne; naive_solver.
Qed.

Lemma liabilities_owed s : liabilities s = owed s.
Proof.
  unfold liabilities, owed. f_equal.
  induction (st_vals s) as [|i v m Hi IH] using map_ind.
  - by rewrite map_fold_empty, !vsum_empty.
  - rewrite map_fold_insert_L by (intros; lia || done). rewrite !vsum_insert_new by done. lia.
Qed.

(** ** Updates of the map *)

Definition add_pend (sh : gmap N Z) (m : gmap N vinfo) : gmap N vinfo :=
  map_imap (λ i v, Some (set_pend (v_pend v + default 0%Z (sh !! i)) v)) m.

Lemma set_pend_id v : set_pend (v_pend v) v = v.
Proof. by destruct v. Qed.
Lemma set_pend_pend z z' v : set_pend z (set_pend z' v) = set_pend z v.
Proof. by destruct v. Qed.

Lemma lookup_add_pend sh m i :
  add_pend sh m !! i = (λ v, set_pend (v_pend v + default 0%Z (sh !! i)) v) <$> m !! i.
Proof. unfold add_pend. rewrite map_lookup_imap. by destruct (m !! i). Qed.

Lemma add_pend_empty m : add_pend ∅ m = m.
Proof.
  apply map_eq. intros i. rewrite lookup_add_pend, lookup_empty. cbn.
  destruct (m !! i) as [v|]; cbn; [|done]. by rewrite Z.add_0_r, set_pend_id.
Qed.

Lemma credited_empty part s : credited ∅ part s = set_fees (st_fees s + part) s.
Proof.
  unfold credited. fold (add_pend ∅ (st_vals s)). rewrite add_pend_empty. by destruct s.
Qed.

Lemma add_pend_insert sh m i z v :
  m !! i = Some v → sh !! i = None →
  add_pend sh (<[i := set_pend (v_pend v + z) v]> m) = add_pend (<[i:=z]> sh) m.
Proof.
  intros Hv Hi. apply map_eq. intros j. rewrite !lookup_add_pend.
  destruct (decide (i = j)) as [->|Hne].
  - rewrite !lookup_insert, Hi, Hv. cbn. f_equal. rewrite set_pend_pend. by rewrite Z.add_0_r.
  - by rewrite !lookup_insert_ne.
Qed.

Lemma vsum_add_pend_pend sh m :
  (∀ i, is_Some (sh !! i) → is_Some (m !! i)) →
  vsum v_pend (add_pend sh m) = (vsum v_pend m + zsum sh)%Z.
Proof.
  revert sh. induction m as [|i v m Hi IH] using map_ind; intros sh Hsh.
  - assert (sh = ∅) as ->.
    { apply map_empty. intros j. destruct (sh !! j) eqn:E; [|done].
      destruct (Hsh j) as [? Hj]; [eauto|]. by rewrite lookup_empty in Hj. }
    by rewrite add_pend_empty, vsum_empty, zsum_empty.
  - destruct (sh !! i) as [z|] eqn:Hz.
    + rewrite <-(insert_delete sh i z Hz). set (sh' := delete i sh).
      rewrite zsum_insert_new by apply lookup_delete.
      assert (add_pend (<[i:=z]> sh') (<[i:=v]> m) = <[i := set_pend (v_pend v + z) v]> (add_pend sh' m)) as ->.
      { apply map_eq. intros j. rewrite lookup_add_pend. destruct (decide (i = j)) as [->|Hne].
        - by rewrite !lookup_insert.
        - by rewrite !lookup_insert_ne, lookup_add_pend by done. }
      rewrite vsum_insert_new by (by rewrite lookup_add_pend, Hi).
      rewrite IH; [rewrite vsum_insert_new by done; cbn; lia|].
      intros j [w Hj]. unfold sh' in Hj. rewrite lookup_delete_Some in Hj. destruct Hj as [Hne Hj].
      destruct (Hsh j) as [w' Hw']; [eauto|]. rewrite lookup_insert_ne in Hw' by done. eauto.
    + assert (add_pend sh (<[i:=v]> m) = <[i := v]> (add_pend sh m)) as ->.
      { apply map_eq. intros j. rewrite lookup_add_pend. destruct (decide (i = j)) as [->|Hne].
        - rewrite !lookup_insert, Hz. cbn. by rewrite Z.add_0_r, set_pend_id.
        - by rewrite !lookup_insert_ne, lookup_add_pend by done. }
      rewrite vsum_insert_new by (by rewrite lookup_add_pend, Hi).
      rewrite IH; [rewrite vsum_insert_new by done; cbn; lia|].
      intros j [w Hj]. destruct (Hsh j) as [w' Hw']; [eauto|].
      rewrite lookup_insert_ne in Hw' by (intros ->; congruence). eauto.
Qed.

Lemma vsum_add_pend_acc sh m : vsum v_acc (add_pend sh m) = vsum v_acc m.
Proof.
  induction m as [|i v m Hi IH] using map_ind; [done|].
  assert (add_pend sh (<[i:=v]> m) = <[i := set_pend (v_pend v + default 0%Z (sh !! i)) v]> (add_pend sh m)) as ->.
  { apply map_eq. intros j. rewrite lookup_add_pend. destruct (decide (i = j)) as [->|Hne].
    - by rewrite !lookup_insert.
    - by rewrite !lookup_insert_ne, lookup_add_pend by done. }
  rewrite !vsum_insert_new by (done || by rewrite lookup_add_pend, Hi). cbn. lia.
Qed.

Lemma owed_credited sh part s :
  (∀ i, is_Some (sh !! i) → is_Some (st_vals s !! i)) →
  owed (credited sh part s) = (owed s + zsum sh + part)%Z.
Proof.
  intros H. unfold owed, credited. cbn. fold (add_pend sh (st_vals s)).
  rewrite vsum_add_pend_acc, vsum_add_pend_pend by done. lia.
Qed.

(** ** The list of rewards applied *)

Lemma apply_rewards_ok l s s' :
  NoDup l.*1 → apply_rewards l s = Ok s' →
  s' = set_vals (add_pend (list_to_map l) (st_vals s)) s ∧ ∀ i, i ∈ l.*1 → is_Some (st_vals s !! i).
Proof.
  revert s. induction l as [|[i z] l IH]; intros s Hnd; cbn [apply_rewards].
  - intros [= <-]. split; [|intros i Hi; by apply elem_of_nil in Hi]. cbn. rewrite add_pend_empty. by destruct s.
  - rewrite fmap_cons in Hnd. cbn in Hnd. apply NoDup_cons in Hnd as [Hni Hnd].
    unfold inc_pend, upd_val. destruct (st_vals s !! i) as [v|] eqn:Hv; cbn [rbind]; [|done].
    intros H. apply IH in H as [-> H2]; [|done]. split.
    + cbn. rewrite (add_pend_insert _ _ _ z) by (done || by apply not_elem_of_list_to_map_1). done.
    + intros j Hj. rewrite fmap_cons in Hj. cbn in Hj. apply elem_of_cons in Hj as [->|Hj]; [eauto|].
      apply H2 in Hj. cbn in Hj. destruct (decide (i = j)) as [->|Hne]; [eauto|].
      by rewrite lookup_insert_ne in Hj.
Qed.

Lemma apply_rewards_succeeds l s :
  (∀ i, i ∈ l.*1 → is_Some (st_vals s !! i)) → ∃ s', apply_rewards l s = Ok s'.
Proof.
  revert s. induction l as [|[i z] l IH]; intros s H; cbn [apply_rewards]; [eauto|].
  unfold inc_pend, upd_val. destruct (H i) as [v Hv]; [rewrite fmap_cons; left|]. rewrite Hv. cbn [rbind].
  apply IH. intros j Hj. cbn. destruct (decide (i = j)) as [->|Hne]; [rewrite lookup_insert; eauto|].
  rewrite lookup_insert_ne by done. apply H. rewrite fmap_cons. by right.
Qed.

(** ** Eligible validators *)

Definition elig_map (m : gmap N vinfo) : gmap N vinfo := filter (λ kv, eligible kv.2 = true) m.

Lemma eligible_earning v : eligible v = true ↔ earning v.
Proof. unfold eligible, earning. destruct (v_status v); naive_solver. Qed.

Lemma map_to_list_filter_perm (P : N * vinfo → Prop) `{∀ x, Decision (P x)} (m : gmap N vinfo) :
  map_to_list (filter P m) ≡ₚ filter P (map_to_list m).
Proof.
  apply NoDup_Permutation.
  - apply NoDup_map_to_list.
  - apply NoDup_filter, NoDup_map_to_list.
  - intros [i x]. rewrite elem_of_list_filter, !elem_of_map_to_list, map_filter_lookup_Some. naive_solver.
Qed.

Lemma eligible_indices_perm E s : wf_env E →
  eligible_indices E s ≡ₚ (map_to_list (elig_map (st_vals s))).*1.
Proof.
  intros W. unfold eligible_indices, elig_map. rewrite map_to_list_filter_perm, (wf_iter E W). done.
Qed.

Lemma elem_of_eligible E s i : wf_env E →
  i ∈ eligible_indices E s ↔ ∃ v, st_vals s !! i = Some v ∧ eligible v = true.
Proof.
  intros W. rewrite (eligible_indices_perm E s W). rewrite elem_of_list_fmap. unfold elig_map. split.
  - intros ([j v] & -> & Hj). rewrite elem_of_map_to_list, map_filter_lookup_Some in Hj. cbn in *. naive_solver.
  - intros (v & Hv & He). exists (i, v). split; [done|].
    rewrite elem_of_map_to_list, map_filter_lookup_Some. done.
Qed.

Lemma NoDup_eligible E s : wf_env E → NoDup (eligible_indices E s).
Proof. intros W. rewrite (eligible_indices_perm E s W). apply NoDup_fst_map_to_list. Qed.

Lemma length_eligible E s : wf_env E → length (eligible_indices E s) = size (elig_map (st_vals s)).
Proof. intros W. rewrite (eligible_indices_perm E s W). by rewrite fmap_length. Qed.

Lemma eligible_nil E s : wf_env E → eligible_indices E s = [] ↔ elig_map (st_vals s) = ∅.
Proof.
  intros W. pose proof (length_eligible E s W) as H. split; intros H1.
  - rewrite H1 in H. cbn in H. by apply map_size_empty_inv.
  - rewrite H1, map_size_empty in H. by apply nil_length_inv.
Qed.

(** The equal-share map. *)
Definition equal_shares (per : Z) (m : gmap N vinfo) : gmap N Z := (λ _, per) <$> elig_map m.

Lemma list_to_map_equal E s per : wf_env E →
  (list_to_map ((λ i, (i, per)) <$> eligible_indices E s) : gmap N Z) = equal_shares per (st_vals s).
Proof.
  intros W. apply map_eq. intros i. unfold equal_shares. rewrite lookup_fmap.
  assert (NoDup ((λ i, (i, per)) <$> eligible_indices E s).*1) as Hnd.
  { rewrite <-list_fmap_compose. rewrite (list_fmap_ext _ id) by done. rewrite list_fmap_id. by apply NoDup_eligible. }
  destruct (elig_map (st_vals s) !! i) as [v|] eqn:Hi; cbn.
  - apply elem_of_list_to_map_1; [done|]. apply elem_of_list_fmap. exists i. split; [done|].
    apply elem_of_eligible; [done|]. unfold elig_map in Hi. apply map_filter_lookup_Some in Hi. naive_solver.
  - apply not_elem_of_list_to_map_1. rewrite <-list_fmap_compose. rewrite (list_fmap_ext _ id) by done.
    rewrite list_fmap_id. rewrite elem_of_eligible by done. intros (v & Hv & He).
    unfold elig_map in Hi. apply (map_filter_lookup_None_1 _ _ _) in Hi as [Hi|Hi]; [congruence|]. by eapply Hi.
Qed.

Lemma zsum_const (per : Z) (m : gmap N vinfo) : zsum ((λ _, per) <$> m) = (per * Z.of_nat (size m))%Z.
Proof.
  induction m as [|i v m Hi IH] using map_ind.
  - rewrite fmap_empty, zsum_empty, map_size_empty. lia.
  - rewrite fmap_insert, zsum_insert_new by (by rewrite lookup_fmap, Hi).
    rewrite map_size_insert_None by done. rewrite IH. lia.
Qed.

(** ** Electra shares *)

Lemma total_balance_sum r : total_balance r = foldr Z.add 0%Z ((λ kv, eff kv.2) <$> r).
Proof. unfold total_balance. induction r as [|x r IH]; [done|]. cbn. by rewrite IH. Qed.
Lemma total_shares_sum td tot r :
  total_shares td tot r = foldr Z.add 0%Z ((λ kv, electra_share td tot kv.2) <$> r).
Proof. unfold total_shares. induction r as [|x r IH]; [done|]. cbn. by rewrite IH. Qed.

Definition share_list (td tot : Z) (r : list (N * bval)) : list (N * Z) :=
  (λ kv, (kv.1, electra_share td tot kv.2)) <$> r.

Lemma electra_rewards_list td tot r :
  NoDup r.*1 → (∀ k v, (k, v) ∈ r → b_index v = k) →
  electra_rewards td tot r = list_to_map (share_list td tot r).
Proof.
  intros Hnd Hidx. unfold electra_rewards.
  assert (∀ (l : list (N * bval)) (m : gmap N Z), NoDup l.*1 → (∀ k v, (k, v) ∈ l → b_index v = k) →
    fold_left (λ m kv, <[b_index kv.2 := electra_share td tot kv.2]> m) l m = list_to_map (share_list td tot l) ∪ m) as H.
  { induction l as [|[k v] l IH]; intros m Hl Hi; cbn.
    - by rewrite map_empty_union.
    - rewrite fmap_cons in Hl. cbn in Hl. apply NoDup_cons in Hl as [Hk Hl].
      rewrite IH; [|done|intros; apply Hi; by right].
      rewrite (Hi k v) by left.
      rewrite <-insert_union_l. rewrite <-insert_union_r; [done|].
      apply not_elem_of_list_to_map_1. unfold share_list. rewrite <-list_fmap_compose. done. }
  rewrite H by done. by rewrite map_union_empty.
Qed.

Lemma share_list_fst td tot r : (share_list td tot r).*1 = r.*1.
Proof. unfold share_list. by rewrite <-list_fmap_compose. Qed.
Lemma share_list_snd td tot r : (share_list td tot r).*2 = (λ kv, electra_share td tot kv.2) <$> r.
Proof. unfold share_list. by rewrite <-list_fmap_compose. Qed.

(** ** Characterisation *)

(** What [increase_all] does, by cases; the environment only matters for the balances. *)
Inductive shared (E : env) (net : string) (r : Z) (s : ost) : gmap N Z → Z → Prop :=
| sh_none : elig_map (st_vals s) = ∅ → shared E net r s ∅ r
| sh_pre per fees : elig_map (st_vals s) ≠ ∅ → (st_feepct s ≤ 10000)%Z → reward_method net (st_next s) = Ok PreFork1 →
    let n := Z.of_nat (size (elig_map (st_vals s))) in
    let aux := (r * st_feepct s)%Z in
    per = ((r - aux / 10000 - aux mod 10000) / n)%Z →
    fees = (aux / 10000 + aux mod 10000 + (r - aux / 10000 - aux mod 10000) mod n)%Z →
    shared E net r s (equal_shares per (st_vals s)) fees
| sh_fork1 per fees : elig_map (st_vals s) ≠ ∅ → (st_feepct s ≤ 10000)%Z → reward_method net (st_next s) = Ok Fork1 →
    let n := Z.of_nat (size (elig_map (st_vals s))) in
    let cut := (r * st_feepct s / 10000)%Z in
    per = ((r - cut) / n)%Z →
    fees = (cut + (r - cut) mod n)%Z →
    shared E net r s (equal_shares per (st_vals s)) fees
| sh_electra resp fees sh : elig_map (st_vals s) ≠ ∅ → (st_feepct s ≤ 10000)%Z → reward_method net (st_next s) = Ok Electra →
    e_vals E (eligible_indices E s) (st_next s) = Some resp →
    let cut := (r * st_feepct s / 10000)%Z in
    let tot := total_balance resp in
    tot ≠ 0%Z →
    sh = list_to_map (share_list (r - cut) tot resp) →
    fees = (r - total_shares (r - cut) tot resp)%Z →
    shared E net r s sh fees.

Lemma go_div_pos a b : (0 < b)%Z → go_div a b = (a / b)%Z.
Proof. intros. unfold go_div. destruct (Z.ltb_spec 0 b); [done|lia]. Qed.
Lemma go_mod_pos a b : (0 < b)%Z → go_mod a b = (a mod b)%Z.
Proof. intros. unfold go_mod. by rewrite Z.abs_eq by lia. Qed.

Lemma elig_size_pos m : elig_map m ≠ ∅ → (0 < Z.of_nat (size (elig_map m)))%Z.
Proof. intros H. destruct (size (elig_map m)) eqn:Hs; [|lia]. apply map_size_empty_inv in Hs. done. Qed.

Lemma set_fees_set_vals z m s : set_fees z (set_vals m s) = set_vals m (set_fees z s).
Proof. by destruct s. Qed.

Lemma increase_all_char E net r s s' : wf_env E →
  increase_all E net r s = Ok s' ↔
  ∃ sh fees, shared E net r s sh fees ∧ s' = credited sh fees s.
Proof.
  intros W. unfold increase_all.
  pose proof (eligible_nil E s W) as Hnil. pose proof (length_eligible E s W) as Hlen.
  pose proof (NoDup_eligible E s W) as Hnd.
  destruct (eligible_indices E s) as [|i0 l0] eqn:Hel.
  { assert (elig_map (st_vals s) = ∅) as He by naive_solver. split.
    - intros [= <-]. exists ∅, r. split; [by constructor|]. by rewrite credited_empty.
    - intros (sh & fees & Hsh & ->). destruct Hsh; try done. by rewrite credited_empty. }
  rewrite <-Hel in Hlen, Hnd |- *.
  assert (elig_map (st_vals s) ≠ ∅) as Hne. { intros H. apply Hnil in H. done. }
  clear Hnil. pose proof (elig_size_pos _ Hne) as Hpos.
  destruct (Z.ltb_spec 10000 (st_feepct s)) as [Hf|Hf].
  { split; [done|]. intros (sh & fees & Hsh & ->). destruct Hsh; done || lia. }
  rewrite Hlen. rewrite !(go_div_pos _ 10000) by lia.
  destruct (reward_method net (st_next s)) as [m|d] eqn:Hm; cbn [rbind].
  2:{ split; [done|]. intros (sh & fees & Hsh & ->). destruct Hsh; done || congruence. }
  assert (NoDup ((λ i, (i, 0%Z)) <$> eligible_indices E s).*1) as Hnd'.
  { rewrite <-list_fmap_compose. rewrite (list_fmap_ext _ id) by done. by rewrite list_fmap_id. }
  assert (∀ per : Z, ((λ i, (i, per)) <$> eligible_indices E s).*1 = eligible_indices E s) as Hfst.
  { intros per. rewrite <-list_fmap_compose. rewrite (list_fmap_ext _ id) by done. by rewrite list_fmap_id. }
  assert (∀ fees per, apply_rewards ((λ i, (i, per)) <$> eligible_indices E s) (send_to_pool fees s)
     = Ok (credited (equal_shares per (st_vals s)) fees s)) as Happ.
  { intros fees per. destruct (apply_rewards_succeeds ((λ i, (i, per)) <$> eligible_indices E s) (send_to_pool fees s)) as [s2 Hs2].
    - intros j. rewrite Hfst, elem_of_eligible by done. cbn. naive_solver.
    - rewrite Hs2. apply apply_rewards_ok in Hs2 as [-> _]; [|by rewrite Hfst].
      rewrite list_to_map_equal by done. done. }
  destruct m.
  - (* PreFork1 *)
    unfold prefork1_split. rewrite !go_div_pos, !go_mod_pos by lia.
    set (n := Z.of_nat (size (elig_map (st_vals s)))) in *.
    set (aux := (r * st_feepct s)%Z) in *.
    set (ts := (r - aux / 10000 - aux mod 10000)%Z).
    assert (ts / n * n + (aux / 10000 + aux mod 10000 + ts mod n) = r)%Z as Hsum.
    { pose proof (Z.div_mod ts n ltac:(lia)).
      assert (ts = r - aux / 10000 - aux mod 10000)%Z by done. lia. }
    rewrite (proj2 (Z.eqb_eq _ _) Hsum). cbn [rbind]. rewrite Happ. split.
    + intros [= <-]. eexists _, _. split; [|done]. eapply sh_pre; done.
    + intros (sh & fees & Hsh & ->). destruct Hsh as [?|per fees ???? ? -> ->|? ? ???|? ? ? ???]; done || congruence.
  - (* Fork1 *)
    unfold fork1_split. rewrite !go_div_pos, !go_mod_pos by lia.
    set (n := Z.of_nat (size (elig_map (st_vals s)))) in *.
    set (cut := (r * st_feepct s / 10000)%Z) in *.
    set (ts := (r - cut)%Z).
    assert (ts / n * n + (cut + ts mod n) = r)%Z as Hsum.
    { pose proof (Z.div_mod ts n ltac:(lia)). assert (ts = r - cut)%Z by done. lia. }
    rewrite (proj2 (Z.eqb_eq _ _) Hsum). cbn [rbind]. rewrite Happ. split.
    + intros [= <-]. eexists _, _. split; [|done]. eapply sh_fork1; done.
    + intros (sh & fees & Hsh & ->). destruct Hsh as [?|? ? ???|per fees ???? ? -> ->|? ? ? ???]; done || congruence.
  - (* Electra *)
    unfold electra_split.
    destruct (e_vals E (eligible_indices E s) (st_next s)) as [resp|] eqn:Hv; cbn [rbind].
    2:{ split; [done|]. intros (sh & fees & Hsh & ->). destruct Hsh; done || congruence. }
    destruct (Z.eqb_spec (total_balance resp) 0) as [Ht|Ht]; cbn [rbind].
    { split; [done|]. intros (sh & fees & Hsh & ->). destruct Hsh as [?|? ? ???|? ? ???|resp2 fees sh ??? Hv2 cut tot Ht2 ??]; try done; try congruence. exfalso. apply Ht2. unfold tot. congruence. }
    set (cut := (r * st_feepct s / 10000)%Z) in *.
    set (dist := total_shares (r - cut) (total_balance resp) resp).
    assert (dist + (cut + (r - cut - dist)) = r)%Z as Hsum by lia.
    rewrite (proj2 (Z.eqb_eq _ _) Hsum). cbn [rbind].
    pose proof (wf_vals_nodup E W _ _ _ Hv) as Hvn.
    assert (∀ k v, (k, v) ∈ resp → b_index v = k) as Hvi by (intros k v; by apply (wf_vals_index E W _ _ _ k v Hv)).
    rewrite electra_rewards_list by done.
    set (L := share_list (r - cut) (total_balance resp) resp).
    assert (NoDup L.*1) as HL by (unfold L; by rewrite share_list_fst).
    set (M := list_to_map L : gmap N Z).
    replace (cut + (r - cut - dist))%Z with (r - dist)%Z by lia.
    destruct (apply_rewards_succeeds (map_to_list M) (send_to_pool (r - dist) s)) as [s2 Hs2].
    { intros j Hj. unfold M in Hj. rewrite map_to_list_to_map in Hj by done. unfold L in Hj. rewrite share_list_fst in Hj.
      rewrite (wf_vals_exact E W _ _ _ _ Hv), elem_of_eligible in Hj by done. cbn. naive_solver. }
    rewrite Hs2. apply apply_rewards_ok in Hs2 as [-> _]; [|apply NoDup_fst_map_to_list].
    rewrite list_to_map_to_list. split.
    + intros [= <-]. eexists M, (r - dist)%Z. split.
      * eapply sh_electra; done.
      * unfold credited. by rewrite set_fees_set_vals.
    + intros (sh & fees & Hsh & ->).
      destruct Hsh as [?|? ? ???|? ? ???|resp' fees sh ??? Hv' cut' tot' ? -> ->]; try done; try congruence.
      assert (resp' = resp) as -> by congruence.
      unfold credited. rewrite set_fees_set_vals. done.
Qed.

(** Consequences that do not depend on the method. *)
Lemma shared_facts E net r s sh fees : wf_env E → shared E net r s sh fees →
  (zsum sh + fees = r)%Z ∧
  (∀ i, is_Some (sh !! i) → ∃ v, st_vals s !! i = Some v ∧ earning v).
Proof.
  intros W H. destruct H as [He|per fees He Hf Hm n aux Hper Hfees|per fees He Hf Hm n cut Hper Hfees|resp fees sh He Hf Hm Hv cut tot Ht Hsh Hfees].
  - rewrite zsum_empty. split; [lia|]. intros i [z Hz]. by rewrite lookup_empty in Hz.
  - pose proof (elig_size_pos _ He). unfold equal_shares. rewrite zsum_const. split.
    + pose proof (Z.div_mod (r - aux / 10000 - aux mod 10000) n ltac:(lia)). subst per fees. lia.
    + intros i [z Hz]. rewrite lookup_fmap in Hz. destruct (elig_map (st_vals s) !! i) as [v|] eqn:Hi; [|done].
      unfold elig_map in Hi. apply map_filter_lookup_Some in Hi as [Hi Hel]. exists v. by rewrite <-eligible_earning.
  - pose proof (elig_size_pos _ He). unfold equal_shares. rewrite zsum_const. split.
    + pose proof (Z.div_mod (r - cut) n ltac:(lia)). subst per fees. lia.
    + intros i [z Hz]. rewrite lookup_fmap in Hz. destruct (elig_map (st_vals s) !! i) as [v|] eqn:Hi; [|done].
      unfold elig_map in Hi. apply map_filter_lookup_Some in Hi as [Hi Hel]. exists v. by rewrite <-eligible_earning.
  - pose proof (wf_vals_nodup E W _ _ _ Hv) as Hvn. split.
    + rewrite Hsh, zsum_list_to_map by (by rewrite share_list_fst). rewrite share_list_snd.
      rewrite total_shares_sum in Hfees. lia.
    + intros i [z Hz]. rewrite Hsh in Hz. apply elem_of_list_to_map_2 in Hz.
      assert (i ∈ resp.*1) as Hi. { rewrite <-(share_list_fst (r - cut) tot). apply elem_of_list_fmap. by exists (i, z). }
      rewrite (wf_vals_exact E W _ _ _ _ Hv), elem_of_eligible in Hi by done.
      destruct Hi as (v & Hi & Hel). exists v. by rewrite <-eligible_earning.
Qed.

Lemma increase_all_owed E net r s s' : wf_env E →
  increase_all E net r s = Ok s' → owed s' = (owed s + r)%Z.
Proof.
  intros W H. apply increase_all_char in H as (sh & fees & Hsh & ->); [|done].
  apply shared_facts in Hsh as [Hsum Hdom]; [|done].
  rewrite owed_credited; [lia|]. intros i Hi. apply Hdom in Hi. naive_solver.
Qed.
