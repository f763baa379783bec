(** Consequences of the sharing rule, in the vocabulary of the specification. *)
From Verif Require Export StepProofs.

Lemma elig_earners s : elig_map (st_vals s) = earners s.
Proof.
  unfold elig_map, earners. apply map_filter_ext. intros i v _. cbn. apply eligible_earning.
Qed.

Lemma era_method net slot m : era net slot m ↔ reward_method net slot = Ok m.
Proof.
  unfold reward_method, slot_electra, slot_fork1, Mainnet, Hoodi, Holesky.
  assert (∀ f og, (net, (f, og)) ∈ forks ↔
    (net = "mainnet" ∧ f = 10188220%N ∧ og = Some 11649024%N) ∨
    (net = "hoodi" ∧ f = 1%N ∧ og = Some 65536%N) ∨ (net = "holesky" ∧ f = 2720632%N ∧ og = None)) as Hf.
  { intros f og. unfold forks. rewrite !elem_of_cons, elem_of_nil.
    split; [intros [H|[H|[H|[]]]]; injection H as -> -> ->; auto|].
    intros [(-> & -> & ->)|[(-> & -> & ->)|(-> & -> & ->)]]; auto. }
  split.
  - intros H. destruct H as [f g Hin Hg|f og Hin Hf1 Hg|f og Hin Hf1]; apply Hf in Hin;
      destruct Hin as [(-> & -> & ?)|[(-> & -> & ?)|(-> & -> & ?)]]; simplify_eq; cbn;
      repeat match goal with
      | |- context [(?a <=? ?b)%N] => destruct (N.leb_spec a b)
      end; try done; try lia; try (specialize (Hg _ eq_refl); lia).
  - intros H.
    destruct (String.eqb_spec net "mainnet") as [->|]; [|destruct (String.eqb_spec net "hoodi") as [->|];
      [|destruct (String.eqb_spec net "holesky") as [->|]; [|discriminate]]]; cbn in H;
    repeat match goal with
      | H : context [(?a <=? ?b)%N] |- _ => destruct (N.leb_spec a b)
      end; injection H as <-.
    all: try (eapply era_electra; [apply Hf; naive_solver|done]).
    all: try (eapply era_fork1; [apply Hf; naive_solver|done|naive_solver]).
    all: try (eapply era_pre; [apply Hf; naive_solver|done]).
Qed.

(** C02 *)
Lemma exact_split E net r s s' : wf_env E → increase_all E net r s = Ok s' →
  ∃ sh part, s' = credited sh part s ∧ (zsum sh + part)%Z = r ∧
    (∀ i, is_Some (sh !! i) → ∃ v, st_vals s !! i = Some v ∧ earning v) ∧
    (earners s = ∅ → sh = ∅ ∧ part = r).
Proof.
  intros W H. apply increase_all_char in H as (sh & fees & Hsh & ->); [|done].
  exists sh, fees. destruct (shared_facts _ _ _ _ _ _ W Hsh) as [H1 H2]. do 3 (split; [done|]).
  intros He; rewrite <-elig_earners in He; destruct Hsh; done.
Qed.

Lemma sum_fees_pend sh part s : (∀ i, is_Some (sh !! i) → ∃ v, st_vals s !! i = Some v ∧ earning v) →
  (vsum v_pend (st_vals (credited sh part s)) = vsum v_pend (st_vals s) + zsum sh)%Z.
Proof.
  intros H. unfold credited. cbn. fold (add_pend sh (st_vals s)). apply vsum_add_pend_pend.
  intros i Hi. apply H in Hi. naive_solver.
Qed.

Lemma lookup_credited sh part s i :
  st_vals (credited sh part s) !! i = (λ v, set_pend (v_pend v + default 0%Z (sh !! i)) v) <$> st_vals s !! i.
Proof. unfold credited. cbn. apply (lookup_add_pend sh (st_vals s) i). Qed.

(** C04 *)
Lemma equal_lookup per s i v : st_vals s !! i = Some v → earning v → equal_shares per (st_vals s) !! i = Some per.
Proof.
  intros Hv He. unfold equal_shares. rewrite lookup_fmap, elig_earners.
  assert (earners s !! i = Some v) as ->; [|done]. apply map_filter_lookup_Some. done.
Qed.

Lemma equal_split_fork1 E net r s s' : wf_env E → era net (st_next s) Fork1 → earners s ≠ ∅ →
  increase_all E net r s = Ok s' →
  let cut := pool_cut s r in
  (∀ i v, st_vals s !! i = Some v → earning v →
     st_vals s' !! i = Some (set_pend (v_pend v + (r - cut) / n_earners s) v)) ∧
  st_fees s' = (st_fees s + cut + (r - cut) mod n_earners s)%Z ∧
  (st_fees s + cut ≤ st_fees s' < st_fees s + cut + n_earners s)%Z.
Proof.
  intros W Hera Hne H. apply increase_all_char in H as (sh & fees & Hsh & ->); [|done].
  apply era_method in Hera. rewrite <-elig_earners in Hne. pose proof (elig_size_pos _ Hne) as Hpos.
  destruct Hsh as [?|? ? ???|per fees ??? n cut -> ->|? ? ? ???]; try done; try congruence.
  cbn zeta. unfold pool_cut, n_earners. rewrite <-elig_earners. fold cut. fold n.
  pose proof (Z.mod_pos_bound (r - cut) n Hpos). cbn [credited st_fees set_fees]. repeat split; try lia.
  intros i v Hv He. rewrite lookup_credited, Hv. cbn. by rewrite (equal_lookup _ _ _ _ Hv He).
Qed.

Lemma equal_split_pre E net r s s' : wf_env E → era net (st_next s) PreFork1 → earners s ≠ ∅ →
  increase_all E net r s = Ok s' →
  ∃ per, (∀ i v, st_vals s !! i = Some v → earning v → st_vals s' !! i = Some (set_pend (v_pend v + per) v)) ∧
   (per * n_earners s + (st_fees s' - st_fees s) = r)%Z ∧
   (st_fees s + pool_cut s r ≤ st_fees s' < st_fees s + pool_cut s r + 10000 + n_earners s)%Z.
Proof.
  intros W Hera Hne H. apply increase_all_char in H as (sh & fees & Hsh & ->); [|done].
  apply era_method in Hera. rewrite <-elig_earners in Hne. pose proof (elig_size_pos _ Hne) as Hpos.
  destruct Hsh as [?|per fees ??? n aux Hper ->|? ? ???|? ? ? ???]; try done; try congruence.
  exists per. unfold pool_cut, n_earners. rewrite <-elig_earners. fold aux. fold n.
  pose proof (Z.mod_pos_bound (r - aux / 10000 - aux mod 10000) n Hpos).
  pose proof (Z.mod_pos_bound aux 10000 ltac:(lia)).
  pose proof (Z.div_mod (r - aux / 10000 - aux mod 10000) n ltac:(lia)).
  cbn [credited st_fees set_fees]. repeat split; try lia.
  intros i v Hv He. rewrite lookup_credited, Hv. cbn. by rewrite (equal_lookup _ _ _ _ Hv He).
Qed.

(** C03 *)
Lemma resp_keys E s resp slot : wf_env E → e_vals E (eligible_indices E s) slot = Some resp →
  resp.*1 ≡ₚ (map_to_list (earners s)).*1.
Proof.
  intros W H. apply NoDup_Permutation.
  - by eapply wf_vals_nodup.
  - apply NoDup_fst_map_to_list.
  - intros i. rewrite (wf_vals_exact E W _ _ _ _ H). rewrite <-elig_earners. by rewrite (eligible_indices_perm E s W).
Qed.

Lemma eff_nonneg v : (Z.of_N (b_effbal v) < 9223372036854775808)%Z → eff v = Z.of_N (b_effbal v).
Proof. intros H. unfold eff, int64_of_u64. destruct (N.ltb_spec (b_effbal v) 9223372036854775808); [done|lia]. Qed.

Lemma resp_total E s resp slot bal : wf_env E → balances E slot bal → e_vals E (eligible_indices E s) slot = Some resp →
  total_balance resp = earners_total bal s.
Proof.
  intros W Hb H. rewrite total_balance_sum. unfold earners_total.
  rewrite <-(foldr_add_perm (bal <$> resp.*1) (bal <$> (map_to_list (earners s)).*1)).
  - f_equal. rewrite <-list_fmap_compose. apply list_fmap_ext. intros n [k v] Hn.
    assert ((k, v) ∈ resp) as Hin by (by eapply elem_of_list_lookup_2).
    destruct (Hb _ _ _ _ H Hin) as [Hbal Hlt]. cbn. rewrite Hbal. by apply eff_nonneg.
  - by rewrite (resp_keys E s resp slot W H).
Qed.

Lemma floor_sum (td T : Z) (l : list Z) : (0 < T)%Z →
  let q := foldr Z.add 0%Z ((λ b, td * b / T) <$> l)%Z in
  (q * T ≤ td * foldr Z.add 0 l ∧ td * foldr Z.add 0 l ≤ q * T + (T - 1) * Z.of_nat (length l))%Z.
Proof.
  intros HT. induction l as [|b l IH]; cbn in *; [lia|].
  pose proof (Z.div_mod (td * b) T ltac:(lia)) as Hdm. pose proof (Z.mod_pos_bound (td * b) T HT).
  set (x := (td * b / T)%Z) in *. nia.
Qed.

Lemma foldr_add_nonneg (l : list Z) : Forall (λ z, 0 ≤ z)%Z l → (0 ≤ foldr Z.add 0 l)%Z.
Proof. induction 1; cbn; lia. Qed.

Lemma electra_split_spec E net r s s' bal : wf_env E → balances E (st_next s) bal → era net (st_next s) Electra → earners s ≠ ∅ →
  increase_all E net r s = Ok s' →
  let cut := pool_cut s r in
  let T := earners_total bal s in
  (0 < T)%Z ∧
  (∀ i v, st_vals s !! i = Some v → earning v →
     st_vals s' !! i = Some (set_pend (v_pend v + (r - cut) * bal i / T) v)) ∧
  (st_fees s + cut ≤ st_fees s' < st_fees s + cut + n_earners s)%Z.
Proof.
  intros W Hb Hera Hne H. apply increase_all_char in H as (sh & fees & Hsh & ->); [|done].
  apply era_method in Hera. rewrite <-elig_earners in Hne. pose proof (elig_size_pos _ Hne) as Hpos.
  destruct Hsh as [?|? ? ???|? ? ???|resp fees sh ??? Hv cut tot Ht -> ->]; try done; try congruence.
  cbn zeta. unfold pool_cut. fold cut.
  assert (tot = earners_total bal s) as Htot by (by eapply resp_total).
  rewrite <-Htot.
  assert (∀ k v, (k, v) ∈ resp → eff v = bal k ∧ (0 ≤ bal k)%Z) as Heff.
  { intros k v Hin. destruct (Hb _ _ _ _ Hv Hin) as [-> Hlt]. rewrite eff_nonneg by done. lia. }
  assert (0 < tot)%Z as HT.
  { assert (0 ≤ tot)%Z; [|lia]. unfold tot. rewrite total_balance_sum. apply foldr_add_nonneg.
    apply Forall_forall. intros z Hz. apply elem_of_list_fmap in Hz as ([k v] & -> & Hin). cbn.
    destruct (Heff k v Hin). lia. }
  split; [done|]. split.
  - intros i v Hi He. rewrite lookup_credited, Hi. cbn. do 3 f_equal.
    assert (i ∈ resp.*1) as Hin.
    { rewrite (resp_keys E s resp _ W Hv). apply elem_of_list_fmap. exists (i, v). split; [done|].
      apply elem_of_map_to_list, map_filter_lookup_Some. done. }
    apply elem_of_list_fmap in Hin as ([k w] & -> & Hin). cbn.
    rewrite (elem_of_list_to_map_1 _ k (electra_share (r - cut) tot w)).
    + cbn. unfold electra_share. rewrite go_div_pos by done. by rewrite (proj1 (Heff _ _ Hin)).
    + rewrite share_list_fst. by eapply wf_vals_nodup.
    + unfold share_list. apply elem_of_list_fmap. exists (k, w). done.
  - cbn [credited st_fees set_fees]. rewrite total_shares_sum.
    assert (((λ kv, electra_share (r - cut) tot kv.2) <$> resp) = ((λ b, (r - cut) * b / tot)%Z <$> ((λ kv, eff kv.2) <$> resp))) as ->.
    { rewrite <-list_fmap_compose. apply list_fmap_ext. intros n x _. unfold electra_share. cbn. by rewrite go_div_pos. }
    pose proof (floor_sum (r - cut) tot ((λ kv, eff kv.2) <$> resp) HT) as [F1 F2].
    rewrite <-total_balance_sum in F1, F2. fold tot in F1, F2.
    rewrite fmap_length in F2.
    assert (Z.of_nat (length resp) = n_earners s) as Hlen.
    { unfold n_earners. f_equal. rewrite <-(fmap_length fst), (resp_keys E s resp _ W Hv), fmap_length. done. }
    rewrite Hlen in F2. unfold n_earners in *. rewrite <-elig_earners in *.
    set (q := foldr Z.add 0%Z _) in *. nia.
Qed.

(** C05 *)
Lemma cut_bounds s r : (0 ≤ r)%Z → (0 ≤ st_feepct s ≤ 10000)%Z → (0 ≤ pool_cut s r ≤ r)%Z.
Proof.
  intros. unfold pool_cut. split; [apply Z.div_pos; nia|]. apply Z.div_le_upper_bound; nia.
Qed.

Lemma shares_nonneg E net r s s' : wf_env E → sane_balances E → ¬ era net (st_next s) PreFork1 →
  (0 ≤ r)%Z → (0 ≤ st_feepct s)%Z → increase_all E net r s = Ok s' →
  ∃ sh part, s' = credited sh part s ∧ (0 ≤ part)%Z ∧ (∀ i z, sh !! i = Some z → 0 ≤ z)%Z.
Proof.
  intros W Hb Hera Hr Hf H. apply increase_all_char in H as (sh & fees & Hsh & ->); [|done].
  exists sh, fees. split; [done|].
  destruct Hsh as [?|? ? ? ? Hm|per fees Hne Hf1 Hm n cut -> ->|resp fees sh Hne Hf1 Hm Hv cut tot Ht -> ->].
  - split; [done|]. intros i z Hz. by rewrite lookup_empty in Hz.
  - apply era_method in Hm. done.
  - pose proof (elig_size_pos _ Hne). destruct (cut_bounds s r Hr) as [Hc1 Hc2]; [done|]. unfold pool_cut in *. fold cut in Hc1, Hc2.
    pose proof (Z.mod_pos_bound (r - cut) n ltac:(lia)). split; [lia|].
    intros i z Hz. unfold equal_shares in Hz. rewrite lookup_fmap in Hz. destruct (elig_map _ !! i); [|done].
    injection Hz as <-. apply Z.div_pos; lia.
  - destruct (cut_bounds s r Hr) as [Hc1 Hc2]; [done|]. unfold pool_cut in *. fold cut in Hc1, Hc2.
    assert (∀ k v, (k, v) ∈ resp → 0 ≤ eff v)%Z as Heff.
    { intros k v Hin. pose proof (Hb _ _ _ _ _ Hv Hin). rewrite eff_nonneg by done. lia. }
    assert (0 < tot)%Z as HT.
    { assert (0 ≤ tot)%Z; [|lia]. unfold tot. rewrite total_balance_sum. apply foldr_add_nonneg.
      apply Forall_forall. intros z Hz. apply elem_of_list_fmap in Hz as ([k v] & -> & Hin). by eapply Heff. }
    split.
    + rewrite total_shares_sum.
      assert (((λ kv, electra_share (r - cut) tot kv.2) <$> resp) = ((λ b, (r - cut) * b / tot)%Z <$> ((λ kv, eff kv.2) <$> resp))) as ->.
      { rewrite <-list_fmap_compose. apply list_fmap_ext. intros n x _. unfold electra_share. cbn. by rewrite go_div_pos. }
      pose proof (floor_sum (r - cut) tot ((λ kv, eff kv.2) <$> resp) HT) as [F1 F2].
      rewrite <-total_balance_sum in F1, F2. fold tot in F1, F2. set (q := foldr Z.add 0%Z _) in *. nia.
    + intros i z Hz. apply elem_of_list_to_map_2 in Hz. unfold share_list in Hz.
      apply elem_of_list_fmap in Hz as ([k v] & [= -> ->] & Hin). unfold electra_share. rewrite go_div_pos by done.
      apply Z.div_pos; [|done]. cbn. pose proof (Heff _ _ Hin). nia.
Qed.

(** Corollary of [electra_split_spec]: shares follow the order of balances. *)
Lemma electra_monotone E net r s s' bal : wf_env E → balances E (st_next s) bal → era net (st_next s) Electra →
  (0 ≤ r)%Z → (0 ≤ st_feepct s ≤ 10000)%Z → increase_all E net r s = Ok s' →
  ∀ i j v w v' w', st_vals s !! i = Some v → earning v → st_vals s !! j = Some w → earning w →
    st_vals s' !! i = Some v' → st_vals s' !! j = Some w' → (bal i ≤ bal j)%Z →
    (v_pend v' - v_pend v ≤ v_pend w' - v_pend w)%Z.
Proof.
  intros W Hb Hera Hr Hfee H i j v w v' w' Hv Hev Hw Hew Hv' Hw' Hle.
  assert (earners s ≠ ∅) as Hne.
  { intros He. assert (earners s !! i = Some v) as Hi; [|by rewrite He in Hi]. by apply map_filter_lookup_Some. }
  destruct (electra_split_spec _ _ _ _ _ _ W Hb Hera Hne H) as (HT & Hsh & _).
  rewrite (Hsh _ _ Hv Hev) in Hv'. rewrite (Hsh _ _ Hw Hew) in Hw'. injection Hv' as <-. injection Hw' as <-. cbn.
  pose proof (cut_bounds s r Hr Hfee).
  enough ((r - pool_cut s r) * bal i / earners_total bal s ≤ (r - pool_cut s r) * bal j / earners_total bal s)%Z by lia.
  apply Z.div_le_mono; [done|]. nia.
Qed.
