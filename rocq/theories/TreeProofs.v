(** Proofs about the Merkle tree: its root, its proofs, and that nothing else can be proved. *)
From Verif Require Import StringProofs.
From Verif Require Export MerkleProofs.

(** ** Shape of the levels *)
Lemma list_ind2 {A} (P : list A → Prop) :
  P [] → (∀ a, P [a]) → (∀ a b l, P l → P (a :: b :: l)) → ∀ l, P l.
Proof.
  intros H0 H1 H2 l. enough (P l ∧ ∀ a, P (a :: l)) by tauto.
  induction l as [|b l [IH1 IH2]]; split; auto.
Qed.

Lemma ordered_self a : ordered a a = a +:+ a.
Proof. by destruct (ordered_cases a a) as [-> | ->]. Qed.

Lemma pair_up_pairs H l : pair_up H (fix_odd l) = H <$> pairs l.
Proof.
  induction l as [|a|a b l IH] using list_ind2; cbn; [done| |].
  - by rewrite pair_hash_ordered, ordered_self.
  - by rewrite pair_hash_ordered, IH.
Qed.

Lemma pairs_length l : length (pairs l) = Nat.div2 (S (length l)).
Proof. induction l as [|a|a b l IH] using list_ind2; [done..|]. cbn in *. by rewrite IH. Qed.

(** The position of a node's parent and sibling. *)
Lemma parent (H : string → string) (l : list string) i x : l !! i = Some x →
  ∃ sib, fix_odd l !! (if Nat.odd i then i - 1 else i + 1)%nat = Some sib ∧
    (H <$> pairs l) !! Nat.div2 i = Some (H (ordered x sib)).
Proof.
  revert i. induction l as [|a|a b l IH] using list_ind2; intros i Hi; [done| |].
  - destruct i as [|i]; [|done]. cbn in *. injection Hi as ->. exists x. by rewrite ordered_self.
  - destruct i as [|[|i]]; cbn in Hi.
    + injection Hi as ->. by exists b.
    + injection Hi as ->. exists a. cbn. by rewrite ordered_sym.
    + apply IH in Hi as (sib & H1 & H2). exists sib. split; [|exact H2].
      assert (Nat.odd (S (S i)) = Nat.odd i) as -> by (rewrite Nat.odd_succ_succ; done).
      destruct (Nat.odd i) eqn:Ho.
      * destruct i as [|i]; [done|]. cbn in *. rewrite Nat.sub_0_r in H1. exact H1.
      * cbn. exact H1.
Qed.

Definition top (H : string → string) (levels : list (list string)) : string :=
  match last levels with Some (a :: b :: _) => pair_hash H a b | _ => EmptyString end.

Lemma build_S H d l : build H (S d) l = fix_odd l :: build H d (pair_up H (fix_odd l)).
Proof. done. Qed.
Lemma build_nonempty H d l : build H (S d) l ≠ [].
Proof. done. Qed.
Lemma top_cons H x l : l ≠ [] → top H (x :: l) = top H l.
Proof. intros Hl. unfold top. by destruct l. Qed.

(** [d] levels suffice for [l] when [2^(d-1) < length l <= 2^d]. *)
Definition levels_for (d n : nat) : Prop := (2 ^ (d - 1) < n ≤ 2 ^ d)%nat.
Lemma levels_step d n : (1 ≤ d)%nat → levels_for (S d) n → levels_for d (Nat.div2 (S n)).
Proof.
  unfold levels_for. cbn [Nat.sub]. rewrite Nat.sub_0_r. intros Hd [H1 H2]. rewrite Nat.div2_div. cbn [Nat.pow] in H2.
  destruct d as [|d]; [lia|]. cbn [Nat.pow Nat.sub] in *. rewrite Nat.sub_0_r.
  split.
  - assert (2 ^ d + 1 ≤ S n / 2)%nat; [|lia]. apply Nat.div_le_lower_bound; lia.
  - apply Nat.lt_succ_r. apply Nat.div_lt_upper_bound; lia.
Qed.

Lemma build_merkle H d : ∀ l, levels_for (S d) (length l) → ∃ ins, merkle H l (top H (build H (S d) l)) ins.
Proof.
  induction d as [|d IH]; intros l Hl.
  - destruct l as [|a [|b [|c l]]]; unfold levels_for in Hl; cbn in Hl; try lia. exists [ordered a b].
    cbn [build fix_odd top last]. unfold top. cbn [last]. rewrite pair_hash_ordered.
    apply (merkle_level H [a; b] _ []); [cbn; lia|]. cbn. constructor.
  - rewrite build_S, pair_up_pairs. rewrite top_cons by done.
    destruct (IH (H <$> pairs l)) as [ins Hm].
    { rewrite fmap_length, pairs_length. apply levels_step; [lia|done]. }
    exists (pairs l ++ ins). constructor; [|exact Hm].
    destruct Hl as [Hl _]. cbn in Hl. pose proof (Nat.pow_nonzero 2 d). lia.
Qed.

Lemma build_proof H d : ∀ (l : list string) i x, levels_for (S d) (length l) → l !! i = Some x →
  ∃ p, siblings (build H (S d) l) i = Some p ∧ climb H x p = top H (build H (S d) l) ∧ length p = S d.
Proof.
  induction d as [|d IH]; intros l i x Hl Hi.
  - destruct (parent H l i x Hi) as (sib & H1 & H2). exists [sib]. cbn [build siblings]. rewrite H1. cbn.
    split; [done|]. split; [|done].
    destruct l as [|a [|b [|c l]]]; unfold levels_for in Hl; cbn in Hl; try lia.
    unfold top. cbn. rewrite pair_hash_ordered. cbn in H2.
    destruct (Nat.div2 i); [|done]. cbn in H2. injection H2 as ->. done.
  - destruct (parent H l i x Hi) as (sib & H1 & H2). rewrite build_S, pair_up_pairs. rewrite top_cons by done.
    cbn [siblings]. rewrite H1.
    destruct (IH (H <$> pairs l) _ _ ltac:(rewrite fmap_length, pairs_length; apply levels_step; [lia|done]) H2)
      as (p & Hp & Hc & Hlen).
    exists (sib :: p). cbn [mbind option_bind]. rewrite Hp. split; [done|]. split; [exact Hc|]. cbn. by rewrite Hlen.
Qed.

Lemma depth_levels l : (2 ≤ length l)%nat → ∃ d, depth l = S d ∧ levels_for (S d) (length l).
Proof.
  intros Hl. unfold depth. set (n := N.of_nat (length l - 1)).
  assert (n ≠ 0%N) as Hn by lia.
  pose proof (N.size_gt n) as H1. pose proof (N.size_le n) as H2.
  assert (N.size n ≠ 0%N) as Hs by (destruct n; done).
  exists (pred (N.to_nat (N.size n))). split; [lia|]. unfold levels_for.
  rewrite Nat.succ_pred by lia. set (k := N.size n) in *.
  assert (2 ^ N.to_nat k = N.to_nat (2 ^ k))%nat as Hp by (rewrite N2Nat.inj_pow; done).
  assert (2 ^ (N.to_nat k - 1) = N.to_nat (2 ^ (k - 1)))%nat as Hp1.
  { rewrite N2Nat.inj_pow. f_equal. lia. }
  rewrite Hp, Hp1. assert (2 ^ k = 2 * 2 ^ (k - 1))%N as Hd.
  { rewrite <-N.pow_succ_r'. f_equal. lia. }
  rewrite N.succ_double_spec in H2. lia.
Qed.

Lemma tree_merkle H l : (2 ≤ length l)%nat → ∃ ins, merkle H l (tree_root H l) ins.
Proof.
  intros (d & Hd & Hl)%depth_levels. unfold tree_root, tree_nodes. rewrite Hd. by apply build_merkle.
Qed.

Lemma last_index_lookup x (l : list string) i : ∀ k, last_index x l k = Some i → (k ≤ i)%nat ∧ l !! (i - k)%nat = Some x.
Proof.
  revert i. induction l as [|y l IH]; intros i k; cbn [last_index]; [done|].
  destruct (last_index x l (S k)) as [j|] eqn:E.
  - intros [= ->]. apply IH in E as [H1 H2]. split; [lia|].
    replace (i - k)%nat with (S (i - S k)) by lia. done.
  - destruct (String.eqb_spec x y) as [->|]; [|done]. intros [= ->]. split; [done|]. by rewrite Nat.sub_diag.
Qed.
Lemma last_index_some x l : x ∈ l → ∀ k, is_Some (last_index x l k).
Proof.
  induction l as [|y l IH]; intros Hin k; [by apply elem_of_nil in Hin|]. cbn [last_index].
  destruct (last_index x l (S k)) as [j|] eqn:E; [eauto|].
  destruct (String.eqb_spec x y) as [->|Hne]; [eauto|]. apply elem_of_cons in Hin as [->|Hin]; [done|].
  destruct (IH Hin (S k)) as [j Hj]; congruence.
Qed.

Lemma tree_proof_ok H l x : (2 ≤ length l)%nat → x ∈ l →
  ∃ p, tree_proof H l x = Some p ∧ climb H x p = tree_root H l ∧ length p = depth l.
Proof.
  intros (d & Hd & Hl)%depth_levels Hin. unfold tree_proof, tree_root, tree_nodes. rewrite Hd.
  destruct (last_index_some x l Hin 0) as [i Hi]. rewrite Hi. cbn [mbind option_bind].
  apply last_index_lookup in Hi as [_ Hi]. rewrite Nat.sub_0_r in Hi. by apply build_proof.
Qed.

(** ** Nothing else can be proved *)
Lemma path_inputs_inv H x p c : c ∈ path_inputs H x p → ∃ y sib, c = ordered y sib ∧ sib ∈ p ∧
  (y = x ∨ ∃ c', c' ∈ path_inputs H x p ∧ y = H c').
Proof.
  revert x. induction p as [|sib p IH]; intros x; cbn; [by intros ?%elem_of_nil|].
  intros [->|Hc]%elem_of_cons; [exists x, sib; split; [done|]; split; [by left|by left]|].
  apply IH in Hc as (y & sib' & -> & Hs & Hy). exists y, sib'. split; [done|]. split; [by right|]. right.
  destruct Hy as [->|(c' & Hc' & ->)].
  - eexists. split; [by left|done].
  - exists c'. split; [by right|done].
Qed.
Lemma climb_last H x p : climb H x p = x ∨ ∃ c, c ∈ path_inputs H x p ∧ climb H x p = H c.
Proof.
  revert x. induction p as [|sib p IH]; intros x; cbn; [by left|]. right.
  destruct (IH (H (ordered x sib))) as [->|(c & Hc & ->)].
  - eexists. split; [by left|done].
  - exists c. split; [by right|done].
Qed.
Lemma pairs_inv l c : c ∈ pairs l → ∃ a b, a ∈ l ∧ b ∈ l ∧ c = ordered a b.
Proof.
  induction l as [|a|a b l IH] using list_ind2; cbn; [by intros ?%elem_of_nil| |].
  - intros ->%elem_of_list_singleton. exists a, a. rewrite ordered_self. repeat split; by left.
  - intros [->|Hc]%elem_of_cons; [exists a, b; repeat split; set_solver|].
    apply IH in Hc as (x & y & Hx & Hy & ->). exists x, y. repeat split; set_solver.
Qed.

(** The claim [pre] with the given siblings, or one of the hashes on its path, sits in every level. *)
Lemma descend H l root ins pre p :
  (∀ x, String.length (H x) = 32%nat) → String.length pre ≠ 64%nat → Forall (λ b, String.length b = 32%nat) p →
  merkle H l root ins → Forall (λ b, String.length b = 32%nat) l → proves H root p pre →
  collision H (claim_inputs H pre p) ins ∨ ∃ c, c ∈ claim_inputs H pre p ∧ H c ∈ l.
Proof.
  intros HH Hpre Hp Hm. induction Hm as [x|l root ins Hl Hm IH]; intros Hlen Hr.
  - right. unfold proves in Hr. destruct (climb_last H (H pre) p) as [Hc|(c & Hc & Hcc)].
    + exists pre. split; [by left|]. rewrite Hc in Hr. subst. by left.
    + exists c. split; [by right|]. rewrite Hcc in Hr. subst. by left.
  - destruct IH as [(x & y & Hx & Hy & Hne & Heq)|(c & Hc & Hin)]; [|done| |].
    + apply Forall_forall. intros b (i & -> & _)%elem_of_list_fmap. apply HH.
    + left. exists x, y. split; [done|]. split; [|done]. apply elem_of_app. by right.
    + apply elem_of_list_fmap in Hin as (i & Hi & Hin).
      destruct (decide (c = i)) as [->|Hne].
      2: { left. exists c, i. split; [done|]. split; [|done]. apply elem_of_app. by left. }
      right. apply pairs_inv in Hin as (a & b & Ha & Hb & ->).
      rewrite Forall_forall in Hlen. pose proof (Hlen _ Ha) as La. pose proof (Hlen _ Hb) as Lb.
      apply elem_of_cons in Hc as [Hc|Hc].
      { exfalso. apply Hpre. rewrite <-Hc, ordered_length, La, Lb. done. }
      apply path_inputs_inv in Hc as (y & sib & Ho & Hsib & Hy).
      rewrite Forall_forall in Hp. pose proof (Hp _ Hsib) as Ls.
      assert (String.length y = 32%nat) as Ly by (destruct Hy as [->|(c' & _ & ->)]; apply HH).
      assert (y ∈ l) as Hyl.
      { destruct (ordered_inj _ _ _ _ 32 La Lb Ly Ls Ho) as [[-> _]|[_ ->]]; done. }
      destruct Hy as [->|(c' & Hc' & ->)]; [exists pre|exists c']; (split; [|done]); [by left|by right].
Qed.

(** The claim's hash is a leaf. *)
Lemma sound H ps root ins pre p :
  (∀ x, String.length (H x) = 32%nat) → Forall (λ b, String.length b = 52%nat) ps → String.length pre = 52%nat →
  Forall (λ b, String.length b = 32%nat) p → merkle H (H <$> ps) root ins → proves H root p pre →
  pre ∈ ps ∨ collision H (claim_inputs H pre p) (ps ++ ins).
Proof.
  intros HH Hps Hpre Hp Hm Hr.
  destruct (descend H _ root ins pre p HH ltac:(by rewrite Hpre) Hp Hm) as [(x & y & Hx & Hy & Hne & Heq)|(c & Hc & Hin)].
  - apply Forall_forall. intros b (i & -> & _)%elem_of_list_fmap. apply HH.
  - done.
  - right. exists x, y. split; [done|]. split; [|done]. apply elem_of_app. by right.
  - apply elem_of_list_fmap in Hin as (i & Hi & Hin).
    destruct (decide (c = i)) as [->|Hne].
    2: { right. exists c, i. split; [done|]. split; [|done]. apply elem_of_app. by left. }
    apply elem_of_cons in Hc as [->|Hc]; [by left|]. exfalso.
    apply path_inputs_inv in Hc as (y & sib & -> & Hsib & Hy).
    rewrite Forall_forall in Hps. specialize (Hps _ Hin). rewrite ordered_length in Hps.
    rewrite Forall_forall in Hp. rewrite (Hp _ Hsib) in Hps.
    destruct Hy as [->|(c' & _ & ->)]; rewrite HH in Hps; lia.
Qed.
