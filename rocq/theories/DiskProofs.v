(** Proofs about two saves at the same time. *)
From Verif Require Export DiskSpec.
From Verif Require Import JsonProofs CodecProofs PersistProofs StringProofs LoopProofs StopProofs.

Lemma write_length s off c : c ≠ [] → length (write_at s off c) = (length s `max` (off + length c))%nat.
Proof.
  intros Hc. unfold write_at. rewrite !app_length, take_length, replicate_length, drop_length.
  assert (0 < length c)%nat by (destruct c; [done|cbn; lia]). lia.
Qed.
Lemma write_lookup s off c i : (write_at s off c) !! i =
  if decide (i < off)%nat then (if decide (i < length s)%nat then s !! i else Some zero)
  else if decide (i < off + length c)%nat then c !! (i - off)%nat else s !! i.
Proof.
  unfold write_at. destruct (decide (i < off)%nat) as [H1|H1].
  - destruct (decide (i < length s)%nat) as [H2|H2].
    + rewrite lookup_app_l by (rewrite take_length; lia). by apply lookup_take.
    + rewrite lookup_app_r, take_length by (rewrite take_length; lia). rewrite lookup_app_l by (rewrite replicate_length; lia).
      apply lookup_replicate_2. lia.
  - rewrite lookup_app_r, take_length by (rewrite take_length; lia).
    rewrite lookup_app_r, replicate_length by (rewrite replicate_length; lia).
    destruct (decide (i < off + length c)%nat) as [H2|H2].
    + rewrite lookup_app_l by lia. f_equal. lia.
    + rewrite lookup_app_r by lia. rewrite lookup_drop. f_equal. lia.
Qed.
Lemma write_next s c : write_at s (length s) c = s ++ c.
Proof. unfold write_at. rewrite take_ge by lia. rewrite Nat.sub_diag, drop_ge by lia. cbn [replicate app]. by rewrite app_nil_r. Qed.
Lemma write_front s c : write_at s 0 c = over c s.
Proof. unfold write_at, over. by cbn [take replicate app Nat.sub Nat.add]. Qed.

(** ** How far a writer is *)
Definition progress (w : writer) (t : list ascii) (off : nat) : Prop :=
  (off ≤ length t)%nat ∧ ((w = Writing off (drop off t)) ∨ (w = Finished ∧ off = length t)).
Lemma progress_step n f w t off : progress w t off → ∃ k, (k ≤ length t - off)%nat ∧ progress (write_step n f w).2 t (off + k) ∧
  (k = 0 ∧ (write_step n f w).1 = f ∨
   k ≠ 0 ∧ take k (drop off t) ≠ [] ∧ length (take k (drop off t)) = k ∧ (write_step n f w).1 = Some (write_at (default [] f) off (take k (drop off t)))) ∧
  (length t ≤ n → k = (length t - off)%nat)%nat.
Proof.
  intros [Hle [->|[-> ->]]].
  - cbn [write_step]. destruct (drop off t) as [|x rest] eqn:Hd.
    + exists 0%nat. assert (off = length t) as -> by (apply (f_equal length) in Hd; rewrite drop_length in Hd; cbn in Hd; lia).
      split; [lia|]. split; [|split; [by left|lia]]. cbn [snd]. rewrite Nat.add_0_r. split; [done|]. by right.
    + rewrite <-Hd. assert (drop off t ≠ []) as Hne by (by rewrite Hd). clear x rest Hd.
      set (k := length (take (S n) (drop off t))). assert (k = S n `min` (length t - off))%nat as Hk by (unfold k; by rewrite take_length, drop_length).
      assert (0 < length t - off)%nat as Hpos. { rewrite <-drop_length. destruct (drop off t); [done|cbn; lia]. }
      assert (take k (drop off t) = take (S n) (drop off t)) as Ht.
      { destruct (decide (S n ≤ length t - off)%nat); [by replace k with (S n) by lia|]. rewrite !take_ge by (rewrite drop_length; lia). done. }
      exists k. split; [lia|]. split; [|split; [|lia]].
      * split; [lia|]. left. cbn [snd]. f_equal. rewrite drop_drop.
        destruct (decide (S n ≤ length t - off)%nat); [by replace k with (S n) by lia|]. rewrite !drop_ge by lia. done.
      * right. rewrite Ht. split; [lia|]. split; [intros E; apply (f_equal length) in E; rewrite take_length, drop_length in E; cbn [length] in E; lia|]. done.
  - exists 0%nat. cbn [write_step fst snd]. split; [lia|]. rewrite Nat.add_0_r. split; [split; [lia|by right]|]. split; [by left|lia].
Qed.
Lemma progress_closed w t off : progress w t off → w = Finished → off = length t.
Proof. intros [_ [->|[_ ->]]]; done. Qed.

(** ** Both opened: the one of [tL] last, when the other was at [base] *)
Record both_open (tL tO : list ascii) (offL base offO : nat) (s : list ascii) : Prop := BothOpen {
  bo_base : (base ≤ offO ≤ length tO)%nat; bo_last : (offL ≤ length tL)%nat;
  bo_length : length s = (offL `max` (if decide (base < offO)%nat then offO else 0))%nat;
  bo_bytes : ∀ i c, s !! i = Some c → ((i < offL)%nat ∧ tL !! i = Some c) ∨ ((base ≤ i < offO)%nat ∧ tO !! i = Some c) ∨ ((offL ≤ i < base)%nat ∧ c = zero) }.
Lemma open_last tL tO offL base offO s k : both_open tL tO offL base offO s → (k ≤ length tL - offL)%nat → k ≠ 0%nat →
  length (take k (drop offL tL)) = k →
  both_open tL tO (offL + k) base offO (write_at s offL (take k (drop offL tL))).
Proof.
  intros [B1 B2 B3 B4] Hk H0 Hl. assert (take k (drop offL tL) ≠ []) as Hne by (by intros E; rewrite E in Hl). split; [done|lia| |].
  - rewrite write_length, Hl, B3 by done. destruct (decide (base < offO)%nat); lia.
  - intros i c. rewrite write_lookup, Hl. destruct (decide (i < offL)%nat) as [H1|H1].
    + destruct (decide (i < length s)%nat) as [H2|H2]; [|lia]. intros Hi. destruct (B4 i c Hi) as [[? ?]|[[? ?]|[? ?]]]; [left; by split; [lia|]|by right; left|lia].
    + destruct (decide (i < offL + k)%nat) as [H2|H2].
      * rewrite lookup_take by lia. rewrite lookup_drop. replace (offL + (i - offL))%nat with i by lia. intros Hi. left. by split.
      * intros Hi. destruct (B4 i c Hi) as [[? ?]|[[? ?]|[? ?]]]; [lia|by right; left|right; right; by split; [lia|]].
Qed.
Lemma open_other tL tO offL base offO s k : both_open tL tO offL base offO s → (k ≤ length tO - offO)%nat → k ≠ 0%nat →
  length (take k (drop offO tO)) = k →
  both_open tL tO offL base (offO + k) (write_at s offO (take k (drop offO tO))).
Proof.
  intros [B1 B2 B3 B4] Hk H0 Hl. assert (take k (drop offO tO) ≠ []) as Hne by (by intros E; rewrite E in Hl). split; [lia|done| |].
  - rewrite write_length, Hl, B3 by done. destruct (decide (base < offO)%nat), (decide (base < offO + k)%nat); lia.
  - intros i c. rewrite write_lookup, Hl. destruct (decide (i < offO)%nat) as [H1|H1].
    + destruct (decide (i < length s)%nat) as [H2|H2].
      * intros Hi. destruct (B4 i c Hi) as [[? ?]|[[? ?]|[? ?]]]; [by left|right; left; by split; [lia|]|by right; right].
      * intros [= <-]. right. right. split; [|done]. destruct (decide (base < offO)%nat); lia.
    + destruct (decide (i < offO + k)%nat) as [H2|H2].
      * rewrite lookup_take by lia. rewrite lookup_drop. replace (offO + (i - offO))%nat with i by lia. intros Hi. right. left. split; [lia|done].
      * intros Hi. destruct (B4 i c Hi) as [[? ?]|[[? ?]|[? ?]]]; [by left|lia|by right; right].
Qed.
(** The states that two writers reach. *)
Inductive reach (a b : list ascii) (f0 : option (list ascii)) : joint_file → Prop :=
  | reach_none : reach a b f0 (Joint f0 (NotOpened a) (NotOpened b))
  | reach_one w off : progress w a off → reach a b f0 (Joint (Some (take off a)) w (NotOpened b))
  | reach_two w off : progress w b off → reach a b f0 (Joint (Some (take off b)) (NotOpened a) w)
  | reach_both w1 w2 off1 off2 base s : progress w1 a off1 → progress w2 b off2 →
      both_open a b off1 base off2 s ∨ both_open b a off2 base off1 s → reach a b f0 (Joint (Some s) w1 w2).
Lemma take_extend (t : list ascii) off k : (k ≤ length t - off)%nat → (off ≤ length t)%nat → write_at (take off t) off (take k (drop off t)) = take (off + k) t.
Proof.
  intros Hk Ho. assert (length (take off t) = off) as Hl by (rewrite take_length; lia). rewrite <-Hl at 2. rewrite write_next.
  symmetry. rewrite <-(take_drop off t) at 1. rewrite take_add_app by done. done.
Qed.
Lemma just_opened tL tO offO s : (offO ≤ length tO)%nat → s = [] → both_open tL tO 0 offO offO s.
Proof. intros Ho ->. split; [lia|lia| |]. - destruct (decide (offO < offO)%nat); [lia|done]. - intros i c. by rewrite lookup_nil. Qed.
Lemma reach_step a b f0 x d : reach a b f0 d → reach a b f0 (shared_step x d).
Proof.
  destruct x as [[] n]; unfold shared_step; cbn [fst snd]; intros [|w off P|w off P|w1 w2 off1 off2 base s P1 P2 B]; cbn [sh_file sh_one sh_two].
  - cbn [write_step fst snd]. apply (reach_one _ _ _ _ 0). split; [lia|]. left. by rewrite drop_0.
  - destruct (progress_step n (Some (take off a)) w a off P) as (k & Hk & Pk & Hf & _). destruct P as [Ho _].
    destruct Hf as [[-> ->]|(H0 & _ & _ & ->)]; [rewrite Nat.add_0_r in Pk; by apply (reach_one _ _ _ _ off)|].
    cbn [default id from_option]. rewrite take_extend by done. by apply reach_one.
  - cbn [write_step fst snd]. apply (reach_both _ _ _ _ _ 0 off off); [split; [lia|]; left; by rewrite drop_0|done|].
    left. destruct P as [Ho _]. by apply just_opened.
  - destruct (progress_step n (Some s) w1 a off1 P1) as (k & Hk & Pk & Hf & _). destruct Hf as [[-> ->]|(H0 & Hne & Hl & ->)].
    + rewrite Nat.add_0_r in Pk. by apply (reach_both _ _ _ _ _ off1 off2 base).
    + cbn [default id from_option]. apply (reach_both _ _ _ _ _ (off1 + k) off2 base); [done|done|].
      destruct B as [B|B]; [left; by apply open_last|right; by apply open_other].
  - cbn [write_step fst snd]. apply (reach_two _ _ _ _ 0). split; [lia|]. left. by rewrite drop_0.
  - cbn [write_step fst snd]. apply (reach_both _ _ _ _ _ off 0 off); [done|split; [lia|]; left; by rewrite drop_0|].
    right. destruct P as [Ho _]. by apply just_opened.
  - destruct (progress_step n (Some (take off b)) w b off P) as (k & Hk & Pk & Hf & _). destruct P as [Ho _].
    destruct Hf as [[-> ->]|(H0 & _ & _ & ->)]; [rewrite Nat.add_0_r in Pk; by apply (reach_two _ _ _ _ off)|].
    cbn [default id from_option]. rewrite take_extend by done. by apply reach_two.
  - destruct (progress_step n (Some s) w2 b off2 P2) as (k & Hk & Pk & Hf & _). destruct Hf as [[-> ->]|(H0 & Hne & Hl & ->)].
    + rewrite Nat.add_0_r in Pk. by apply (reach_both _ _ _ _ _ off1 off2 base).
    + cbn [default id from_option]. apply (reach_both _ _ _ _ _ off1 (off2 + k) base); [done|done|].
      destruct B as [B|B]; [left; by apply open_other|right; by apply open_last].
Qed.
Lemma reach_run a b f0 l d : reach a b f0 d → reach a b f0 (shared_run l d).
Proof. revert d. induction l as [|x l IH]; intros d Hd; [done|]. cbn [shared_run]. by apply IH, reach_step. Qed.

(** ** What is left *)
Lemma both_bytes a b f0 l f : shared_run l (Joint f0 (NotOpened a) (NotOpened b)) = Joint f Finished Finished →
  ∃ s, f = Some s ∧ (length s = length a ∨ length s = length b) ∧
    ∀ i c, s !! i = Some c → a !! i = Some c ∨ b !! i = Some c ∨ (c = zero ∧ (length a ≤ i ∨ length b ≤ i)%nat).
Proof.
  intros Hr. pose proof (reach_run a b f0 l _ (reach_none a b f0)) as R. rewrite Hr in R.
  inversion R as [| | |w1 w2 off1 off2 base s P1 P2 B]; subst. apply progress_closed in P1, P2; [|done..]. subst. exists s. split; [done|].
  destruct B as [[B1 B2 B3 B4]|[B1 B2 B3 B4]]; (split; [destruct (decide _) in B3; lia|]); intros i c Hi; destruct (B4 i c Hi) as [[? ?]|[[? ?]|[? ->]]];
    try (by left); try (by right; left); right; right; (split; [done|lia]).
Qed.
Lemma both_same a f0 l f : shared_run l (Joint f0 (NotOpened a) (NotOpened a)) = Joint f Finished Finished → f = Some a.
Proof.
  intros Hr. pose proof (reach_run a a f0 l _ (reach_none a a f0)) as R. rewrite Hr in R.
  inversion R as [| | |w1 w2 off1 off2 base s P1 P2 B]; subst. apply progress_closed in P1, P2; [|done..]. subst. f_equal.
  assert (both_open a a (length a) base (length a) s) as [B1 B2 B3 B4] by (by destruct B). clear B R Hr.
  assert (length s = length a) as Hl by (destruct (decide _) in B3; lia). apply (list_eq_same_length _ _ (length a)); [done|done|].
  intros i x y Hi Hx Hy. destruct (B4 i x Hx) as [[_ ?]|[[_ ?]|[? _]]]; [congruence..|lia].
Qed.
Lemma one_alone a b f0 ns : ∃ f w, shared_run ((λ n, (true, n)) <$> ns) (Joint f0 (NotOpened a) (NotOpened b)) = Joint f w (NotOpened b) ∧
  match w with NotOpened _ => f = f0 | Writing off rest => f = Some (take off a) ∧ rest = drop off a | Finished => f = Some a end.
Proof.
  pose proof (reach_run a b f0 ((λ n, (true, n)) <$> ns) _ (reach_none a b f0)) as R.
  assert (∀ d, sh_two (shared_run ((λ n, (true, n)) <$> ns) d) = sh_two d) as H2.
  { clear. induction ns as [|n ns IH]; intros d; [done|]. cbn [fmap list_fmap shared_run]. by rewrite IH. }
  specialize (H2 (Joint f0 (NotOpened a) (NotOpened b))). revert R H2. generalize (shared_run ((λ n, (true, n)) <$> ns) (Joint f0 (NotOpened a) (NotOpened b))).
  intros d R. destruct R as [|w off P|w off P|w1 w2 off1 off2 base s P1 P2 B]; cbn [sh_two]; intros H2.
  - by eexists _, _.
  - eexists _, _. split; [done|]. destruct P as [_ [->|[-> ->]]]; [done|]. by rewrite firstn_all.
  - subst w. by destruct P as [_ [P|[P _]]].
  - subst w2. by destruct P2 as [_ [P|[P _]]].
Qed.

(** ** Writes at once *)
Lemma over_nil a : over a [] = a.
Proof. unfold over. by rewrite drop_nil, app_nil_r. Qed.
Definition whole (a b : list ascii) (off1 off2 : nat) (s : list ascii) : Prop :=
  (off1 = 0 ∧ off2 = 0 ∧ s = []) ∨ (off1 = length a ∧ off2 = 0 ∧ (s = [] ∨ s = a)) ∨ (off1 = 0 ∧ off2 = length b ∧ (s = [] ∨ s = b)) ∨
  (off1 = length a ∧ off2 = length b ∧ (s = a ∨ s = b ∨ s = over a b ∨ s = over b a)).
Inductive wreach (a b : list ascii) (f0 : option (list ascii)) : joint_file → Prop :=
  | wreach_none : wreach a b f0 (Joint f0 (NotOpened a) (NotOpened b))
  | wreach_one w off : progress w a off → off = 0 ∨ off = length a → wreach a b f0 (Joint (Some (take off a)) w (NotOpened b))
  | wreach_two w off : progress w b off → off = 0 ∨ off = length b → wreach a b f0 (Joint (Some (take off b)) (NotOpened a) w)
  | wreach_both w1 w2 off1 off2 s : progress w1 a off1 → progress w2 b off2 → whole a b off1 off2 s → wreach a b f0 (Joint (Some s) w1 w2).
Lemma progress_whole n f w t off : progress w t off → t ≠ [] → (length t ≤ n)%nat → off = 0 ∨ off = length t →
  (off = 0 ∧ progress (write_step n f w).2 t (length t) ∧ (write_step n f w).1 = Some (over t (default [] f))) ∨
  (off = length t ∧ progress (write_step n f w).2 t (length t) ∧ (write_step n f w).1 = f).
Proof.
  intros P Hne Hn Ho. destruct (progress_step n f w t off P) as (k & Hk & Pk & Hf & Hw). specialize (Hw Hn).
  assert (0 < length t)%nat by (destruct t; [done|cbn; lia]). destruct Ho as [->| ->].
  - left. split; [done|]. assert (k = length t) as -> by lia. split; [exact Pk|]. destruct Hf as [[? _]|(_ & _ & _ & ->)]; [lia|].
    rewrite drop_0, firstn_all. by rewrite write_front.
  - right. split; [done|]. assert (k = 0) as -> by lia. rewrite Nat.add_0_r in Pk. split; [exact Pk|]. by destruct Hf as [[_ ?]|[? _]].
Qed.
Lemma whole_sym a b off1 off2 s : whole a b off1 off2 s → whole b a off2 off1 s.
Proof. unfold whole. tauto. Qed.
Lemma whole_one n a b off1 off2 s w : progress w a off1 → a ≠ [] → (length a ≤ n)%nat → whole a b off1 off2 s →
  ∃ s' off, (write_step n (Some s) w).1 = Some s' ∧ progress (write_step n (Some s) w).2 a off ∧ whole a b off off2 s'.
Proof.
  intros P Hne Hn W. assert (0 < length a)%nat by (destruct a; [done|cbn; lia]).
  destruct (progress_whole n (Some s) w a off1 P Hne Hn) as [(-> & Q & ->)|(-> & Q & ->)]; [unfold whole in W; tauto| |].
  - cbn [default id from_option]. eexists _, _. split; [done|]. split; [exact Q|]. destruct W as [(_ & -> & ->)|[(? & _)|[(_ & -> & [-> | ->])|(? & _)]]]; [|lia| | |lia].
    + right. left. rewrite over_nil. split; [done|]. split; [done|]. by right.
    + right. right. right. rewrite over_nil. split; [done|]. split; [done|]. by left.
    + right. right. right. split; [done|]. split; [done|]. right. right. by left.
  - eexists _, _. split; [done|]. by split.
Qed.
Lemma opened_one a b off2 s : off2 = 0 ∨ off2 = length b → s = [] → whole a b 0 off2 s.
Proof. intros [->| ->] ->; [by left|]. right. right. left. split; [done|]. split; [done|]. by left. Qed.
Lemma wreach_step a b f0 x d : a ≠ [] → b ≠ [] → (length a ≤ x.2)%nat → (length b ≤ x.2)%nat → wreach a b f0 d → wreach a b f0 (shared_step x d).
Proof.
  intros Na Nb La Lb. destruct x as [[] n]; unfold shared_step; cbn [fst snd] in *; intros [|w off P Ho|w off P Ho|w1 w2 off1 off2 s P1 P2 W]; cbn [sh_file sh_one sh_two].
  - cbn [write_step fst snd]. apply (wreach_one _ _ _ _ 0); [|by left]. split; [lia|]. left. by rewrite drop_0.
  - destruct (progress_whole n (Some (take off a)) w a off P Na La Ho) as [(-> & Q & ->)|(-> & Q & ->)].
    + cbn [default id from_option take]. rewrite over_nil. rewrite <-(firstn_all a) at 2. apply wreach_one; [done|by right].
    + apply wreach_one; [done|by right].
  - cbn [write_step fst snd]. apply (wreach_both _ _ _ _ _ 0 off); [split; [lia|]; left; by rewrite drop_0|done|]. by apply opened_one.
  - destruct (whole_one n a b off1 off2 s w1 P1 Na La W) as (s' & off & -> & Q & W'). by apply (wreach_both _ _ _ _ _ off off2).
  - cbn [write_step fst snd]. apply (wreach_two _ _ _ _ 0); [|by left]. split; [lia|]. left. by rewrite drop_0.
  - cbn [write_step fst snd]. apply (wreach_both _ _ _ _ _ off 0); [done|split; [lia|]; left; by rewrite drop_0|]. by apply whole_sym, opened_one.
  - destruct (progress_whole n (Some (take off b)) w b off P Nb Lb Ho) as [(-> & Q & ->)|(-> & Q & ->)].
    + cbn [default id from_option take]. rewrite over_nil. rewrite <-(firstn_all b) at 2. apply wreach_two; [done|by right].
    + apply wreach_two; [done|by right].
  - destruct (whole_one n b a off2 off1 s w2 P2 Nb Lb (whole_sym _ _ _ _ _ W)) as (s' & off & -> & Q & W'). apply (wreach_both _ _ _ _ _ off1 off); [done|done|by apply whole_sym].
Qed.
Lemma both_whole a b f0 l f : a ≠ [] → b ≠ [] → at_once (length a `max` length b) l →
  shared_run l (Joint f0 (NotOpened a) (NotOpened b)) = Joint f Finished Finished → f = Some a ∨ f = Some b ∨ f = Some (over a b) ∨ f = Some (over b a).
Proof.
  intros Na Nb Hl Hr. assert (∀ d, wreach a b f0 d → wreach a b f0 (shared_run l d)) as R.
  { clear Hr. induction Hl as [|x l Hx Hl IH]; intros d Hd; [done|]. cbn [shared_run]. apply IH, wreach_step; [done|done|lia|lia|done]. }
  specialize (R _ (wreach_none a b f0)). rewrite Hr in R. inversion R as [| | |w1 w2 off1 off2 s P1 P2 W]; subst.
  apply progress_closed in P1, P2; [|done..]. subst. assert (0 < length a ∧ 0 < length b)%nat as [? ?] by (destruct a, b; cbn; done || lia).
  destruct W as [(? & _)|[(_ & ? & _)|[(? & _)|(_ & _ & W)]]]; [lia..|]. destruct W as [->|[->|[->| ->]]]; tauto.
Qed.
(** The second opens after the first, the second writes, then the first. *)
Definition crossing (n : nat) : list (bool * nat) := [(true, n); (false, n); (false, n); (true, n); (false, n); (true, n)].
Lemma crossing_run n a b f0 : a ≠ [] → b ≠ [] → (length a `max` length b ≤ n)%nat →
  shared_run (crossing n) (Joint f0 (NotOpened a) (NotOpened b)) = Joint (Some (over a b)) Finished Finished.
Proof.
  intros Na Nb Hn. unfold crossing. cbn [shared_run]. unfold shared_step. cbn [fst snd sh_file sh_one sh_two write_step].
  destruct b as [|y b]; [done|]. cbn [fst snd sh_file sh_one sh_two write_step default id from_option].
  destruct a as [|x a]; [done|]. cbn [fst snd sh_file sh_one sh_two write_step default id from_option].
  rewrite !take_ge, !drop_ge by (cbn [length] in *; lia). cbn [fst snd sh_file sh_one sh_two write_step]. rewrite !write_front, over_nil. done.
Qed.

Lemma crossing_swap n a b f0 : a ≠ [] → b ≠ [] → (length a `max` length b ≤ n)%nat →
  shared_run (prod_map negb id <$> crossing n) (Joint f0 (NotOpened a) (NotOpened b)) = Joint (Some (over b a)) Finished Finished.
Proof.
  intros Na Nb Hn. unfold crossing. cbn [fmap list_fmap prod_map negb fst snd id shared_run]. unfold shared_step. cbn [fst snd sh_file sh_one sh_two write_step].
  destruct a as [|x a]; [done|]. cbn [fst snd sh_file sh_one sh_two write_step default id from_option].
  destruct b as [|y b]; [done|]. cbn [fst snd sh_file sh_one sh_two write_step default id from_option].
  rewrite !take_ge, !drop_ge by (cbn [length] in *; lia). cbn [fst snd sh_file sh_one sh_two write_step]. rewrite !write_front, over_nil. done.
Qed.

(** ** What is loaded afterwards *)
Lemma skip_end x : skip (x +:+ "}") ≠ "".
Proof. induction x as [|c x IH]; [done|]. rewrite scons_app. cbn [skip]. by destruct (json_space c). Qed.
Lemma parse_more l x : wf_json (JObj l) → parse (print 0 (JObj l) +:+ x +:+ "}") = None.
Proof.
  intros Hw. unfold parse. pose proof (value_print (JObj l) Hw 0 (S (String.length (print 0 (JObj l)))) "" ltac:(lia) I) as Hv. rewrite sapp_nil_r in Hv.
  rewrite (value_ext _ _ _ _ (x +:+ "}") (S (String.length (print 0 (JObj l) +:+ x +:+ "}"))) Hv); [|rewrite string_length_app; lia|by right].
  change ("" +:+ x +:+ "}") with (x +:+ "}"). pose proof (skip_end x) as Hs. by destruct (skip (x +:+ "}")).
Qed.
Lemma print_end l : ∃ q, print 0 (JObj l) = q +:+ "}".
Proof. destruct l as [|x l]; [by exists "{"|]. cbn [print]. generalize (commas ((λ kx : string * json, nl 1 +:+ quote kx.1 +:+ ": " +:+ print 1 kx.2) <$> (x :: l))), (nl 0). intros y z.
  exists ("{" +:+ y +:+ z). by rewrite !sapp_assoc. Qed.
Lemma over_short a b : (length b ≤ length a)%nat → over a b = a.
Proof. intros H. unfold over. by rewrite drop_ge, app_nil_r. Qed.
Lemma saved_ne sha s : saved_text sha s ≠ [].
Proof.
  unfold saved_text, marshal. intros E. destruct (print_end (match enc_state (hash_state sha s) with JObj l => l | _ => [] end)) as [q Hq].
  change (JObj _) with (enc_state (hash_state sha s)) in Hq. rewrite Hq, list_ascii_app in E. by destruct (list_ascii_of_string q).
Qed.
Lemma string_of_list_app (a b : list ascii) : string_of_list_ascii (a ++ b) = string_of_list_ascii a +:+ string_of_list_ascii b.
Proof. induction a as [|c a IH]; [done|]. cbn [app string_of_list_ascii]. by rewrite IH. Qed.
Lemma over_unread sha s1 s2 : in_range s1 → (length (saved_text sha s1) < length (saved_text sha s2))%nat →
  unmarshal (string_of_list_ascii (over (saved_text sha s1) (saved_text sha s2))) = None.
Proof.
  intros Hr Hl. destruct (codec_state (hash_state sha s1) ltac:(by apply range_hash)) as [_ Hw].
  destruct (print_end (match enc_state (hash_state sha s2) with JObj l => l | _ => [] end)) as [q Hq]. change (JObj _) with (enc_state (hash_state sha s2)) in Hq.
  assert (saved_text sha s2 = list_ascii_of_string q ++ ["}"%char]) as E2 by (unfold saved_text, marshal; by rewrite Hq, list_ascii_app).
  unfold over. set (n := length (saved_text sha s1)) in *. rewrite E2, app_length in Hl. cbn [length] in Hl.
  rewrite E2, drop_app_le by lia. unfold saved_text, unmarshal.
  assert (∀ x : list ascii, string_of_list_ascii (list_ascii_of_string (marshal (hash_state sha s1)) ++ x ++ ["}"%char]) =
    marshal (hash_state sha s1) +:+ string_of_list_ascii x +:+ "}") as ->.
  { intros x. rewrite !string_of_list_app, string_of_list_ascii_of_string. done. }
  unfold marshal. pose proof (parse_more _ (string_of_list_ascii (drop n (list_ascii_of_string q))) Hw) as Hp. unfold enc_state at 1. by rewrite Hp.
Qed.
Lemma unread_start sha H c0 s : unmarshal (string_of_list_ascii s) = None → no_start_from sha H c0 s.
Proof.
  intros Hu E slot fs. cbn [lifetime live]. unfold startup, load_json, load_path. rewrite lookup_insert. unfold load_bytes. by rewrite Hu.
Qed.
Lemma lifetime_range sha H c0 l sent m : typed_config c0 → (0 < c_dep_slot c0)%N → Forall typed_event l → lifetime sha H c0 l (Down ∅) = (sent, Up m) →
  in_range (or_st (m_or m)).
Proof.
  intros Tc Hd Tl Hl. destruct (begun_lifetime sha H c0 l (Down ∅) sent (Up m) Tc Hd Tl (good_files_empty sha H c0 false) Hl I) as [G _]. cbn [good_life] in G.
  pose proof (gm_good _ _ _ _ _ G) as Hg. apply good_range in Hg; done.
Qed.
Lemma saves_outcome sha H c0 l1 l2 sent1 sent2 m1 m2 f0 l f : typed_config c0 → (0 < c_dep_slot c0)%N → Forall typed_event (l1 ++ l2) →
  lifetime sha H c0 l1 (Down ∅) = (sent1, Up m1) → lifetime sha H c0 (l1 ++ l2) (Down ∅) = (sent2, Up m2) →
  at_once (length (saved_text sha (or_st (m_or m1))) `max` length (saved_text sha (or_st (m_or m2)))) l →
  shared_run l (Joint f0 (NotOpened (saved_text sha (or_st (m_or m1)))) (NotOpened (saved_text sha (or_st (m_or m2))))) = Joint f Finished Finished →
  f = Some (saved_text sha (or_st (m_or m1))) ∨ f = Some (saved_text sha (or_st (m_or m2))) ∨ ∃ s, f = Some s ∧ no_start_from sha H c0 s.
Proof.
  intros Tc Hd Tl H1 H2 Ho Hr. pose proof (lifetime_range _ _ _ _ _ _ Tc Hd Tl H2) as R2. apply Forall_app in Tl as [Tl _]. pose proof (lifetime_range _ _ _ _ _ _ Tc Hd Tl H1) as R1.
  destruct (both_whole _ _ _ _ _ (saved_ne _ _) (saved_ne _ _) Ho Hr) as [?|[?|[->| ->]]]; [by left|by right; left|..].
  - destruct (decide (length (saved_text sha (or_st (m_or m1))) < length (saved_text sha (or_st (m_or m2))))%nat) as [Hlt|Hge].
    + right. right. eexists. split; [done|]. by apply unread_start, over_unread.
    + left. by rewrite over_short by lia.
  - destruct (decide (length (saved_text sha (or_st (m_or m2))) < length (saved_text sha (or_st (m_or m1))))%nat) as [Hlt|Hge].
    + right. right. eexists. split; [done|]. by apply unread_start, over_unread.
    + right. left. by rewrite over_short by lia.
Qed.
Lemma saves_lost sha H c0 l1 l2 sent1 sent2 m1 m2 f0 : typed_config c0 → (0 < c_dep_slot c0)%N → Forall typed_event (l1 ++ l2) →
  lifetime sha H c0 l1 (Down ∅) = (sent1, Up m1) → lifetime sha H c0 (l1 ++ l2) (Down ∅) = (sent2, Up m2) →
  length (saved_text sha (or_st (m_or m1))) ≠ length (saved_text sha (or_st (m_or m2))) →
  ∃ l s, at_once (length (saved_text sha (or_st (m_or m1))) `max` length (saved_text sha (or_st (m_or m2)))) l ∧
    shared_run l (Joint f0 (NotOpened (saved_text sha (or_st (m_or m1)))) (NotOpened (saved_text sha (or_st (m_or m2))))) = Joint (Some s) Finished Finished ∧
    no_start_from sha H c0 s.
Proof.
  intros Tc Hd Tl H1 H2 Hne. pose proof (lifetime_range _ _ _ _ _ _ Tc Hd Tl H2) as R2. apply Forall_app in Tl as [Tl _]. pose proof (lifetime_range _ _ _ _ _ _ Tc Hd Tl H1) as R1.
  set (a := saved_text sha (or_st (m_or m1))) in *. set (b := saved_text sha (or_st (m_or m2))) in *.
  destruct (decide (length a < length b)%nat) as [Hlt|Hge].
  - exists (crossing (length a `max` length b)), (over a b). split; [by repeat constructor|]. split; [apply crossing_run; [apply saved_ne|apply saved_ne|done]|].
    by apply unread_start, over_unread.
  - exists (prod_map negb id <$> crossing (length a `max` length b)), (over b a). split; [by repeat constructor|]. split.
    + apply crossing_swap; [apply saved_ne|apply saved_ne|done].
    + apply unread_start, over_unread; [done|]. unfold a, b in *. lia.
Qed.
