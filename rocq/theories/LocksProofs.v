(** Proofs about the lock. *)
From Verif Require Export LocksSpec.

Definition inside (s : sys) (t : nat) : bool := match sy_writer s with Some (u, true) => (u =? t)%nat | _ => false end.
Definition nester (menu : nat → list instr → Prop) (t : nat) : Prop := ∃ p, menu t p ∧ nests 0 p.
Definition writer (menu : nat → list instr → Prop) (t : nat) : Prop := ∃ p, menu t p ∧ writes p.

(** ** What holds in every state that is reached *)
Record inv (menu : nat → list instr → Prop) (s : sys) : Prop := Inv {
  inv_threads : ∀ t th, sy_threads s !! t = Some th → balanced (th_held th) (inside s t) (th_todo th) ∧
    (nests (th_held th) (th_todo th) → nester menu t) ∧ (writes (th_todo th) → writer menu t);
  inv_writer : ∀ u b, sy_writer s = Some (u, b) → ∃ th, sy_threads s !! u = Some th ∧ th_held th = 0%nat ∧ (b = false → ∃ p, th_todo th = Lock :: p);
  inv_alone : ∀ u, sy_writer s = Some (u, true) → ∀ t th, sy_threads s !! t = Some th → th_held th = 0%nat }.

Lemma no_readers_spec l : no_readers l = true ↔ ∀ t th, l !! t = Some th → th_held th = 0%nat.
Proof.
  unfold no_readers. rewrite forallb_forall. split.
  - intros H t th Ht. apply Nat.eqb_eq, H, elem_of_list_In. by eapply elem_of_list_lookup_2.
  - intros H th [t Ht]%elem_of_list_In%elem_of_list_lookup. apply Nat.eqb_eq. by eapply H.
Qed.
Lemma inside_none s t : sy_writer s = None → inside s t = false.
Proof. unfold inside. by intros ->. Qed.

(** Possible steps, one clause for each instruction. *)
Lemma go_inv t s s' : go t s = Some s' → ∃ k i p, sy_threads s !! t = Some (Thread k (i :: p)) ∧
  ((i = RLock ∧ sy_writer s = None ∧ s' = Sys None (<[t := Thread (S k) p]> (sy_threads s))) ∨
   (i = RUnlock ∧ ∃ k', k = S k' ∧ s' = Sys (sy_writer s) (<[t := Thread k' p]> (sy_threads s))) ∨
   (i = Lock ∧ sy_writer s = None ∧ s' = Sys (Some (t, false)) (<[t := Thread k (Lock :: p)]> (sy_threads s))) ∨
   (i = Lock ∧ sy_writer s = Some (t, false) ∧ no_readers (sy_threads s) = true ∧ s' = Sys (Some (t, true)) (<[t := Thread k p]> (sy_threads s))) ∨
   (i = Unlock ∧ sy_writer s = Some (t, true) ∧ s' = Sys None (<[t := Thread k p]> (sy_threads s))) ∨
   ((i = Access ∨ i = Change) ∧ s' = Sys (sy_writer s) (<[t := Thread k p]> (sy_threads s)))).
Proof.
  unfold go. destruct (sy_threads s !! t) as [[k [|i p]]|] eqn:Ht; [done| |done]. intros H. exists k, i, p. split; [done|].
  destruct i.
  - destruct (sy_writer s); [done|]. injection H as <-. by left.
  - right; left. destruct k as [|k]; [done|]. injection H as <-. split; [done|]. by exists k.
  - destruct (sy_writer s) as [[u []]|]; [done| |].
    + destruct (Nat.eqb_spec u t) as [Hut|]; [subst u|done]. cbn [andb] in H. destruct (no_readers (sy_threads s)) eqn:Hn; [|done]. injection H as <-.
      right; right; right; left. done.
    + injection H as <-. right; right; left. done.
  - destruct (sy_writer s) as [[u []]|]; [|done|done]. destruct (Nat.eqb_spec u t) as [Hut|]; [subst u|done]. injection H as <-.
    do 4 right; left. done.
  - injection H as <-. do 5 right. split; [by left|done].
  - injection H as <-. do 5 right. split; [by right|done].
Qed.
Lemma call_inv t p s s' : call t p s = Some s' → ∃ k, sy_threads s !! t = Some (Thread k []) ∧
  s' = Sys (sy_writer s) (<[t := Thread k p]> (sy_threads s)).
Proof.
  unfold call. destruct (sy_threads s !! t) as [[k [|]]|]; [|done|done]. intros [= <-]. by exists k.
Qed.
(** Looking up in the changed list. *)
Lemma insert_inv (l : list thread) t x u th : <[t := x]> l !! u = Some th → u = t ∧ th = x ∨ u ≠ t ∧ l !! u = Some th.
Proof.
  intros H. destruct (decide (u = t)) as [->|Hne].
  - left. split; [done|]. apply list_lookup_insert_Some in H. naive_solver.
  - right. split; [done|]. by rewrite list_lookup_insert_ne in H.
Qed.
Lemma insert_at (l : list thread) t x y : l !! t = Some y → <[t := x]> l !! t = Some x.
Proof. intros H. apply list_lookup_insert. by eapply lookup_lt_Some. Qed.

Lemma inv_go (menu : nat → list instr → Prop) t s s' : inv menu s → go t s = Some s' → inv menu s'.
Proof.
  intros [I1 I2 I3] (k & i & p & Ht & Hc)%go_inv. destruct (I1 _ _ Ht) as (Hb & Hn & Hw). cbn [th_held th_todo] in *.
  destruct Hc as [(-> & Hwr & ->)|[(-> & k' & -> & ->)|[(-> & Hwr & ->)|[(-> & Hwr & Hno & ->)|[(-> & Hwr & ->)|(Hi & ->)]]]]].
  - (* RLock *) cbn in Hb. destruct Hb as [Hf Hb]. split; cbn [sy_threads sy_writer]; [|done|done].
    intros u th [[-> ->]|[Hne Hu]]%insert_inv; cbn [th_held th_todo].
    + unfold inside. cbn. rewrite (inside_none _ _ Hwr) in Hb. split; [done|]. split; [intros; apply Hn; cbn; by right|intros; apply Hw; unfold writes in *; set_solver].
    + destruct (I1 _ _ Hu) as (A & B & C). unfold inside in *. cbn. rewrite Hwr in A. done.
  - (* RUnlock *) cbn in Hb. destruct Hb as [Hf Hb]. split; cbn [sy_threads sy_writer].
    + intros u th [[-> ->]|[Hne Hu]]%insert_inv; cbn [th_held th_todo]; [|by apply I1].
      split; [done|]. split; [intros; by apply Hn|intros; apply Hw; unfold writes in *; set_solver].
    + intros u b Hu. destruct (I2 _ _ Hu) as (th & Hth & H0 & Hp). destruct (decide (u = t)) as [->|Hne].
      * rewrite Ht in Hth. injection Hth as <-. done.
      * exists th. rewrite list_lookup_insert_ne by done. done.
    + intros u Hu. pose proof (I3 _ Hu _ _ Ht). done.
  - (* announcing *) cbn in Hb. destruct Hb as (-> & _ & Hb). split; cbn [sy_threads sy_writer].
    + intros u th [[-> ->]|[Hne Hu]]%insert_inv; cbn [th_held th_todo].
      * unfold inside. cbn. split; [done|]. split; [intros; by apply Hn|done].
      * destruct (I1 _ _ Hu) as (A & B & C). unfold inside in *. cbn. rewrite Hwr in A. done.
    + intros u b [= <- <-]. exists (Thread 0 (Lock :: p)). rewrite (insert_at _ _ _ _ Ht). split; [done|]. split; [done|]. by exists p.
    + done.
  - (* entering *) cbn in Hb. destruct Hb as (-> & _ & Hb). split; cbn [sy_threads sy_writer].
    + intros u th [[-> ->]|[Hne Hu]]%insert_inv; cbn [th_held th_todo].
      * unfold inside. cbn. rewrite Nat.eqb_refl. split; [done|]. split; [intros; by apply Hn|intros; apply Hw; unfold writes in *; set_solver].
      * destruct (I1 _ _ Hu) as (A & B & C). unfold inside in *. cbn. rewrite Hwr in A. cbn in A. destruct (Nat.eqb_spec t u); [congruence|]. done.
    + intros u b [= <- <-]. exists (Thread 0 p). rewrite (insert_at _ _ _ _ Ht). done.
    + intros u [= <-] v th [[-> ->]|[Hne Hv]]%insert_inv; [done|]. by eapply no_readers_spec.
  - (* Unlock *) cbn in Hb. destruct Hb as [Hf Hb]. split; cbn [sy_threads sy_writer]; [|done|done].
    intros u th [[-> ->]|[Hne Hu]]%insert_inv; cbn [th_held th_todo].
    + unfold inside. cbn. split; [done|]. split; [intros; by apply Hn|intros; apply Hw; unfold writes in *; set_solver].
    + destruct (I1 _ _ Hu) as (A & B & C). unfold inside in *. cbn. rewrite Hwr in A. cbn in A. destruct (Nat.eqb_spec t u); [congruence|]. done.
  - (* other work *) assert (balanced k (inside s t) p ∧ (nests k p → nester menu t)) as [Hb' Hn'] by (destruct Hi as [-> | ->]; split; [exact Hb|exact Hn|exact Hb|exact Hn]).
    split; cbn [sy_threads sy_writer].
    + intros u th [[-> ->]|[Hne Hu]]%insert_inv; cbn [th_held th_todo]; [|by apply I1].
      split; [done|]. split; [done|intros; apply Hw; unfold writes in *; set_solver].
    + intros u b Hu. destruct (I2 _ _ Hu) as (th & Hth & H0 & Hp). destruct (decide (u = t)) as [->|Hne].
      * rewrite Ht in Hth. injection Hth as <-. exists (Thread k p). rewrite (insert_at _ _ _ _ Ht). split; [done|]. split; [done|].
        intros Hbf. destruct (Hp Hbf) as [p' Hp']. cbn in Hp'. destruct Hi as [-> | ->]; discriminate Hp'.
      * exists th. rewrite list_lookup_insert_ne by done. done.
    + intros u Hu v th [[-> ->]|[Hne Hv]]%insert_inv; [exact (I3 _ Hu _ _ Ht)|exact (I3 _ Hu _ _ Hv)].
Qed.
Lemma inv_call (menu : nat → list instr → Prop) t p s s' : menu t p → balanced 0 false p → inv menu s → call t p s = Some s' → inv menu s'.
Proof.
  intros Hm Hp [I1 I2 I3] (k & Ht & ->)%call_inv. destruct (I1 _ _ Ht) as ((Hk & Hin) & _ & _). cbn in Hk. subst k. split; cbn [sy_threads sy_writer].
  - intros u th [[-> ->]|[Hne Hu]]%insert_inv; cbn [th_held th_todo]; [|by apply I1]. change (inside (Sys (sy_writer s) _) t) with (inside s t).
    rewrite Hin. split; [done|]. split; intros; by exists p.
  - intros u b Hu. destruct (I2 _ _ Hu) as (th & Hth & H0 & Hq). destruct (decide (u = t)) as [->|Hne].
    + rewrite Ht in Hth. injection Hth as <-. exfalso. unfold inside in Hin. rewrite Hu in Hin. destruct b; [by rewrite Nat.eqb_refl in Hin|].
      destruct (Hq eq_refl) as [q Hq']. discriminate Hq'.
    + exists th. by rewrite list_lookup_insert_ne.
  - intros u Hu v th [[-> ->]|[Hne Hv]]%insert_inv; [done|]. exact (I3 _ Hu _ _ Hv).
Qed.
Lemma inv_acts (menu : nat → list instr → Prop) l s s' : (∀ t p, menu t p → balanced 0 false p) → inv menu s → Forall (allowed menu) l → acts l s = Some s' → inv menu s'.
Proof.
  intros Hm. revert s. induction l as [|a l IH]; intros s Hi Hl Ha; [by injection Ha as <-|]. cbn in Ha. inversion Hl as [|? ? Hal Hl']; subst.
  destruct (act_step a s) as [s1|] eqn:Hs; [|done]. eapply IH; [|done|exact Ha]. destruct a as [t|t p]; cbn in *.
  - by eapply inv_go.
  - eapply inv_call; [exact Hal|by eapply Hm|exact Hi|exact Hs].
Qed.
Lemma inv_idle (menu : nat → list instr → Prop) n : inv menu (idle n).
Proof.
  split; cbn [idle sy_threads sy_writer]; [|done|done]. intros t th [-> _]%lookup_replicate. unfold inside. cbn. split; [done|]. split; [done|].
  intros H. by apply elem_of_nil in H.
Qed.
Lemma reached_inv (menu : nat → list instr → Prop) n s : (∀ t p, menu t p → balanced 0 false p) → reached menu n s → inv menu s.
Proof. intros Hm (l & Hl & Ha). eapply inv_acts; [exact Hm|apply inv_idle|exact Hl|exact Ha]. Qed.

(** ** Progress *)
(** A reader that wants the read lock again, while a writer is announced. *)
Definition dead_end (t k : nat) (p : list instr) (u : nat) (s : sys) : Prop :=
  sy_writer s = Some (u, false) ∧ sy_threads s !! t = Some (Thread (S k) (RLock :: p)).
Lemma progress_or (menu : nat → list instr → Prop) s : inv menu s → (∃ t th, sy_threads s !! t = Some th ∧ th_todo th ≠ []) →
  (∃ t s', go t s = Some s') ∨ ∃ t k p u, t ≠ u ∧ dead_end t k p u s ∧ nester menu t ∧ writer menu u.
Proof.
  intros [I1 I2 I3] (t & [k p] & Ht & Hp). cbn in Hp. destruct (sy_writer s) as [[u []]|] eqn:Hw.
  - (* the writer inside *) left. destruct (I2 _ _ eq_refl) as ([k' q] & Hu & H0 & _). cbn in H0. subst k'. destruct (I1 _ _ Hu) as (Hb & _ & _). cbn in Hb.
    unfold inside in Hb. rewrite Hw, Nat.eqb_refl in Hb. exists u. unfold go. rewrite Hu, Hw. destruct q as [|i q]; [by destruct Hb|].
    destruct i; cbn in Hb; try (by destruct Hb); try (by destruct Hb as (_ & ? & _)); [rewrite Nat.eqb_refl|..]; by eexists.
  - (* the writer announced *) destruct (I2 _ _ eq_refl) as ([k' q] & Hu & H0 & Hq). cbn in H0, Hq. subst k'. destruct (Hq eq_refl) as [q' ->].
    destruct (no_readers (sy_threads s)) eqn:Hn.
    + left. exists u. unfold go. rewrite Hu, Hw, Nat.eqb_refl, Hn. by eexists.
    + assert (∃ r k r', sy_threads s !! r = Some (Thread (S k) r')) as (r & kr & pr & Hr).
      { unfold no_readers in Hn. apply not_true_iff_false in Hn.
        destruct (existsb (λ th, negb (th_held th =? 0)%nat) (sy_threads s)) eqn:Hex.
        - apply existsb_exists in Hex as ([kr pr] & [r Hr]%elem_of_list_In%elem_of_list_lookup & Hk). cbn in Hk. destruct kr as [|kr]; [done|]. eauto.
        - exfalso. apply Hn, forallb_forall. intros x Hx. destruct (th_held x =? 0)%nat eqn:E; [done|].
          assert (existsb (λ th, negb (th_held th =? 0)%nat) (sy_threads s) = true) as Hy by (apply existsb_exists; exists x; by rewrite E). congruence. }
      destruct (I1 _ _ Hr) as (Hb & Hnest & _). cbn in Hb, Hnest. unfold inside in Hb. rewrite Hw in Hb.
      destruct pr as [|i pr]; [by destruct Hb|]. destruct i; cbn in Hb; try (by destruct Hb).
      * right. exists r, kr, pr, u. split; [intros ->; rewrite Hu in Hr; discriminate Hr|]. split; [done|]. split; [apply Hnest; by left|].
        destruct (I1 _ _ Hu) as (_ & _ & Hwr). apply Hwr. left.
      * left. exists r. unfold go. rewrite Hr, Hw. by eexists.
      * left. exists r. unfold go. rewrite Hr, Hw. by eexists.
      * left. exists r. unfold go. rewrite Hr, Hw. by eexists.
  - (* no writer *) left. destruct p as [|i p]; [done|]. destruct (I1 _ _ Ht) as (Hb & _ & _). cbn in Hb. rewrite (inside_none _ _ Hw) in Hb. exists t. unfold go.
    rewrite Ht, Hw. destruct i; cbn in Hb; try (by destruct Hb); try (by eexists). destruct k; [by destruct Hb|by eexists].
Qed.
Lemma progress (menu : nat → list instr → Prop) s : (∀ t u, t ≠ u → nester menu t → ¬ writer menu u) → inv menu s →
  (∃ t th, sy_threads s !! t = Some th ∧ th_todo th ≠ []) → ∃ t s', go t s = Some s'.
Proof. intros Hc Hi Ht. destruct (progress_or _ _ Hi Ht) as [|(t & k & p & u & Hne & _ & Hn & Hw)]; [done|]. by destruct (Hc _ _ Hne Hn). Qed.

(** ** All calls can be finished *)
Definition weight (s : sys) : nat :=
  (match sy_writer s with Some (_, false) => 0 | _ => 1 end + sum_list_with (λ th, 2 * length (th_todo th)) (sy_threads s))%nat.
Lemma sum_insert (f : thread → nat) (l : list thread) t x y : l !! t = Some x → (sum_list_with f (<[t := y]> l) + f x = sum_list_with f l + f y)%nat.
Proof. revert t. induction l as [|z l IH]; intros [|t] H; cbn in *; [done|done|injection H as ->; lia|]. rewrite <-Nat.add_assoc. etransitivity; [apply f_equal, (IH _ H)|]. lia. Qed.
Lemma go_weight t s s' : go t s = Some s' → (weight s' < weight s)%nat.
Proof.
  intros (k & i & p & Ht & Hc)%go_inv. unfold weight.
  pose proof (λ k' p', sum_insert (λ th, 2 * length (th_todo th))%nat _ t _ (Thread k' p') Ht) as Hsum. cbn [th_todo length] in Hsum.
  destruct Hc as [(-> & Hwr & ->)|[(-> & k' & -> & ->)|[(-> & Hwr & ->)|[(-> & Hwr & Hno & ->)|[(-> & Hwr & ->)|(Hi & ->)]]]]];
    cbn [sy_writer sy_threads]; try rewrite Hwr; match goal with |- context [Thread ?a ?b] => specialize (Hsum a b) end; cbn [length] in Hsum; try lia.
Qed.
Lemma inv_rest (menu : nat → list instr → Prop) s : inv menu s → (¬ ∃ t th, sy_threads s !! t = Some th ∧ th_todo th ≠ []) → at_rest s.
Proof.
  intros [I1 I2 I3] Hn. assert (∀ t th, sy_threads s !! t = Some th → th_todo th = []) as Hall.
  { intros t [k p] Ht. destruct p; [done|]. exfalso. apply Hn. exists t. by eexists. }
  assert (sy_writer s = None) as Hw.
  { destruct (sy_writer s) as [[u b]|] eqn:Hw; [|done]. destruct (I2 _ _ eq_refl) as ([k p] & Hu & _ & Hp). pose proof (Hall _ _ Hu) as Hn'. cbn in Hn', Hp. subst p.
    destruct b; [|by destruct (Hp eq_refl)]. destruct (I1 _ _ Hu) as ((_ & Hf) & _). unfold inside in Hf. by rewrite Hw, Nat.eqb_refl in Hf. }
  split; [done|]. apply Forall_lookup. intros t [k p] Ht. pose proof (Hall _ _ Ht) as Hp. cbn in Hp. subst p. destruct (I1 _ _ Ht) as ((Hk & _) & _).
  cbn in Hk. by subst k.
Qed.
Lemma todo_dec s : (∃ t th, sy_threads s !! t = Some th ∧ th_todo th ≠ []) ∨ ¬ ∃ t th, sy_threads s !! t = Some th ∧ th_todo th ≠ [].
Proof.
  destruct (existsb (λ th, match th_todo th with [] => false | _ => true end) (sy_threads s)) eqn:Hex.
  - left. apply existsb_exists in Hex as (th & [t Ht]%elem_of_list_In%elem_of_list_lookup & Hk). exists t, th. split; [done|]. by destruct (th_todo th).
  - right. intros (t & th & Ht & Hp). apply not_true_iff_false in Hex. apply Hex. apply existsb_exists. exists th. split; [apply elem_of_list_In; by eapply elem_of_list_lookup_2|].
    by destruct (th_todo th).
Qed.
Lemma can_finish (menu : nat → list instr → Prop) n s : (∀ t p, menu t p → balanced 0 false p) → (∀ t u, t ≠ u → nester menu t → ¬ writer menu u) → reached menu n s →
  ∃ l s', acts (Go <$> l) s = Some s' ∧ at_rest s'.
Proof.
  intros Hm Hc Hr%reached_inv; [|done]. remember (weight s) as w eqn:Hw. revert s Hr Hw. induction (lt_wf w) as [w _ IH]. intros s Hi ->.
  destruct (todo_dec s) as [Ht|Hn]; [|exists [], s; split; [done|by eapply inv_rest]].
  destruct (progress _ _ Hc Hi Ht) as (t & s1 & Hg). destruct (IH (weight s1) (go_weight _ _ _ Hg) s1 (inv_go _ _ _ _ Hi Hg) eq_refl) as (l & s' & Hl & Hs').
  exists (t :: l), s'. split; [|done]. cbn. by rewrite Hg.
Qed.
Lemma no_deadlock (menu : nat → list instr → Prop) n s : (∀ t p, menu t p → balanced 0 false p) → (∀ t u, t ≠ u → nester menu t → ¬ writer menu u) → reached menu n s → ¬ deadlocked s.
Proof.
  intros Hm Hc Hr%reached_inv [Ht Hg]; [|done]. destruct (progress _ _ Hc Hr Ht) as (t & s' & H). by rewrite Hg in H.
Qed.

(** ** Dead ends *)
Lemma dead_acts t k p u l s s' : dead_end t k p u s → acts l s = Some s' → dead_end t k p u s'.
Proof.
  revert s. induction l as [|a l IH]; intros s D Ha; [by injection Ha as <-|]. cbn in Ha. destruct (act_step a s) as [s1|] eqn:Hs; [|done].
  eapply IH; [|exact Ha]. clear IH Ha. destruct D as [Hw Ht].
  assert (no_readers (sy_threads s) = false) as Hno.
  { apply not_true_iff_false. rewrite no_readers_spec. intros Hx. by specialize (Hx _ _ Ht). }
  destruct a as [v|v q]; cbn in Hs.
  - apply go_inv in Hs as (k' & i & q & Hv & Hc). assert (v ≠ t) as Hne.
    { intros ->. rewrite Ht in Hv. injection Hv as <- <- <-. destruct Hc as [(_ & H & _)|[(H & _)|[(H & _)|[(H & _)|[(H & _)|([H|H] & _)]]]]]; congruence. }
    destruct Hc as [(-> & Hwr & ->)|[(-> & k2 & -> & ->)|[(-> & Hwr & ->)|[(-> & Hwr & Hn2 & ->)|[(-> & Hwr & ->)|(Hi & ->)]]]]]; try congruence.
    all: split; cbn [sy_writer sy_threads]; [done|]; by rewrite list_lookup_insert_ne.
  - apply call_inv in Hs as (k' & Hv & ->). split; cbn [sy_writer sy_threads]; [done|]. rewrite list_lookup_insert_ne; [done|]. intros ->. congruence.
Qed.
(** A finished call that kept the write lock. *)
Definition leaked (u : nat) (s : sys) : Prop :=
  sy_writer s = Some (u, true) ∧ ∃ p, sy_threads s !! u = Some (Thread 0 p) ∧ balanced 0 false p.
Lemma leaked_acts (menu : nat → list instr → Prop) u l s s' : (∀ t p, menu t p → balanced 0 false p) → leaked u s → Forall (allowed menu) l → acts l s = Some s' → leaked u s'.
Proof.
  intros Hm. revert s. induction l as [|a l IH]; intros s D Hl Ha; [by injection Ha as <-|]. cbn in Ha. destruct (act_step a s) as [s1|] eqn:Hs; [|done].
  inversion Hl as [|? ? Hal Hl']; subst. eapply IH; [|exact Hl'|exact Ha]. clear IH Ha. destruct D as (Hw & q & Hu & Hb).
  destruct a as [v|v r]; cbn in Hs.
  - apply go_inv in Hs as (k' & i & r & Hv & Hc). destruct (decide (v = u)) as [->|Hne].
    + rewrite Hu in Hv. injection Hv as <- ->.
      destruct Hc as [(-> & Hwr & ->)|[(-> & k2 & Hk & ->)|[(-> & Hwr & ->)|[(-> & Hwr & Hn2 & ->)|[(-> & Hwr & ->)|(Hi & ->)]]]]]; try congruence.
      * by destruct Hb.
      * split; [done|]. exists r. cbn [sy_threads]. rewrite (insert_at _ _ _ _ Hu). split; [done|]. by destruct Hi as [-> | ->].
    + destruct Hc as [(-> & Hwr & ->)|[(-> & k2 & -> & ->)|[(-> & Hwr & ->)|[(-> & Hwr & Hn2 & ->)|[(-> & Hwr & ->)|(Hi & ->)]]]]]; try congruence.
      all: split; cbn [sy_writer sy_threads]; [done|]; exists q; by rewrite list_lookup_insert_ne.
  - apply call_inv in Hs as (k' & Hv & ->). split; cbn [sy_writer sy_threads]; [done|]. destruct (decide (v = u)) as [->|Hne].
    + rewrite Hu in Hv. injection Hv as <- ->. exists r. rewrite (insert_at _ _ _ _ Hu). split; [done|]. by eapply Hm.
    + exists q. by rewrite list_lookup_insert_ne.
Qed.

(** ** Races *)
Record shielded (s : sys) : Prop := Shielded {
  gu_changes : ∀ t th, sy_threads s !! t = Some th → guarded_changes (inside s t) (th_todo th) }.
Lemma guard_go (menu : nat → list instr → Prop) t s s' : inv menu s → shielded s → go t s = Some s' → shielded s'.
Proof.
  intros [I1 I2 I3] [G] (k & i & p & Ht & Hc)%go_inv. pose proof (G _ _ Ht) as Hg. destruct (I1 _ _ Ht) as (Hb & _). cbn [th_todo th_held] in *. split.
  destruct Hc as [(-> & Hwr & ->)|[(-> & k' & -> & ->)|[(-> & Hwr & ->)|[(-> & Hwr & Hno & ->)|[(-> & Hwr & ->)|(Hi & ->)]]]]];
    intros u th [[-> ->]|[Hne Hu]]%insert_inv; cbn [th_todo]; try (pose proof (G _ _ Hu) as Hgu); unfold inside in *; cbn [sy_writer sy_threads] in *; try rewrite Hwr in *; try done.
  - by rewrite Nat.eqb_refl.
  - destruct (Nat.eqb_spec t u); [congruence|done].
  - destruct (Nat.eqb_spec t u); [congruence|done].
  - destruct Hi as [-> | ->]; cbn in Hg; [exact Hg|exact (proj2 Hg)].
Qed.
Lemma guard_call t p s s' : balanced 0 false p → guarded_changes false p → (∀ k, sy_threads s !! t = Some (Thread k []) → inside s t = false) → shielded s → call t p s = Some s' → shielded s'.
Proof.
  intros Hb Hp Hin [G] (k & Ht & ->)%call_inv. split. intros u th [[-> ->]|[Hne Hu]]%insert_inv; cbn [th_todo].
  - change (inside (Sys (sy_writer s) _) t) with (inside s t). by rewrite (Hin _ Ht).
  - exact (G _ _ Hu).
Qed.
Lemma reached_guard (menu : nat → list instr → Prop) n s : (∀ t p, menu t p → balanced 0 false p ∧ guarded_changes false p) → reached menu n s → inv menu s ∧ shielded s.
Proof.
  intros Hm (l & Hl & Ha). assert (inv menu (idle n) ∧ shielded (idle n)) as Hi.
  { split; [apply inv_idle|]. split. intros t th [-> _]%lookup_replicate. done. }
  revert Hi Ha. generalize (idle n). induction Hl as [|a l Hal Hl IH]; intros s0 [Hi Hg] Ha; [by injection Ha as <-|]. cbn in Ha.
  destruct (act_step a s0) as [s1|] eqn:Hs; [|done]. eapply IH; [|exact Ha]. destruct a as [t|t p]; cbn in *.
  - split; [by eapply inv_go|by eapply guard_go].
  - destruct (Hm _ _ Hal) as [H1 H2]. split; [by eapply inv_call|]. eapply guard_call; [exact H1|exact H2| |exact Hg|exact Hs].
    intros k Ht. by destruct (inv_threads _ _ Hi _ _ Ht) as ((_ & Hin) & _).
Qed.
Lemma no_change_race (menu : nat → list instr → Prop) n s : (∀ t p, menu t p → balanced 0 false p ∧ guarded_changes false p) → reached menu n s → ¬ racing Change s.
Proof.
  intros Hm Hr (t & u & a & b & p & q & Hne & Ht & Hu). destruct (reached_guard _ _ _ Hm Hr) as [_ [G]].
  destruct (G _ _ Ht) as [H1 _]. destruct (G _ _ Hu) as [H2 _]. unfold inside in *. destruct (sy_writer s) as [[w []]|]; try done.
  apply Nat.eqb_eq in H1, H2. congruence.
Qed.
(** Reads under a lock. *)
Lemma reads_go t s s' : (∀ v th, sy_threads s !! v = Some th → guarded_reads (th_held th) (inside s v) (th_todo th)) → go t s = Some s' →
  ∀ v th, sy_threads s' !! v = Some th → guarded_reads (th_held th) (inside s' v) (th_todo th).
Proof.
  intros G (k & i & p & Ht & Hc)%go_inv. pose proof (G _ _ Ht) as Hg. cbn [th_todo th_held] in *.
  destruct Hc as [(-> & Hwr & ->)|[(-> & k' & -> & ->)|[(-> & Hwr & ->)|[(-> & Hwr & Hno & ->)|[(-> & Hwr & ->)|(Hi & ->)]]]]];
    intros u th [[-> ->]|[Hne Hu]]%insert_inv; cbn [th_todo th_held]; try (pose proof (G _ _ Hu) as Hgu); unfold inside in *; cbn [sy_writer sy_threads] in *; try rewrite Hwr in *; try done.
  - by rewrite Nat.eqb_refl.
  - destruct (Nat.eqb_spec t u); [congruence|done].
  - destruct (Nat.eqb_spec t u); [congruence|done].
  - destruct Hi as [-> | ->]; cbn in Hg; [exact (proj2 Hg)|exact Hg].
Qed.
Lemma no_read_race (menu : nat → list instr → Prop) n s : (∀ t p, menu t p → balanced 0 false p ∧ guarded_changes false p ∧ guarded_reads 0 false p) → reached menu n s → ¬ racing Access s.
Proof.
  intros Hm Hr. destruct (reached_guard menu n s) as [Hi [G]]; [intros t p Ht; by destruct (Hm t p Ht) as (? & ? & _)|done|].
  assert (∀ v th, sy_threads s !! v = Some th → guarded_reads (th_held th) (inside s v) (th_todo th)) as GR.
  { destruct Hr as (l & Hl & Ha). clear Hi G.
    assert (inv menu (idle n) ∧ ∀ v th, sy_threads (idle n) !! v = Some th → guarded_reads (th_held th) (inside (idle n) v) (th_todo th)) as H0.
    { split; [apply inv_idle|]. intros v th [-> _]%lookup_replicate. done. }
    revert H0 Ha. generalize (idle n). induction Hl as [|a l Hal Hl IH]; intros s0 [Hi Hg] Ha; [by injection Ha as <-|]. cbn in Ha.
    destruct (act_step a s0) as [s1|] eqn:Hs; [|done]. eapply IH; [|exact Ha]. destruct a as [t|t p]; cbn in *.
    - split; [by eapply inv_go|by eapply reads_go].
    - destruct (Hm _ _ Hal) as (H1 & H2 & H3). split; [by eapply inv_call|]. apply call_inv in Hs as (k & Ht & ->).
      destruct (inv_threads _ _ Hi _ _ Ht) as ((Hk & Hin) & _). cbn in Hk. subst k.
      intros u th [[-> ->]|[Hne Hu]]%insert_inv; cbn [th_todo th_held]; [|exact (Hg _ _ Hu)].
      change (inside (Sys (sy_writer s0) _) t) with (inside s0 t). by rewrite Hin. }
  intros (t & u & a & b & p & q & Hne & Ht & Hu). destruct (G _ _ Ht) as [H1 _]. destruct (GR _ _ Hu) as [H2 _]. cbn in H2.
  unfold inside in *. destruct (sy_writer s) as [[w []]|] eqn:Hw; try done. destruct H2 as [H2|H2].
  - apply Nat.eqb_eq in H1, H2. congruence.
  - apply H2. exact (inv_alone _ _ Hi _ Hw _ _ Hu).
Qed.

(** ** The programs of the process *)
Lemma balanced_app k w p q : balanced k w p → balanced 0 false q → balanced k w (p ++ q).
Proof.
  revert k w. induction p as [|i p IH]; intros k w Hp Hq; cbn in *; [by destruct Hp as [-> ->]|].
  destruct i; cbn in *; try (destruct Hp; split; eauto; done); eauto.
  - destruct Hp as [-> Hp]. split; [done|]. destruct k; [done|]. eauto.
  - destruct Hp as (-> & -> & Hp). eauto.
Qed.
Lemma changes_app k w p q : balanced k w p → guarded_changes w p → guarded_changes false q → guarded_changes w (p ++ q).
Proof.
  revert k w. induction p as [|i p IH]; intros k w Hb Hp Hq; cbn in *; [by destruct Hb as [-> ->]|].
  destruct i; cbn in *.
  - destruct Hb. eauto.
  - destruct Hb as [-> Hb]. destruct k; [done|]. eauto.
  - destruct Hb as (-> & -> & Hb). eauto.
  - destruct Hb. eauto.
  - eauto.
  - destruct Hp. split; eauto.
Qed.
Definition sound (p : list instr) : Prop := balanced 0 false p ∧ guarded_changes false p.
Lemma sound_app p q : sound p → sound q → sound (p ++ q).
Proof. intros [A B] [C D]. split; [by apply balanced_app|by eapply changes_app]. Qed.
Lemma sound_times n p : sound p → sound (times n p).
Proof. intros Hp. induction n as [|n IH]; [done|]. change (times (S n) p) with (p ++ times n p). by apply sound_app. Qed.
Lemma main_sound p : main_pass p → sound p.
Proof.
  assert (sound slot_pass) as Hs by (by vm_compute; repeat split).
  destruct 1 as [b| |e]; [by destruct b; vm_compute; repeat split|done|].
  unfold checkpoint_pass. apply sound_app; [done|]. apply sound_app; [by vm_compute; repeat split|]. apply sound_app; [by vm_compute; repeat split|].
  apply sound_app; [by vm_compute; repeat split|]. destruct e as [n|]; [|done]. apply sound_app; [by vm_compute; repeat split|].
  apply sound_app; [by vm_compute; repeat split|]. apply sound_app; [|by vm_compute; repeat split]. apply sound_times. by vm_compute; repeat split.
Qed.
Lemma reads_sound reads : sound (read_request reads).
Proof.
  induction reads as [|n reads IH]; [done|]. unfold read_request. cbn [fmap list_fmap concat]. apply sound_app; [|exact IH].
  apply sound_app; [by vm_compute; repeat split|]. induction n; done.
Qed.
Lemma request_sound p : request p → sound p.
Proof. destruct 1; [by vm_compute; repeat split|apply reads_sound]. Qed.
Lemma program_sound t p : program t p → sound p.
Proof.
  destruct t as [|[|t]]; [apply main_sound| |apply request_sound]. intros []. by vm_compute; repeat split.
Qed.
(** Only the main loop takes read locks on top of each other. *)
Lemma nests_app k w p q : balanced k w p → nests k (p ++ q) → nests k p ∨ nests 0 q.
Proof.
  revert k w. induction p as [|i p IH]; intros k w Hb Hn; cbn in *; [destruct Hb as [-> _]; by right|]. destruct i; cbn in *.
  - destruct Hb as [_ Hb]. destruct Hn as [|Hn]; [by left; left|]. destruct (IH _ _ Hb Hn); auto.
  - destruct Hb as [_ Hb]. destruct k; [done|]. eauto.
  - destruct Hb as (-> & _ & Hb). eauto.
  - destruct Hb as [_ Hb]. eauto.
  - eauto.
  - eauto.
Qed.
Lemma one_read_flat n : ¬ nests 0 (state_call ++ replicate n Access).
Proof. cbn. intros [H|H]; [by apply H|]. revert H. induction n; done. Qed.
Lemma reads_flat reads : ¬ nests 0 (read_request reads).
Proof.
  induction reads as [|n reads IH]; [intros []|]. unfold read_request. cbn [fmap list_fmap concat]. intros H.
  assert (balanced 0 false (state_call ++ replicate n Access)) as Hb by (apply balanced_app; [by vm_compute; repeat split|by clear; induction n]).
  destruct (nests_app 0 false _ _ Hb H) as [H'|H'].
  - by apply one_read_flat in H'.
  - by apply IH.
Qed.
Lemma reads_silent reads : ¬ writes (read_request reads).
Proof.
  unfold writes. induction reads as [|n reads IH]; [apply not_elem_of_nil|]. unfold read_request. cbn [fmap list_fmap concat]. rewrite !elem_of_app.
  intros [[H|H]|H]; [|apply elem_of_replicate in H as [H _]; done|by apply IH]. apply elem_of_cons in H as [H|H]; [done|].
  apply elem_of_cons in H as [H|H]; [done|]. by apply elem_of_nil in H.
Qed.
Lemma program_nester t : nester program t → t = 0%nat.
Proof.
  intros (p & Hp & Hn). destruct t as [|[|t]]; [done|..]; exfalso.
  - destruct Hp. vm_compute in Hn. naive_solver.
  - destruct Hp as [|reads]; [vm_compute in Hn; naive_solver|by apply reads_flat in Hn].
Qed.
Lemma only_deadlock n s : reached program n s → deadlocked s → ∃ k p u, u ≠ 0%nat ∧ dead_end 0 k p u s.
Proof.
  intros Hr [Ht Hg]. apply reached_inv in Hr; [|intros t p Hp; by apply (program_sound t p)].
  destruct (progress_or _ _ Hr Ht) as [(t & s' & H)|(t & k & p & u & Hne & Hd & ->%program_nester & _)]; [by rewrite Hg in H|].
  exists k, p, u. split; [congruence|done].
Qed.
(** No state requests and no signals. *)
Definition reading_only (t : nat) (p : list instr) : Prop := match t with O => main_pass p | _ => ∃ reads, p = read_request reads end.
(** No slots to process. *)
Definition waiting_only (t : nat) (p : list instr) : Prop :=
  match t with O => ∃ b, p = waiting_pass b | S O => signal_pass p | _ => request p end.
Lemma reading_only_finishes n s : reached reading_only n s → ∃ l s', acts (Go <$> l) s = Some s' ∧ at_rest s'.
Proof.
  apply can_finish.
  - intros [|t] p Hp; [by apply main_sound|]. destruct Hp as [reads ->]. apply reads_sound.
  - intros [|t] [|u] Hne; [done|..].
    + intros _ (p & [reads ->] & Hw). by apply reads_silent in Hw.
    + intros (p & [reads ->] & Hn). by apply reads_flat in Hn.
    + intros (p & [reads ->] & Hn). by apply reads_flat in Hn.
Qed.
Lemma waiting_only_finishes n s : reached waiting_only n s → ∃ l s', acts (Go <$> l) s = Some s' ∧ at_rest s'.
Proof.
  apply can_finish.
  - intros [|[|t]] p Hp; [destruct Hp as [b ->]; apply main_sound; constructor|by apply (program_sound 1)|by apply request_sound].
  - intros t u _ (p & Hp & Hn) _. destruct t as [|[|t]].
    + destruct Hp as [b ->]. destruct b; vm_compute in Hn; naive_solver.
    + assert (1%nat = 0%nat); [apply program_nester; by exists p|done].
    + assert (S (S t) = 0%nat); [apply program_nester; by exists p|done].
Qed.
Lemma program_changes n s : reached program n s → ¬ racing Change s.
Proof. apply no_change_race. apply program_sound. Qed.

(** ** Schedules *)
(** The main loop processes a slot and enters IsCheckpoint; then someone wants to write. *)
Definition entering : list act := Call 0 slot_pass :: replicate 24 (Go 0).
Definition hash_blocks : list act := entering ++ [Call 2 state_request; Go 2].
Definition signal_blocks : list act := entering ++ [Call 1 (save_call false); Go 1].
Lemma dead_deadlocked t k p u s : dead_end t k p u s → (∀ v th, sy_threads s !! v = Some th → v = t ∨ (∃ q, v = u ∧ th_todo th = Lock :: q) ∨ th_todo th = []) → deadlocked s.
Proof.
  intros [Hw Ht] Hall. split; [exists t; by eexists|]. intros v. unfold go. destruct (sy_threads s !! v) as [[kv q]|] eqn:Hv; [|done].
  destruct (Hall _ _ Hv) as [->|[(q' & -> & Hq)|Hq]].
  - rewrite Ht in Hv. injection Hv as <- <-. by rewrite Hw.
  - cbn in Hq. subst q. rewrite Hw, Nat.eqb_refl. assert (no_readers (sy_threads s) = false) as ->; [|done].
    apply not_true_iff_false. rewrite no_readers_spec. intros Hx. by specialize (Hx _ _ Ht).
  - cbn in Hq. by subst q.
Qed.
Lemma entering_allowed : Forall (allowed program) entering.
Proof. apply Forall_cons. split; [constructor|]. by apply Forall_replicate. Qed.
Lemma hash_deadlock : ∃ s, reached program 3 s ∧ deadlocked s ∧
  ∀ l s', acts l s = Some s' → sy_writer s' = sy_writer s ∧ sy_threads s' !! 0%nat = sy_threads s !! 0%nat.
Proof.
  destruct (acts hash_blocks (idle 3)) as [s|] eqn:Hs; [|by vm_compute in Hs]. exists s.
  assert (dead_end 0 0 [RUnlock; Access; RUnlock] 2 s ∧ length (sy_threads s) = 3%nat ∧ (∃ q, sy_threads s !! 2%nat = Some (Thread 0 (Lock :: q))) ∧ sy_threads s !! 1%nat = Some (Thread 0 [])) as (D & Hlen & (q & H2) & H1).
  { vm_compute in Hs. injection Hs as <-. split; [done|]. split; [done|]. split; [by eexists|done]. }
  split; [|split].
  - exists hash_blocks. split; [|done]. apply Forall_app. split; [exact entering_allowed|]. apply Forall_cons. split; [constructor|by apply Forall_cons].
  - eapply dead_deadlocked; [exact D|]. intros v th Hv. destruct v as [|[|[|v]]]; [by left|right; right; rewrite H1 in Hv; by injection Hv as <-| |].
    + right; left. exists q. split; [done|]. rewrite H2 in Hv. by injection Hv as <-.
    + apply lookup_lt_Some in Hv. rewrite Hlen in Hv. lia.
  - intros l s' Hl. destruct (dead_acts _ _ _ _ _ _ _ D Hl) as [A B]. destruct D as [C E]. split; congruence.
Qed.
Lemma signal_deadlock : ∃ s, reached program 2 s ∧ deadlocked s ∧
  ∀ l s', acts l s = Some s' → sy_writer s' = sy_writer s ∧ sy_threads s' !! 0%nat = sy_threads s !! 0%nat.
Proof.
  destruct (acts signal_blocks (idle 2)) as [s|] eqn:Hs; [|by vm_compute in Hs]. exists s.
  assert (dead_end 0 0 [RUnlock; Access; RUnlock] 1 s ∧ length (sy_threads s) = 2%nat ∧ (∃ q, sy_threads s !! 1%nat = Some (Thread 0 (Lock :: q)))) as (D & Hlen & (q & H2)).
  { vm_compute in Hs. injection Hs as <-. split; [done|]. split; [done|]. by eexists. }
  split; [|split].
  - exists signal_blocks. split; [|done]. apply Forall_app. split; [exact entering_allowed|]. apply Forall_cons. split; [constructor|by apply Forall_cons].
  - eapply dead_deadlocked; [exact D|]. intros v th Hv. destruct v as [|[|v]]; [by left| |].
    + right; left. exists q. split; [done|]. rewrite H2 in Hv. by injection Hv as <-.
    + apply lookup_lt_Some in Hv. rewrite Hlen in Hv. lia.
  - intros l s' Hl. destruct (dead_acts _ _ _ _ _ _ _ D Hl) as [A B]. destruct D as [C E]. split; congruence.
Qed.
(** A request reads the state it was given while the main loop changes it. *)
Definition reading_while_changing : list act :=
  [Call 2 (read_request [3%nat]); Go 2; Go 2; Call 0 slot_pass] ++ replicate 9 (Go 0).
Lemma read_race : ∃ s, reached program 3 s ∧ racing Access s.
Proof.
  destruct (acts reading_while_changing (idle 3)) as [s|] eqn:Hs; [|by vm_compute in Hs]. exists s. split.
  - exists reading_while_changing. split; [|done]. do 4 (apply Forall_cons; split; [first [done|by constructor|constructor]|]). by apply Forall_replicate.
  - vm_compute in Hs. injection Hs as <-. exists 0%nat, 2%nat. do 4 eexists. split; [done|]. split; reflexivity.
Qed.

(** ** Reads without the lock *)
(** A thread that is alone runs to the end of a balanced list. *)
Lemma alone_runs t l0 p : ∀ k (w : bool) q, balanced k w p →
  (t < length l0)%nat → (∀ v th, v ≠ t → l0 !! v = Some th → th_held th = 0%nat) →
  ∃ n, acts (replicate n (Go t)) (Sys (if w then Some (t, true) else None) (<[t := Thread k (p ++ q)]> l0)) =
       Some (Sys None (<[t := Thread 0 q]> l0)).
Proof.
  induction p as [|i p IH]; intros k w q Hb Ht Hl.
  { destruct Hb as [-> ->]. by exists 0%nat. }
  assert (∀ th, <[t := th]> l0 !! t = Some th) as Hlk by (intros th; by apply list_lookup_insert).
  assert (∀ x w', go t (Sys w' (<[t := Thread k (i :: p ++ q)]> l0)) = Some x → ∀ n r, acts (replicate n (Go t)) x = Some r →
    acts (replicate (S n) (Go t)) (Sys w' (<[t := Thread k (i :: p ++ q)]> l0)) = Some r) as Hone.
  { intros x w' Hg n r Hr. cbn. by rewrite Hg. }
  assert (k = 0%nat → no_readers (<[t := Thread k (i :: p ++ q)]> l0) = true) as Hnr.
  { intros ->. apply forallb_forall. intros th Hin. apply elem_of_list_In in Hin. apply elem_of_list_lookup in Hin as [v Hv].
    destruct (decide (v = t)) as [->|Hne].
    - rewrite Hlk in Hv. by injection Hv as <-.
    - rewrite list_lookup_insert_ne in Hv by done. by rewrite (Hl v th Hne Hv). }
  destruct i; cbn [balanced app] in *.
  - destruct Hb as [-> Hb]. destruct (IH (S k) false q Hb Ht Hl) as [n Hn]. exists (S n). eapply Hone; [|exact Hn].
    unfold go. cbn [sy_threads sy_writer]. rewrite Hlk. cbn. by rewrite list_insert_insert.
  - destruct Hb as [-> Hb]. destruct k as [|k]; [done|]. destruct (IH k false q Hb Ht Hl) as [n Hn]. exists (S n). eapply Hone; [|exact Hn].
    unfold go. cbn [sy_threads sy_writer]. rewrite Hlk. cbn. by rewrite list_insert_insert.
  - destruct Hb as (-> & -> & Hb). destruct (IH 0%nat true q Hb Ht Hl) as [n Hn]. exists (S (S n)).
    change (replicate (S (S n)) (Go t)) with (Go t :: replicate (S n) (Go t)). cbn [acts act_step].
    assert (go t (Sys None (<[t:=Thread 0 (Lock :: p ++ q)]> l0)) = Some (Sys (Some (t, false)) (<[t:=Thread 0 (Lock :: p ++ q)]> l0))) as ->.
    { unfold go. cbn [sy_threads sy_writer]. rewrite Hlk. cbn. by rewrite list_insert_insert. }
    eapply Hone; [|exact Hn]. unfold go. cbn [sy_threads sy_writer]. rewrite Hlk, Nat.eqb_refl, (Hnr eq_refl). cbn. by rewrite list_insert_insert.
  - destruct Hb as [-> Hb]. destruct (IH k false q Hb Ht Hl) as [n Hn]. exists (S n). eapply Hone; [|exact Hn].
    unfold go. cbn [sy_threads sy_writer]. rewrite Hlk. rewrite Nat.eqb_refl. cbn. by rewrite list_insert_insert.
  - destruct (IH k w q Hb Ht Hl) as [n Hn]. exists (S n). eapply Hone; [|exact Hn].
    unfold go. cbn [sy_threads sy_writer]. rewrite Hlk. cbn. destruct w; by rewrite list_insert_insert.
  - destruct (IH k w q Hb Ht Hl) as [n Hn]. exists (S n). eapply Hone; [|exact Hn].
    unfold go. cbn [sy_threads sy_writer]. rewrite Hlk. cbn. destruct w; by rewrite list_insert_insert.
Qed.
Lemma acts_app l l' s s' : acts l s = Some s' → acts (l ++ l') s = acts l' s'.
Proof. revert s. induction l as [|a l IH]; intros s; cbn; [by intros [= ->]|]. destruct (act_step a s); [apply IH|done]. Qed.

(** Whoever reads without holding the lock can meet somebody who changes the state. *)
Lemma unlocked_race (menu : nat → list instr → Prop) n t u pre i post r : (t < n)%nat → (u < n)%nat → t ≠ u →
  menu t (pre ++ i :: post) → balanced 0 false pre → menu u (Lock :: Change :: r) →
  ∃ s, reached menu n s ∧ sy_threads s !! t = Some (Thread 0 (i :: post)) ∧ sy_threads s !! u = Some (Thread 0 (Change :: r)).
Proof.
  intros Ht Hu Hne Hm Hb Hmu. set (l0 := replicate n (Thread 0 [])).
  destruct (alone_runs t l0 pre 0 false (i :: post) Hb) as [m Hrun].
  { unfold l0. by rewrite replicate_length. }
  { intros v th _ Hv. unfold l0 in Hv. apply lookup_replicate in Hv as [-> _]. done. }
  set (l1 := <[t := Thread 0 (i :: post)]> l0) in *.
  assert (l1 !! u = Some (Thread 0 [])) as Hlu by (unfold l1; rewrite list_lookup_insert_ne by done; by apply lookup_replicate_2).
  assert (u < length l1)%nat as Hlen by (unfold l1; rewrite insert_length; unfold l0; by rewrite replicate_length).
  set (l2 := <[u := Thread 0 (Change :: r)]> l1). exists (Sys (Some (u, true)) l2). split; [|split].
  - exists ((Call t (pre ++ i :: post) :: replicate m (Go t)) ++ [Call u (Lock :: Change :: r); Go u; Go u]). split.
    + apply Forall_app. split; [apply Forall_cons; split; [exact Hm|by apply Forall_replicate]|].
      apply Forall_cons; split; [exact Hmu|]. by repeat (apply Forall_cons; split; [exact I|]).
    + rewrite (acts_app _ _ _ (Sys None l1)).
      * cbn [acts act_step]. unfold call. cbn [sy_threads sy_writer]. rewrite Hlu.
        unfold go at 1. cbn [sy_threads sy_writer]. rewrite list_lookup_insert by done. cbn [sy_writer].
        rewrite list_insert_insert. unfold go. cbn [sy_threads sy_writer]. rewrite list_lookup_insert by done.
        rewrite Nat.eqb_refl. rewrite list_insert_insert.
        assert (no_readers (<[u := Thread 0 (Lock :: Change :: r)]> l1) = true) as ->; [|done].
        apply forallb_forall. intros th Hin. apply elem_of_list_In in Hin. apply elem_of_list_lookup in Hin as [v Hv].
        destruct (decide (v = u)) as [->|Hvu]; [rewrite list_lookup_insert in Hv by done; by injection Hv as <-|].
        rewrite list_lookup_insert_ne in Hv by done. unfold l1 in Hv. destruct (decide (v = t)) as [->|Hvt].
        { rewrite list_lookup_insert in Hv by (unfold l0; by rewrite replicate_length). by injection Hv as <-. }
        rewrite list_lookup_insert_ne in Hv by done. unfold l0 in Hv. apply lookup_replicate in Hv as [-> _]. done.
      * cbn [acts act_step]. unfold call, idle. cbn [sy_threads sy_writer]. rewrite lookup_replicate_2 by done. exact Hrun.
  - cbn [sy_threads]. unfold l2. rewrite list_lookup_insert_ne by done. unfold l1. apply list_lookup_insert. unfold l0. by rewrite replicate_length.
  - unfold l2. by apply list_lookup_insert.
Qed.
(** In this process there always is such a somebody. *)
Lemma program_unlocked_race t pre post : (t < 3)%nat → program t (pre ++ Access :: post) → balanced 0 false pre →
  ∃ s, reached program 3 s ∧ sy_threads s !! t = Some (Thread 0 (Access :: post)) ∧ racing Access s.
Proof.
  intros Ht Hp Hb. destruct (decide (t = 1%nat)) as [->|Hne].
  - destruct (unlocked_race program 3 1 2 pre Access post (tl (tl state_request))) as (s & H1 & H2 & H3); [lia|lia|lia|done|done|constructor|].
    exists s. split; [done|]. split; [done|]. exists 2%nat, 1%nat. do 4 eexists. split; [lia|]. split; [exact H3|exact H2].
  - destruct (unlocked_race program 3 t 1 pre Access post (tl (tl (save_call false)))) as (s & H1 & H2 & H3); [lia|lia|lia|done|done|constructor|].
    exists s. split; [done|]. split; [done|]. exists 1%nat, t. do 4 eexists. split; [lia|]. split; [exact H3|exact H2].
Qed.
