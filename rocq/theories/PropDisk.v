(** Two saves at the same time: C102. *)
From Verif Require Import DiskProofs LoopSamples.

(** A save that is alone leaves a beginning of its text at every moment, and the whole text when it is finished. *)
Theorem C102_alone a b f0 ns : ∃ f w, shared_run ((λ n, (true, n)) <$> ns) (Joint f0 (NotOpened a) (NotOpened b)) = Joint f w (NotOpened b) ∧
  match w with NotOpened _ => f = f0 | Writing off rest => f = Some (take off a) ∧ rest = drop off a | Finished => f = Some a end.
Proof. exact (one_alone a b f0 ns). Qed.
(** Two saves of the same text leave that text, whatever the order and the sizes of their write calls. *)
Theorem C102_same a f0 l f : shared_run l (Joint f0 (NotOpened a) (NotOpened a)) = Joint f Finished Finished → f = Some a.
Proof. exact (both_same a f0 l f). Qed.
(** Two saves of any texts: the file is as long as one of them, and every byte is the one of one of them at this place,
    or a zero byte behind the end of the shorter one. *)
Theorem C102_bytes a b f0 l f : shared_run l (Joint f0 (NotOpened a) (NotOpened b)) = Joint f Finished Finished →
  ∃ s, f = Some s ∧ (length s = length a ∨ length s = length b) ∧
    ∀ i c, s !! i = Some c → a !! i = Some c ∨ b !! i = Some c ∨ (c = zero ∧ (length a ≤ i ∨ length b ≤ i)%nat).
Proof. exact (both_bytes a b f0 l f). Qed.
(** The handler saves the state that the process had at some moment, the loop the one of a later moment. If each text is
    written with one call, then the file holds one of the two states, or the process never starts from it. *)
Theorem C102_outcomes sha H c0 l1 l2 sent1 sent2 m1 m2 f0 l f : typed_config c0 → (0 < c_dep_slot c0)%N → Forall typed_event (l1 ++ l2) →
  lifetime sha H c0 l1 (Down ∅) = (sent1, Up m1) → lifetime sha H c0 (l1 ++ l2) (Down ∅) = (sent2, Up m2) →
  at_once (length (saved_text sha (or_st (m_or m1))) `max` length (saved_text sha (or_st (m_or m2)))) l →
  shared_run l (Joint f0 (NotOpened (saved_text sha (or_st (m_or m1)))) (NotOpened (saved_text sha (or_st (m_or m2))))) = Joint f Finished Finished →
  f = Some (saved_text sha (or_st (m_or m1))) ∨ f = Some (saved_text sha (or_st (m_or m2))) ∨ ∃ s, f = Some s ∧ no_start_from sha H c0 s.
Proof. exact (saves_outcome sha H c0 l1 l2 sent1 sent2 m1 m2 f0 l f). Qed.
(** Full claim: the third case does not occur. It is false whenever the two texts differ in length. *)
Theorem C102_lost sha H c0 l1 l2 sent1 sent2 m1 m2 f0 : typed_config c0 → (0 < c_dep_slot c0)%N → Forall typed_event (l1 ++ l2) →
  lifetime sha H c0 l1 (Down ∅) = (sent1, Up m1) → lifetime sha H c0 (l1 ++ l2) (Down ∅) = (sent2, Up m2) →
  length (saved_text sha (or_st (m_or m1))) ≠ length (saved_text sha (or_st (m_or m2))) →
  ∃ l s, at_once (length (saved_text sha (or_st (m_or m1))) `max` length (saved_text sha (or_st (m_or m2)))) l ∧
    shared_run l (Joint f0 (NotOpened (saved_text sha (or_st (m_or m1)))) (NotOpened (saved_text sha (or_st (m_or m2))))) = Joint (Some s) Finished Finished ∧
    no_start_from sha H c0 s.
Proof. exact (saves_lost sha H c0 l1 l2 sent1 sent2 m1 m2 f0). Qed.

(** The signal comes when the checkpoint slot was processed; the loop freezes it meanwhile and saves. *)
Definition on_to_saving : list event := ticks 4 nothing_yet 0 ++ ticks 1 ("", 5%N) 0.
Example C102_example : ∃ m2, Forall typed_event (at_checkpoint ++ on_to_saving) ∧ lifetime toy toy cfg_loop at_checkpoint (Down ∅) = ([], Up window_machine) ∧
  lifetime toy toy cfg_loop (at_checkpoint ++ on_to_saving) (Down ∅) = ([], Up m2) ∧ m_pc m2 = Saving ∧
  (length (saved_text toy (or_st (m_or window_machine))) < length (saved_text toy (or_st (m_or m2))))%nat.
Proof.
  destruct (ex_life (λ sent m, match sent, m_pc m with
    | [], Saving => length (saved_text toy (or_st (m_or window_machine))) <? length (saved_text toy (or_st (m_or m))) | _, _ => false end)%nat
    toy toy cfg_loop (at_checkpoint ++ on_to_saving) (Down ∅)) as (sent & m & Hl & Ht); [by vm_compute|].
  destruct sent; [|discriminate Ht]. exists m. split; [|split; [apply window_life|split; [exact Hl|]]].
  - clear Hl Ht. unfold on_to_saving. rewrite !Forall_app. split; [exact at_checkpoint_typed|]. split; by apply ticks_typed, Nat.lt_0_succ.
  - clear Hl. destruct (m_pc m); try discriminate Ht. split; [reflexivity|]. by apply Nat.ltb_lt.
Qed.
(** So the orderly stop of C93 can leave a file from which the process never starts. *)
Theorem C102_stop_refuted : ∃ c0 l1 l2 m1 m2 l s, typed_config c0 ∧ Forall typed_event (l1 ++ l2) ∧ lifetime toy toy c0 l1 (Down ∅) = ([], Up m1) ∧
  lifetime toy toy c0 (l1 ++ l2) (Down ∅) = ([], Up m2) ∧ m_pc m2 = Saving ∧
  shared_run l (Joint None (NotOpened (saved_text toy (or_st (m_or m1)))) (NotOpened (saved_text toy (or_st (m_or m2))))) = Joint (Some s) Finished Finished ∧
  no_start_from toy toy c0 s.
Proof.
  destruct C102_example as (m2 & T & H1 & H2 & Hpc & Hlt). pose proof (Nat.lt_neq _ _ Hlt) as Hne. clear Hlt.
  destruct (C102_lost toy toy cfg_loop at_checkpoint on_to_saving [] [] window_machine m2 None cfg_loop_typed eq_refl T H1 H2 Hne) as (l & s & _ & Hr & Hs).
  exists cfg_loop, at_checkpoint, on_to_saving, window_machine, m2, l, s. split; [exact cfg_loop_typed|]. split; [exact T|]. split; [exact H1|]. split; [exact H2|].
  split; [exact Hpc|]. split; [exact Hr|exact Hs].
Qed.
(** Small pieces, and different texts: the zero bytes of C102_bytes occur too. *)
Example C102_same_example : shared_run [(true, 0); (true, 1); (false, 0); (true, 5); (false, 0); (false, 9); (true, 0); (false, 0)]%nat
  (Joint None (NotOpened ["{"; "1"; "}"]%char) (NotOpened ["{"; "1"; "}"]%char)) = Joint (Some ["{"; "1"; "}"]%char) Finished Finished.
Proof. reflexivity. Qed.
Example C102_bytes_example : shared_run [(true, 0); (true, 1); (false, 0); (true, 5); (false, 0); (true, 0); (false, 0)]%nat
  (Joint None (NotOpened ["{"; "1"; "}"]%char) (NotOpened ["x"]%char)) = Joint (Some ["x"; zero; "}"]%char) Finished Finished.
Proof. reflexivity. Qed.
Print Assumptions C102_alone.
Print Assumptions C102_same.
Print Assumptions C102_bytes.
Print Assumptions C102_outcomes.
Print Assumptions C102_lost.
Print Assumptions C102_stop_refuted.
