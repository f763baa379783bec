(** Vocabulary for the theorems about the gauges. *)
From Verif Require Export Gauges LoopSpec.

(** Where the events [l] lead. *)
Definition leads (sha H : string → string) (c0 : config) (L : life) (l : list event) (L' : life) : Prop := (lifetime sha H c0 l L).2 = L'.
(** From [m] on through [l], the process is never down. *)
Definition stays_up (sha H : string → string) (c0 : config) (m : machine) (l : list event) : Prop :=
  ∀ l1 l2 fs, l = l1 ++ l2 → ¬ leads sha H c0 (Up m) l1 (Down fs).
(** The process that is up after [l] was started as [m0]. *)
Definition started_as (sha H : string → string) (c0 : config) (L : life) (l : list event) (m0 : machine) : Prop :=
  ∃ l1 e l2 fs, l = l1 ++ e :: l2 ∧ leads sha H c0 L l1 (Down fs) ∧ leads sha H c0 (Down fs) [e] (Up m0) ∧ stays_up sha H c0 m0 l2.
(** The process that is up after [l] has processed the slot after which it was [m1], when [f] was the finalized slot. *)
Definition processed_at (sha H : string → string) (c0 : config) (L : life) (l : list event) (m1 : machine) (f : N) : Prop :=
  ∃ l1 a l2 m0, l = l1 ++ Tick a :: l2 ∧ leads sha H c0 L l1 (Up m0) ∧ leads sha H c0 (Up m0) [Tick a] (Up m1) ∧
    an_final a = Some f ∧ st_latest (or_st (m_or m1)) = st_next (or_st (m_or m0)) ∧ m_pc m1 = Processed ∧ stays_up sha H c0 m1 l2.
(** At most one part in 2^53 away. *)
Definition near (x n : N) : Prop := (Z.abs (Z.of_N x - Z.of_N n) * 2 ^ 53 ≤ Z.of_N n)%Z.
