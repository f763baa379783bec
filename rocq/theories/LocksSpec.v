(** Vocabulary for the theorems about the lock. *)
From Verif Require Export Locks.

(** Calls are made from [menu]. *)
Definition allowed (menu : nat → list instr → Prop) (a : act) : Prop := match a with Call t p => menu t p | Go _ => True end.
(** [s] is reached from [n] idle threads by calls from [menu]. *)
Definition reached (menu : nat → list instr → Prop) (n : nat) (s : sys) : Prop :=
  ∃ l, Forall (allowed menu) l ∧ acts l (idle n) = Some s.
(** Some call is not finished, and no thread can execute an instruction. *)
Definition deadlocked (s : sys) : Prop :=
  (∃ t th, sy_threads s !! t = Some th ∧ th_todo th ≠ []) ∧ ∀ t, go t s = None.
(** All calls are finished and the lock is free. *)
Definition at_rest (s : sys) : Prop := sy_writer s = None ∧ Forall (λ th, th = Thread 0 []) (sy_threads s).

(** Locks are released in the end and not taken on top of the write lock. [k] read locks are held, [w] the write lock. *)
Fixpoint balanced (k : nat) (w : bool) (p : list instr) : Prop :=
  match p with
  | [] => k = 0%nat ∧ w = false
  | RLock :: p => w = false ∧ balanced (S k) w p
  | RUnlock :: p => w = false ∧ match k with S k => balanced k w p | O => False end
  | Lock :: p => k = 0%nat ∧ w = false ∧ balanced 0 true p
  | Unlock :: p => w = true ∧ balanced k false p
  | (Access | Change) :: p => balanced k w p
  end.
(** Somewhere a read lock is taken on top of a read lock. *)
Fixpoint nests (k : nat) (p : list instr) : Prop :=
  match p with
  | [] => False
  | RLock :: p => k ≠ 0%nat ∨ nests (S k) p
  | RUnlock :: p => nests (pred k) p
  | _ :: p => nests k p
  end.
Definition writes (p : list instr) : Prop := Lock ∈ p.
(** The state is changed only under the write lock ... *)
Fixpoint guarded_changes (w : bool) (p : list instr) : Prop :=
  match p with
  | [] => True
  | Lock :: p => guarded_changes true p
  | Unlock :: p => guarded_changes false p
  | Change :: p => w = true ∧ guarded_changes w p
  | _ :: p => guarded_changes w p
  end.
(** ... and read only under a lock. *)
Fixpoint guarded_reads (k : nat) (w : bool) (p : list instr) : Prop :=
  match p with
  | [] => True
  | RLock :: p => guarded_reads (S k) w p
  | RUnlock :: p => guarded_reads (pred k) w p
  | Lock :: p => guarded_reads k true p
  | Unlock :: p => guarded_reads k false p
  | Access :: p => (w = true ∨ k ≠ 0%nat) ∧ guarded_reads k w p
  | Change :: p => guarded_reads k w p
  end.
(** Two threads are about to access the state at the same time, one of them to change it. *)
Definition racing (i : instr) (s : sys) : Prop :=
  ∃ t u a b p q, t ≠ u ∧ sy_threads s !! t = Some (Thread a (Change :: p)) ∧ sy_threads s !! u = Some (Thread b (i :: q)).
