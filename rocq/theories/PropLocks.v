(** Properties of the lock under all interleavings: C42, C63. *)
From Verif Require Export LocksProofs.

(** ** C42: readers and writers never deadlock *)

(** As stated it is false, for the calls that the process really makes. The main loop processes a slot and is in
    IsCheckpoint, which takes the read lock and calls State, which takes it again; in between a request for the state
    with its hash announces a writer. Nothing can go on any more, whatever is called later. *)
Theorem C42_state_request_deadlocks_refuted : ∃ s, reached program 3 s ∧ deadlocked s ∧
  ∀ l s', acts l s = Some s' → sy_writer s' = sy_writer s ∧ sy_threads s' !! 0%nat = sy_threads s !! 0%nat.
Proof. exact hash_deadlock. Qed.
(** The same with the signal handler, which saves the state: the process does not stop and nothing is saved. *)
Theorem C42_signal_deadlocks_refuted : ∃ s, reached program 2 s ∧ deadlocked s ∧
  ∀ l s', acts l s = Some s' → sy_writer s' = sy_writer s ∧ sy_threads s' !! 0%nat = sy_threads s !! 0%nat.
Proof. exact signal_deadlock. Qed.
(** In general: a reader that asks for the read lock again while a writer is announced is never let in. *)
Theorem C42_nested_read_is_fatal t k p u l s s' : sy_writer s = Some (u, false) → sy_threads s !! t = Some (Thread (S k) (RLock :: p)) →
  acts l s = Some s' → sy_writer s' = Some (u, false) ∧ sy_threads s' !! t = Some (Thread (S k) (RLock :: p)).
Proof. intros H1 H2. exact (dead_acts t k p u l s s' (conj H1 H2)). Qed.
(** It is the only way to a deadlock, with any number of concurrent requests: the main loop asks for the read lock again
    while another thread is announced as a writer. *)
Theorem C42_only_nested_reads_deadlock n s : reached program n s → deadlocked s →
  ∃ k p u, u ≠ 0%nat ∧ sy_writer s = Some (u, false) ∧ sy_threads s !! 0%nat = Some (Thread (S k) (RLock :: p)).
Proof. exact (only_deadlock n s). Qed.
(** Missing: the deadlocks above. If threads release what they take, and no thread that nests read locks runs along
    with another one that writes, then at any time all calls can be finished. *)
Theorem C42_all_calls_finish_partial (menu : nat → list instr → Prop) n s : (∀ t p, menu t p → balanced 0 false p) →
  (∀ t u p q, t ≠ u → menu t p → nests 0 p → menu u q → ¬ writes q) → reached menu n s →
  ∃ l s', acts (Go <$> l) s = Some s' ∧ at_rest s'.
Proof. intros Hb Hc. apply can_finish; [exact Hb|]. intros t u Hne (p & Hp & Hn) (q & Hq & Hw). exact (Hc t u p q Hne Hp Hn Hq Hw). Qed.
(** In particular for this process as long as nobody asks for the state with its hash and no signal arrives, ... *)
Theorem C42_reading_requests_finish n s : reached reading_only n s → ∃ l s', acts (Go <$> l) s = Some s' ∧ at_rest s'.
Proof. exact (reading_only_finishes n s). Qed.
(** ... and for all requests and signals as long as there is no slot to process. *)
Theorem C42_requests_finish_while_waiting n s : reached waiting_only n s → ∃ l s', acts (Go <$> l) s = Some s' ∧ at_rest s'.
Proof. exact (waiting_only_finishes n s). Qed.
(** The error returns of StateWithHash and SaveToJson keep the lock; no later call gets it. *)
Theorem C42_leaked_lock_is_kept (menu : nat → list instr → Prop) u l s s' : (∀ t p, menu t p → balanced 0 false p) →
  sy_writer s = Some (u, true) → sy_threads s !! u = Some (Thread 0 []) → Forall (allowed menu) l → acts l s = Some s' →
  sy_writer s' = Some (u, true).
Proof.
  intros Hm Hw Hu Hl Ha. refine (proj1 (leaked_acts menu u l s s' Hm (conj Hw (ex_intro _ [] (conj Hu _))) Hl Ha)). done.
Qed.

(** A state of the process with the main loop inside IsCheckpoint and two requests under way. *)
Example C42_busy : ∃ s, reached reading_only 3 s ∧ ∃ p q r, sy_threads s = [Thread 1 p; Thread 1 q; Thread 0 r] ∧ p ≠ [] ∧ q ≠ [] ∧ r ≠ [].
Proof.
  destruct (acts (entering ++ [Call 1 (read_request [2; 1]%nat); Go 1; Call 2 (read_request [1%nat]); Go 2; Go 2]) (idle 3)) as [s|] eqn:Hs; [|by vm_compute in Hs].
  exists s. split.
  - exists (entering ++ [Call 1 (read_request [2; 1]%nat); Go 1; Call 2 (read_request [1%nat]); Go 2; Go 2]). split; [|done]. apply Forall_app. split.
    + apply Forall_cons. split; [constructor|]. by apply Forall_replicate.
    + repeat (apply Forall_cons; split; [first [by eexists|done]|]). by apply Forall_nil.
  - vm_compute in Hs. injection Hs as <-. do 3 eexists. split; [reflexivity|]. done.
Qed.
(** The process while it waits, with a request for the state inside the lock and another thread queueing. *)
Example C42_waiting : ∃ s, reached waiting_only 3 s ∧ sy_writer s = Some (2%nat, true) ∧ ∃ p, sy_threads s !! 0%nat = Some (Thread 0 (RLock :: p)).
Proof.
  destruct (acts [Call 0 (waiting_pass true); Call 2 state_request; Go 2; Go 2] (idle 3)) as [s|] eqn:Hs; [|by vm_compute in Hs].
  exists s. split.
  - exists [Call 0 (waiting_pass true); Call 2 state_request; Go 2; Go 2]. split; [|done].
    apply Forall_cons. split; [by exists true|]. apply Forall_cons. split; [constructor|]. repeat (apply Forall_cons; split; [done|]). by apply Forall_nil.
  - vm_compute in Hs. injection Hs as <-. split; [done|]. by eexists.
Qed.
(** The error return of StateWithHash leaves the lock taken. *)
Example C42_leak : ∃ s, acts [Call 2 with_hash_error; Go 2; Go 2; Go 2] (idle 3) = Some s ∧
  sy_writer s = Some (2%nat, true) ∧ sy_threads s !! 2%nat = Some (Thread 0 []).
Proof. eexists. split; [vm_compute; reflexivity|]. done. Qed.

(** ** C63: the state is not read while it is changed *)

(** As stated it is false: State returns a pointer and releases the lock. A request reads through it while the main loop,
    holding the lock, changes the state. *)
Theorem C63_request_reads_while_changed_refuted : ∃ s, reached program 3 s ∧ racing Access s.
Proof. exact read_race. Qed.
(** Missing: the reads. At least no two threads ever change the state at the same time. *)
Theorem C63_one_changes_at_a_time_partial n s : reached program n s → ¬ racing Change s.
Proof. exact (program_changes n s). Qed.
(** Every read without the lock is such a race, in every pass of every thread of this process. *)
Theorem C63_every_unlocked_read_races t pre post : (t < 3)%nat → program t (pre ++ Access :: post) → balanced 0 false pre →
  ∃ s, reached program 3 s ∧ sy_threads s !! t = Some (Thread 0 (Access :: post)) ∧ racing Access s.
Proof. exact (program_unlocked_race t pre post). Qed.
(** Such reads: the reconciliation, the log after saving, the committed state at a checkpoint, the answer with the state. *)
Example C63_unlocked_reads :
  (∃ pre, program 0 (pre ++ Access :: []) ∧ pre ++ [Access] = waiting_pass true ∧ last pre = Some Access ∧ balanced 0 false pre) ∧
  (∃ pre, program 0 (pre ++ Access :: []) ∧ pre ++ [Access] = checkpoint_pass (Some 0%nat) ∧ last pre = Some Access ∧ balanced 0 false pre) ∧
  (∃ pre post, program 0 ((pre ++ latest_state_call true) ++ Access :: post) ∧ balanced 0 false (pre ++ latest_state_call true)) ∧
  (∃ pre, program 1 (pre ++ Access :: []) ∧ balanced 0 false pre) ∧
  (∃ pre, program 2 (pre ++ Access :: []) ∧ pre ++ [Access] = state_request ∧ balanced 0 false pre).
Proof.
  split; [exists (times 5 state_read); split; [exact (main_waiting true)|]; by repeat split|].
  split. { exists (take (pred (length (checkpoint_pass (Some 0%nat)))) (checkpoint_pass (Some 0%nat))). split; [exact (main_checkpoint (Some 0%nat))|]. split; [done|]. split; [done|]. cbn. repeat split. }
  split. { exists (slot_pass ++ times 2 state_read ++ [Access] ++ freeze_call), (times 1 (latest_slot_call true) ++ save_call true).
    split; [exact (main_checkpoint (Some 0%nat))|]. cbn. repeat split. }
  split; [exists [Lock; Change; Access; Unlock]; split; [constructor|]; by repeat split|].
  exists with_hash_call. split; [constructor|]. by repeat split.
Qed.
(** What it would take: if all threads read under a lock and change under the write lock, there is no race. *)
Theorem C63_guarded_threads_do_not_race (menu : nat → list instr → Prop) n s :
  (∀ t p, menu t p → balanced 0 false p ∧ guarded_changes false p ∧ guarded_reads 0 false p) → reached menu n s → ¬ racing Access s.
Proof. exact (no_read_race menu n s). Qed.
(** A process like that: reads inside the read lock. *)
Example C63_guarded : ∃ menu : nat → list instr → Prop,
  (∀ t p, menu t p → balanced 0 false p ∧ guarded_changes false p ∧ guarded_reads 0 false p) ∧
  ∃ s p q, reached menu 2 s ∧ sy_threads s = [Thread 0 (Lock :: p); Thread 1 (Access :: q)].
Proof.
  exists (λ t p, match t with O => p = advance_call | _ => p = [RLock; Access; RUnlock] end). split.
  - intros [|t] p ->; cbn; repeat split; auto.
  - eexists. do 2 eexists. split.
    + exists [Call 0 advance_call; Call 1 [RLock; Access; RUnlock]; Go 1; Go 0]. split; [by repeat (apply Forall_cons; split; [done|])|]. reflexivity.
    + reflexivity.
Qed.
(** Two writers at once want the lock. *)
Example C63_two_writers : ∃ s p q, reached program 3 s ∧ sy_threads s = [Thread 0 (Change :: p); Thread 0 []; Thread 0 (Lock :: q)].
Proof.
  eexists. do 2 eexists. split.
  - exists ([Call 2 state_request; Call 0 slot_pass] ++ replicate 9 (Go 0)). split; [|vm_compute; reflexivity]. apply Forall_app.
    split; [|by apply Forall_replicate]. repeat (apply Forall_cons; split; [constructor|]). by apply Forall_nil.
  - reflexivity.
Qed.

Print Assumptions C42_state_request_deadlocks_refuted.
Print Assumptions C42_signal_deadlocks_refuted.
Print Assumptions C42_nested_read_is_fatal.
Print Assumptions C42_only_nested_reads_deadlock.
Print Assumptions C42_all_calls_finish_partial.
Print Assumptions C42_reading_requests_finish.
Print Assumptions C42_requests_finish_while_waiting.
Print Assumptions C42_leaked_lock_is_kept.
Print Assumptions C63_request_reads_while_changed_refuted.
Print Assumptions C63_one_changes_at_a_time_partial.
Print Assumptions C63_guarded_threads_do_not_race.
Print Assumptions C63_every_unlocked_read_races.
