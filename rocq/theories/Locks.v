(** The read-write lock of the oracle, and who takes it in which order. oracle.go:37, and the uses cited below.

    Model: a thread is the list of what it still has to do in its current call, and how many read locks it holds. What
    is read or written is not modelled here, only that the state is accessed. Calls are straight lists of instructions,
    one for each path through the function. Work that does not concern the lock or the state is left out. *)
From Verif Require Export GoBase.

(** ** sync.RWMutex *)

(** RLock blocks while a writer holds the lock or waits for it; Lock first announces the writer, which keeps new readers
    out, then waits until the readers are gone. Go 1.23, sync/rwmutex.go (not in /repo).
    Simplification: Go lets the readers that waited for a writer in before the next writer is announced; here either may
    come first, which allows more. Releasing a lock that is not held, a fatal error in Go, is a step that cannot be made. *)
Inductive instr := RLock | RUnlock | Lock | Unlock | Access | Change.
(** A goroutine: read locks held and instructions left. The goroutines are started in main.go:196-219. *)
Record thread := Thread { th_held : nat; th_todo : list instr }.
(** The writer announced or, if the flag is set, inside; and the threads. oracle.go:37. *)
Record sys := Sys { sy_writer : option (nat * bool); sy_threads : list thread }.

(** No thread holds a read lock (mutex of oracle.go:37). *)
Definition no_readers (l : list thread) : bool := forallb (λ th, (th_held th =? 0)%nat) l.
(** Thread [t] executes its next instruction, if it can. Lock and RLock are called in oracle.go:115-800. *)
Definition go (t : nat) (s : sys) : option sys :=
  match sy_threads s !! t with
  | Some (Thread k (i :: p)) =>
      let upd w k' p' := Some (Sys w (<[t := Thread k' p']> (sy_threads s))) in
      match i, sy_writer s with
      | RLock, None => upd None (S k) p
      | RUnlock, w => match k with S k' => upd w k' p | O => None end
      | Lock, None => upd (Some (t, false)) k (Lock :: p)
      | Lock, Some (u, false) => if (u =? t)%nat && no_readers (sy_threads s) then upd (Some (t, true)) k p else None
      | Unlock, Some (u, true) => if (u =? t)%nat then upd None k p else None
      | (Access | Change), w => upd w k p
      | _, _ => None
      end
  | _ => None
  end.
(** An idle thread starts a call. Calls into oracle.go:115-800. *)
Definition call (t : nat) (p : list instr) (s : sys) : option sys :=
  match sy_threads s !! t with
  | Some (Thread k []) => Some (Sys (sy_writer s) (<[t := Thread k p]> (sy_threads s)))
  | _ => None
  end.
(** A step or a call; the goroutines of main.go:196-219. *)
Inductive act := Go (t : nat) | Call (t : nat) (p : list instr).
(** As above, main.go:196-219. *)
Definition act_step (a : act) (s : sys) : option sys := match a with Go t => go t s | Call t p => call t p s end.
(** Several of them, main.go:196-219. *)
Fixpoint acts (l : list act) (s : sys) : option sys :=
  match l with [] => Some s | a :: l => match act_step a s with Some s' => acts l s' | None => None end end.
(** [n] idle threads, the lock free. oracle.go:37. *)
Definition idle (n : nat) : sys := Sys None (replicate n (Thread 0 [])).

(** ** The functions of the oracle *)

(** State, oracle.go:115-119. *)
Definition state_call : list instr := [RLock; RUnlock].
(** An access through the pointer that State returned, after the lock is released. E.g. main.go:256. *)
Definition state_read : list instr := state_call ++ [Access].
(** IsCheckpoint, oracle.go:123-143. *)
Definition is_checkpoint_call : list instr := [RLock] ++ state_read ++ [RUnlock].
(** StateWithHash, oracle.go:147-157; and its return when hashing fails (151-154), which keeps the lock. *)
Definition with_hash_call : list instr := [Lock; Change; Unlock] ++ state_call.
(** oracle.go:151-154. *)
Definition with_hash_error : list instr := [Lock; Change].
(** AdvanceStateToNextSlot, oracle.go:163-258, FreezeCheckpoint, 713-766. *)
Definition advance_call : list instr := [Lock; Change; Unlock].
(** FreezeCheckpoint, oracle.go:713-766. *)
Definition freeze_call : list instr := [Lock; Change; Unlock].
(** SaveToJson, oracle.go:495-555: hashing and marshalling under the lock (499-512), the log reads without (526-535),
    with saveSlot also State (540) and the log (544); and its returns with the lock held (505, 510). *)
Definition save_call (save_slot : bool) : list instr :=
  [Lock; Change; Access; Unlock; Access] ++ (if save_slot then state_read ++ [Access] else []).
(** oracle.go:503-510. *)
Definition save_error : list instr := [Lock; Change].
(** LatestCommitedSlot, oracle.go:771-785, with and without checkpoints. *)
Definition latest_slot_call (some : bool) : list instr := [RLock] ++ state_read ++ (if some then state_read else []) ++ [RUnlock].
(** LatestCommitedState, oracle.go:788-800. *)
Definition latest_state_call (some : bool) : list instr := [RLock] ++ latest_slot_call some ++ (if some then state_read else []) ++ [RUnlock].

(** ** The threads *)

(** A call repeated, e.g. State in main.go:256-271. *)
Definition times (n : nat) (p : list instr) : list instr := concat (replicate n p).
(** One pass of the main loop without a new slot, main.go:256-311: State (256, 280); with reconciliation also 290,
    GetUniqueWithdrawalAddresses (oracle.go:948, 965) and RunOnchainReconciliation (863-905). *)
Definition waiting_pass (reconcile : bool) : list instr :=
  times 2 state_read ++ if reconcile then times 3 state_read ++ [Access] else [].
(** A pass that processes a slot: State (main.go:256, 259), FetchFullBlock (onchain.go:1073), AdvanceStateToNextSlot (262),
    State (266, 270, 271, 314), IsCheckpoint (320). *)
Definition slot_pass : list instr :=
  times 2 state_read ++ [Access] ++ advance_call ++ times 4 state_read ++ is_checkpoint_call.
(** The rest of the pass at a checkpoint: State (326, 328), RunOffchainReconciliation (351), FreezeCheckpoint (357); with
    enough data LatestCommitedState (364) and its use, LatestCommitedSlot at each poll (384) and SaveToJson (488).
    All of main.go:320-493. *)
Definition checkpoint_pass (enough : option nat) : list instr :=
  slot_pass ++ times 2 state_read ++ [Access] ++ freeze_call ++
  match enough with
  | None => []
  | Some polls => latest_state_call true ++ [Access] ++ times (S polls) (latest_slot_call true) ++ save_call true
  end.
(** One pass of the loop, main.go:235-494. *)
Inductive main_pass : list instr → Prop :=
  | main_waiting b : main_pass (waiting_pass b)
  | main_slot : main_pass slot_pass
  | main_checkpoint e : main_pass (checkpoint_pass e).
(** The signal handler, main.go:203-211. *)
Inductive signal_pass : list instr → Prop := signal_save : signal_pass (save_call false).
(** A request: the state with its hash, written out after the lock is released (api.go:1075-1085) ... *)
Definition state_request : list instr := with_hash_call ++ [Access].
(** ... or any of the other endpoints, which call State any number of times and then read (api.go:268-1005, 1251-1279);
    each State call is followed by any number of accesses. *)
Definition read_request (reads : list nat) : list instr := concat ((λ n, state_call ++ replicate n Access) <$> reads).
(** One request, api.go:184-217. *)
Inductive request : list instr → Prop :=
  | request_state : request state_request
  | request_read reads : request (read_request reads).

(** The process: thread 0 is the main loop, thread 1 the signal handler, all others serve requests. main.go:196-219. *)
Definition program (t : nat) (p : list instr) : Prop :=
  match t with O => main_pass p | S O => signal_pass p | _ => request p end.
