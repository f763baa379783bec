(** Two saves at the same time: SaveToJson releases the lock before it writes (oracle/oracle.go:510-521), so the signal handler
    (main.go:207) and the loop (main.go:488) can write state.json together. *)
From Verif Require Export GoBase.

(** One ioutil.WriteFile (oracle.go:521, 547): os.OpenFile with O_TRUNC, write calls, close. Each descriptor has its own offset. *)
Inductive writer := NotOpened (data : list ascii) | Writing (off : nat) (rest : list ascii) | Finished.
(** A write call of the bytes [c] at offset [off] of a file with content [s]; a gap is filled with zero bytes (write(2)).
    oracle.go:521. *)
Definition write_at (s : list ascii) (off : nat) (c : list ascii) : list ascii :=
  take off s ++ replicate (off - length s) zero ++ c ++ drop (off + length c) s.
(** The next system call of a writer; a write call takes at most [n + 1] bytes. The file is [None] while it does not exist.
    oracle.go:521. *)
Definition write_step (n : nat) (f : option (list ascii)) (w : writer) : option (list ascii) * writer :=
  match w with
  | NotOpened d => (Some [], Writing 0 d)
  | Writing off [] => (f, Finished)
  | Writing off rest => (Some (write_at (default [] f) off (take (S n) rest)), Writing (off + length (take (S n) rest)) (drop (S n) rest))
  | Finished => (f, Finished)
  end.
(** The file state.json and the two that write it. oracle.go:521, main.go:207, 488. *)
Record joint_file := Joint { sh_file : option (list ascii); sh_one : writer; sh_two : writer }.
(** System calls in some order: the first writer's ([true]) or the second's, each with a size. main.go:207, 488. *)
Definition shared_step (x : bool * nat) (d : joint_file) : joint_file :=
  if x.1 then let r := write_step x.2 (sh_file d) (sh_one d) in Joint r.1 r.2 (sh_two d)
  else let r := write_step x.2 (sh_file d) (sh_two d) in Joint r.1 (sh_one d) r.2.
(** A whole schedule. main.go:207, 488. *)
Fixpoint shared_run (l : list (bool * nat)) (d : joint_file) : joint_file :=
  match l with [] => d | x :: l => shared_run l (shared_step x d) end.
