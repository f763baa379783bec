(** The main loop, the signal handler and the life of the process: main.go:126-496. The loop is a state machine: its
    program counter names the places between which other goroutines (signal handler, API) may run. Every answer of
    a node, of the contract, of the clock and of the disk is an explicit argument. Sleeping, metrics and logging are
    left out. *)
From Verif Require Export Onchain.

(** strings.Contains. main.go:448. *)
Fixpoint contains (s sub : string) : bool :=
  has_prefix s sub || match s with EmptyString => false | String _ s => contains s sub end.

(** Where the loop is. [c]: newState, main.go:364. *)
Inductive pc :=
  | Begin                          (* main.go:236 *)
  | Processed                      (* main.go:313: a slot was just processed *)
  | Freezing                       (* main.go:356: the slot is a checkpoint, reconciliation succeeded *)
  | Polling (c : onchain_state)    (* main.go:373-396: waiting while the own vote is pending *)
  | Resting (c : onchain_state)    (* main.go:404-415 *)
  | Deciding (c : onchain_state)   (* main.go:417-457 *)
  | Waiting (c : onchain_state)    (* main.go:460-478: waiting for consolidation *)
  | Saving.                        (* main.go:487-493 *)

(** The process while it runs: program counter, oracle, duty cache, files. main.go:126-496. *)
Record machine := Machine { m_pc : pc; m_or : oracle; m_cache : cache; m_files : files }.

(** How the writes of SaveToJson end: all done; or [k] of them done and the next one either stopped with an error
    after [cut] bytes, or not even opened (oracle.go:524-549). *)
Inductive disk := Written | Stopped (k cut : nat) | Unopened (k : nat).

(** The answers one pass may need. main.go:236-493. *)
Record answers := Answers {
  an_env : env;                        (* iteration orders, validators, consolidations: see Types.v *)
  an_node : node;                      (* see Onchain.v *)
  an_exec : option bool;               (* AreNodesInSync, main.go:237 *)
  an_dist : option N;
  an_final : option N;                 (* FinalizedBeaconBlockHeader, main.go:247 *)
  an_due : bool;                       (* main.go:284: more than three hours since the last reconciliation *)
  an_balance : option Z;               (* GetPoolEthBalance, main.go:295 *)
  an_claimed : string → option Z;      (* GetClaimedPerWithdrawalAddress, main.go:296: the contract's answer per address *)
  an_refresh : bool;                   (* RefreshBeaconValidators, main.go:315: does it return? *)
  an_report : option N;                (* GetAddressToVotedReport, main.go:374: the slot of the report *)
  an_quorum : option N;                (* GetQuorum, main.go:379 *)
  an_onchain : option (string * N);    (* GetOnchainSlotAndRoot, main.go:406, 418, 461 *)
  an_submit : submit_answers;          (* see Onchain.v *)
  an_disk : disk }.

(** UpdateValidatorsIntervalSlots, main.go:30. *)
Definition update_interval : N := 1200%N.
(** The error that is tolerated, main.go:448. *)
Definition expected_error : string := "DappnodeSmoothingPool::submitReport: Slot number invalid".

(** The files after SaveToJson, oracle.go:524-549. *)
Definition disk_after (sha : string → string) (save_slot : bool) (o : oracle) (d : disk) (fs : files) : files :=
  match d with
  | Written => (save sha save_slot o fs).2
  | Stopped k cut => save_crash sha save_slot o k cut fs
  | Unopened k => write_some (take k (save_writes save_slot (hash_state sha (or_st o)))) k 0 fs
  end.
(** SaveToJson, oracle.go:495-555, on the running process: the hash stays in memory whatever happens to the files. *)
Definition save_now (sha : string → string) (save_slot : bool) (d : disk) (m : machine) : machine :=
  Machine (m_pc m) (save sha save_slot (m_or m) (m_files m)).1 (m_cache m) (disk_after sha save_slot (m_or m) d (m_files m)).

(** The loop goes on at another place, main.go:236-493. *)
Definition goto (p : pc) (m : machine) : machine := Machine p (m_or m) (m_cache m) (m_files m).
(** log.Fatal in the loop, e.g. main.go:249. *)
Definition fatal (e : string) : option (N * string) * res machine := (None, Die (Fatal e)).
(** A step that submits nothing, main.go:236-493. *)
Definition stay (r : res machine) : option (N * string) * res machine := (None, r).

(** The top of the loop, main.go:236-311. *)
Definition step_top (a : answers) (m : machine) : res machine :=
  let o := m_or m in let s := or_st o in let E := an_env a in
  match are_nodes_in_sync (an_exec a) (an_dist a) with
  | None => Die (Fatal "Could not get nodes in sync status")
  | Some false => Ok m
  | Some true =>
      match an_final a with
      | None => Ok m
      | Some f =>
          if (st_next s <=? f)%N then
            let! '(fb, ca) := fetch_full_block (an_node a) E (c_pool (or_cfg o)) false (st_next s) s (m_cache m) in
            match advance E fb o with
            | Done o' _ => Ok (Machine Processed o' ca (m_files m))
            | Fail _ e => Die (Fatal e)
            | Dead d => Die d
            end
          else if an_due a then
            let! u := unique_withdrawal_addresses E s in
            let! cl := claimed_per_address (an_claimed a) u in
            match an_balance a, cl with
            | Some b, Some l =>
                if onchain_reconciliation b l.*2 s then Ok m else Die (Fatal "Reconciliation failed, state was not commited")
            | _, _ => Ok m
            end
          else Ok m
      end
  end.

(** After a slot, main.go:313-354. *)
Definition step_processed (a : answers) (m : machine) : res machine :=
  let o := m_or m in let s := or_st o in
  if (st_latest s mod update_interval =? 0)%N && negb (an_refresh a) then Die (Fatal "Could not get validators") else
  let! cp := is_checkpoint o in
  match cp with
  | None => Die (Fatal "Could not check if we are at a checkpoint")
  | Some false => Ok (goto Begin m)
  | Some true =>
      if offchain_reconciliation s then Ok (goto Freezing m)
      else Die (Fatal "Offchain reconciliation failed, cant freeze checkpoint")
  end.

(** Freezing, main.go:356-364. *)
Definition step_freezing (H : string → string) (a : answers) (m : machine) : res machine :=
  let o := m_or m in
  let! '(s', enough) := freeze H (an_env a) (or_st o) in
  let m' := Machine (m_pc m) (Oracle (or_cfg o) s') (m_cache m) (m_files m) in
  if enough then
    match latest_committed_state (committed_keys s') s' with
    | None => Die (Panic "nil pointer dereference")
    | Some c => Ok (goto (Polling c) m')
    end
  else Ok (goto Begin m').

(** While the own vote is pending, main.go:373-396. *)
Definition step_polling (c : onchain_state) (a : answers) (m : machine) : res machine :=
  match an_report a, an_quorum a with
  | Some slot, Some _ =>
      match latest_committed_slot (committed_keys (or_st (m_or m))) with
      | None => Ok (goto (Resting c) m)
      | Some latest => if (slot =? latest)%N then Ok m else Ok (goto (Resting c) m)
      end
  | _, _ => Die (Fatal "Could not get address to voted report")
  end.

(** Before the random delay, main.go:404-415. *)
Definition step_resting (c : onchain_state) (a : answers) (m : machine) : res machine :=
  if c_dry_run (or_cfg (m_or m)) then Ok (goto (Deciding c) m) else
  match an_onchain a with
  | None => Die (Fatal "Could not get onchain slot and root")
  | Some _ => Ok (goto (Deciding c) m)
  end.

(** Submitting or not, main.go:417-457 and 479-485: also what was sent to the contract. The comment there speaks
    of a special case for on-chain slot 0; there is none in the code. *)
Definition step_deciding (c : onchain_state) (a : answers) (m : machine) : option (N * string) * res machine :=
  let cfg := or_cfg (m_or m) in
  match an_onchain a with
  | None => fatal "Could not get onchain slot and root"
  | Some (_, slot) =>
      if negb (c_dry_run cfg) && (oc_slot c =? u64_add slot (c_cp_size cfg))%N then
        let '(sent, err) := update_root (an_submit a) (oc_slot c) (oc_root c) in
        match err with
        | Some e =>
            if contains e expected_error then (sent, Ok (goto (Waiting c) m))
            else (sent, Die (Fatal ("Could not update contract merkle root: " +:+ e)))
        | None => (sent, Ok (goto (Waiting c) m))
        end
      else (None, Ok (goto Saving m))
  end.

(** Waiting until exactly this root is consolidated, main.go:460-478. *)
Definition step_waiting (c : onchain_state) (a : answers) (m : machine) : res machine :=
  match an_onchain a with
  | None => Die (Fatal "Could not get onchain slot and root")
  | Some (root, slot) =>
      if String.eqb root (oc_root c) && (slot =? oc_slot c)%N then Ok (goto Saving m) else Ok m
  end.

(** One step of mainLoop, main.go:236-495. *)
Definition step (sha H : string → string) (a : answers) (m : machine) : option (N * string) * res machine :=
  match m_pc m with
  | Begin => stay (step_top a m)
  | Processed => stay (step_processed a m)
  | Freezing => stay (step_freezing H a m)
  | Polling c => stay (step_polling c a m)
  | Resting c => stay (step_resting c a m)
  | Deciding c => step_deciding c a m
  | Waiting c => stay (step_waiting c a m)
  | Saving => stay (Ok (goto Begin (save_now sha true (an_disk a) m)))
  end.

(** ** The life of the process *)

(** The process is down, or up; main.go:126-218. *)
Inductive life := Down (fs : files) | Up (m : machine).

(** What can happen: the process starts (main.go:126-196), the loop makes a step, the API asks for the state with its
    hash (StateWithHash, oracle.go:145-157), SIGINT or SIGTERM arrives (main.go:203-211; the signal handler saves,
    the loop goes on meanwhile), or the process ends: after the handler (213-218) or because it was killed. If it
    ends while the loop is saving, the files are left as they are then.
    Simplification: SaveToJson of the handler is one step, although it writes the files after releasing the lock
    (oracle.go:512); the overlap is modelled in Disk.v. *)
Inductive event :=
  | Start (E : env) (sync : option string) (onchain : option N)
  | Tick (a : answers)
  | Ask
  | Signal (d : disk)
  | End (torn : disk).

(** One event, main.go:126-493. *)
Definition live (sha H : string → string) (c0 : config) (e : event) (L : life) : option (N * string) * life :=
  match L, e with
  | Down fs, Start E sync onchain =>
      match startup sha H E sync onchain fs c0 with
      | Ok o => (None, Up (Machine Begin o empty_cache fs))
      | Die _ => (None, Down fs)
      end
  | Down fs, _ => (None, Down fs)
  | Up m, Start _ _ _ => (None, Up m)
  | Up m, Tick a =>
      match step sha H a m with
      | (sent, Ok m') => (sent, Up m')
      | (sent, Die _) => (sent, Down (m_files m))
      end
  | Up m, Ask => (None, Up (Machine (m_pc m) (Oracle (or_cfg (m_or m)) (hash_state sha (or_st (m_or m)))) (m_cache m) (m_files m)))
  | Up m, Signal d => (None, Up (save_now sha false d m))
  | Up m, End torn =>
      (None, Down (match m_pc m with Saving => disk_after sha true (m_or m) torn (m_files m) | _ => m_files m end))
  end.
(** A whole life: what was sent to the contract, and how it ends. main.go:126-493. *)
Fixpoint lifetime (sha H : string → string) (c0 : config) (l : list event) (L : life) : list (N * string) * life :=
  match l with
  | [] => ([], L)
  | e :: l =>
      let '(sent, L1) := live sha H c0 e L in
      let '(more, L2) := lifetime sha H c0 l L1 in
      (match sent with Some x => x :: more | None => more end, L2)
  end.
