(** Saving and loading the state: hashStateLockFree, StateWithHash, SaveToJson, LoadFromJson, LoadFromPath,
    LoadFromBytes and LoadGivenState of oracle/oracle.go, and the part of main.go that loads the state at start.
    [sha] stands for crypto/sha256.Sum256 and [H] for Keccak-256. *)
From Verif Require Export Advance Checkpoint Codec.

(** The folder of state files, as far as the program sees it: contents by path. oracle.go:28-29, 523, 549. *)
Notation files := (gmap string string).
(** StateFolder and StateJsonName, oracle.go:28-29, joined as at 511 and 561. *)
Definition state_path : string := "oracle-data/state.json".
(** The copy kept per slot, oracle.go:538-539, 678, 691. *)
Definition slot_path (n : N) : string := "oracle-data/state_" +:+ print_N n +:+ ".json".

(** hashStateLockFree, oracle.go:988-1006. Marshalling the state cannot fail: no cycles, channels or non-finite
    floats. It is also StateWithHash, oracle.go:145-157, which returns the same state. *)
Definition hash_text (sha : string → string) (s : ost) : string := hexutil_encode (sha (marshal (set_hash "" s))).
(** The state with its new hash, oracle.go:988-1006. *)
Definition hash_state (sha : string → string) (s : ost) : ost := set_hash (hash_text sha s) s.

(** The writes of SaveToJson, oracle.go:495-555, in order: state.json, then the copy of the slot. *)
Definition save_writes (save_slot : bool) (s : ost) : list (string * string) :=
  (state_path, marshal s) :: (if save_slot then [(slot_path (st_latest s), marshal s)] else []).
(** ioutil.WriteFile opens with O_TRUNC and writes in place. The first [k] writes happen completely; the next one, if
    there is one, is stopped after [cut] bytes (crash or full disk). oracle.go:523, 549. *)
Fixpoint write_some (ws : list (string * string)) (k : nat) (cut : nat) (fs : files) : files :=
  match ws, k with
  | [], _ => fs
  | (p, d) :: _, O => <[p := substring 0 cut d]> fs
  | (p, d) :: ws, S k => write_some ws k cut (<[p := d]> fs)
  end.
(** SaveToJson, oracle.go:495-555, when nothing goes wrong: the state in memory gets the new hash too. *)
Definition save (sha : string → string) (save_slot : bool) (o : oracle) (fs : files) : oracle * files :=
  let s := hash_state sha (or_st o) in
  (Oracle (or_cfg o) s, write_some (save_writes save_slot s) 2 0 fs).
(** The files left by a SaveToJson that dies. It can also die before the first write, leaving [fs].
    oracle.go:495-555. *)
Definition save_crash (sha : string → string) (save_slot : bool) (o : oracle) (k cut : nat) (fs : files) : files :=
  write_some (save_writes save_slot (hash_state sha (or_st o))) k cut fs.

(** The configuration checks of LoadFromBytes, oracle.go:624-657, and the configuration they leave behind: the fee
    schedule is applied to the running configuration (640) before the later checks. *)
Definition load_checks (s : ost) (c : config) : config * option string :=
  if negb (String.eqb (st_network s) (c_network c)) then (c, Some "network mismatch") else
  if negb (String.eqb (st_pool s) (c_pool c)) then (c, Some "pool address mismatch") else
  if negb (String.eqb (st_fees_addr s) (c_fees_addr c)) then (c, Some "pool fees address mismatch") else
  let c1 := if (st_feepct s =? c_feepct c)%Z then c else apply_fee_schedule (st_latest s) c in
  if negb (st_feepct s =? c_feepct c1)%Z then (c1, Some "pool fees percent mismatch") else
  if negb (st_coll s =? c_coll c1)%Z then (c1, Some "collateral mismatch") else
  if negb (st_cp_size s =? c_cp_size c1)%N then (c1, Some "check point size mismatch") else
  if negb (st_dep_block s =? c_dep_block c1)%N then (c1, Some "deployed block mismatch") else
  if negb (st_dep_slot s =? c_dep_slot c1)%N then (c1, Some "deployed slot mismatch") else
  (c1, None).

(** LoadFromBytes, oracle.go:586-673. The recorded hash is compared with utils.Equals (616), which ends the process
    when the lengths differ. The loaded state keeps an empty hash (598). Finally the Merkle root is computed for the
    log (661), which can end the process too. *)
Definition load_bytes (sha H : string → string) (E : env) (raw : string) (o : oracle) : outcome oracle bool :=
  match unmarshal raw with
  | None => Fail o "could not unmarshal json file"
  | Some s =>
      match equals (st_hash s) (hash_text sha s) with
      | Die d => Dead d
      | Ok false => Fail o "hash mismatch"
      | Ok true =>
          match load_checks s (or_cfg o) with
          | (c, Some e) => Fail (Oracle c (or_st o)) e
          | (c, None) =>
              let s' := set_hash "" s in
              match generate_tree H E s' with
              | Die d => Dead d
              | Ok _ => Done (Oracle c s') true
              end
          end
      end
  end.

(** LoadFromPath, oracle.go:566-584: a file that cannot be opened is "not found". Simplification: opening fails only
    when the file is absent, and reading an open file does not fail. *)
Definition load_path (sha H : string → string) (E : env) (fs : files) (path : string) (o : oracle) : outcome oracle bool :=
  match fs !! path with
  | None => Done o false
  | Some raw => load_bytes sha H E raw o
  end.
(** LoadFromJson, oracle.go:560-564. *)
Definition load_json (sha H : string → string) (E : env) (fs : files) (o : oracle) : outcome oracle bool :=
  load_path sha H E fs state_path o.

(** The slot tried at attempt [i] of LoadGivenState, oracle.go:689: unsigned arithmetic, which may wrap. *)
Definition try_slot (c : config) (slot i : N) : N := u64_sub slot (u64 (c_cp_size c * i)).
(** LoadGivenState, oracle.go:676-706. An error of the second attempt is forgotten when the third is made. *)
Definition load_given (sha H : string → string) (E : env) (fs : files) (slot : N) (o : oracle) : outcome oracle bool :=
  let at_slot n o := load_path sha H E fs (slot_path n) o in
  match at_slot slot o with
  | Dead d => Dead d
  | Fail o1 e => Fail o1 e
  | Done o1 true => Done o1 true
  | Done o1 false =>
      let second o2 := at_slot (try_slot (or_cfg o2) slot 2) o2 in
      match at_slot (try_slot (or_cfg o1) slot 1) o1 with
      | Dead d => Dead d
      | Done o2 true => Done o2 true
      | Done o2 false => second o2
      | Fail o2 _ => second o2
      end
  end.

(** The keys of CommitedStates as listed by [map_to_list]. LatestCommitedSlot does not depend on their order (C27).
    oracle.go:771-785. *)
Definition committed_keys (s : ost) : list N := (map_to_list (st_committed s)).*1.

(** Loading at start, main.go:128-189: from a checkpoint sync provider when [sync] gives its answer, else from
    state.json; then, unless it is a dry run, back to an older copy when the oracle is ahead of the contract.
    [onchain] is the answer of GetOnchainSlotAndRoot. All errors end the process. *)
Definition startup (sha H : string → string) (E : env) (sync : option string) (onchain : option N) (fs : files) (c : config)
  : res oracle :=
  match (match sync with
         | Some raw => load_bytes sha H E raw (new_oracle c)
         | None => load_json sha H E fs (new_oracle c)
         end) with
  | Dead d => Die d
  | Fail _ e => Die (Fatal e)
  | Done o _ =>
      match onchain with
      | None => Die (Fatal "Could not get onchain slot and root")
      | Some slot =>
          if negb (c_dry_run (or_cfg o)) && (slot <? default 0 (latest_committed_slot (committed_keys (or_st o))))%N then
            match load_given sha H E fs slot o with
            | Dead d => Die d
            | Fail _ e => Die (Fatal e)
            | Done _ false => Die (Fatal "Could not find a save state for slot")
            | Done o' true => Ok o'
            end
          else Ok o
      end
  end.
