(** Checkpoints: IsCheckpoint, FreezeCheckpoint, LatestCommitedSlot, LatestCommitedState and
    IsOracleInSyncWithChain of oracle/oracle.go. *)
From Verif Require Export Merkle Keccak.

(** IsCheckpoint, oracle.go:123-142. [None] is a returned error. The remainder by zero panics. *)
Definition is_checkpoint (o : oracle) : res (option bool) :=
  let latest := st_latest (or_st o) in
  if (latest =? 0)%N then Ok None
  else if (latest <? c_dep_slot (or_cfg o))%N then Ok None
  else if (c_cp_size (or_cfg o) =? 0)%N then Die (Panic "integer divide by zero")
  else Ok (Some ((u64_sub latest (c_dep_slot (or_cfg o)) mod c_cp_size (or_cfg o) =? 0)%N)).

(** utils.ByteArrayToArray, utils/utils.go:79-86. *)
Definition byte_array_to_array (l : list string) : list string := (λ b, "0x" +:+ hex_encode b) <$> l.

(** Body of the loop of FreezeCheckpoint over withdrawalToRawLeaf, oracle.go:734-755, for one address. *)
Definition freeze_one (H : string → string) (hashes : list string) (addr : string) (l : rawleaf)
  : res (list string) :=
  let! e := equals addr (leaf_addr l) in
  if negb e then Die (Fatal "withdrawal address in raw leaf doesnt match the key")
  else match tree_proof H hashes (leaf_hash H l) with
       | None => Die (Fatal "could not generate proof for block")
       | Some p => Ok (byte_array_to_array p)
       end.
(** The loop itself, oracle.go:734-755. The entries of a map have distinct keys, so the order in which the
    runtime visits them only decides which of several Fatal messages comes first; the model uses one fixed order. *)
Fixpoint freeze_loop (H : string → string) (hashes : list string) (l : list (string * rawleaf))
    (proofs : gmap string (list string)) : res (gmap string (list string)) :=
  match l with
  | [] => Ok proofs
  | (addr, leaf) :: l =>
      let! p := freeze_one H hashes addr leaf in
      freeze_loop H hashes l (<[addr := p]> proofs)
  end.

(** The frozen state of a checkpoint, oracle.go:717-763: None when there is not enough data. utils.DeepCopy
    (utils/utils.go:221-228, a gob round trip) returns an equal copy (C103, Gob.v); values of the model are never shared. *)
Definition snapshot (H : string → string) (E : env) (s : ost) : res (option onchain_state) :=
  let! g := generate_tree H E s in
  match g with
  | None => Ok None
  | Some (raw, hashes) =>
      let! proofs := freeze_loop H hashes (map_to_list raw) ∅ in
      Ok (Some (OnchainState (st_latest s) "" (hexutil_encode (tree_root H hashes)) (st_vals s) raw proofs))
  end.
(** FreezeCheckpoint, oracle.go:713-766. *)
Definition freeze (H : string → string) (E : env) (s : ost) : res (ost * bool) :=
  let! g := snapshot H E s in
  match g with
  | None => Ok (s, false)
  | Some c => Ok (set_committed (<[oc_slot c := c]> (st_committed s)) s, true)
  end.

(** LatestCommitedSlot, oracle.go:771-786. [keys]: the keys of CommitedStates in the order chosen by the
    runtime. [None] is (0, false). *)
Definition latest_committed_slot (keys : list N) : option N :=
  match keys with
  | [] => None
  | _ => Some (fold_left (λ best slot, if (best <? slot)%N then slot else best) keys 0%N)
  end.
(** LatestCommitedState, oracle.go:788-800. [None] is nil. *)
Definition latest_committed_state (keys : list N) (s : ost) : option onchain_state :=
  match latest_committed_slot keys with
  | None => None
  | Some slot => st_committed s !! slot
  end.

(** DefaultRoot, types.go:15. *)
Definition default_root : string := "0x0000000000000000000000000000000000000000000000000000000000000000".

(** IsOracleInSyncWithChain, oracle.go:806-852. [None] is a returned error. Equals is evaluated up to four
    times on the same arguments in the program; once here. *)
Definition in_sync (keys : list N) (s : ost) (root : string) (slot : N) : res (option bool) :=
  match latest_committed_slot keys with
  | None => let! e := equals root default_root in Ok (Some e)
  | Some latest =>
      match st_committed s !! latest with
      | None => Die (Panic "nil pointer dereference")
      | Some c =>
          let! e := equals root (oc_root c) in
          if e && (slot =? latest)%N then Ok (Some true)
          else if (e && negb (slot =? latest)%N) || (negb e && (slot =? latest)%N) then Ok None
          else Ok (Some false)
      end
  end.
