(** Two requests to the beacon node: the validators loaded by the main loop, and the pending consolidations. *)
From Verif Require Export Codec Onchain.

(** ** RefreshBeaconValidators *)

(** GetActivationSlotOfLatestProcessedValidator, utils/utils.go:230-257: the largest activation epoch other than the
    largest uint64, in slots. *)
Definition activation_slot (vals : list (N * bval)) : res N :=
  match vals with
  | [] => Die (Fatal "validators map is empty")
  | _ =>
      let latest := foldl (λ m kv, if negb (b_activation kv.2 =? two64 - 1)%N && (m <? b_activation kv.2)%N then b_activation kv.2 else m) 0%N vals in
      if (latest =? 0)%N then Die (Fatal "latestEpoch is 0") else Ok (u64_mul latest 32)
  end.
(** The entry of a map, as a list in iteration order. onchain.go:1843. *)
Definition at_index {A} (i : N) (l : list (N * A)) : option A := snd <$> List.find (λ kv, (kv.1 =? i)%N) l.
(** RefreshBeaconValidators, onchain.go:1832-1848: the validators kept, and the index and slot it logs. The answer is
    the map in iteration order. Reading a field of an absent entry panics. *)
Definition refresh_validators (answer : option (list (N * bval))) : res (list (N * bval) * N * N) :=
  let! vals := must answer "Could not get validators" in
  match vals with
  | [] => Die (Fatal "No validators were loaded from the beacon chain")
  | _ =>
      match at_index (N.of_nat (length vals) - 1) vals with
      | None => Die (Panic "nil pointer dereference")
      | Some v => let! slot := activation_slot vals in Ok (vals, b_index v, slot)
      end
  end.

(** ** GetPendingConsolidations *)

(** phase0.ValidatorIndex.UnmarshalJSON (go-eth2-client): a decimal number in quotes. onchain.go:1876-1877.
    Simplification: that code reads the bytes between the quotes without resolving escapes. *)
Definition dec_index (j : json) : option N := match j with JStr s => read_u64 s | _ => None end.
(** PendingConsolidation, onchain.go:1875-1878; null leaves the zero value of the element. *)
Definition dec_consolidation (j : json) : option (N * N) :=
  match j with
  | JNull => Some (0, 0)%N
  | JObj l => a ← may_enum dec_index 0%N "source_index" l; b ← may_enum dec_index 0%N "target_index" l; Some (a, b)
  | _ => None
  end.
(** PendingConsolidationsResponse, onchain.go:1880-1885. *)
Definition dec_consolidations (j : json) : option (list (N * N)) :=
  match j with
  | JNull => Some []
  | JObj l =>
      _ ← may dec_str "" "version" l; _ ← may dec_bool false "execution_optimistic" l; _ ← may dec_bool false "finalized" l;
      may (dec_list dec_consolidation) [] "data" l
  | _ => None
  end.
(** What one request gives: no connection, or a status and the text that could be read. onchain.go:1893-1907. *)
Inductive http_answer := NoConnection | Received (status : N) (text : string).
(** One attempt of GetPendingConsolidations, onchain.go:1893-1923: [None] is an error and is tried again.
    json.Decoder reads one value and leaves the rest of the text. *)
Definition consolidations_of (a : http_answer) : option (list (N * N)) :=
  match a with
  | NoConnection => None
  | Received status text =>
      if negb (status =? 200)%N then None else
      match value (S (String.length text)) text with None => None | Some (j, _) => dec_consolidations j end
  end.
(** retry.Do (avast/retry-go v4) with the attempts of GetRetryOpts, onchain.go:1854-1870: the first attempt that succeeds
    among the first [n], [None] when all of them fail. Zero attempts mean no limit; here the answers to come are a list,
    and when it ends the call is still waiting. *)
Inductive waited (A : Type) := Got (a : A) | GaveUp | Waits.
Arguments Got {A} _. Arguments GaveUp {A}. Arguments Waits {A}.
(** The attempts left, [None] for no limit; onchain.go:1854-1870. *)
Fixpoint attempts {A} (n : option nat) (answers : list (option A)) : waited A :=
  match n, answers with
  | Some O, _ => GaveUp
  | _, [] => Waits
  | _, Some a :: _ => Got a
  | None, None :: l => attempts None l
  | Some (S n), None :: l => attempts (Some n) l
  end.
