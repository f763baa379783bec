(** The view calls of the contract: what the generated code of contract/contract.go sends to a node, and how it reads the
    answer (go-ethereum v1.15.7, accounts/abi/bind BoundContract.Call). *)
From Verif Require Export Abi.

(** [call] is eth_call of the pool contract with these data, [None] if every attempt failed. BoundContract.Call: the first
    four bytes of the hash of the signature, then the arguments. An empty answer is an error, whether the node then finds code
    at the address (nothing to unmarshal) or not (no contract code). E.g. contract.go:788-800. *)
Definition ask_view (H : string → string) (call : string → option string) (sig args : string) : option string :=
  match call (substring 0 4 (H sig) +:+ args) with
  | Some out => if String.eqb out "" then None else Some out
  | None => None
  end.
(** One word of raw bytes (ReadFixedBytes); what follows is ignored. contract.go:216-226, 788-798. *)
Definition first_word (out : string) : option string := if (String.length out <? 32)%nat then None else Some (substring 0 32 out).
(** A single number or address. contract.go:247, 278, 309, 495, 619, 650, 681, 819. *)
Definition first_uint64 (out : string) : option N := match unpack [PUint64] out with Some [VUint64 n] => Some n | _ => None end.
(** contract.go:278-288, 309-319, 619-629, 819-829. *)
Definition first_big (out : string) : option Z := match unpack [PUint256] out with Some [VBig z] => Some z | _ => None end.
(** contract.go:650-660. *)
Definition first_address (out : string) : option string := match unpack [PAddress] out with Some [VAddress a] => Some a | _ => None end.
(** forEachUnpack (abi/unpack.go) for addresses. contract.go:340-350. *)
Fixpoint read_addresses (n : nat) (d : string) : list string :=
  match n with
  | O => []
  | S n => sdrop 12 (substring 0 32 d) :: read_addresses n (sdrop 32 d)
  end.
(** A list of addresses: lengthPrefixPointsTo and forEachUnpack (abi/unpack.go). The first word is the offset of the list,
    there its length, then its elements. Simplification: lengths are below 2^63, so that the checks for that size never
    fail. contract.go:340-350. *)
Definition first_addresses (out : string) : option (list string) :=
  let size := N.of_nat (String.length out) in
  if (size <? 32)%N then None else
  let start := (word_number (substring 0 32 out) + 32)%N in
  if (size <? start)%N then None else
  let n := word_number (substring 0 32 (sdrop (N.to_nat (start - 32)) out)) in
  if (size <? start + n)%N then None else
  if (size - start <? 32 * n)%N then None else
  Some (read_addresses (N.to_nat n) (sdrop (N.to_nat start) out)).

(** GetLastConsolidatedSlot, onchain.go:810-831. *)
Definition ask_slot (H : string → string) (call : string → option string) : option N :=
  out ← ask_view H call "lastConsolidatedSlot()" ""; first_uint64 out.
(** GetRewardsRoot, onchain.go:787-808. *)
Definition ask_root (H : string → string) (call : string → option string) : option string :=
  out ← ask_view H call "rewardsRoot()" ""; w ← first_word out; Some ("0x" +:+ hex_encode w).
(** GetOnchainSlotAndRoot, onchain.go:833-845: two calls, answered by the contract at two moments. *)
Definition ask_slot_and_root (H : string → string) (call1 call2 : string → option string) : option (string * N) :=
  slot ← ask_slot H call1; root ← ask_root H call2; Some (root, slot).
(** GetAllOracleMembers, onchain.go:638-657, and the same call in IsAddressWhitelisted, 572-594. *)
Definition ask_members (H : string → string) (call : string → option string) : option (list string) :=
  out ← ask_view H call "getAllOracleMembers()" ""; first_addresses out.
(** GetQuorum, onchain.go:659-677. *)
Definition ask_quorum (H : string → string) (call : string → option string) : option N :=
  out ← ask_view H call "quorum()" ""; first_uint64 out.
(** GetContractCollateral, onchain.go:679-697. *)
Definition ask_collateral (H : string → string) (call : string → option string) : option Z :=
  out ← ask_view H call "subscriptionCollateral()" ""; first_big out.
(** GetSlotCheckpointSize, onchain.go:699-719. *)
Definition ask_size (H : string → string) (call : string → option string) : option N :=
  out ← ask_view H call "checkpointSlotSize()" ""; first_uint64 out.
(** GetContractDeploymentBlock, onchain.go:721-741. *)
Definition ask_deployment (H : string → string) (call : string → option string) : option Z :=
  out ← ask_view H call "deploymentBlockNumber()" ""; first_big out.
(** GetPoolFee, onchain.go:743-763. *)
Definition ask_fee (H : string → string) (call : string → option string) : option Z :=
  out ← ask_view H call "poolFee()" ""; first_big out.
(** GetPoolFeeAddress, onchain.go:765-785: the 20 bytes; their text is made where they are used. *)
Definition ask_recipient (H : string → string) (call : string → option string) : option string :=
  out ← ask_view H call "poolFeeRecipient()" ""; first_address out.
(** The call of GetContractClaimedBalance, onchain.go:849-880, for an address of 20 bytes. *)
Definition ask_claimed (H : string → string) (call : string → option string) (a20 : string) : option Z :=
  out ← ask_view H call "claimedBalance(address)" (be_bytes 12 0 +:+ a20); first_big out.
(** GetAddressToVotedReport, onchain.go:602-636: two calls, at two moments. The slot and the votes of the report. *)
Definition ask_voted (H : string → string) (call1 call2 : string → option string) (a20 : string) : option (N * N) :=
  out ← ask_view H call1 "addressToVotedReportHash(address)" (be_bytes 12 0 +:+ a20); h ← first_word out;
  out ← ask_view H call2 "reportHashToReport(bytes32)" h;
  match unpack [PUint64; PUint64] out with Some [VUint64 slot; VUint64 votes] => Some (slot, votes) | _ => None end.
