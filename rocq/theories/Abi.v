(** Reading what the contract wrote: the ABI decoding of event data and of call data by go-ethereum v1.15.7
    (accounts/abi, accounts/abi/bind), as the generated code of contract/contract.go and onchain.go use it. *)
From Verif Require Export Beacon.

(** ** Values *)

(** The types of the parameters that are read, contract/abi.abi. *)
Inductive param := PAddress | PUint256 | PUint64.
(** Values in Go: common.Address, *big.Int, uint64, and the nil *big.Int of an event whose log has no data.
    contract.go:1937-1941, 3033-3038. *)
Inductive aval := VAddress (a : string) | VBig (z : Z) | VUint64 (n : N) | VNil.
(** The number written in a word, most significant byte first: big.Int.SetBytes in ReadInteger. E.g. contract.go:1895. *)
Definition word_number (w : string) : N := fold_left (λ a c, 256 * a + N_of_ascii c)%N (list_ascii_of_string w) 0%N.
(** toGoType and ReadInteger (abi/unpack.go) of one word: an address takes the last 20 bytes without looking at the
    others; a uint64 refuses larger numbers. E.g. contract.go:1895. *)
Definition read_param (p : param) (w : string) : option aval :=
  match p with
  | PAddress => Some (VAddress (sdrop 12 w))
  | PUint256 => Some (VBig (Z.of_N (word_number w)))
  | PUint64 => let n := word_number w in if (n <? two64)%N then Some (VUint64 n) else None
  end.
(** Arguments.UnpackValues (abi/argument.go): word by word; what follows the last word is ignored. onchain.go:452. *)
Fixpoint unpack (ps : list param) (data : string) : option (list aval) :=
  match ps with
  | [] => Some []
  | p :: ps =>
      if (String.length data <? 32)%nat then None else
      v ← read_param p (substring 0 32 data); vs ← unpack ps (sdrop 32 data); Some (v :: vs)
  end.

(** ** The arguments of initialize *)

(** contract.go:955. *)
Definition init_params : list param := [PAddress; PUint256; PUint256; PAddress; PUint64; PUint64].
(** decodePoolFeeFromInitArgs, onchain.go:451-465. *)
Definition init_fee (data : string) : option Z :=
  match unpack init_params data with
  | Some (_ :: _ :: VBig z :: _) => Some (int64_of_big z)
  | _ => None
  end.

(** ** Events *)

(** The nine kinds of events that are requested, onchain.go:983-1047. *)
Inductive kind := KEther | KSub | KUnsub | KFee | KRecipient | KSize | KColl | KBan | KUnban.
(** Their declarations, contract.go:1945, 3042, 3445, 3713, 3847, 3579, 4115, 1674, 3310. *)
Definition signature (k : kind) : string :=
  match k with
  | KEther => "EtherReceived(address,uint256)"
  | KSub => "SubscribeValidator(address,uint256,uint64)"
  | KUnsub => "UnsubscribeValidator(address,uint64)"
  | KFee => "UpdatePoolFee(uint256)"
  | KRecipient => "UpdatePoolFeeRecipient(address)"
  | KSize => "UpdateCheckpointSlotSize(uint64)"
  | KColl => "UpdateSubscriptionCollateral(uint256)"
  | KBan => "BanValidator(uint64)"
  | KUnban => "UnbanValidator(uint64)"
  end.
(** Their parameters, none of them indexed. The same lines. contract.go:1945-4115. *)
Definition params (k : kind) : list param :=
  match k with
  | KEther => [PAddress; PUint256] | KSub => [PAddress; PUint256; PUint64] | KUnsub => [PAddress; PUint64]
  | KFee => [PUint256] | KRecipient => [PAddress] | KSize => [PUint64] | KColl => [PUint256] | KBan => [PUint64] | KUnban => [PUint64]
  end.
(** The field of an event that was not read: the zero value of its Go type. contract.go:1894. *)
Definition unset (p : param) : aval :=
  match p with PAddress => VAddress (be_bytes 20 0) | PUint256 => VNil | PUint64 => VUint64 0 end.
(** BoundContract.UnpackLog (bind/base.go) for an event without indexed parameters; [H] is Keccak-256. [None] is an
    error: no topic, another first topic, more topics, or data that cannot be read. Without any data the event keeps
    its zero values. E.g. contract.go:1895, 1910. *)
Definition unpack_log (H : string → string) (k : kind) (l : rawlog) : option (list aval) :=
  match l_topics l with
  | [t] =>
      if negb (String.eqb t (H (signature k))) then None
      else if String.eqb (l_data l) "" then Some (unset <$> params k) else unpack (params k) (l_data l)
  | _ => None
  end.

(** The structs of the events, contract.go:1937, 3033, 3437, 3706, 3840, 3572, 4108, 1667, 3303; [None] for a nil number. *)
Definition as_ether (vs : list aval) (l : rawlog) : option ev_ether :=
  match vs with [VAddress a; VBig z] => Some (EvEther a z l) | _ => None end.
(** contract.go:3033-3038 *)
Definition as_sub (vs : list aval) (l : rawlog) : option ev_sub :=
  match vs with [VAddress a; VBig z; VUint64 i] => Some (EvSub a z i l) | _ => None end.
(** contract.go:3437-3441 *)
Definition as_unsub (vs : list aval) (l : rawlog) : option ev_unsub :=
  match vs with [VAddress a; VUint64 i] => Some (EvUnsub a i l) | _ => None end.
(** contract.go:3706-3709, 4108-4111 *)
Definition as_big (vs : list aval) (l : rawlog) : option (Z * rawlog) := match vs with [VBig z] => Some (z, l) | _ => None end.
(** contract.go:3840-3843 *)
Definition as_address (vs : list aval) (l : rawlog) : option (string * rawlog) := match vs with [VAddress a] => Some (a, l) | _ => None end.
(** contract.go:3572-3575 *)
Definition as_uint64 (vs : list aval) (l : rawlog) : option (N * rawlog) := match vs with [VUint64 n] => Some (n, l) | _ => None end.
(** contract.go:1667-1670, 3303-3306 *)
Definition as_ban (vs : list aval) (l : rawlog) : option ev_ban := match vs with [VUint64 n] => Some (EvBan n l) | _ => None end.

(** The loop over the iterator, onchain.go:1319-1322 and the same in the other eight: Next is false at the end and at
    the first log that cannot be read (contract.go:1883-1920), and Error is not asked. Simplification: an event with a
    nil number ends the process here; in the program at its first use. *)
Fixpoint deliver {A} (H : string → string) (k : kind) (as_event : list aval → rawlog → option A) (logs : list rawlog) : res (list A) :=
  match logs with
  | [] => Ok []
  | l :: logs =>
      match unpack_log H k l with
      | None => Ok []
      | Some vs =>
          match as_event vs l with
          | None => Die (Panic "nil pointer dereference")
          | Some e => let! es := deliver H k as_event logs in Ok (e :: es)
          end
      end
  end.
(** An event request, onchain.go:1296-1330 and the same in the other eight, api.go:1122-1146, 1148-1170: [answer] is what eth_getLogs
    gives for the pool's address, the topic and the blocks; [None] is an error after all retries. Close gives no error. *)
Definition get_events {A} (H : string → string) (k : kind) (as_event : list aval → rawlog → option A) (answer : option (list rawlog))
  : res (option (list A)) :=
  match answer with
  | None => Ok None
  | Some logs => let! es := deliver H k as_event logs in Ok (Some es)
  end.
(** The nine requests of FetchFullBlock for a block, onchain.go:983-1047, on the answers to eth_getLogs by topic. *)
Definition read_events (H : string → string) (logs : string → option (list rawlog)) : res events :=
  let ask {A} (k : kind) (as_event : list aval → rawlog → option A) (msg : string) :=
    let! r := get_events H k as_event (logs (H (signature k))) in must r msg in
  let! ether := ask KEther as_ether "failed getting ether received events" in
  let! subs := ask KSub as_sub "failed getting subscribe validator events" in
  let! unsubs := ask KUnsub as_unsub "failed getting unsubscribe validator events" in
  let! fee := ask KFee as_big "failed getting update pool fee events" in
  let! recipient := ask KRecipient as_address "failed getting pool fee recipient events" in
  let! size := ask KSize as_uint64 "failed getting checkpoint slot size events" in
  let! coll := ask KColl as_big "failed getting update subscription collateral events" in
  let! bans := ask KBan as_ban "failed getting ban validator events" in
  let! unbans := ask KUnban as_ban "failed getting unban validator events" in
  Ok (Events ether subs unsubs fee recipient size coll bans unbans []).
