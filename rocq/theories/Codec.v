(** The JSON form of the oracle's state: oracle/types.go:153-379 (struct tags and custom enum encodings), the
    event structs of contract/contract.go:1937, 3033, 3437 (no tags, so Go field names) and types.Log of go-ethereum
    v1.15.7 (core/types/gen_log_json.go, common/hexutil). *)
From Verif Require Export Types Json.
From Verif Require Import Merkle.
From stdpp Require Import sorting.
From Coq Require Import DecimalString HexadecimalString DecimalN DecimalZ HexadecimalN.

(** ** Scalars *)

(** Decimal form of a uint64, strconv.AppendUint (encode.go, uintEncoder). *)
Definition print_N (n : N) : string := DecimalString.NilZero.string_of_uint (N.to_uint n).
(** Decimal form of an int or of a big.Int (encode.go, intEncoder; big.Int.MarshalJSON). *)
Definition print_Z (z : Z) : string := DecimalString.NilZero.string_of_int (Z.to_int z).
(** strconv.ParseUint(lit, 10, 64) (decode.go, literalStore). *)
Definition read_u64 (lit : string) : option N :=
  match DecimalString.NilZero.uint_of_string lit with
  | Some d => let n := N.of_uint d in if (n <? two64)%N then Some n else None
  | None => None
  end.
(** big.Int.UnmarshalJSON on a JSON number. For oracle.go:590. *)
Definition read_big (lit : string) : option Z :=
  option_map Z.of_int (DecimalString.NilZero.int_of_string lit).
(** strconv.ParseInt(lit, 10, 64) for an int field. For oracle.go:590. *)
Definition read_int (lit : string) : option Z :=
  match read_big lit with
  | Some z => if ((-9223372036854775808 <=? z) && (z <? 9223372036854775808))%Z then Some z else None
  | None => None
  end.

(** uint64 fields and map keys. For oracle.go:508, 993. *)
Definition enc_u64 (n : N) : json := JNum (print_N n).
(** uint64 fields, decode.go literalStore. *)
Definition dec_u64 (j : json) : option N := match j with JNum lit => read_u64 lit | _ => None end.
(** big.Int.MarshalJSON. For oracle.go:508, 993. *)
Definition enc_big (z : Z) : json := JNum (print_Z z).
(** big.Int.UnmarshalJSON. Simplification: null (a nil pointer) is an error here; the program accepts it and
    panics on the first use of the number. For oracle.go:590. *)
Definition dec_big (j : json) : option Z := match j with JNum lit => read_big lit | _ => None end.
(** int fields. For oracle.go:590. *)
Definition dec_int (j : json) : option Z := match j with JNum lit => read_int lit | _ => None end.
(** string fields. For oracle.go:590. *)
Definition dec_str (j : json) : option string := match j with JStr s => Some s | _ => None end.
(** bool fields. For oracle.go:590. *)
Definition dec_bool (j : json) : option bool := match j with JBool b => Some b | _ => None end.

(** hexutil.Bytes.MarshalText, and common.Address / common.Hash.MarshalText: 0x and lowercase hex.
    For oracle.go:508, 993. *)
Definition enc_bytes (b : string) : json := JStr (hexutil_encode b).
(** hexutil.Bytes.UnmarshalJSON: 0x prefix (either case of x), even number of hex digits. For oracle.go:590. *)
Definition dec_bytes (j : json) : option string :=
  match j with
  | JStr s =>
      if has_prefix s "0x" || has_prefix s "0X" then
        let b := sdrop 2 s in
        if Nat.even (String.length b) && sforall is_hex_char b then Some (hex_decode b) else None
      else None
  | _ => None
  end.
(** hexutil.UnmarshalFixedJSON (common.Address: 20 bytes, common.Hash: 32 bytes). For oracle.go:590. *)
Definition dec_fixed (k : nat) (j : json) : option string :=
  match dec_bytes j with Some b => if (String.length b =? k)%nat then Some b else None | None => None end.
(** hexutil.Uint64.MarshalText: 0x and hex without leading zeros. For oracle.go:508, 993. *)
Definition print_hex (n : N) : string := "0x" +:+ HexadecimalString.NilZero.string_of_uint (N.to_hex_uint n).
(** The same as a JSON string, for oracle.go:508, 993. *)
Definition enc_hex (n : N) : json := JStr (print_hex n).
(** hexutil.Uint64.UnmarshalJSON. Simplification: leading zeros are accepted. For oracle.go:590. *)
Definition dec_hex (j : json) : option N :=
  match j with
  | JStr s =>
      match strip "0x" s with
      | Some b =>
          match HexadecimalString.NilZero.uint_of_string b with
          | Some d => let n := N.of_hex_uint d in if (n <? two64)%N then Some n else None
          | None => None
          end
      | None => None
      end
  | _ => None
  end.

(** ** Enumerations *)

(** RewardType.String and MarshalJSON, types.go:230-243. *)
Definition reward_type_name (r : reward_type) : string :=
  match r with VanilaBlock => "vanila" | MevBlock => "mev" | UnknownRewardType => "unknownrewardtype" end.
(** ValidatorStatus.String, types.go:264-281. *)
Definition status_name (v : vstatus) : string :=
  match v with
  | Active => "active" | YellowCard => "yellowcard" | RedCard => "redcard" | NotSubscribed => "notsubscribed"
  | Banned => "banned" | Untracked => "untracked" | UnknownState => "unknownstate"
  end.
(** BlockType.String, types.go:313-326. *)
Definition block_type_name (b : block_type) : string :=
  match b with
  | MissedProposal => "missedproposal" | WrongFeeRecipient => "wrongfeerecipient" | OkPoolProposal => "okpoolproposal"
  | OkPoolProposalBlsKeys => "okpoolproposalblskeys" | UnknownBlockType => "unknownblocktype"
  end.
(** SubscriptionType.String, types.go:354-361. *)
Definition sub_type_name (b : sub_type) : string := match b with Auto => "auto" | Manual => "manual" end.
(** The chains of comparisons in the four UnmarshalJSON methods, types.go:245-262, 286-311, 332-352, 367-379:
    null leaves the inner string empty and so is an error. *)
Fixpoint by_name {A} (name : A → string) (l : list A) (s : string) : option A :=
  match l with [] => None | x :: l => if String.eqb s (name x) then Some x else by_name name l s end.
(** UnmarshalJSON of the enums, types.go:245-262, 286-311, 332-352, 367-379. *)
Definition dec_enum {A} (name : A → string) (l : list A) (j : json) : option A :=
  match j with JStr s => by_name name l s | _ => None end.
(** types.go:245-262 *)
Definition reward_types : list reward_type := [VanilaBlock; MevBlock; UnknownRewardType].
(** types.go:286-311 *)
Definition statuses : list vstatus := [Active; YellowCard; RedCard; NotSubscribed; Banned; Untracked; UnknownState].
(** types.go:332-352 *)
Definition block_types : list block_type :=
  [MissedProposal; WrongFeeRecipient; OkPoolProposal; OkPoolProposalBlsKeys; UnknownBlockType].
(** types.go:367-379 *)
Definition sub_types : list sub_type := [Auto; Manual].

(** ** Structures (decode.go, object) *)

(** The value of a field: names are compared without regard to case; the last entry wins. Simplifications:
    ASCII folding only, and a repeated key replaces the earlier value where Go would merge repeated maps.
    For oracle.go:590. *)
Fixpoint field (k : string) (l : list (string * json)) : option json :=
  match l with
  | [] => None
  | (k', v) :: l =>
      match field k l with
      | Some w => Some w
      | None => if String.eqb (to_lower k') (to_lower k) then Some v else None
      end
  end.
(** A field of a plain type: absent or null leaves the zero value. For oracle.go:590. *)
Definition may {A} (dec : json → option A) (zero : A) (k : string) (l : list (string * json)) : option A :=
  match field k l with None => Some zero | Some JNull => Some zero | Some j => dec j end.
(** A field with a custom UnmarshalJSON: absent leaves the zero value, null is passed on. For oracle.go:590. *)
Definition may_enum {A} (dec : json → option A) (zero : A) (k : string) (l : list (string * json)) : option A :=
  match field k l with None => Some zero | Some j => dec j end.
(** A field that must be present: the gencodec:"required" fields of types.Log, and (simplification) pointers.
    For oracle.go:590. *)
Definition need {A} (dec : json → option A) (k : string) (l : list (string * json)) : option A :=
  match field k l with None => None | Some j => dec j end.
(** Struct values. For oracle.go:590. *)
Definition obj {A} (dec : list (string * json) → option A) (j : json) : option A :=
  match j with JObj l => dec l | _ => None end.
(** Slices (encode.go arrayEncoder, decode.go array). *)
Definition dec_list {A} (dec : json → option A) (j : json) : option (list A) :=
  match j with JArr l => mapM dec l | _ => None end.
(** Slices, for oracle.go:508, 993. *)
Definition enc_list {A} (enc : A → json) (l : list A) : json := JArr (enc <$> l).

(** Maps: entries sorted by the text of the key (encode.go, mapEncoder). *)
Definition key_le {A} (a b : string * A) : Prop := String.leb a.1 b.1 = true.
(** Decidability of the order, for oracle.go:508, 993. *)
Global Instance key_le_dec {A} (a b : string * A) : Decision (key_le a b).
Proof. unfold key_le. apply _. Defined.
(** A map with its entries sorted, for oracle.go:508, 993. *)
Definition enc_map {A} (l : list (string * A)) (enc : A → json) : json :=
  JObj ((λ kx, (kx.1, enc kx.2)) <$> merge_sort key_le l).
(** decode.go, object: the keys are text for string keys, parsed decimals for uint64 keys. *)
Definition dec_entries {K A} (key : string → option K) (dec : json → option A) (l : list (string * json)) : option (list (K * A)) :=
  mapM (λ kj, k ← key kj.1; x ← dec kj.2; Some (k, x)) l.
(** Maps with uint64 keys, types.go:181, 194, 197. *)
Definition enc_nmap {A} (enc : A → json) (m : gmap N A) : json :=
  enc_map ((λ kx, (print_N kx.1, kx.2)) <$> map_to_list m) enc.
(** The same, read, types.go:181, 194, 197. *)
Definition dec_nmap {A} (dec : json → option A) (j : json) : option (gmap N A) :=
  obj (λ l, l' ← dec_entries read_u64 dec l; Some (list_to_map (rev l'))) j.
(** Maps with string keys, types.go:182-183. *)
Definition enc_smap {A} (enc : A → json) (m : gmap string A) : json := enc_map (map_to_list m) enc.
(** The same, read, types.go:182-183. *)
Definition dec_smap {A} (dec : json → option A) (j : json) : option (gmap string A) :=
  obj (λ l, l' ← dec_entries Some dec l; Some (list_to_map (rev l'))) j.

(** types.Log: gen_log_json.go. *)
Definition enc_log (x : rawlog) : json := JObj
  [("address", enc_bytes (l_addr x)); ("topics", enc_list enc_bytes (l_topics x)); ("data", enc_bytes (l_data x));
   ("blockNumber", enc_hex (l_block x)); ("transactionHash", enc_bytes (l_tx x)); ("transactionIndex", enc_hex (l_txindex x));
   ("blockHash", enc_bytes (l_blockhash x)); ("logIndex", enc_hex (l_index x)); ("removed", JBool (l_removed x))].
(** types.Log, read: gen_log_json.go, for oracle.go:590. *)
Definition dec_log : json → option rawlog := obj (λ l,
  a ← need (dec_fixed 20) "address" l; t ← need (dec_list (dec_fixed 32)) "topics" l; d ← need dec_bytes "data" l;
  bn ← may dec_hex 0%N "blockNumber" l; tx ← need (dec_fixed 32) "transactionHash" l;
  ti ← may dec_hex 0%N "transactionIndex" l; bh ← may (dec_fixed 32) (be_bytes 32 0) "blockHash" l;
  li ← may dec_hex 0%N "logIndex" l; rm ← may dec_bool false "removed" l;
  Some (RawLog a t d bn tx ti bh li rm)).

(** ContractSubscribeValidator, contract.go:3033-3038. *)
Definition enc_sub (x : ev_sub) : json := JObj
  [("Sender", enc_bytes (sub_sender x)); ("SubscriptionCollateral", enc_big (sub_coll x));
   ("ValidatorID", enc_u64 (sub_id x)); ("Raw", enc_log (sub_log x))].
(** The same, read, contract.go:3033-3038. *)
Definition dec_sub : json → option ev_sub := obj (λ l,
  a ← need (dec_fixed 20) "Sender" l; z ← need dec_big "SubscriptionCollateral" l;
  i ← may dec_u64 0%N "ValidatorID" l; r ← need dec_log "Raw" l; Some (EvSub a z i r)).
(** ContractUnsubscribeValidator, contract.go:3437-3441. *)
Definition enc_unsub (x : ev_unsub) : json := JObj
  [("Sender", enc_bytes (uns_sender x)); ("ValidatorID", enc_u64 (uns_id x)); ("Raw", enc_log (uns_log x))].
(** The same, read, contract.go:3437-3441. *)
Definition dec_unsub : json → option ev_unsub := obj (λ l,
  a ← need (dec_fixed 20) "Sender" l; i ← may dec_u64 0%N "ValidatorID" l; r ← need dec_log "Raw" l; Some (EvUnsub a i r)).
(** ContractEtherReceived, contract.go:1937-1941. *)
Definition enc_ether (x : ev_ether) : json := JObj
  [("Sender", enc_bytes (er_sender x)); ("DonationAmount", enc_big (er_amount x)); ("Raw", enc_log (er_log x))].
(** The same, read, contract.go:1937-1941. *)
Definition dec_ether : json → option ev_ether := obj (λ l,
  a ← need (dec_fixed 20) "Sender" l; z ← need dec_big "DonationAmount" l; r ← need dec_log "Raw" l; Some (EvEther a z r)).

(** SummarizedBlock, types.go:153-162. *)
Definition enc_block (x : sblock) : json := JObj
  [("slot", enc_u64 (sb_slot x)); ("block", enc_u64 (sb_block x)); ("validator_index", enc_u64 (sb_index x));
   ("validator_key", JStr (sb_key x)); ("block_type", JStr (block_type_name (sb_type x)));
   ("reward_wei", match sb_reward x with Some z => enc_big z | None => JNull end);
   ("reward_type", JStr (reward_type_name (sb_reward_type x))); ("withdrawal_address", JStr (sb_withdrawal x))].
(** A reward that is not null, types.go:159. *)
Definition dec_reward (j : json) : option (option Z) := z ← dec_big j; Some (Some z).
(** SummarizedBlock, read, types.go:153-162. *)
Definition dec_block : json → option sblock := obj (λ l,
  s ← may dec_u64 0%N "slot" l; b ← may dec_u64 0%N "block" l; i ← may dec_u64 0%N "validator_index" l;
  k ← may dec_str "" "validator_key" l; t ← may_enum (dec_enum block_type_name block_types) UnknownBlockType "block_type" l;
  r ← may dec_reward None "reward_wei" l;
  rt ← may_enum (dec_enum reward_type_name reward_types) UnknownRewardType "reward_type" l;
  w ← may dec_str "" "withdrawal_address" l; Some (SBlock s b i k t r rt w)).

(** ValidatorInfo, types.go:165-174. *)
Definition enc_vinfo (x : vinfo) : json := JObj
  [("status", JStr (status_name (v_status x))); ("accumulated_rewards_wei", enc_big (v_acc x));
   ("pending_rewards_wei", enc_big (v_pend x)); ("collateral_wei", enc_big (v_coll x));
   ("withdrawal_address", JStr (v_addr x)); ("validator_index", enc_u64 (v_index x)); ("validator_key", JStr (v_key x));
   ("subscription_type", JStr (sub_type_name (v_sub x)))].
(** ValidatorInfo, read, types.go:165-174. *)
Definition dec_vinfo : json → option vinfo := obj (λ l,
  s ← may_enum (dec_enum status_name statuses) UnknownState "status" l;
  a ← need dec_big "accumulated_rewards_wei" l; p ← need dec_big "pending_rewards_wei" l; c ← need dec_big "collateral_wei" l;
  w ← may dec_str "" "withdrawal_address" l; i ← may dec_u64 0%N "validator_index" l; k ← may dec_str "" "validator_key" l;
  t ← may_enum (dec_enum sub_type_name sub_types) Manual "subscription_type" l; Some (VInfo s a p c w i k t)).

(** RawLeaf, types.go:225-228. *)
Definition enc_leaf (x : rawleaf) : json := JObj
  [("withdrawal_address", JStr (leaf_addr x)); ("accumulated_balance_wei", enc_big (leaf_bal x))].
(** RawLeaf, read, types.go:225-228. *)
Definition dec_leaf : json → option rawleaf := obj (λ l,
  a ← may dec_str "" "withdrawal_address" l; z ← need dec_big "accumulated_balance_wei" l; Some (RawLeaf a z)).

(** OnchainState, types.go:177-184. *)
Definition enc_onchain (x : onchain_state) : json := JObj
  [("slot", enc_u64 (oc_slot x)); ("tx_hash", JStr (oc_txhash x)); ("merkle_root", JStr (oc_root x));
   ("validators", enc_nmap enc_vinfo (oc_vals x)); ("leafs", enc_smap enc_leaf (oc_leafs x));
   ("proofs", enc_smap (enc_list JStr) (oc_proofs x))].
(** OnchainState, read, types.go:177-184. *)
Definition dec_onchain : json → option onchain_state := obj (λ l,
  s ← may dec_u64 0%N "slot" l; t ← may dec_str "" "tx_hash" l; r ← may dec_str "" "merkle_root" l;
  v ← may (dec_nmap dec_vinfo) ∅ "validators" l; f ← may (dec_smap dec_leaf) ∅ "leafs" l;
  p ← may (dec_smap (dec_list dec_str)) ∅ "proofs" l; Some (OnchainState s t r v f p)).

(** OracleState, types.go:186-223. *)
Definition enc_state (x : ost) : json := JObj
  [("state_hash", JStr (st_hash x)); ("latest_processed_slot", enc_u64 (st_latest x));
   ("latest_processed_block", enc_u64 (st_latest_block x)); ("next_slot_to_process", enc_u64 (st_next x));
   ("pool_accumulated_fees", enc_big (st_fees x)); ("validators", enc_nmap enc_vinfo (st_vals x));
   ("commited_states", enc_nmap enc_onchain (st_committed x)); ("subscriptions_events", enc_list enc_sub (st_subs x));
   ("unsubscriptions_events", enc_list enc_unsub (st_unsubs x)); ("ether_received_events", enc_list enc_ether (st_ether x));
   ("donations", enc_list enc_ether (st_donations x)); ("proposed_blocks", enc_list enc_block (st_proposed x));
   ("missed_blocks", enc_list enc_block (st_missed x)); ("wrong_fee_blocks", enc_list enc_block (st_wrong x));
   ("pool_fees_percent_over_10000", enc_big (st_feepct x)); ("pool_address", JStr (st_pool x));
   ("network", JStr (st_network x)); ("pool_fees_address", JStr (st_fees_addr x));
   ("check_point_size_in_slots", enc_u64 (st_cp_size x)); ("deployed_block", enc_u64 (st_dep_block x));
   ("deployed_slot", enc_u64 (st_dep_slot x)); ("collateral_in_wei", enc_big (st_coll x))].
(** OracleState, read, types.go:186-223. *)
Definition dec_state : json → option ost := obj (λ l,
  h ← may dec_str "" "state_hash" l; a ← may dec_u64 0%N "latest_processed_slot" l;
  b ← may dec_u64 0%N "latest_processed_block" l; n ← may dec_u64 0%N "next_slot_to_process" l;
  f ← need dec_big "pool_accumulated_fees" l; v ← may (dec_nmap dec_vinfo) ∅ "validators" l;
  c ← may (dec_nmap dec_onchain) ∅ "commited_states" l; s ← may (dec_list dec_sub) [] "subscriptions_events" l;
  u ← may (dec_list dec_unsub) [] "unsubscriptions_events" l; e ← may (dec_list dec_ether) [] "ether_received_events" l;
  d ← may (dec_list dec_ether) [] "donations" l; p ← may (dec_list dec_block) [] "proposed_blocks" l;
  m ← may (dec_list dec_block) [] "missed_blocks" l; w ← may (dec_list dec_block) [] "wrong_fee_blocks" l;
  pct ← may dec_int 0%Z "pool_fees_percent_over_10000" l; pool ← may dec_str "" "pool_address" l;
  net ← may dec_str "" "network" l; fa ← may dec_str "" "pool_fees_address" l;
  cp ← may dec_u64 0%N "check_point_size_in_slots" l; db ← may dec_u64 0%N "deployed_block" l;
  ds ← may dec_u64 0%N "deployed_slot" l; z ← need dec_big "collateral_in_wei" l;
  Some (OSt h a b n f v c s u e d p m w pct pool net fa cp db ds z)).

(** json.MarshalIndent(state, "", " "), oracle.go:507, 606, 993. *)
Definition marshal (s : ost) : string := print 0 (enc_state s).
(** json.Unmarshal(rawBytes, &state), oracle.go:590. *)
Definition unmarshal (text : string) : option ost := j ← parse text; dec_state j.
