(** Access to the nodes and the contract: the parts of oracle/onchain.go through which the oracle obtains blocks,
    validators, duties and its configuration, and submits roots. Every answer of a node is an explicit argument.
    Retries (GetRetryOpts, onchain.go:1854-1870) are not visible: an answer of [None] means that all attempts failed. *)
From Verif Require Export Persist.

(** errors.Wrap of github.com/pkg/errors v0.9.1: wrapping the nil error gives the nil error. [None] is nil.
    E.g. onchain.go:195-214. *)
Definition wrap (err : option string) (msg : string) : option string :=
  match err with None => None | Some e => Some (msg +:+ ": " +:+ e) end.

(** ** Answers of the nodes *)

(** v1.ProposerDuty of go-eth2-client: slot, validator index, public key. onchain.go:503-521. *)
Record duty := Duty { d_slot : N; d_index : N; d_key : string }.

(** The consensus client, the execution client and the contract bindings, as far as FetchFullBlock uses them.
    onchain.go:940-1110. *)
Record node := Node {
  (* o.ChainId, onchain.go:163 *)
  nd_chain : N;
  (* ConsensusClient.ProposerDuties(epoch), onchain.go:503-507 *)
  nd_duties : N → option (list duty);
  (* ConsensusClient.Validators(state, indices), onchain.go:298-301, 346-350: the map in iteration order *)
  nd_vals : list N → N → option (list (N * bval));
  (* GetConsensusBlockAtSlot, onchain.go:217-245: [Some None] when the client reports 404 *)
  nd_block : N → option (option cblock);
  (* GetEtherReceivedEvents and the other event requests by block number, onchain.go:1296-1697 *)
  nd_ether : N → option (list ev_ether);
  nd_subs : N → option (list ev_sub);
  nd_unsubs : N → option (list ev_unsub);
  nd_fee : N → option (list (Z * rawlog));
  nd_recipient : N → option (list (string * rawlog));
  nd_size : N → option (list (N * rawlog));
  nd_coll : N → option (list (Z * rawlog));
  nd_bans : N → option (list ev_ban);
  nd_unbans : N → option (list ev_ban);
  (* ExecutionClient.HeaderByNumber and TransactionReceipt, onchain.go:533, 560 *)
  nd_header : N → option header;
  nd_receipt : string → option receipt }.

(** ** Validators *)

(** GetSingleValidator, onchain.go:292-335: [None] is an error, [Some None] the pair (nil, nil). *)
Definition get_single_validator (nd : node) (i slot : N) : option (option bval) :=
  match nd_vals nd [i] slot with
  | None => None
  | Some [] => Some None
  | Some [(k, v)] => if (k =? i)%N && (b_index v =? i)%N then Some (Some v) else None
  | Some _ => None (* Requested one but got many *)
  end.

(** GetSetOfValidators, onchain.go:336-379. *)
Definition get_set_of_validators (nd : node) (req : list N) (slot : N) : option (list (N * bval)) :=
  match req with
  | [] => None
  | _ =>
      match nd_vals nd req slot with
      | None => None
      | Some [] => None
      | Some r => if forallb (λ i, existsb (λ kv, (kv.1 =? i)%N) r) req then Some r else None
      end
  end.

(** ** Proposal duties *)

(** SlotsInEpoch, constants/constants.go:4. *)
Definition slots_in_epoch : N := 32%N.

(** EpochDuties and the global ProposalDutyCache, onchain.go:55-64. It starts as the zero value: epoch 0 and a nil
    slice, which is the empty list here. *)
Record cache := Cache { ca_epoch : N; ca_duties : list duty }.
(** The cache at start, onchain.go:60-64. *)
Definition empty_cache : cache := Cache 0 [].

(** GetProposalDuty, onchain.go:482-522: the duty ([None] is an error) and the cache afterwards. Indexing a slice
    out of range panics. *)
Definition get_proposal_duty (nd : node) (slot : N) (ca : cache) : res (option duty * cache) :=
  let epoch := (slot / slots_in_epoch)%N in
  let k := N.to_nat (slot mod slots_in_epoch) in
  if (ca_epoch ca =? epoch)%N then
    match ca_duties ca !! k with
    | None => Die (Panic "index out of range")
    | Some d =>
        if negb (ca_epoch ca =? d_slot d / slots_in_epoch)%N then Ok (None, ca) else Ok (Some d, ca)
    end
  else
    match nd_duties nd epoch with
    | None => Ok (None, ca)
    | Some l =>
        match l !! k with
        | None => Die (Panic "index out of range")
        | Some d => Ok (Some d, Cache epoch l)
        end
    end.

(** ** Blocks *)

(** Receipts of the transactions, the loop of GetExecHeaderAndReceipts, onchain.go:548-572. *)
Fixpoint get_receipts (nd : node) (txs : list (option tx)) : res (list receipt) :=
  match txs with
  | [] => Ok []
  | None :: _ => Die (Fatal "could not decode tx")
  | Some t :: txs =>
      match nd_receipt nd (tx_hash t) with
      | None => Die (Fatal "failed getting header and receipts")
      | Some r => let! rs := get_receipts nd txs in Ok (r :: rs)
      end
  end.
(** GetExecHeaderAndReceipts, onchain.go:525-574. Its errors are fatal for the only caller (1083-1085). *)
Definition get_header_and_receipts (nd : node) (number : N) (txs : list (option tx)) : res (header * list receipt) :=
  match nd_header nd number with
  | None => Die (Fatal "failed getting header and receipts")
  | Some h => let! rs := get_receipts nd txs in Ok (h, rs)
  end.

(** An answer whose absence FetchFullBlock treats as fatal. onchain.go:945-1100. *)
Definition must {A} (x : option A) (msg : string) : res A :=
  match x with Some a => Ok a | None => Die (Fatal msg) end.

(** The nine event requests of FetchFullBlock, onchain.go:983-1047. The other event kinds are not requested. *)
Definition fetch_events (nd : node) (n : N) : res events :=
  let! ether := must (nd_ether nd n) "failed getting ether received events" in
  let! subs := must (nd_subs nd n) "failed getting subscribe validator events" in
  let! unsubs := must (nd_unsubs nd n) "failed getting unsubscribe validator events" in
  let! fee := must (nd_fee nd n) "failed getting update pool fee events" in
  let! recipient := must (nd_recipient nd n) "failed getting pool fee recipient events" in
  let! size := must (nd_size nd n) "failed getting checkpoint slot size events" in
  let! coll := must (nd_coll nd n) "failed getting update subscription collateral events" in
  let! bans := must (nd_bans nd n) "failed getting ban validator events" in
  let! unbans := must (nd_unbans nd n) "failed getting unban validator events" in
  Ok (Events ether subs unsubs fee recipient size coll bans unbans []).

(** The validators that the (un)subscriptions are about, the loops at onchain.go:1055-1070. *)
Fixpoint fetch_validators (nd : node) (slot : N) (ids : list N) : res (list (option bval)) :=
  match ids with
  | [] => Ok []
  | i :: ids =>
      let! v := must (get_single_validator nd i slot) "could not get validator" in
      let! vs := fetch_validators nd slot ids in
      Ok (v :: vs)
  end.

(** Assignment of ValidatorsSubs and ValidatorsUnsubs, onchain.go:1072-1073. *)
Definition set_request_validators (subs unsubs : list (option bval)) (fb : fullblock) : fullblock :=
  FullBlock (fb_duty_slot fb) (fb_duty_index fb) (fb_duty_pubkey fb) (fb_validator fb) (fb_cblock fb)
    (fb_header fb) (fb_receipts fb) (fb_events fb) subs unsubs (fb_chain fb).

(** The part of FetchFullBlock for a slot with a block, onchain.go:971-1088, on the full block [fb] made from the
    duty. [s]: the state of the oracle; [pool]: o.PoolAddress. *)
Definition fetch_proposed (nd : node) (E : env) (pool : string) (fetch_all : bool) (slot : N) (s : ost) (c : cblock)
    (fb : fullblock) : res fullblock :=
  let! fb1 := set_consensus_block c fb in
  let! sl := get_slot fb1 in
  if negb (sl =? slot)%N then Die (Fatal "slot does not match requested slot") else
  let! n := get_number fb1 in
  let! ev := fetch_events nd n in
  let! fb2 := set_block_events ev fb1 in
  let! subs := fetch_validators nd slot (sub_id <$> ev_subscribe (fb_events fb2)) in
  let! unsubs := fetch_validators nd slot (uns_id <$> ev_unsubscribe (fb_events fb2)) in
  let fb3 := set_request_validators subs unsubs fb2 in
  let! prop := get_proposer fb3 in
  let! rewarded := is_address_rewarded E pool fb3 in
  if fetch_all || (is_subscribed s prop || rewarded) then
    let! txs := get_txs fb3 in
    let! '(h, rs) := get_header_and_receipts nd n txs in
    set_header_and_receipts h rs fb3
  else Ok fb3.

(** FetchFullBlock, onchain.go:930-1092: the block and the duty cache afterwards. *)
Definition fetch_full_block (nd : node) (E : env) (pool : string) (fetch_all : bool) (slot : N) (s : ost) (ca : cache)
  : res (fullblock * cache) :=
  let! '(d, ca1) := get_proposal_duty nd slot ca in
  let! d := must d "could not get proposal duty" in
  if negb (d_slot d =? slot)%N then Die (Fatal "slot duty slot does not match requested slot") else
  let! v := must (get_single_validator nd (d_index d) slot) "could not get single validator" in
  let! fb := new_full_block (d_slot d) (d_index d) (d_key d) v (nd_chain nd) in
  let! b := must (nd_block nd slot) "could not get block at slot" in
  match b with
  | None => Ok (fb, ca1)
  | Some c => let! fb' := fetch_proposed nd E pool fetch_all slot s c fb in Ok (fb', ca1)
  end.

(** ** Sync status *)

(** AreNodesInSync, onchain.go:169-215. [exec]: is the answer of SyncProgress non-nil (syncing)? [dist]: the sync
    distance of the consensus client. The result [None] is an error. *)
Definition are_nodes_in_sync (exec : option bool) (dist : option N) : option bool :=
  match exec, dist with
  | Some syncing, Some d => Some (if syncing then false else negb (5 <? d)%N)
  | _, _ => None
  end.

(** ** Connecting *)

(** The chain check of NewOnchain, onchain.go:94-115, after both clients answered: (is the returned pointer
    non-nil, error). The later steps of NewOnchain are taken to succeed. *)
Definition new_onchain (exec_chain : Z) (cons_chain : N) : bool * option string :=
  if negb (cons_chain =? u64 (Z.to_N (int64_of_big exec_chain mod 18446744073709551616)))%N
  then (false, wrap None "Consensus and execution clients are not connected to the same chain")
  else (true, None).

(** ** Configuration *)

(** A transaction of the deployment block as decodeInitialPoolFee reads it: recipient and data. onchain.go:380-464. *)
Notation deploy_tx := (option string * string)%type.

(** findInitializeInCreationData, onchain.go:466-480: [args] decodes the arguments (decodePoolFeeFromInitArgs,
    449-462); [sel] is the selector of initialize. *)
Fixpoint find_initialize (args : string → option Z) (sel data : string) : option Z :=
  match data with
  | EmptyString => None
  | String _ rest =>
      if has_prefix data sel then
        match args (sdrop 4 data) with Some fee => Some fee | None => find_initialize args sel rest end
      else find_initialize args sel rest
  end.

(** decodeInitialPoolFee, onchain.go:408-446. [args]: the ABI decoding of the arguments, giving the fee after
    int(poolFee.Int64()); [sel]: the four-byte selector; [pool20]: the pool address. A transaction to the pool
    whose data starts with the selector decides the result, even if it does not decode. *)
Fixpoint decode_initial_fee (args : string → option Z) (sel pool20 : string) (txs : list deploy_tx) : option Z :=
  match txs with
  | [] => None
  | (to, data) :: txs =>
      if (String.length data <? 4)%nat then decode_initial_fee args sel pool20 txs else
      match to with
      | Some a =>
          if String.eqb a pool20 && has_prefix data sel then args (sdrop 4 data)
          else decode_initial_fee args sel pool20 txs
      | None =>
          match find_initialize args sel data with
          | Some fee => Some fee
          | None => decode_initial_fee args sel pool20 txs
          end
      end
  end.

(** GoerliChainId, onchain.go:43. *)
Definition GoerliChainId : N := 5%N.

(** The network of a chain id, onchain.go:1158-1169. *)
Definition network_of (chain : N) : option string :=
  if (chain =? MainnetChainId)%N then Some Mainnet
  else if (chain =? GoerliChainId)%N then Some Goerli
  else if (chain =? HoleskyChainId)%N then Some Holesky
  else if (chain =? HoodiChainId)%N then Some Hoodi
  else None.

(** The default fees, onchain.go:1225-1228. *)
Definition default_fee (net : string) : option Z :=
  if String.eqb net Mainnet then Some 700%Z else if String.eqb net Hoodi then Some 1000%Z else None.

(** What GetConfigFromContract asks, in order. [None]: all attempts failed. The balance, the oracle members and the
    quorum are only logged. onchain.go:1136-1294. *)
Record config_answers := ConfigAnswers {
  ga_exec_chain : option Z;             (* 1141 *)
  ga_cons_chain : option N;             (* 1146 *)
  ga_genesis : option N;                (* 1175: GenesisTime.Unix() as uint64 *)
  ga_balance : option Z;                (* 1183 *)
  ga_deployed : option Z;               (* 1190 *)
  ga_block : option (N * list deploy_tx);  (* 1197: time and transactions of that block *)
  ga_cblock : N → option (option cblock);  (* 1208 *)
  ga_cp_size : option N;                (* 1242 *)
  ga_fees_addr : option string;         (* 1248: 20 bytes *)
  ga_coll : option Z;                   (* 1254 *)
  ga_members : option (list string);    (* 1267 *)
  ga_quorum : option N }.               (* 1274 *)

(** GetConfigFromContract, onchain.go:1138-1293. [pool] and [dry]: PoolAddress and DryRun of the command line;
    [pool20]: common.HexToAddress of the former. The consensus block is not checked for nil (1213-1216). *)
Definition get_config (E : env) (args : string → option Z) (sel pool20 : string) (A : config_answers) (pool : string)
    (dry : bool) : res config :=
  let! exec := must (ga_exec_chain A) "Could not get chainid" in
  let! cons := must (ga_cons_chain A) "Could not get deposit contract" in
  if negb (cons =? u64 (Z.to_N (int64_of_big exec mod 18446744073709551616)))%N
  then Die (Fatal "ChainID from consensus and execution client dont match") else
  let! net := must (network_of cons) "ChainID not supported" in
  let! genesis := must (ga_genesis A) "Could not get genesis" in
  let! _ := must (ga_balance A) "Could not get pool address balance" in
  let! deployed := must (ga_deployed A) "Could not get contract deployment block" in
  let! '(time, txs) := must (ga_block A) "Could not get block by number" in
  let slot := (u64_sub time genesis / 12)%N in
  let! cb := must (ga_cblock A slot) "Could not get block at slot" in
  let! n := get_number (FullBlock 0 0 "" (BVal 0 BUnknown "" "" 0 0) cb None None no_events [] [] 0) in
  if negb (n =? u64 (Z.abs_N deployed))%N then Die (Fatal "Block number from consensus and execution client dont match") else
  let! fee := must (match decode_initial_fee args sel pool20 txs with Some f => Some f | None => default_fee net end)
                "Could not decode initial pool fee and no default configured for network" in
  let! size := must (ga_cp_size A) "Could not get slot checkpoint size" in
  let! addr := must (ga_fees_addr A) "Could not get pool fee address" in
  let! coll := must (ga_coll A) "Could not get contract collateral" in
  let! _ := must (ga_members A) "Could not get whitelisted addresses" in
  let! _ := must (ga_quorum A) "Could not get quorum" in
  Ok (Config net pool slot (u64 (Z.abs_N deployed)) size fee (addr_string (e_mask E) addr) dry coll).

(** ** Submitting a root *)

(** common.Hex2Bytes (go-ethereum): the error of hex.DecodeString is dropped, the bytes decoded so far remain.
    onchain.go:1728. *)
Fixpoint hex2bytes (s : string) : string :=
  match s with
  | String a (String b s) =>
      if is_hex_char a && is_hex_char b then String (ascii_of_N (16 * hex_val a + hex_val b)) (hex2bytes s)
      else EmptyString
  | _ => EmptyString
  end.

(** common.HexToAddress of a text that is a hex address, onchain.go:137, 857. *)
Definition hex_to_address (s : string) : string :=
  hex2bytes (if has_prefix s "0x" || has_prefix s "0X" then sdrop 2 s else s).
(** GetContractClaimedBalance, onchain.go:849-880. [cl] is the contract's answer about an address (20 bytes) at the block
    asked for, [None] when no attempt succeeded. *)
Definition claimed_balance (cl : string → option Z) (addr : string) : res (option Z) :=
  if negb (is_hex_address addr) then Die (Fatal "Invalid withdrawal address") else Ok (cl (hex_to_address addr)).
(** The loop of GetClaimedPerWithdrawalAddress, onchain.go:1704-1716. [acc] is the map built so far. *)
Fixpoint claimed_loop (cl : string → option Z) (l : list string) (acc : list (string * Z)) : res (option (list (string * Z))) :=
  match l with
  | [] => Ok (Some acc)
  | addr :: l =>
      let! c := claimed_balance cl addr in
      match c with
      | None => Ok None
      | Some z =>
          if bool_decide (addr ∈ acc.*1) then Die (Fatal "Duplicate deposit address found")
          else claimed_loop cl l (acc ++ [(addr, z)])
      end
  end.
(** GetClaimedPerWithdrawalAddress, onchain.go:1701-1717: [None] for an error. *)
Definition claimed_per_address (cl : string → option Z) (l : list string) : res (option (list (string * Z))) :=
  claimed_loop cl l [].

(** How bind.WaitMined ends, onchain.go:1800: with the receipt (its status, and whether the deadline passed before
    ctx.Err() is read), or with the error of the expired context. *)
Inductive mined := Mined (status : N) (late : bool) | Expired (err : string).

(** The answers needed by UpdateContractMerkleRoot: errors of the steps 1746-1788 in order ([None]: no error), and
    how waiting for the transaction ends. *)
Record submit_answers := SubmitAnswers {
  sa_nonce : option string; sa_chain : option string; sa_auth : option string; sa_instance : option string;
  sa_send : option string; sa_mined : mined }.

(** UpdateContractMerkleRoot, onchain.go:1719-1829: was a transaction sent (with which slot and root), and the
    error returned. ReceiptStatusSuccessful is 1. *)
Definition update_root (A : submit_answers) (slot : N) (root : string) : option (N * string) * option string :=
  let root := if has_prefix root "0x" then sdrop 2 root else root in
  let bytes := hex2bytes root in
  if negb (String.length bytes =? 32)%nat then (None, Some "merkle root must be 32 bytes") else
  if negb (String.eqb (hex_encode bytes) root) then (None, Some "merkle trees dont match") else
  match sa_nonce A with Some e => (None, Some ("could not get pending nonce: " +:+ e)) | None =>
  match sa_chain A with Some e => (None, Some ("could not get chaind: " +:+ e)) | None =>
  match sa_auth A with Some e => (None, Some ("could not create NewKeyedTransactorWithChainID: " +:+ e)) | None =>
  match sa_instance A with Some e => (None, wrap (Some e) "could not create contract instance") | None =>
  match sa_send A with Some e => (None, wrap (Some e) "could not create tx to call SubmitReport") | None =>
    let sent := Some (slot, bytes) in
    match sa_mined A with
    | Expired e => (sent, wrap (Some e) "timeout expired waiting for tx to be validated")
    | Mined status late =>
        if late then (sent, wrap None "timeout expired waiting for tx to be validated")
        else if negb (status =? 1)%N then (sent, wrap None "tx failed err")
        else (sent, None)
    end
  end end end end end.
