(** Data types of the oracle. Models [oracle/types.go] and the parts of the go-eth2-client,
    go-ethereum and contract-binding types that the modelled code reads. *)
From Verif Require Export GoBase.

(** ** Enumerations, oracle/types.go:18-81 *)

(** RewardType, types.go:19-25. *)
Inductive reward_type := UnknownRewardType | VanilaBlock | MevBlock.
(** ValidatorStatus, types.go:28-38. *)
Inductive vstatus := UnknownState | Active | YellowCard | RedCard | NotSubscribed | Banned | Untracked.
(** Event, types.go:41-53. *)
Inductive vevent := UnknownEvent | ProposalOk | ProposalMissed | ProposalWrongFee
  | ManualSubscription | AutoSubscription | Unsubscribe | ManualBan | ManualUnban.
(** BlockType, types.go:56-64. *)
Inductive block_type := UnknownBlockType | MissedProposal | WrongFeeRecipient
  | OkPoolProposal | OkPoolProposalBlsKeys.
(** WithdrawalType, types.go:67-73. *)
Inductive withdrawal_type := BlsWithdrawal | Eth1Withdrawal | ElectraWithdrawal.
(** SubscriptionType, types.go:76-81. *)
Inductive sub_type := Manual | Auto.

(** v1.ValidatorState of go-eth2-client (all ten states). oracle.go:308, 969-985. *)
Inductive bstate := BUnknown | BPendingInitialized | BPendingQueued | BActiveOngoing | BActiveExiting
  | BActiveSlashed | BExitedUnslashed | BExitedSlashed | BWithdrawalPossible | BWithdrawalDone.

(** Equality of values, Go == (e.g. oracle.go:1092). *)
Global Instance reward_type_eq_dec : EqDecision reward_type.
Proof. solve_decision. Defined.
(** Equality of values, Go == (e.g. oracle.go:1092). *)
Global Instance vstatus_eq_dec : EqDecision vstatus.
Proof. solve_decision. Defined.
(** Equality of values, Go == (e.g. oracle.go:1092). *)
Global Instance vevent_eq_dec : EqDecision vevent.
Proof. solve_decision. Defined.
(** Equality of values, Go == (e.g. oracle.go:1092). *)
Global Instance block_type_eq_dec : EqDecision block_type.
Proof. solve_decision. Defined.
(** Equality of values, Go == (e.g. oracle.go:1092). *)
Global Instance withdrawal_type_eq_dec : EqDecision withdrawal_type.
Proof. solve_decision. Defined.
(** Equality of values, Go == (e.g. oracle.go:1092). *)
Global Instance sub_type_eq_dec : EqDecision sub_type.
Proof. solve_decision. Defined.
(** Equality of values, Go == (e.g. oracle.go:1092). *)
Global Instance bstate_eq_dec : EqDecision bstate.
Proof. solve_decision. Defined.

(** v1.ValidatorState.IsActive of go-eth2-client: ActiveOngoing, ActiveExiting or ActiveSlashed. oracle.go:308. *)
Definition bstate_is_active (b : bstate) : bool :=
  match b with BActiveOngoing | BActiveExiting | BActiveSlashed => true | _ => false end.

(** v1.Validator as read by the oracle: index, status, and of the inner phase0.Validator the public
    key, withdrawal credentials, effective balance (gwei) and activation epoch. Other fields are never read.
    oracle.go:295, 373, 1254; the API also prints the balance (api.go:545), which is left out. *)
Record bval := BVal {
  b_index : N; b_status : bstate; b_pubkey : string; b_creds : string;
  b_effbal : N; b_activation : N }.

(** types.Log (go-ethereum v1.15.7 core/types/log.go): emitting contract, topics, data, block number, transaction
    hash and index, block hash, log index, removed flag. Addresses and hashes are raw bytes. Topics and Data are
    never nil: the JSON decoding of a node's answer requires them. *)
Record rawlog := RawLog {
  l_addr : string; l_topics : list string; l_data : string; l_block : N; l_tx : string; l_txindex : N;
  l_blockhash : string; l_index : N; l_removed : bool }.

(** contract.ContractSubscribeValidator. contract/contract.go:3033-3038. *)
Record ev_sub := EvSub { sub_sender : string; sub_coll : Z; sub_id : N; sub_log : rawlog }.
(** contract.ContractUnsubscribeValidator. contract/contract.go:3437-3441. *)
Record ev_unsub := EvUnsub { uns_sender : string; uns_id : N; uns_log : rawlog }.
(** contract.ContractEtherReceived. contract/contract.go:1937-1941. *)
Record ev_ether := EvEther { er_sender : string; er_amount : Z; er_log : rawlog }.
(** contract.ContractBanValidator and ContractUnbanValidator. contract/contract.go:1667-1670, 3303-3306. *)
Record ev_ban := EvBan { ban_id : N; ban_log : rawlog }.

(** Events, types.go:101-121. The four configuration events are kept with their payload; the event kinds
    that only pass through SetEvents' block-number checks (ClaimRewards, SetRewardRecipient,
    InitSmoothingPool, SubmitReport, ReportConsolidated, UpdateQuorum, AddOracleMember,
    RemoveOracleMember, TransferGovernance, AcceptGovernance) are merged into [ev_others]. *)
Record events := Events {
  ev_ether_received : list ev_ether;
  ev_subscribe : list ev_sub;
  ev_unsubscribe : list ev_unsub;
  ev_pool_fee : list (Z * rawlog);              (* UpdatePoolFee.NewPoolFee *)
  ev_fee_recipient : list (string * rawlog);    (* UpdatePoolFeeRecipient.NewPoolFeeRecipient, 20 bytes *)
  ev_checkpoint_size : list (N * rawlog);       (* UpdateCheckpointSlotSize.NewCheckpointSlotSize *)
  ev_collateral : list (Z * rawlog);            (* UpdateSubscriptionCollateral.NewSubscriptionCollateral *)
  ev_bans : list ev_ban;
  ev_unbans : list ev_ban;
  ev_others : list rawlog }.

(** NewFullBlock's empty events, block.go:57-75. *)
Definition no_events : events := Events [] [] [] [] [] [] [] [] [] [].

(** A decoded transaction (types.Transaction of go-ethereum): recipient (None = contract creation),
    value, type, gas price, tip cap, fee cap, hash, and the sender recovered for the block's chain id
    (None = recovery error). block.go:366-393, 495-515, utils.go:30-48. *)
Record tx := Tx {
  tx_to : option string; tx_value : Z; tx_type : N; tx_gas_price : Z;
  tx_tip_cap : Z; tx_fee_cap : Z; tx_hash : string; tx_sender : option string }.

(** Execution payload of a beacon block as read by block.go. A raw transaction that does not decode
    is [None]. [p_base_le] is the little-endian [32]byte base fee of Bellatrix and Capella,
    [p_base_u256] the 256-bit integer of Deneb and later. *)
Record payload := Payload {
  p_fee_recipient : string; p_txs : list (option tx); p_number : N;
  p_gas_used : N; p_base_le : list N; p_base_u256 : N }.

(** spec.VersionedSignedBeaconBlock: which of the per-fork pointers is set. [VEmpty]: none of the ones
    inspected by block.go. Simplification: at most one pointer is non-nil, as the client guarantees. *)
Inductive cversion := VEmpty | VAltair | VBellatrix | VCapella | VDeneb | VElectra | VFulu.

(** The block: which fork, slot, proposer and payload, as read by block.go:650-831. *)
Record cblock := CBlock { cb_version : cversion; cb_slot : N; cb_proposer : N; cb_payload : payload }.

(** types.Header: number and base fee. block.go:128-155, 511. *)
Record header := Header { h_number : N; h_base_fee : Z }.
(** types.Receipt: block number, transaction hash, gas used. block.go:144-150, 502. *)
Record receipt := Receipt { rc_block : N; rc_tx : string; rc_gas : N }.

(** FullBlock, types.go:125-148. The validator is never nil (NewFullBlock, block.go:46-48, exits). *)
Record fullblock := FullBlock {
  fb_duty_slot : N; fb_duty_index : N; fb_duty_pubkey : string;
  fb_validator : bval;
  fb_cblock : option cblock;
  fb_header : option header;
  fb_receipts : option (list receipt);
  fb_events : events;
  fb_subs : list (option bval);
  fb_unsubs : list (option bval);
  fb_chain : N }.

(** SummarizedBlock, types.go:153-162. [sb_reward = None] is a nil *big.Int. *)
Record sblock := SBlock {
  sb_slot : N; sb_block : N; sb_index : N; sb_key : string; sb_type : block_type;
  sb_reward : option Z; sb_reward_type : reward_type; sb_withdrawal : string }.

(** ValidatorInfo, types.go:165-174. *)
Record vinfo := VInfo {
  v_status : vstatus; v_acc : Z; v_pend : Z; v_coll : Z;
  v_addr : string; v_index : N; v_key : string; v_sub : sub_type }.

(** RawLeaf, types.go:225-228. *)
Record rawleaf := RawLeaf { leaf_addr : string; leaf_bal : Z }.

(** OnchainState, types.go:177-184. *)
Record onchain_state := OnchainState {
  oc_slot : N; oc_txhash : string; oc_root : string;
  oc_vals : gmap N vinfo; oc_leafs : gmap string rawleaf; oc_proofs : gmap string (list string) }.

(** OracleState, types.go:186-223. *)
Record ost := OSt {
  st_hash : string;
  st_latest : N; st_latest_block : N; st_next : N;
  st_fees : Z;
  st_vals : gmap N vinfo;
  st_committed : gmap N onchain_state;
  st_subs : list ev_sub; st_unsubs : list ev_unsub; st_ether : list ev_ether; st_donations : list ev_ether;
  st_proposed : list sblock; st_missed : list sblock; st_wrong : list sblock;
  st_feepct : Z; st_pool : string; st_network : string; st_fees_addr : string;
  st_cp_size : N; st_dep_block : N; st_dep_slot : N; st_coll : Z }.

(** Config, types.go:83-98, restricted to the fields that the oracle logic reads. *)
Record config := Config {
  c_network : string; c_pool : string; c_dep_slot : N; c_dep_block : N; c_cp_size : N;
  c_feepct : Z; c_fees_addr : string; c_dry_run : bool; c_coll : Z }.

(** Oracle, oracle.go:34-40: shared configuration and state (the mutex is modelled in Locks.v, the two
    fetch functions in [env]). *)
Record oracle := Oracle { or_cfg : config; or_st : ost }.

(** ** The environment of one call: everything the Go code obtains from outside or from the runtime *)

(** The fetch functions are oracle.go:38-39; they are called at 283, 295, 344 and 1593. *)
Record env := Env {
  (* iteration order chosen by the Go runtime for a validators map *)
  e_iter : gmap N vinfo → list (N * vinfo);
  (* getSetOfValidators(indices, slot): the returned map in iteration order; None = error *)
  e_vals : list N → N → option (list (N * bval));
  (* getPendingConsolidations(slot): (source, target) pairs; None = error *)
  e_cons : N → option (list (N * N));
  (* EIP-55 letter case of an address *)
  e_mask : string → nat → bool }.

(** ** Functional updates *)

(** Assignment to ValidatorStatus, oracle.go:1894-2051. *)
Definition set_status (st : vstatus) (v : vinfo) : vinfo :=
  VInfo st (v_acc v) (v_pend v) (v_coll v) (v_addr v) (v_index v) (v_key v) (v_sub v).
(** Assignment to AccumulatedRewardsWei, oracle.go:1546, 1804. *)
Definition set_acc (z : Z) (v : vinfo) : vinfo :=
  VInfo (v_status v) z (v_pend v) (v_coll v) (v_addr v) (v_index v) (v_key v) (v_sub v).
(** Assignment to PendingRewardsWei, oracle.go:1547, 1790, 1833. *)
Definition set_pend (z : Z) (v : vinfo) : vinfo :=
  VInfo (v_status v) (v_acc v) z (v_coll v) (v_addr v) (v_index v) (v_key v) (v_sub v).
(** Assignment to SubscriptionType, oracle.go:1264, 1524, 1533. *)
Definition set_sub (t : sub_type) (v : vinfo) : vinfo :=
  VInfo (v_status v) (v_acc v) (v_pend v) (v_coll v) (v_addr v) (v_index v) (v_key v) t.

(** Assignment to StateHash, oracle.go:602, 990, 1003. *)
Definition set_hash (h : string) (s : ost) : ost :=
  OSt h (st_latest s) (st_latest_block s) (st_next s) (st_fees s) (st_vals s) (st_committed s)
    (st_subs s) (st_unsubs s) (st_ether s) (st_donations s) (st_proposed s) (st_missed s) (st_wrong s)
    (st_feepct s) (st_pool s) (st_network s) (st_fees_addr s) (st_cp_size s) (st_dep_block s) (st_dep_slot s) (st_coll s).
(** Assignment to the three slot and block numbers, oracle.go:251-255. *)
Definition set_slots (latest latest_block next : N) (s : ost) : ost :=
  OSt (st_hash s) latest latest_block next (st_fees s) (st_vals s) (st_committed s)
    (st_subs s) (st_unsubs s) (st_ether s) (st_donations s) (st_proposed s) (st_missed s) (st_wrong s)
    (st_feepct s) (st_pool s) (st_network s) (st_fees_addr s) (st_cp_size s) (st_dep_block s) (st_dep_slot s) (st_coll s).
(** Assignment to PoolAccumulatedFees, oracle.go:1717, 1751, 1818. *)
Definition set_fees (z : Z) (s : ost) : ost :=
  OSt (st_hash s) (st_latest s) (st_latest_block s) (st_next s) z (st_vals s) (st_committed s)
    (st_subs s) (st_unsubs s) (st_ether s) (st_donations s) (st_proposed s) (st_missed s) (st_wrong s)
    (st_feepct s) (st_pool s) (st_network s) (st_fees_addr s) (st_cp_size s) (st_dep_block s) (st_dep_slot s) (st_coll s).
(** A change of the map of validators, oracle.go:366, 1247, 1518. *)
Definition set_vals (m : gmap N vinfo) (s : ost) : ost :=
  OSt (st_hash s) (st_latest s) (st_latest_block s) (st_next s) (st_fees s) m (st_committed s)
    (st_subs s) (st_unsubs s) (st_ether s) (st_donations s) (st_proposed s) (st_missed s) (st_wrong s)
    (st_feepct s) (st_pool s) (st_network s) (st_fees_addr s) (st_cp_size s) (st_dep_block s) (st_dep_slot s) (st_coll s).
(** A change of CommitedStates, oracle.go:764. *)
Definition set_committed (m : gmap N onchain_state) (s : ost) : ost :=
  OSt (st_hash s) (st_latest s) (st_latest_block s) (st_next s) (st_fees s) (st_vals s) m
    (st_subs s) (st_unsubs s) (st_ether s) (st_donations s) (st_proposed s) (st_missed s) (st_wrong s)
    (st_feepct s) (st_pool s) (st_network s) (st_fees_addr s) (st_cp_size s) (st_dep_block s) (st_dep_slot s) (st_coll s).
(** The three lists of events, oracle.go:199-201. *)
Definition set_events (subs : list ev_sub) (unsubs : list ev_unsub) (eth : list ev_ether) (s : ost) : ost :=
  OSt (st_hash s) (st_latest s) (st_latest_block s) (st_next s) (st_fees s) (st_vals s) (st_committed s)
    subs unsubs eth (st_donations s) (st_proposed s) (st_missed s) (st_wrong s)
    (st_feepct s) (st_pool s) (st_network s) (st_fees_addr s) (st_cp_size s) (st_dep_block s) (st_dep_slot s) (st_coll s).
(** Donations, oracle.go:1063. *)
Definition set_donations (d : list ev_ether) (s : ost) : ost :=
  OSt (st_hash s) (st_latest s) (st_latest_block s) (st_next s) (st_fees s) (st_vals s) (st_committed s)
    (st_subs s) (st_unsubs s) (st_ether s) d (st_proposed s) (st_missed s) (st_wrong s)
    (st_feepct s) (st_pool s) (st_network s) (st_fees_addr s) (st_cp_size s) (st_dep_block s) (st_dep_slot s) (st_coll s).
(** The three lists of blocks, oracle.go:1079, 1105, 1493, 1500. *)
Definition set_blocks (p m w : list sblock) (s : ost) : ost :=
  OSt (st_hash s) (st_latest s) (st_latest_block s) (st_next s) (st_fees s) (st_vals s) (st_committed s)
    (st_subs s) (st_unsubs s) (st_ether s) (st_donations s) p m w
    (st_feepct s) (st_pool s) (st_network s) (st_fees_addr s) (st_cp_size s) (st_dep_block s) (st_dep_slot s) (st_coll s).
(** PoolFeesPercentOver10000 of the state, oracle.go:470. *)
Definition set_feepct (z : Z) (s : ost) : ost :=
  OSt (st_hash s) (st_latest s) (st_latest_block s) (st_next s) (st_fees s) (st_vals s) (st_committed s)
    (st_subs s) (st_unsubs s) (st_ether s) (st_donations s) (st_proposed s) (st_missed s) (st_wrong s)
    z (st_pool s) (st_network s) (st_fees_addr s) (st_cp_size s) (st_dep_block s) (st_dep_slot s) (st_coll s).

(** PoolFeesPercentOver10000 of the configuration, oracle.go:440, 469. *)
Definition cset_feepct (z : Z) (c : config) : config :=
  Config (c_network c) (c_pool c) (c_dep_slot c) (c_dep_block c) (c_cp_size c)
    z (c_fees_addr c) (c_dry_run c) (c_coll c).
