(** Interpretation of one block. Models [oracle/block.go] and oracle.go:1850-1871. *)
From Verif Require Export Handlers.

(** Chain ids, onchain.go:42-45. *)
Definition MainnetChainId : N := 1%N.
(** onchain.go:42-45. *)
Definition HoleskyChainId : N := 17000%N.
(** onchain.go:42-45. *)
Definition HoodiChainId : N := 560048%N.

(** WhitelistedBuilders, block.go:23-29. [None]: chain not in the map. *)
Definition whitelisted_builders (chain : N) : option (list string) :=
  if (chain =? MainnetChainId)%N then Some ["0xae0A3D884E746599BD6C893a674E556C36a47f1e"]
  else if (chain =? HoleskyChainId)%N then Some []
  else if (chain =? HoodiChainId)%N then Some []
  else None.

(** ExceptionSlotMainnet1 and its hard-coded reward and recipient, block.go:33, 354-355. *)
Definition exception_slot : N := 10400574%N.
(** block.go:354. *)
Definition exception_reward : Z := 177043568463114308%Z.
(** block.go:355. *)
Definition exception_recipient : string := "0xAdFb8D27671F14f297eE94135e266aAFf8752e35".

(** ** Construction of a full block *)

(** NewFullBlock, block.go:36-80. The nil checks on the duty are not modelled (a duty value is always given). *)
Definition new_full_block (slot idx : N) (pubkey : string) (v : option bval) (chain : N) : res fullblock :=
  match v with
  | None => Die (Fatal "validator can't be nil")
  | Some v =>
      if negb (b_index v =? idx)%N then Die (Fatal "Validator index mismatch between consensus duty and validator")
      else Ok (FullBlock slot idx pubkey v None None None no_events [] [] chain)
  end.

(** A Go accessor on ConsensusBlock panics when the block is nil. block.go:650-831. *)
Definition need_cblock (fb : fullblock) : res cblock :=
  match fb_cblock fb with Some c => Ok c | None => Die (Panic "nil consensus block") end.

(** The execution payload getters (GetFeeRecipient 650-669, GetBlockTransactions 672-691, GetBlockNumber
    694-713, GetGasUsed 773-792) all dispatch in the same way on the fork. *)
Definition get_payload (fb : fullblock) : res payload :=
  let! c := need_cblock fb in
  match cb_version c with
  | VAltair => Die (Fatal "Altair block has no execution payload")
  | VEmpty => Die (Fatal "Block was empty")
  | _ => Ok (cb_payload c)
  end.

(** GetSlot, block.go:721-744 (Altair included). *)
Definition get_slot (fb : fullblock) : res N :=
  let! c := need_cblock fb in
  match cb_version c with VEmpty => Die (Fatal "Block was empty, cant get slot") | _ => Ok (cb_slot c) end.

(** GetProposerIndex, block.go:747-770. *)
Definition get_proposer (fb : fullblock) : res N :=
  let! c := need_cblock fb in
  match cb_version c with VEmpty => Die (Fatal "Block was empty, cant get proposer index") | _ => Ok (cb_proposer c) end.

(** GetFeeRecipient, block.go:650-669. *)
Definition get_fee_recipient (E : env) (fb : fullblock) : res string :=
  let! p := get_payload fb in Ok (addr_string (e_mask E) (p_fee_recipient p)).

(** GetBlockTransactions, block.go:672-691. *)
Definition get_txs (fb : fullblock) : res (list (option tx)) :=
  let! p := get_payload fb in Ok (p_txs p).

(** GetBlockNumber, block.go:694-713. *)
Definition get_number (fb : fullblock) : res N :=
  let! p := get_payload fb in Ok (p_number p).

(** [n] as [k] big-endian bytes (uint256.Int.Bytes32). Listed from the low end; block.go:808, 816, 822. *)
Fixpoint le_bytes (k : nat) (n : N) : list N :=
  match k with O => [] | S k => (n mod 256)%N :: le_bytes k (n / 256)%N end.

(** big.Int.SetBytes: big-endian bytes to a number. block.go:487. *)
Definition set_bytes (l : list N) : Z := fold_left (λ a b, (a * 256 + Z.of_N b)%Z) l 0%Z.

(** GetBaseFeePerGas, block.go:795-831: 32 bytes, little endian. *)
Definition get_base_fee (fb : fullblock) : res (list N) :=
  let! c := need_cblock fb in
  match cb_version c with
  | VAltair => Die (Fatal "Altair block has no base fee per gas")
  | VEmpty => Die (Fatal "Block was empty, cant get base fee per gas")
  | VBellatrix | VCapella => Ok (p_base_le (cb_payload c))
  | VDeneb | VElectra | VFulu =>
      (* Bytes32 is big endian; the loop reverses it *)
      Ok (rev (rev (le_bytes 32 (p_base_u256 (cb_payload c)))))
  end.

(** SetConsensusBlock, block.go:83-123. *)
Definition set_consensus_block (c : cblock) (fb : fullblock) : res fullblock :=
  if negb (fb_duty_slot fb =? cb_slot c)%N then Die (Fatal "Slot mismatch between consensus duty and consensus block") else
  match cb_version c with
  | VEmpty => Die (Fatal "Block was empty, cant get proposer index")
  | _ =>
      if negb (fb_duty_index fb =? cb_proposer c)%N
      then Die (Fatal "Proposer index mismatch between consensus duty and consensus block")
      else Ok (FullBlock (fb_duty_slot fb) (fb_duty_index fb) (fb_duty_pubkey fb) (fb_validator fb) (Some c)
                 (fb_header fb) (fb_receipts fb) (fb_events fb) (fb_subs fb) (fb_unsubs fb) (fb_chain fb))
  end.

(** SetHeaderAndReceipts, block.go:128-157. *)
Definition set_header_and_receipts (h : header) (r : list receipt) (fb : fullblock) : res fullblock :=
  let! n := get_number fb in
  if negb (n =? h_number h)%N then Die (Fatal "Block number mismatch with header") else
  if negb (match r with [] => true | x :: _ => (n =? rc_block x)%N end)
  then Die (Fatal "Block number mismatch with receipts")
  else Ok (FullBlock (fb_duty_slot fb) (fb_duty_index fb) (fb_duty_pubkey fb) (fb_validator fb) (fb_cblock fb)
             (Some h) (Some r) (fb_events fb) (fb_subs fb) (fb_unsubs fb) (fb_chain fb)).

(** All logs whose block number SetEvents compares with the block, block.go:168-285. Ban and unban events
    are not checked there. *)
Definition checked_logs (ev : events) : list rawlog :=
  (er_log <$> ev_ether_received ev) ++ (sub_log <$> ev_subscribe ev) ++ (uns_log <$> ev_unsubscribe ev)
  ++ (snd <$> ev_pool_fee ev) ++ (snd <$> ev_fee_recipient ev) ++ (snd <$> ev_checkpoint_size ev)
  ++ (snd <$> ev_collateral ev) ++ ev_others ev.

(** The artificial event of the exception slot, block.go:294-308: zero sender, address and tx hash. *)
Definition zero_bytes (k : nat) : string := string_of_list_ascii (repeat zero k).
(** block.go:294-308. *)
Definition exception_event : ev_ether :=
  EvEther (zero_bytes 20) exception_reward (RawLog (zero_bytes 20) [] "" 0 (zero_bytes 32) 0 (zero_bytes 32) 0 false).

(** SetEvents, block.go:161-310. With no events at all GetBlockNumber is never called; the slot is. *)
Definition set_block_events (ev : events) (fb : fullblock) : res fullblock :=
  let with_ev e := FullBlock (fb_duty_slot fb) (fb_duty_index fb) (fb_duty_pubkey fb) (fb_validator fb)
                     (fb_cblock fb) (fb_header fb) (fb_receipts fb) e (fb_subs fb) (fb_unsubs fb) (fb_chain fb) in
  let! ok := (match checked_logs ev with
              | [] => Ok true
              | l => let! n := get_number fb in Ok (forallb (λ x, (n =? l_block x)%N) l)
              end) in
  if negb ok then Die (Fatal "Block number mismatch in events") else
  if (fb_chain fb =? MainnetChainId)%N then
    let! s := get_slot fb in
    if (s =? exception_slot)%N then
      Ok (with_ev (Events (ev_ether_received ev ++ [exception_event]) (ev_subscribe ev) (ev_unsubscribe ev)
            (ev_pool_fee ev) (ev_fee_recipient ev) (ev_checkpoint_size ev) (ev_collateral ev)
            (ev_bans ev) (ev_unbans ev) (ev_others ev)))
    else Ok (with_ev ev)
  else Ok (with_ev ev).

(** ** Rewards of a block *)

(** MevRewardInWei, block.go:314-398: (reward, is MEV, recipient). *)
(* [head (rev txs)] is txs[len(txs)-1], block.go:324 *)
Definition mev_reward (E : env) (fb : fullblock) : res (Z * bool * string) :=
  let! txs := get_txs fb in
  match head (rev txs) with
  | None => Ok (0%Z, false, "")
  | Some None => Die (Fatal "could not decode tx")
  | Some (Some t) =>
      match tx_to t with
      | None => Ok (0%Z, false, "")
      | Some to =>
          match tx_sender t with
          | None => Die (Fatal "could not get tx sender")
          | Some sender =>
              match whitelisted_builders (fb_chain fb) with
              | None => Die (Fatal "Chain not found in whitelisted builders")
              | Some wl =>
                  let! exc := (if (fb_chain fb =? MainnetChainId)%N
                               then let! s := get_slot fb in Ok (s =? exception_slot)%N
                               else Ok false) in
                  if exc then Ok (exception_reward, true, exception_recipient) else
                  let! fr := get_fee_recipient E fb in
                  let snd := addr_string (e_mask E) sender in
                  let! e1 := equals fr snd in
                  let! e2 := (if e1 then Ok true else is_in snd wl) in
                  if e2 then
                    match List.find (λ e, (er_amount e =? tx_value t)%Z) (ev_ether_received (fb_events fb)) with
                    | Some e => Ok (tx_value t, true, to_lower (addr_string (e_mask E) (l_addr (er_log e))))
                    | None => Ok (tx_value t, true, to_lower (addr_string (e_mask E) to))
                    end
                  else Ok (0%Z, false, "")
              end
          end
      end
  end.

(** Fee paid by one transaction, block.go:500-516. [None]: unknown transaction type. *)
Definition tx_fee (base : Z) (t : tx) (gas : N) : option Z :=
  let gas_used := int64_of_u64 gas in
  match tx_type t with
  | 0%N | 1%N => Some (tx_gas_price t * gas_used)%Z
  | 2%N | 3%N | 4%N => Some (sum_and_saturate (tx_tip_cap t) base (tx_fee_cap t) * gas_used)%Z
  | _ => None
  end.

(** Result of GetProposerTip: a value, the pair (nil, nil) of a hash mismatch -- errors.Wrap of a nil
    error is nil, block.go:496-498 --, or an error. *)
Inductive tip := TipOk (z : Z) | TipNil | TipErr (e : string).

(** The loop over transactions, block.go:491-517. *)
Fixpoint tips_loop (base : Z) (txs : list (option tx)) (rs : list receipt) (acc : Z) : tip :=
  match txs, rs with
  | [], _ => TipOk acc
  | _ :: _, [] => TipErr "index out of range" (* excluded by the length check *)
  | None :: _, _ => TipErr "could not decode tx"
  | Some t :: txs, r :: rs =>
      if negb (String.eqb (tx_hash t) (rc_tx r)) then TipNil
      else match tx_fee base t (rc_gas r) with
           | None => TipErr "unknown tx type"
           | Some f => tips_loop base txs rs (acc + f)%Z
           end
  end.

(** GetProposerTip, block.go:465-522. *)
Definition proposer_tip (fb : fullblock) : res tip :=
  match fb_receipts fb, fb_header fb with
  | None, _ => Ok (TipErr "receipts of full block are nil, cant calculate tip")
  | _, None => Ok (TipErr "header of full block are nil, cant calculate tip")
  | Some rs, Some h =>
      let! txs := get_txs fb in
      if negb (length txs =? length rs)%nat then Ok (TipErr "txs and receipts not the same length") else
      let! le := get_base_fee fb in
      let base_fee := set_bytes (rev le) in
      match tips_loop (h_base_fee h) txs rs 0%Z with
      | TipOk tips =>
          let! p := get_payload fb in
          Ok (TipOk (tips - int64_of_u64 (p_gas_used p) * base_fee)%Z)
      | TipNil => Ok TipNil
      | TipErr e => Ok (TipErr e)
      end
  end.

(** GetSentRewardAndType, block.go:403-448. A nil reward is [None]. *)
Definition sent_reward (E : env) (pool : string) (subscriber : bool) (fb : fullblock) : res (option Z * bool * reward_type) :=
  let! '(r, is_mev, rcp) := mev_reward E fb in
  if is_mev then
    let! e := equals rcp pool in Ok (Some r, e, MevBlock)
  else
    let! fr := get_fee_recipient E fb in
    let! e := equals fr pool in
    if e || subscriber then
      let! t := proposer_tip fb in
      match t with
      | TipErr _ => Die (Fatal "could not get proposer tip")
      | TipOk z => Ok (Some z, e, VanilaBlock)
      | TipNil => Ok (None, e, VanilaBlock)
      end
    else Ok (Some 0%Z, false, UnknownRewardType).

(** isAddressRewarded, block.go:450-460. *)
Definition is_address_rewarded (E : env) (addr : string) (fb : fullblock) : res bool :=
  let! fr := get_fee_recipient E fb in
  let! e := equals fr addr in
  if e then Ok true else
  let! '(_, is_mev, rcp) := mev_reward E fb in
  if is_mev then equals rcp addr else Ok false.

(** GetDonations, block.go:528-594. *)
Definition get_donations (E : env) (pool : string) (fb : fullblock) : res (list ev_ether) :=
  match fb_cblock fb with
  | None => Ok []
  | Some _ =>
      let! '(r, is_mev, rcp) := mev_reward E fb in
      let! mine := (if is_mev then equals rcp pool else Ok false) in
      let evs := ev_ether_received (fb_events fb) in
      if negb mine then Ok evs
      else if existsb (λ e, (er_amount e =? r)%Z) evs
      then Ok (filter (λ e, er_amount e ≠ r) evs)
      else Die (Fatal "An mev reward was expected but could not find it")
  end.

(** GetWithdrawalAndType, oracle.go:1850-1871. Unknown prefixes give an empty address and the zero value
    of the type, which is BlsWithdrawal. *)
Definition withdrawal_and_type (v : bval) : res (string * withdrawal_type) :=
  let cred := hex_encode (b_creds v) in
  if negb (String.length cred =? 64)%nat then Die (Fatal "withdrawal credentials are not a valid length")
  else if is_bls_type cred then Ok ("0x" +:+ sdrop 2 cred, BlsWithdrawal)
  else if is_eth1_type cred then Ok ("0x" +:+ sdrop 24 cred, Eth1Withdrawal)
  else if is_electra_type cred then Ok ("0x" +:+ sdrop 24 cred, ElectraWithdrawal)
  else Ok ("", BlsWithdrawal).

(** phase0.BLSPubKey.String(), used at block.go:606: 0x-prefixed hex. *)
Definition pubkey_string (k : string) : string := hexutil_encode k.

(** SummarizedBlock, block.go:597-647. *)
Definition summarize (E : env) (s : ost) (pool : string) (fb : fullblock) : res sblock :=
  let! '(waddr, wtype) := withdrawal_and_type (fb_validator fb) in
  let key := pubkey_string (fb_duty_pubkey fb) in
  match fb_cblock fb with
  | None => Ok (SBlock (fb_duty_slot fb) 0 (fb_duty_index fb) key MissedProposal (Some 0%Z) UnknownRewardType waddr)
  | Some _ =>
      let! prop := get_proposer fb in
      let! '(reward, ok, rtype) := sent_reward E pool (is_subscribed s prop) fb in
      let! n := get_number fb in
      let bt := if ok then match wtype with BlsWithdrawal => OkPoolProposalBlsKeys | _ => OkPoolProposal end
                else WrongFeeRecipient in
      Ok (SBlock (fb_duty_slot fb) n (fb_duty_index fb) key bt reward rtype waddr)
  end.
