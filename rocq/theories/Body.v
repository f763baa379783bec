(** The texts of the answers: the JSON that respondOK and respondError write with a json.Encoder (api/api.go:104-124), for
    the response types of api/types.go. *)
From Verif Require Export Http Sync.

(** What the texts print beside the data of the bodies in Api.v. *)
Record beside := Beside {
  bx_words : Z → string;      (* durafmt.Parse of so many nanoseconds, in words: utils/utils.go:91 *)
  bx_stamp : string → string; (* the time of the registration at a relay, api.go:1045 *)
  bx_balance : N → N;         (* the balance of a beacon validator, api.go:543 *)
  bx_state : bstate → string  (* v1.ValidatorState.String of go-eth2-client, api.go:545 *) }.

(** The product of two int64: the low 64 bits, as a signed number. utils/utils.go:90. *)
Definition int64_mul (x y : Z) : Z := int64_of_u64 (Z.to_N (x * y mod Z.of_N two64)).
(** SlotsToTime after the seconds are computed: time.Duration of them, an int64, times time.Second, 10^9 nanoseconds.
    utils/utils.go:89-94. *)
Definition duration (seconds : N) : Z := int64_mul (int64_of_u64 seconds) 1000000000.

(** big.Int.String, e.g. api.go:394. *)
Definition big_text (z : Z) : json := JStr (print_Z z).
(** The same of a pointer that may be nil (Reward), api.go:821. *)
Definition ptr_text (z : option Z) : json := match z with Some z => big_text z | None => JStr "<nil>" end.
(** fmt.Sprintf("%d") and strconv.FormatUint of an uint64, api.go:405, 500, 543. *)
Definition u64_text (n : N) : json := JStr (print_N n).
(** A slice declared with var: nil, and so null, as long as nothing is appended. api.go:616-617, 1014-1016. *)
Definition enc_slice {A} (enc : A → json) (l : list A) : json := match l with [] => JNull | _ => enc_list enc l end.

(** httpErrorResp, api/types.go:8-11; api.go:107. *)
Definition error_json (code : N) (message : string) : json := JObj [("code", enc_u64 code); ("message", JStr message)].
(** httpOkStatus, api/types.go:13-33; api.go:483-503. Of two times only the words are filled in. *)
Definition status_json (X : beside) (b : status_body) : json := JObj
  [("is_consensus_in_sync", JBool (sy_consensus b)); ("is_execution_in_sync", JBool (sy_execution b));
   ("is_oracle_in_sync", JBool (sy_oracle b)); ("latest_processed_slot", enc_u64 (sy_latest b));
   ("latest_processed_block", enc_u64 (sy_latest_block b)); ("latest_finalized_epoch", enc_u64 (sy_epoch b));
   ("latest_finalized_slot", enc_u64 (sy_finalized b)); ("oracle_sync_distance_slots", enc_u64 (sy_distance b));
   ("next_checkpoint_slot", enc_u64 (sy_next b)); ("next_checkpoint_time", JStr "");
   ("next_checkpoint_remaining", JStr (bx_words X (duration (sy_remaining b)))); ("next_checkpoint_remaining_unix", enc_u64 (sy_remaining b));
   ("previous_checkpoint_slot", enc_u64 (sy_previous b)); ("previous_checkpoint_time", JStr "");
   ("previous_checkpoint_age", JStr (bx_words X (duration (sy_age b)))); ("previous_checkpoint_age_unix", enc_u64 (sy_age b));
   ("consensus_chainid", u64_text (sy_cons_chain b)); ("execution_chainid", u64_text (sy_exec_chain b));
   ("depositcontract", JStr (sy_deposit b))].
(** httpRelay, api/types.go:42-46; api.go:1042-1046. *)
Definition relay_json (X : beside) (r : string * string) : json := JObj
  [("relay_address", JStr r.1); ("fee_recipient", JStr r.2); ("timestamp", JStr (bx_stamp X r.1))].
(** A relay without a registration, api.go:1054-1056. *)
Definition unknown_json (name : string) : json := JObj
  [("relay_address", JStr name); ("fee_recipient", JStr ""); ("timestamp", JStr "")].
(** httpOkRelayersState, api/types.go:35-40; api.go:1067-1072. *)
Definition relays_json (X : beside) (b : relay_body) : json := JObj
  [("correct_fee_recipients", JBool (rl_ok b)); ("correct_fee_relayers", enc_slice (relay_json X) (rl_correct b));
   ("wrong_fee_relayers", enc_slice (relay_json X) (rl_wrong b)); ("unregistered_relayers", enc_slice unknown_json (rl_unknown b))].
(** httpOkMemoryStatistics, api/types.go:63-84; api.go:390-412. *)
Definition stats_json (b : stats) : json := JObj
  [("total_subscribed_validators", enc_u64 (ss_subscribed b)); ("total_active_validators", enc_u64 (ss_active b));
   ("total_yellowcard_validators", enc_u64 (ss_yellow b)); ("total_redcard_validators", enc_u64 (ss_red b));
   ("total_banned_validators", enc_u64 (ss_banned b)); ("total_notsubscribed_validators", enc_u64 (ss_unsubscribed b));
   ("latest_checkpoint_slot", enc_u64 (ss_latest_checkpoint b)); ("next_checkpoint_slot", enc_u64 (ss_next_checkpoint b));
   ("total_accumulated_rewards_wei", big_text (ss_accumulated b)); ("total_pending_rewards_wei", big_text (ss_pending b));
   ("total_rewards_sent_wei", big_text (ss_sent b)); ("total_rewards_sent_30days_wei", big_text (ss_sent30 b));
   ("rewards_per_validator_per_30days_wei", big_text (ss_per_validator b)); ("total_donations_wei", big_text (ss_donations b));
   ("avg_block_reward_wei", big_text (ss_avg_block b)); ("total_proposed_blocks", enc_u64 (ss_proposed b));
   ("total_missed_blocks", enc_u64 (ss_missed b)); ("total_wrongfee_blocks", enc_u64 (ss_wrong b));
   ("total_effective_balance_gwei", u64_text (ss_balance b)); ("avg_effective_balance_gwei", u64_text (ss_avg_balance b))].
(** httpOkProofs, api/types.go:86-97; api.go:992-1004. *)
Definition proof_json (b : proof_body) : json := JObj
  [("leaf_withdrawal_address", JStr (pf_addr b)); ("leaf_accumulated_balance", big_text (pf_balance b));
   ("merkleroot", JStr (pf_root b)); ("checkpoint_slot", enc_u64 (pf_slot b)); ("merkle_proofs", enc_list JStr (pf_proof b));
   ("registered_validators", enc_list enc_u64 (pf_validators b)); ("total_accumulated_rewards_wei", big_text (pf_balance b));
   ("already_claimed_rewards_wei", big_text (pf_claimed b)); ("claimable_rewards_wei", big_text (pf_claimable b));
   ("pending_rewards_wei", big_text (pf_pending b))].
(** httpOkConfig, api/types.go:99-108; api.go:513-522. *)
Definition config_json (c : config) : json := JObj
  [("network", JStr (c_network c)); ("pool_address", JStr (c_pool c)); ("deployed_slot", enc_u64 (c_dep_slot c));
   ("checkpoint_size", enc_u64 (c_cp_size c)); ("pool_fees_percent", enc_big (c_feepct c));
   ("pool_fees_address", JStr (c_fees_addr c)); ("dry_run", JBool (c_dry_run c)); ("collateral_in_wei", big_text (c_coll c))].
(** httpOkMemoryFeesInfo, api/types.go:110-114; api.go:802-808. *)
Definition fees_json (percent : Z) (addr : string) (fees : Z) : json := JObj
  [("pool_fee_percent", enc_big percent); ("pool_fee_address", JStr addr); ("pool_accumulated_fees", big_text fees)].
(** httpOkDonation, api/types.go:116-121; api.go:906-917. *)
Definition donation_json (mask : string → nat → bool) (e : ev_ether) : json := JObj
  [("amount_wei", big_text (er_amount e)); ("block_number", enc_u64 (l_block (er_log e)));
   ("tx_hash", JStr (hexutil_encode (l_tx (er_log e)))); ("sender", JStr (addr_string mask (er_sender e)))].
(** httpOkBlock, api/types.go:123-132; api.go:815-824. *)
Definition block_json (b : sblock) : json := JObj
  [("slot", enc_u64 (sb_slot b)); ("block", enc_u64 (sb_block b)); ("validator_index", enc_u64 (sb_index b));
   ("validator_key", JStr (sb_key b)); ("block_type", JStr (block_type_name (sb_type b))); ("reward_wei", ptr_text (sb_reward b));
   ("reward_type", JStr (reward_type_name (sb_reward_type b))); ("withdrawal_address", JStr (sb_withdrawal b))].
(** httpOkValidatorInfo, api/types.go:134-146; api.go:541-553. *)
Definition view_json (X : beside) (x : view) : json := JObj
  [("status", JStr (status_name (v_status (vw_info x)))); ("beacon_status", JStr (bx_state X (b_status (vw_beacon x))));
   ("beacon_balance_gwei", u64_text (bx_balance X (v_index (vw_info x))));
   ("beacon_effective_balance_gwei", u64_text (b_effbal (vw_beacon x)));
   ("accumulated_rewards_wei", big_text (v_acc (vw_info x))); ("pending_rewards_wei", big_text (v_pend (vw_info x)));
   ("collateral_wei", big_text (v_coll (vw_info x))); ("withdrawal_address", JStr (v_addr (vw_info x)));
   ("validator_index", enc_u64 (v_index (vw_info x))); ("validator_key", JStr (v_key (vw_info x)));
   ("subscription_type", JStr (sub_type_name (v_sub (vw_info x))))].

(** The value given to the encoder for each body: lines as noted above; handleRoot 264-266 gives a text,
    handleMemoryValidatorInfo 586 the oracle's own record, handleState 1084 the oracle's state. *)
Definition body_json (X : beside) (mask : string → nat → bool) (b : body) : json :=
  match b with
  | BText s => JStr s
  | BStatus b => status_json X b
  | BConfig c => config_json c
  | BRelays b => relays_json X b
  | BState s => enc_state s
  | BViews l => enc_list (view_json X) l
  | BInfo v => enc_vinfo v
  | BFound found missing => JObj [("found_validators", enc_slice (view_json X) found); ("not_found_validators", enc_slice enc_u64 missing)]
  | BFees p a z => fees_json p a z
  | BStats b => stats_json b
  | BBlocks l => enc_list block_json l
  | BDonations l => enc_list (donation_json mask) l
  | BProof b => proof_json b
  end.
(** respondError and respondOK, api.go:104-124: the text ends with a line break. *)
Definition response_text (X : beside) (mask : string → nat → bool) (r : reply body) : string :=
  compact (match r with Answer b => body_json X mask b | Refuse c m => error_json c m end) +:+ String (ascii_of_N 10) EmptyString.
