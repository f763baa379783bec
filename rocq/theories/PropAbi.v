(** Properties of what is read from the contract's logs and call data: C82, C83. *)
From Verif Require Import AbiProofs AbiSamples ApiProofs OnchainSamples MerkleSamples Keccak.

(** ** C82 *)

(** The nine event requests for a block give every event that the contract logged in it, with its arguments, in order,
    whatever else was logged. *)
Theorem C82_events H pool20 blocks logs nd n es : apart H → reads H logs nd → (∀ t, logs n t = Some (found pool20 (blocks n) t)) →
  tells H pool20 (blocks n) es → fetch_events nd n = Ok (all_events es).
Proof. exact (fetch_found H pool20 blocks logs nd n es). Qed.

(** So the fetched block of a slot has exactly the events of its execution block (the slot handled specially aside). *)
Theorem C82_fetched nd E pool all slot s ca fb ca' H pool20 blocks logs es p : apart H → reads H logs nd →
  (∀ n t, logs n t = Some (found pool20 (blocks n) t)) →
  fetch_full_block nd E pool all slot s ca = Ok (fb, ca') → payload_of fb p → tells H pool20 (blocks (p_number p)) es →
  ¬ (nd_chain nd = 1 ∧ slot = 10400574)%N → fb_events fb = all_events es.
Proof. exact (fetch_abi nd E pool all slot s ca fb ca' H pool20 blocks logs es p). Qed.

(** The requests of the API up to the head likewise give all subscriptions and unsubscriptions. *)
Theorem C82_till_head H pool20 ls es : apart H → tells H pool20 ls es →
  get_events H KSub as_sub (Some (found pool20 ls (H (signature KSub)))) = Ok (Some (subs es)) ∧
  get_events H KUnsub as_unsub (Some (found pool20 ls (H (signature KUnsub)))) = Ok (Some (unsubs es)).
Proof. intros Ha Ht. exact (conj (subs_found H pool20 ls es Ha Ht) (unsubs_found H pool20 ls es Ha Ht)). Qed.

(** Keccak-256 tells the kinds apart, and gives the identifiers stated in contract.go. *)
Theorem C82_keccak : apart keccak256 ∧ ∀ k, hex_encode (keccak256 (signature k)) = event_id k.
Proof. exact (conj keccak_apart event_ids). Qed.

(** A log can be read exactly if its only topic is that of the kind, and it has no data or data that begin with such values. *)
Theorem C82_readable H k l vs : unpack_log H k l = Some vs ↔ l_topics l = [H (signature k)] ∧
  (l_data l = "" ∧ vs = zero_value <$> params k ∨ l_data l ≠ "" ∧ holds_all (params k) vs (l_data l)).
Proof. exact (unpack_log_iff H k l vs). Qed.

(** But a log that cannot be read ends the list, and no error is given: whatever follows is lost ... *)
Theorem C82_cut {A} H k (conv : list aval → rawlog → option A) pre l post es :
  unpack_log H k l = None → deliver H k conv pre = Ok es → Forall (λ x, is_Some (unpack_log H k x)) pre →
  deliver H k conv (pre ++ l :: post) = Ok es.
Proof. exact (deliver_cut H k conv pre l post es). Qed.
(** ... well-formed events included. *)
Theorem C82_unreadable_refuted : ∃ pre e l, logged e KEther (l_data l) ∧ l_topics l = [toy (signature KEther)] ∧
  get_events toy KEther as_ether (Some [pre; l]) = Ok (Some []).
Proof. exact unreadable_hides. Qed.

(** A donation, a subscription and a new fee, among a log of another contract that resembles one and a claim. *)
Example C82_example : apart toy ∧ reads toy (λ _ t, Some (found pool20 some_logs t)) (logging some_block some_events) ∧
  tells toy pool20 some_logs some_events ∧
  (∃ r, fetch_full_block (logging some_block some_events) honest pool_str false 12000001
     (or_st (new_oracle (cfg_at Mainnet 12000001))) empty_cache = Ok r ∧
     ev_ether_received (fb_events r.1) = [EvEther donor 7 donation] ∧ ev_subscribe (fb_events r.1) = [EvSub (bytes 20 1) 1000 1 subscription] ∧
     ev_pool_fee (fb_events r.1) = [(500%Z, new_fee)]).
Proof.
  split; [exact toy_apart|]. split; [exact logging_reads|]. split; [exact some_tells|].
  eexists. split; [by vm_compute|]. split; [by vm_compute|]. split; by vm_compute.
Qed.
Example C82_cut_example : unpack_log toy KEther cut_log = None ∧ deliver toy KEther as_ether [donation] = Ok [EvEther donor 7 donation] ∧
  deliver toy KEther as_ether [donation; cut_log; donation; donation] = Ok [EvEther donor 7 donation].
Proof. split; [by vm_compute|]. split; by vm_compute. Qed.
Print Assumptions C82_events.
Print Assumptions C82_fetched.
Print Assumptions C82_till_head.
Print Assumptions C82_keccak.
Print Assumptions C82_readable.
Print Assumptions C82_cut.
Print Assumptions C82_unreadable_refuted.

(** ** C83 *)

(** The fee of the configuration is the one in the first readable call of initialize in the deployment block, made to
    the pool or found in the data of a creation. *)
Theorem C83_fee E sel pool20 A pool dry c time pre tx post data coll fee a size q : String.length sel = 4%nat →
  get_config E init_fee sel pool20 A pool dry = Ok c → ga_block A = Some (time, pre ++ tx :: post) → Forall (silent sel pool20) pre →
  carries sel pool20 data tx → init_call data coll fee a size q → is_int64 fee → c_feepct c = fee.
Proof. exact (config_carried E sel pool20 A pool dry c time pre tx post data coll fee a size q). Qed.

(** Whatever the data are, the fee is an int64, and the configuration meets the typing hypotheses of the persistence theorems. *)
Theorem C83_typed E sel pool20 A pool dry c : String.length sel = 4%nat →
  ascii_only pool = true → (∀ x, ga_cp_size A = Some x → is_u64 x) → get_config E init_fee sel pool20 A pool dry = Ok c → typed_config c.
Proof. exact (config_typed_abi E sel pool20 A pool dry c). Qed.

(** The selector, contract.go:953. *)
Example C83_selector : substring 0 4 (keccak256 "initialize(address,uint256,uint256,address,uint64,uint64)") = sel.
Proof. by vm_compute. Qed.
(** A fee of 900 in the data of a proxy's creation, after a selector with too little behind it, and after transactions to others. *)
Example C83_example : Forall (silent sel pool20) (take 2 deploying) ∧
  carries sel pool20 (init_data 900) (None, proxy_code +:+ sel +:+ init_data 900 +:+ "rest") ∧
  init_call (init_data 900) 1000 900 fees20 7200 2 ∧
  get_config honest init_fee sel pool20 (deployment deploying) pool_str true = Ok (Config Mainnet pool_str 12000001 12000001 7200 900 fees_str true 1000).
Proof.
  split; [exact deploying_silent|]. split; [exact deploying_carries|]. split; [exact init_data_call|]. by vm_compute.
Qed.
Print Assumptions C83_fee.
Print Assumptions C83_typed.
