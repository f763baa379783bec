(** Vocabulary of the theorems about the texts of the answers: a client that reads them. *)
From Verif Require Export ApiSpec Body.

(** ** Reading values *)

(** The number written in decimal, with a sign if it is negative. *)
Definition whole (t : string) : option Z := Z.of_int <$> DecimalString.NilZero.int_of_string t.
(** A text; a truth value; a JSON number; an amount, that is a text with a number; one that may be missing. *)
Definition as_text (j : json) : option string := match j with JStr t => Some t | _ => None end.
Definition as_flag (j : json) : option bool := match j with JBool b => Some b | _ => None end.
Definition as_number (j : json) : option Z := match j with JNum t => whole t | _ => None end.
Definition as_amount (j : json) : option Z := match j with JStr t => whole t | _ => None end.
Definition as_reward (j : json) : option (option Z) :=
  match j with JStr t => if String.eqb t "<nil>" then Some None else Some <$> whole t | _ => None end.
(** A list; one that may be null. *)
Definition as_list {A} (f : json → option A) (j : json) : option (list A) := match j with JArr l => mapM f l | _ => None end.
Definition as_maybe_list {A} (f : json → option A) (j : json) : option (list A) :=
  match j with JNull => Some [] | _ => as_list f j end.
(** The value of the only entry of an object with this key. *)
Definition under {A} (k : string) (f : json → option A) (j : json) : option A :=
  match j with
  | JObj l => match filter (λ kv, kv.1 = k) l with [(_, v)] => f v | _ => None end
  | _ => None
  end.

(** ** What the texts are about *)

(** The words for kinds of blocks, rewards, statuses and subscriptions. *)
Definition block_word (t : block_type) : string :=
  match t with
  | MissedProposal => "missedproposal" | WrongFeeRecipient => "wrongfeerecipient" | OkPoolProposal => "okpoolproposal"
  | OkPoolProposalBlsKeys => "okpoolproposalblskeys" | UnknownBlockType => "unknownblocktype"
  end.
Definition reward_word (t : reward_type) : string :=
  match t with VanilaBlock => "vanila" | MevBlock => "mev" | UnknownRewardType => "unknownrewardtype" end.
Definition status_word (t : vstatus) : string :=
  match t with
  | Active => "active" | YellowCard => "yellowcard" | RedCard => "redcard" | NotSubscribed => "notsubscribed"
  | Banned => "banned" | Untracked => "untracked" | UnknownState => "unknownstate"
  end.
Definition sub_word (t : sub_type) : string := match t with Auto => "auto" | Manual => "manual" end.

(** A recorded block: slot, block, proposer, key, kind, reward, kind of the reward, withdrawal address. *)
Record block_row := BlockRow {
  br_slot : Z; br_block : Z; br_index : Z; br_key : string; br_kind : string; br_reward : option Z; br_paid : string; br_addr : string }.
(** A donation: amount, block, transaction, sender. *)
Record donation_row := DonationRow { dr_amount : Z; dr_block : Z; dr_tx : string; dr_sender : string }.
(** A validator: status; on the beacon chain status, balance, effective balance; accumulated, pending, collateral; address, index,
    key, kind of subscription. *)
Record val_row := ValRow {
  vr_status : string; vr_acc : Z; vr_pend : Z; vr_coll : Z; vr_addr : string; vr_index : Z; vr_key : string; vr_sub : string }.
Record beacon_row := BeaconRow { nr_status : string; nr_balance : Z; nr_effective : Z }.
(** A relay: name, recipient, time. *)
Record relay_row := RelayRow { rr_name : string; rr_fee : string; rr_time : string }.

(** What a client knows after reading an answer, or a refusal. *)
Inductive told :=
  | TText (s : string)
  | TStatus (synced : bool * bool * bool) (numbers : list Z) (words : list string) (chains : Z * Z) (deposit : string)
  | TConfig (network pool : string) (slot cp : Z) (percent : Z) (fees_addr : string) (dry : bool) (coll : Z)
  | TRelays (ok : bool) (correct wrong unknown : list relay_row)
  | TState (hash : string) (latest latest_block next fees : Z)
  | TVals (l : list (val_row * beacon_row))
  | TVal (v : val_row)
  | TFound (l : list (val_row * beacon_row)) (missing : list Z)
  | TFees (percent : Z) (addr : string) (fees : Z)
  | TStats (counts : list Z) (amounts : list Z)
  | TBlocks (l : list block_row)
  | TDonations (l : list donation_row)
  | TProof (addr : string) (balance : Z) (root : string) (slot : Z) (proof : list string) (validators : list Z)
      (total claimed claimable pending : Z)
  | TRefused (code : Z) (message : string).

(** ** The client *)

Definition read_block (j : json) : option block_row :=
  s ← under "slot" as_number j; b ← under "block" as_number j; i ← under "validator_index" as_number j;
  k ← under "validator_key" as_text j; t ← under "block_type" as_text j; r ← under "reward_wei" as_reward j;
  rt ← under "reward_type" as_text j; a ← under "withdrawal_address" as_text j; Some (BlockRow s b i k t r rt a).
Definition read_donation (j : json) : option donation_row :=
  z ← under "amount_wei" as_amount j; b ← under "block_number" as_number j; t ← under "tx_hash" as_text j;
  a ← under "sender" as_text j; Some (DonationRow z b t a).
(** The amounts of a validator are read as [amount]. *)
Definition read_val (amount : json → option Z) (j : json) : option val_row :=
  s ← under "status" as_text j; a ← under "accumulated_rewards_wei" amount j; p ← under "pending_rewards_wei" amount j;
  c ← under "collateral_wei" amount j; w ← under "withdrawal_address" as_text j; i ← under "validator_index" as_number j;
  k ← under "validator_key" as_text j; t ← under "subscription_type" as_text j; Some (ValRow s a p c w i k t).
Definition read_beacon (j : json) : option beacon_row :=
  s ← under "beacon_status" as_text j; b ← under "beacon_balance_gwei" as_amount j;
  e ← under "beacon_effective_balance_gwei" as_amount j; Some (BeaconRow s b e).
Definition read_view (j : json) : option (val_row * beacon_row) := v ← read_val as_amount j; b ← read_beacon j; Some (v, b).
Definition read_relay (j : json) : option relay_row :=
  n ← under "relay_address" as_text j; f ← under "fee_recipient" as_text j; t ← under "timestamp" as_text j; Some (RelayRow n f t).
Definition read_each {A} (f : json → option A) (ks : list string) (j : json) : option (list A) := mapM (λ k, under k f j) ks.

Definition read_body (r : request) (j : json) : option told :=
  match r with
  | GetRoot => TText <$> as_text j
  | GetStatus =>
      a ← under "is_consensus_in_sync" as_flag j; b ← under "is_execution_in_sync" as_flag j; c ← under "is_oracle_in_sync" as_flag j;
      ns ← read_each as_number ["latest_processed_slot"; "latest_processed_block"; "latest_finalized_epoch"; "latest_finalized_slot";
        "oracle_sync_distance_slots"; "next_checkpoint_slot"; "next_checkpoint_remaining_unix"; "previous_checkpoint_slot";
        "previous_checkpoint_age_unix"] j;
      ws ← read_each as_text ["next_checkpoint_remaining"; "previous_checkpoint_age"] j;
      x ← under "execution_chainid" as_amount j; y ← under "consensus_chainid" as_amount j; d ← under "depositcontract" as_text j;
      Some (TStatus (a, b, c) ns ws (x, y) d)
  | GetConfig =>
      n ← under "network" as_text j; p ← under "pool_address" as_text j; s ← under "deployed_slot" as_number j;
      c ← under "checkpoint_size" as_number j; f ← under "pool_fees_percent" as_number j; a ← under "pool_fees_address" as_text j;
      d ← under "dry_run" as_flag j; z ← under "collateral_in_wei" as_amount j; Some (TConfig n p s c f a d z)
  | GetRelays _ =>
      b ← under "correct_fee_recipients" as_flag j; x ← under "correct_fee_relayers" (as_maybe_list read_relay) j;
      y ← under "wrong_fee_relayers" (as_maybe_list read_relay) j; z ← under "unregistered_relayers" (as_maybe_list read_relay) j;
      Some (TRelays b x y z)
  | GetState =>
      h ← under "state_hash" as_text j; a ← under "latest_processed_slot" as_number j; b ← under "latest_processed_block" as_number j;
      c ← under "next_slot_to_process" as_number j; f ← under "pool_accumulated_fees" as_number j; Some (TState h a b c f)
  | GetValidators | GetByWithdrawal _ => TVals <$> as_list read_view j
  | GetValidator _ => TVal <$> read_val as_number j
  | GetByIndex _ =>
      l ← under "found_validators" (as_maybe_list read_view) j; m ← under "not_found_validators" (as_maybe_list as_number) j;
      Some (TFound l m)
  | GetFees =>
      p ← under "pool_fee_percent" as_number j; a ← under "pool_fee_address" as_text j; z ← under "pool_accumulated_fees" as_amount j;
      Some (TFees p a z)
  | GetStatistics =>
      ns ← read_each as_number ["total_subscribed_validators"; "total_active_validators"; "total_yellowcard_validators";
        "total_redcard_validators"; "total_banned_validators"; "total_notsubscribed_validators"; "latest_checkpoint_slot";
        "next_checkpoint_slot"; "total_proposed_blocks"; "total_missed_blocks"; "total_wrongfee_blocks"] j;
      zs ← read_each as_amount ["total_accumulated_rewards_wei"; "total_pending_rewards_wei"; "total_rewards_sent_wei";
        "total_rewards_sent_30days_wei"; "rewards_per_validator_per_30days_wei"; "total_donations_wei"; "avg_block_reward_wei";
        "total_effective_balance_gwei"; "avg_effective_balance_gwei"] j;
      Some (TStats ns zs)
  | GetAllBlocks | GetProposed | GetMissed | GetWrongFee => TBlocks <$> as_list read_block j
  | GetDonations => TDonations <$> as_list read_donation j
  | GetProof _ =>
      a ← under "leaf_withdrawal_address" as_text j; b ← under "leaf_accumulated_balance" as_amount j; r ← under "merkleroot" as_text j;
      s ← under "checkpoint_slot" as_number j; p ← under "merkle_proofs" (as_list as_text) j;
      v ← under "registered_validators" (as_list as_number) j; t ← under "total_accumulated_rewards_wei" as_amount j;
      c ← under "already_claimed_rewards_wei" as_amount j; d ← under "claimable_rewards_wei" as_amount j;
      e ← under "pending_rewards_wei" as_amount j; Some (TProof a b r s p v t c d e)
  end.
Definition read_error (j : json) : option told :=
  c ← under "code" as_number j; m ← under "message" as_text j; Some (TRefused c m).
(** A client that asked [r] and got this status and text. *)
Definition client (r : request) (status : N) (text : string) : option told :=
  j ← parse text; if (status =? 200)%N then read_body r j else read_error j.

(** ** What it should learn *)

Definition block_facts (b : sblock) : block_row :=
  BlockRow (Z.of_N (sb_slot b)) (Z.of_N (sb_block b)) (Z.of_N (sb_index b)) (sb_key b) (block_word (sb_type b)) (sb_reward b)
    (reward_word (sb_reward_type b)) (sb_withdrawal b).
Definition donation_facts (mask : string → nat → bool) (e : ev_ether) : donation_row :=
  DonationRow (er_amount e) (Z.of_N (l_block (er_log e))) ("0x" +:+ hex_encode (l_tx (er_log e))) (addr_string mask (er_sender e)).
Definition val_facts (v : vinfo) : val_row :=
  ValRow (status_word (v_status v)) (v_acc v) (v_pend v) (v_coll v) (v_addr v) (Z.of_N (v_index v)) (v_key v) (sub_word (v_sub v)).
Definition view_facts (X : beside) (x : view) : val_row * beacon_row :=
  (val_facts (vw_info x),
   BeaconRow (bx_state X (b_status (vw_beacon x))) (Z.of_N (bx_balance X (v_index (vw_info x)))) (Z.of_N (b_effbal (vw_beacon x)))).
Definition relay_facts (X : beside) (r : string * string) : relay_row := RelayRow r.1 r.2 (bx_stamp X r.1).
Definition facts (X : beside) (mask : string → nat → bool) (b : body) : told :=
  match b with
  | BText s => TText s
  | BStatus b => TStatus (sy_consensus b, sy_execution b, sy_oracle b)
      (Z.of_N <$> [sy_latest b; sy_latest_block b; sy_epoch b; sy_finalized b; sy_distance b; sy_next b; sy_remaining b; sy_previous b; sy_age b])
      [bx_words X (duration (sy_remaining b)); bx_words X (duration (sy_age b))] (Z.of_N (sy_exec_chain b), Z.of_N (sy_cons_chain b)) (sy_deposit b)
  | BConfig c => TConfig (c_network c) (c_pool c) (Z.of_N (c_dep_slot c)) (Z.of_N (c_cp_size c)) (c_feepct c) (c_fees_addr c) (c_dry_run c) (c_coll c)
  | BRelays b => TRelays (rl_ok b) (relay_facts X <$> rl_correct b) (relay_facts X <$> rl_wrong b) ((λ n, RelayRow n "" "") <$> rl_unknown b)
  | BState s => TState (st_hash s) (Z.of_N (st_latest s)) (Z.of_N (st_latest_block s)) (Z.of_N (st_next s)) (st_fees s)
  | BViews l => TVals (view_facts X <$> l)
  | BInfo v => TVal (val_facts v)
  | BFound l m => TFound (view_facts X <$> l) (Z.of_N <$> m)
  | BFees p a z => TFees p a z
  | BStats b => TStats
      (Z.of_N <$> [ss_subscribed b; ss_active b; ss_yellow b; ss_red b; ss_banned b; ss_unsubscribed b; ss_latest_checkpoint b;
        ss_next_checkpoint b; ss_proposed b; ss_missed b; ss_wrong b])
      [ss_accumulated b; ss_pending b; ss_sent b; ss_sent30 b; ss_per_validator b; ss_donations b; ss_avg_block b;
       Z.of_N (ss_balance b); Z.of_N (ss_avg_balance b)]
  | BBlocks l => TBlocks (block_facts <$> l)
  | BDonations l => TDonations (donation_facts mask <$> l)
  | BProof p => TProof (pf_addr p) (pf_balance p) (pf_root p) (Z.of_N (pf_slot p)) (pf_proof p) (Z.of_N <$> pf_validators p)
      (pf_balance p) (pf_claimed p) (pf_claimable p) (pf_pending p)
  end.

(** ** The shape of a text *)

(** All values in a JSON value, each with the key that it is under (none for the whole and for the elements of lists). *)
Fixpoint parts (k : string) (j : json) : list (string * json) :=
  (k, j) :: match j with
            | JArr l => foldr (λ x acc, parts "" x ++ acc) [] l
            | JObj l => foldr (λ kx acc, parts kx.1 kx.2 ++ acc) [] l
            | _ => []
            end.
(** The keys of amounts: those that end with wei (or gwei), and two more. *)
Definition amount_key (k : string) : bool :=
  String.eqb (substring (String.length k - 3) 3 k) "wei" || String.eqb k "leaf_accumulated_balance" || String.eqb k "pool_accumulated_fees".
(** A text with a number, or the word for a missing number. *)
Definition amount_text (j : json) : Prop := ∃ t, j = JStr t ∧ (is_Some (whole t) ∨ t = "<nil>").
(** A JSON number that a client with numbers of 53 bits rounds: one above 2^53 that is odd. *)
Definition rounded (j : json) : Prop := ∃ t z, j = JNum t ∧ whole t = Some z ∧ (2 ^ 53 < z)%Z ∧ Z.Odd z.

(** The character that UTF-8 bytes stand for, up to three bytes (RFC 3629, section 3). *)
Definition code_point (s : string) : option N :=
  match N_of_ascii <$> list_ascii_of_string s with
  | [a] => if (a <? 128)%N then Some a else None
  | [a; b] => if ((192 <=? a) && (a <? 224) && (128 <=? b) && (b <? 192))%N then Some (64 * (a - 192) + (b - 128))%N else None
  | [a; b; c] => if ((224 <=? a) && (a <? 240) && (128 <=? b) && (b <? 192) && (128 <=? c) && (c <? 192))%N
      then Some (4096 * (a - 224) + 64 * (b - 128) + (c - 128))%N else None
  | _ => None
  end.
(** A number below 2^16 in four hex digits, with small or big letters. *)
Definition hex4 (big : bool) (n : N) : string :=
  let d k := match String.get (N.to_nat (n / k mod 16)) (if big then "0123456789ABCDEF" else "0123456789abcdef") with Some c => c | None => "?"%char end in
  String (d 4096%N) (String (d 256%N) (String (d 16%N) (String (d 1%N) EmptyString))).

(** ** Durations *)

(** What JSON has after a backslash, besides u and four hex digits, and what it stands for. *)
Definition short_escapes : list (ascii * N) :=
  [(ascii_of_N 34, 34); (ascii_of_N 92, 92); ("/"%char, 47); ("b"%char, 8); ("f"%char, 12); ("n"%char, 10); ("r"%char, 13); ("t"%char, 9)]%N.
(** So many slots of twelve seconds, in nanoseconds. *)
Definition slots_long (n : Z) : Z := n * 12 * 10 ^ 9.
