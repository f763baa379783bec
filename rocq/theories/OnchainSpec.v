(** Vocabulary for the theorems about fetching from nodes and submitting to the contract. *)
From Verif Require Export Onchain PersistSpec.

(** ** Duties *)

(** The chain's proposers: [D slot] is the duty of that slot. *)
Definition duty_table (D : N → duty) : Prop := ∀ slot, d_slot (D slot) = slot.
(** The node answers a request for an epoch with the duties of its 32 slots in order, or not at all. *)
Definition tells_duties (D : N → duty) (nd : node) : Prop :=
  ∀ epoch l, nd_duties nd epoch = Some l → length l = 32%nat ∧ ∀ k, (k < 32)%nat → l !! k = Some (D (32 * epoch + N.of_nat k)%N).

(** A sequence of requests, each to whatever the node is at that time, sharing the one cache. *)
Inductive asks : cache → list (node * N) → list (option duty) → cache → Prop :=
| asks_none ca : asks ca [] [] ca
| asks_one ca nd slot l d ca1 ds ca2 : get_proposal_duty nd slot ca = Ok (d, ca1) → asks ca1 l ds ca2 →
    asks ca ((nd, slot) :: l) (d :: ds) ca2.

(** ** Blocks *)

(** Every log of the block that concerns money, subscriptions or parameters carries the number [n]. *)
Definition logs_at (n : N) (ev : events) : Prop :=
  Forall (λ x, l_block (er_log x) = n) (ev_ether_received ev) ∧
  Forall (λ x, l_block (sub_log x) = n) (ev_subscribe ev) ∧
  Forall (λ x, l_block (uns_log x) = n) (ev_unsubscribe ev) ∧
  Forall (λ x, l_block x.2 = n) (ev_pool_fee ev) ∧
  Forall (λ x, l_block x.2 = n) (ev_fee_recipient ev) ∧
  Forall (λ x, l_block x.2 = n) (ev_checkpoint_size ev) ∧
  Forall (λ x, l_block x.2 = n) (ev_collateral ev).

(** The one mainnet block whose event list is completed by hand (block.go:294-308). *)
Definition patched (fb : fullblock) : Prop := fb_chain fb = 1%N ∧ fb_duty_slot fb = 10400574%N.

(** Parts that belong together: the block is the one of this slot, proposed by the validator on duty, with logs of
    the block itself (one hand-made event aside) and each request next to the validator it names. *)
Record coherent (slot : N) (fb : fullblock) : Prop := Coherent {
  ch_slot : fb_duty_slot fb = slot;
  ch_validator : b_index (fb_validator fb) = fb_duty_index fb;
  ch_block : ∀ c, fb_cblock fb = Some c → cb_slot c = slot ∧ cb_proposer c = fb_duty_index fb;
  ch_payload : ∀ c, fb_cblock fb = Some c → payload_of fb (cb_payload c);
  ch_logs : ∀ p, ¬ patched fb → payload_of fb p → logs_at (p_number p) (fb_events fb);
  ch_missed : fb_cblock fb = None → fb_events fb = no_events ∧ fb_subs fb = [] ∧ fb_unsubs fb = [];
  ch_subs : Forall2 (λ x v, ∀ w, v = Some w → b_index w = sub_id x) (ev_subscribe (fb_events fb)) (fb_subs fb);
  ch_unsubs : Forall2 (λ x v, ∀ w, v = Some w → b_index w = uns_id x) (ev_unsubscribe (fb_events fb)) (fb_unsubs fb);
  ch_header : ∀ p h, payload_of fb p → fb_header fb = Some h → h_number h = p_number p }.

(** What the node says about one validator: that it does not exist, or its record. *)
Definition tells_validator (nd : node) (slot i : N) (v : option bval) : Prop :=
  match v with
  | None => nd_vals nd [i] slot = Some []
  | Some w => nd_vals nd [i] slot = Some [(i, w)] ∧ b_index w = i
  end.

(** The node serves the complete block [fb] when asked for its slot. *)
Record serves (nd : node) (fb : fullblock) : Prop := Serves {
  sv_chain : nd_chain nd = fb_chain fb;
  sv_duty : ∃ l, nd_duties nd (fb_duty_slot fb / 32)%N = Some l ∧
    l !! N.to_nat (fb_duty_slot fb mod 32) = Some (Duty (fb_duty_slot fb) (fb_duty_index fb) (fb_duty_pubkey fb));
  sv_validator : tells_validator nd (fb_duty_slot fb) (fb_duty_index fb) (Some (fb_validator fb));
  sv_cblock : nd_block nd (fb_duty_slot fb) = Some (fb_cblock fb);
  sv_missed : fb_cblock fb = None →
    fb_header fb = None ∧ fb_receipts fb = None ∧ fb_events fb = no_events ∧ fb_subs fb = [] ∧ fb_unsubs fb = [];
  sv_block : ∀ c, fb_cblock fb = Some c →
    let n := p_number (cb_payload c) in let ev := fb_events fb in
    cb_slot c = fb_duty_slot fb ∧ cb_proposer c = fb_duty_index fb ∧ payload_of fb (cb_payload c) ∧
    nd_ether nd n = Some (ev_ether_received ev) ∧ nd_subs nd n = Some (ev_subscribe ev) ∧
    nd_unsubs nd n = Some (ev_unsubscribe ev) ∧ nd_fee nd n = Some (ev_pool_fee ev) ∧
    nd_recipient nd n = Some (ev_fee_recipient ev) ∧ nd_size nd n = Some (ev_checkpoint_size ev) ∧
    nd_coll nd n = Some (ev_collateral ev) ∧ nd_bans nd n = Some (ev_bans ev) ∧ nd_unbans nd n = Some (ev_unbans ev) ∧
    ev_others ev = [] ∧ logs_at n ev ∧
    Forall2 (λ x v, tells_validator nd (fb_duty_slot fb) (sub_id x) v) (ev_subscribe ev) (fb_subs fb) ∧
    Forall2 (λ x v, tells_validator nd (fb_duty_slot fb) (uns_id x) v) (ev_unsubscribe ev) (fb_unsubs fb) ∧
    ∃ h rs, fb_header fb = Some h ∧ fb_receipts fb = Some rs ∧ nd_header nd n = Some h ∧ h_number h = n ∧
      Forall (λ r, rc_block r = n) rs ∧
      Forall2 (λ t r, ∃ x, t = Some x ∧ nd_receipt nd (tx_hash x) = Some r) (p_txs (cb_payload c)) rs }.

(** The cache holds nothing about the slot's epoch, or the duty of the slot. *)
Definition fresh_cache (ca : cache) (fb : fullblock) : Prop :=
  ca_epoch ca ≠ (fb_duty_slot fb / 32)%N ∨
  ca_duties ca !! N.to_nat (fb_duty_slot fb mod 32) = Some (Duty (fb_duty_slot fb) (fb_duty_index fb) (fb_duty_pubkey fb)).

(** ** Configuration *)

(** Which network a chain id stands for. *)
Definition chains : list (N * string) := [(1%N, "mainnet"); (5%N, "goerli"); (17000%N, "holesky"); (560048%N, "hoodi")].

(** A call of initialize that carries this fee: sent to the pool, or somewhere inside the data of a transaction
    that creates a contract. *)
Definition initializes (args : string → option Z) (sel pool20 : string) (txs : list deploy_tx) (fee : Z) : Prop :=
  ∃ to data pre tail, (to, data) ∈ txs ∧ data = pre +:+ sel +:+ tail ∧ args tail = Some fee ∧
    ((to = Some pool20 ∧ pre = "") ∨ to = None).
(** A call of initialize on the pool that does not decode. *)
Definition malformed (args : string → option Z) (sel pool20 : string) (txs : list deploy_tx) : Prop :=
  ∃ tail, (Some pool20, sel +:+ tail) ∈ txs ∧ args tail = None.

(** The configuration agrees with what both nodes and the contract said. *)
Record right_config (args : string → option Z) (sel pool20 : string) (A : config_answers) (pool : string) (dry : bool) (c : config) : Prop :=
  RightConfig {
    rc_chain : ∃ exec cons, ga_exec_chain A = Some exec ∧ ga_cons_chain A = Some cons ∧ (cons, c_network c) ∈ chains ∧
      (is_int64 exec → Z.of_N cons = exec);
    rc_deployed : ∃ time txs genesis deployed cb, ga_block A = Some (time, txs) ∧ ga_genesis A = Some genesis ∧ ga_deployed A = Some deployed ∧
      ((genesis ≤ time < two64)%N → c_dep_slot c = ((time - genesis) / 12)%N) ∧
      ((0 ≤ deployed < 18446744073709551616)%Z → Z.of_N (c_dep_block c) = deployed) ∧
      ga_cblock A (c_dep_slot c) = Some (Some cb) ∧ p_number (cb_payload cb) = c_dep_block c ∧
      (initializes args sel pool20 txs (c_feepct c) ∨
       (((∀ fee, ¬ initializes args sel pool20 txs fee) ∨ malformed args sel pool20 txs) ∧
        ((c_network c = Mainnet ∧ c_feepct c = 700%Z) ∨ (c_network c = Hoodi ∧ c_feepct c = 1000%Z))));
    rc_size : ga_cp_size A = Some (c_cp_size c);
    rc_coll : ga_coll A = Some (c_coll c);
    rc_fees : ∃ a, ga_fees_addr A = Some a ∧ (String.length a = 20%nat → names a (c_fees_addr c));
    rc_line : c_pool c = pool ∧ c_dry_run c = dry }.

(** ** Following the chain through the nodes *)

(** Slots one after the other, each fetched from whatever the node then is, with the one duty cache, and processed. *)
Inductive follows : oracle → cache → list (node * env * N) → oracle → cache → Prop :=
| follows_none o ca : follows o ca [] o ca
| follows_one o ca nd E slot fb ca1 o1 n l o2 ca2 :
    fetch_full_block nd E (c_pool (or_cfg o)) false slot (or_st o) ca = Ok (fb, ca1) → advance E fb o = Done o1 n →
    follows o1 ca1 l o2 ca2 → follows o ca ((nd, E, slot) :: l) o2 ca2.
