(** Property C100: the views of the contract are read as the contract wrote them. Each theorem is followed by a concrete
    instance of its hypotheses and by the list of its assumptions. *)
From Verif Require Import OnchainSamples CallSamples.

(** ** C100 *)
(** Every view that is answered by the contract is read as what the contract stores: no number is cut, no address or hash loses
    a byte, the members come in their order. *)
Theorem C100_views H B call : answered_by H B call →
  ask_slot H call = Some (bk_slot B) ∧ ask_root H call = Some ("0x" +:+ hex_encode (bk_root B)) ∧ ask_members H call = Some (bk_members B) ∧
  ask_quorum H call = Some (bk_quorum B) ∧ ask_size H call = Some (bk_size B) ∧ ask_collateral H call = Some (bk_coll B) ∧
  ask_deployment H call = Some (bk_deployed B) ∧ ask_fee H call = Some (bk_fee B) ∧ ask_recipient H call = Some (bk_recipient B) ∧
  ∀ a, String.length a = 20%nat → ask_claimed H call a = Some (bk_claimed B a).
Proof. exact (views_read H B call). Qed.
(** Three members, a claimed balance of one of them. *)
Example C100_views_example : answered_by mark sample_holdings (sample_call sample_holdings) ∧ length (bk_members sample_holdings) = 3%nat ∧
  bk_claimed sample_holdings (owner 1) = 21666%Z ∧ String.length (owner 1) = 20%nat.
Proof. split; [exact sample_answered|]. by vm_compute. Qed.

(** The two getters that ask twice read each part from the contract as it is at that call. *)
Theorem C100_pairs H B1 B2 call1 call2 : answered_by H B1 call1 → answered_by H B2 call2 →
  ask_slot_and_root H call1 call2 = Some ("0x" +:+ hex_encode (bk_root B2), bk_slot B1) ∧
  ∀ a, String.length a = 20%nat → ask_voted H call1 call2 a = Some (bk_reports B2 (bk_voted B1 a)).
Proof. exact (pair_read H B1 B2 call1 call2). Qed.
Example C100_pairs_example : answered_by mark sample_holdings (sample_call sample_holdings) ∧ answered_by mark next_holdings (sample_call next_holdings) ∧
  bk_slot sample_holdings = 12000002%N ∧ bk_slot next_holdings = 12000003%N.
Proof. split; [exact sample_answered|]. split; [exact next_answered|]. done. Qed.

(** Where no contract is deployed (an empty answer, or an error) no view has a value. *)
Theorem C100_no_contract H call : (∀ d, call d = None ∨ call d = Some "") →
  ask_slot H call = None ∧ ask_root H call = None ∧ ask_members H call = None ∧ ask_quorum H call = None ∧ ask_size H call = None ∧
  ask_collateral H call = None ∧ ask_deployment H call = None ∧ ask_fee H call = None ∧ ask_recipient H call = None ∧
  (∀ a, ask_claimed H call a = None) ∧ ∀ call2 a, ask_voted H call call2 a = None.
Proof. exact (empty_unread H call). Qed.
Example C100_no_contract_example : ∀ d : string, (λ d : string, if (String.length d =? 4)%nat then Some "" else None) d = None ∨
  (λ d : string, if (String.length d =? 4)%nat then Some "" else None) d = Some "".
Proof. intros d. cbv beta. destruct (String.length d =? 4)%nat; [by right|by left]. Qed.

(** A root or a slot is read only from a full word, whatever is answered. *)
Theorem C100_root_exact H call t : ask_root H call = Some t ↔
  ∃ w r, call (substring 0 4 (H "rewardsRoot()")) = Some (w +:+ r) ∧ String.length w = 32%nat ∧ t = "0x" +:+ hex_encode w.
Proof. exact (root_exact H call t). Qed.
Theorem C100_slot_exact H call n : ask_slot H call = Some n ↔
  ∃ w r, call (substring 0 4 (H "lastConsolidatedSlot()")) = Some (w +:+ r) ∧ uint64_word n w.
Proof. exact (slot_exact H call n). Qed.
(** A word and something behind it; a word that is no uint64; half a word. *)
Example C100_exact_example : ask_slot mark (λ _, Some (word 5 +:+ "rest")) = Some 5%N ∧ ask_slot mark (λ _, Some (word 18446744073709551616)) = None ∧
  ask_root mark (λ _, Some (be_bytes 16 5)) = None.
Proof. by vm_compute. Qed.

(** A list of addresses is read exactly when the answer has an offset, there a length, and then that many words. The twelve
    bytes before an address are not looked at. *)
Theorem C100_members_exact out l : first_addresses out = Some l ↔
  ∃ w r0 o w2 d, number_word (N.of_nat o) w ∧ out = w +:+ r0 ∧ sdrop o out = w2 +:+ d ∧ number_word (N.of_nat (length l)) w2 ∧ elements_of l d.
Proof. exact (first_addresses_iff out l). Qed.
(** Two members; a length that is too large; an offset behind the end. *)
Example C100_members_example : first_addresses (word 32 +:+ word 2 +:+ padded (owner 1) +:+ (be_bytes 12 7 +:+ fees20)) = Some [owner 1; fees20] ∧
  first_addresses (word 32 +:+ word 3 +:+ padded (owner 1) +:+ padded fees20) = None ∧ first_addresses (word 96 +:+ word 0) = None.
Proof. by vm_compute. Qed.

(** So the configuration of the oracle is the one the contract stores; only the deployment block is reduced to 64 bits. *)
Theorem C100_config E args sel pool20 A pool dry c H B call : get_config E args sel pool20 A pool dry = Ok c → config_reads H call A → answered_by H B call →
  c_cp_size c = bk_size B ∧ c_coll c = bk_coll B ∧ names (bk_recipient B) (c_fees_addr c) ∧ Z.of_N (c_dep_block c) = (bk_deployed B mod 2 ^ 64)%Z.
Proof. exact (config_called E args sel pool20 A pool dry c H B call). Qed.
Example C100_config_example : get_config honest read_fee "init" pool20 called_config pool_str true = Ok (Config Mainnet pool_str 12000001 12000001 7200 7 fees_str true 1000) ∧
  config_reads mark (sample_call sample_holdings) called_config ∧ answered_by mark sample_holdings (sample_call sample_holdings).
Proof. split; [by vm_compute|]. split; [exact called_reads|exact sample_answered]. Qed.

(** And a request for a proof sees the contract as C99 assumes: the slot of the first call, the root of the second, the claims
    of the third. *)
Theorem C100_sees H P1 P2 P3 B1 B2 B3 call1 call2 call3 a w : kept_by P1 B1 → kept_by P2 B2 → kept_by P3 B3 →
  answered_by H B1 call1 → answered_by H B2 call2 → answered_by H B3 call3 →
  w_onchain w = ask_slot_and_root H call1 call2 → w_claimed w (to_lower a) = ask_claimed H call3 (hex_to_address (to_lower a)) → hex_text 40 a → sees P1 P2 P3 a w.
Proof. exact (calls_seen H P1 P2 P3 B1 B2 B3 call1 call2 call3 a w). Qed.
Example C100_sees_example : kept_by asked_pool next_holdings ∧ answered_by mark next_holdings (sample_call next_holdings) ∧
  w_onchain asking_wire = ask_slot_and_root mark (sample_call next_holdings) (sample_call next_holdings) ∧
  w_claimed asking_wire (to_lower owner_text) = ask_claimed mark (sample_call next_holdings) (hex_to_address (to_lower owner_text)) ∧ hex_text 40 owner_text.
Proof. split; [exact asked_kept|]. split; [exact next_answered|]. split; [reflexivity|]. split; [reflexivity|exact owner_hex]. Qed.
Print Assumptions C100_views.
Print Assumptions C100_pairs.
Print Assumptions C100_no_contract.
Print Assumptions C100_root_exact.
Print Assumptions C100_slot_exact.
Print Assumptions C100_members_exact.
Print Assumptions C100_config.
Print Assumptions C100_sees.
