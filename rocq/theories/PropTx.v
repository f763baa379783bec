(** Properties of the reading of raw transactions: C89 to C92. *)
From Verif Require Import RlpProofs SubmitProofs RlpSamples BlockProofs SlotProofs MerkleSamples Keccak.

(** ** C89 *)

(** The bytes that decode are exactly the encodings of transactions of the five types. *)
Theorem C89_decodes raw t : decode_tx raw = Some t ↔ transmits t raw.
Proof. exact (decode_spec raw t). Qed.
(** A transaction has one encoding, and an encoding one transaction. *)
Theorem C89_canonical t t' raw raw' : transmits t raw → transmits t' raw' → t = t' ↔ raw = raw'.
Proof. exact (transmits_canonical t t' raw raw'). Qed.
(** The hash is that of the bytes in the block. *)
Theorem C89_hash H rec chain raw x : view_tx H rec chain raw = Some x → tx_hash x = H raw.
Proof. exact (view_hash H rec chain raw x). Qed.
(** Transactions of any further type are refused, and fetching the receipts of a block that has one ends the process. *)
Theorem C89_unknown H rec chain nd c rest pre post : (N_of_ascii c = 0 ∨ 5 ≤ N_of_ascii c ≤ 127)%N →
  decode_tx (String c rest) = None ∧
  (∀ rs, get_receipts nd (view_tx H rec chain <$> pre) = Ok rs →
    ∃ m, get_receipts nd (view_tx H rec chain <$> pre ++ String c rest :: post) = Die (Fatal m)).
Proof. exact (unknown_type H rec chain nd c rest pre post). Qed.

(** The example of EIP-155, and transactions of the other four types. *)
Example C89_example : Forall2 transmits txs raws ∧ keccak256 (sign_bytes (Some 1%N) eip155_tx) =
    hex_decode "daf5a779ae972f972197303d7b574746c7ef83eadac0f2791ad23db92e4c8e53" ∧
  decode_tx (String "005" (tx_bytes eip155_tx)) = None ∧
  (* a nonce with a leading zero, a byte behind the list, an address of 19 bytes *)
  decode_tx (hex_decode "c9820009808080808080808080") = None ∧ decode_tx (eip155_raw +:+ "0") = None ∧
  decode_tx (encode_item (Seq [of_number 9; of_number 1; of_number 2; Str (bytes 19 3); of_number 0; Str ""; of_number 27; of_number 1; of_number 1])) = None.
Proof.
  split; [exact raws_transmit|]. split; [vm_compute; reflexivity|]. split; [vm_compute; reflexivity|]. split; [vm_compute; reflexivity|].
  split; vm_compute; reflexivity.
Qed.
Print Assumptions C89_decodes.
Print Assumptions C89_canonical.
Print Assumptions C89_hash.
Print Assumptions C89_unknown.

(** ** C90 *)

(** The sender is the account that signed the transaction for this chain, or (legacy) for no chain in particular. *)
Theorem C90_sender H rec chain t raw a : transmits t raw → (N.of_nat (String.length raw) < 2 ^ 63)%N → (0 < chain < 2 ^ 62)%N →
  get_sender H rec chain t = Some a ↔ signed H rec chain t a.
Proof. exact (sender_spec H rec chain t raw a). Qed.
(** If nobody did, examining a block that ends with it ends the process. *)
Theorem C90_unsigned H rec E fb p pre raw t dst x : payload_of fb p → p_txs p = view_tx H rec (fb_chain fb) <$> pre ++ [raw] →
  transmits t raw → (N.of_nat (String.length raw) < 2 ^ 63)%N → (0 < fb_chain fb < 2 ^ 62)%N → sends t dst x →
  (∀ a, ¬ signed H rec (fb_chain fb) t a) → ∃ m, mev_reward E fb = Die (Fatal m).
Proof. exact (unsigned_fatal H rec E fb p pre raw t dst x). Qed.
(** A legacy transaction for another chain, or a typed one, is signed by nobody here. *)
Theorem C90_other_chain H rec chain t a :
  (∀ c, typed_chain t = Some c → c ≠ chain) →
  (typed_chain t = None → ∃ c y r s, c ≠ chain ∧ y ∈ [0; 1]%N ∧ signature_of t = (35 + 2 * c + y, r, s)%N) → ¬ signed H rec chain t a.
Proof. exact (other_chain H rec chain t a). Qed.

(** The example of EIP-155 on its chain, and on another. *)
Example C90_example : transmits eip155_tx eip155_raw ∧ get_sender toy toy_rec 1 eip155_tx ≠ None ∧ get_sender toy toy_rec 5 eip155_tx = None ∧
  signed toy toy_rec 1 builder_tx (bytes 20 9) ∧ get_sender toy toy_rec 1 builder_tx = Some (bytes 20 9) ∧ get_sender toy toy_rec 17000 builder_tx = None.
Proof.
  split; [apply C89_decodes; vm_compute; reflexivity|]. split; [vm_compute; discriminate|]. split; [vm_compute; reflexivity|].
  split; [exact (proj1 builder_sends)|]. split; vm_compute; reflexivity.
Qed.
Print Assumptions C90_sender.
Print Assumptions C90_unsigned.
Print Assumptions C90_other_chain.

(** ** C91 *)

(** The MEV payment of a block is what the bytes of its last transaction say. *)
Theorem C91_payment H rec fb raws z a : holds_raw H rec fb raws → Forall (λ raw, N.of_nat (String.length raw) < 2 ^ 63)%N raws →
  (0 < fb_chain fb < 2 ^ 62)%N → mev_payment fb z a ↔ pays_mev H rec fb raws z a.
Proof. exact (pays_mev_spec H rec fb raws z a). Qed.
(** It is what is recorded for the block. *)
Theorem C91_recorded H rec E s pool pool20 fb b raws z a : names pool20 pool → addrs20 fb → ordinary fb → summarize E s pool fb = Ok b →
  holds_raw H rec fb raws → Forall (λ raw, N.of_nat (String.length raw) < 2 ^ 63)%N raws → (0 < fb_chain fb < 2 ^ 62)%N →
  pays_mev H rec fb raws z a → sb_reward b = Some z ∧ sb_reward_type b = MevBlock ∧ (a = pool20 → sb_type b ≠ WrongFeeRecipient).
Proof. exact (recorded_mev H rec E s pool pool20 fb b raws z a). Qed.
(** The receipts asked for are those of the hashes of the bytes. *)
Theorem C91_receipts H rec chain nd raws rs : get_receipts nd (view_tx H rec chain <$> raws) = Ok rs →
  Forall2 (λ raw r, nd_receipt nd (H raw) = Some r ∧ ∃ t, transmits t raw) raws rs.
Proof. exact (receipts_raw H rec chain nd raws rs). Qed.
(** And the priority fees are those of the transactions written in the bytes. *)
Theorem C91_tips H rec fb base raws ts rs : holds_raw H rec fb raws → served_block H fb base raws ts rs →
  proposer_tip fb = Ok (TipOk (foldr Z.add 0%Z (zip_with (λ t r, (paid_per_gas base t - base) * Z.of_N (rc_gas r))%Z ts rs))).
Proof. exact (served_tip H rec fb base raws ts rs). Qed.

(** Five transactions of the five types, the last a payment to the pool by the fee recipient. *)
Example C91_example : holds_raw toy toy_rec raw_block raws ∧ Forall (λ raw, N.of_nat (String.length raw) < 2 ^ 63)%N raws ∧
  names pool20 pool_str ∧ addrs20 raw_block ∧ ordinary raw_block ∧ pays_mev toy toy_rec raw_block raws 100000 pool20 ∧
  (∃ b, summarize honest (after Mainnet 12000001 1) pool_str raw_block = Ok b ∧ sb_reward b = Some 100000%Z ∧ sb_type b = OkPoolProposal) ∧
  served_block toy raw_block 10 raws txs raw_receipts ∧
  proposer_tip raw_block = Ok (TipOk ((20000000000 - 10) * 21000 + 1 * 80000 + 5 * 40000 + 2 * 21000 + 3 * 21000)%Z).
Proof.
  split; [exact raw_holds|]. split; [exact raws_short|]. split; [apply pool_names|]. split; [apply addrs20_sound; by vm_compute|].
  split; [by eapply ordinary_block|]. split; [exact raw_pays|].
  split; [apply (ex_ok (λ b, sb_reward b = Some 100000%Z ∧ sb_type b = OkPoolProposal)); vm_compute; split; reflexivity|].
  split; [exact raw_served|]. rewrite (C91_tips toy toy_rec raw_block 10 raws txs raw_receipts raw_holds raw_served). vm_compute. reflexivity.
Qed.
Print Assumptions C91_payment.
Print Assumptions C91_recorded.
Print Assumptions C91_receipts.
Print Assumptions C91_tips.

(** ** C92 *)

(** The transaction made to report a root is one that the network reads as: from the updater, to the pool, without
    value, submitReport with this slot and this root; it pays its tip also if the base fee stays, and it is valid for
    the chain whose id the node gave as network id, and no other. *)
Theorem C92_transaction H rec sign updater A pool20 slot root t : key_of rec sign updater → sane_answers A → String.length pool20 = 20%nat →
  is_u64 slot → String.length root = 32%nat → t = submit_tx H sign A pool20 slot root →
  transmits t (tx_bytes t) ∧ signed H rec (hd_network A) t updater ∧
  (∃ data, brings t pool20 0 data ∧ calls_submit H data slot root) ∧
  (∀ base, hd_base A = Some base → paid_per_gas (Z.of_N base) t = Z.of_N (base + hd_tip A)) ∧
  (∀ chain a, chain ≠ hd_network A → ¬ signed H rec chain t a).
Proof. exact (submit_spec H rec sign updater A pool20 slot root t). Qed.
(** The root in it is the one that was asked for. *)
Theorem C92_reported H rec sign updater A pool20 S slot root slot' bytes e : key_of rec sign updater → sane_answers A →
  String.length pool20 = 20%nat → is_u64 slot → update_root S slot root = (Some (slot', bytes), e) →
  (root = hex_encode bytes ∨ root = "0x" +:+ hex_encode bytes) ∧
  ∃ data, brings (submit_tx H sign A pool20 slot' bytes) pool20 0 data ∧ calls_submit H data slot bytes.
Proof. exact (submit_reported H rec sign updater A pool20 S slot root slot' bytes e). Qed.
(** Two reports with the same call are the same report. *)
Theorem C92_injective H slot root slot' root' data : calls_submit H data slot root → calls_submit H data slot' root' → slot = slot' ∧ root = root'.
Proof. exact (calls_inj H slot root slot' root' data). Qed.

(** A node with a base fee, and one without. The selector is the one that contract.go states (0xb539f38b). *)
Definition toy_key (h : string) : N * N * N := (9, 77, 1)%N.
Definition some_head : head_answers := HeadAnswers 1 7 (Some 12%N) 3 15 90000.
Definition old_head : head_answers := HeadAnswers 1 7 None 3 15 90000.
Example C92_example : key_of toy_rec' toy_key (bytes 20 9) ∧ sane_answers some_head ∧ sane_answers old_head ∧
  get_sender toy toy_rec' 1 (submit_tx toy toy_key some_head pool20 12000002 (bytes 32 1)) = Some (bytes 20 9) ∧
  get_sender toy toy_rec' 1 (submit_tx toy toy_key old_head pool20 12000002 (bytes 32 1)) = Some (bytes 20 9) ∧
  decode_tx (tx_bytes (submit_tx toy toy_key some_head pool20 12000002 (bytes 32 1))) = Some (submit_tx toy toy_key some_head pool20 12000002 (bytes 32 1)) ∧
  substring 0 4 (keccak256 "submitReport(uint64,bytes32)") = hex_decode "b539f38b".
Proof.
  split; [intros h; exists 9%N, 77%N, 1%N; split; [done|]; split; [by right; left|]; split; [by vm_compute|done]|].
  split; [do 5 (split; [vm_compute; done|]); intros base [= <-]; done|]. split; [do 5 (split; [vm_compute; done|]); intros base [=]|].
  do 3 (split; [vm_compute; reflexivity|]). vm_compute. reflexivity.
Qed.
Print Assumptions C92_transaction.
Print Assumptions C92_reported.
Print Assumptions C92_injective.
