(** Transactions for the examples of C89 to C91. *)
From Verif Require Import RlpProofs MerkleSamples.
From Verif Require Export Samples.

(** The example of EIP-155: 1 ether at price 20 gwei, nonce 9, chain 1. *)
Definition eip155_raw : string := hex_decode
  "f86c098504a817c800825208943535353535353535353535353535353535353535880de0b6b3a76400008025a028ef61340bd939bc2195fe537567866003e1a15d3c71ff63e1590620aa636276a067cbe9d8997f761aecb703304b3800ccf555c9f3dc64214b297fb1966a3b6d83".
Definition eip155_tx : txdata :=
  Legacy 9 20000000000 21000 (Some (hex_decode "3535353535353535353535353535353535353535")) 1000000000000000000 "" 37
    18515461264373351373200002665853028612451056578545711640558177340181847433846 46948507304638947509940763649030358759909902576025900602547168820602576006531.
(** The payment of a builder, with fees and an access list; and an authorization to set code, with long data. *)
Definition builder_tx : txdata :=
  DynamicTx 1 7 3 99 21000 (Some pool20) 100000 "" [(pool20, [bytes 32 1; bytes 32 2]); (bytes 20 5, [])] 1 9 77.
Definition setcode_tx : txdata :=
  SetCodeTx 1 300 3 11 90000 (bytes 20 6) 0 (bytes 300 7) [] [Auth 1 (bytes 20 8) 2 1 4 5; Auth 0 (bytes 20 9) 0 0 6 7] 0 8 78.
Definition creation_tx : txdata := AccessTx 1 0 15 50000 None 0 (bytes 60 1) [] 1 10 79.
Definition blob_tx : txdata := BlobTx 1 1 2 30 21000 (bytes 20 6) 5 "" [] 7 [bytes 32 3; bytes 32 4] 0 11 80.
Definition raws : list string := [eip155_raw; tx_bytes setcode_tx; tx_bytes creation_tx; tx_bytes blob_tx; tx_bytes builder_tx].
Definition txs : list txdata := [eip155_tx; setcode_tx; creation_tx; blob_tx; builder_tx].
(** A stand-in for the recovery of keys: the account is told by R. *)
Definition toy_rec (h : string) (y r s : N) : option string := if (String.length h =? 32)%nat then Some (bytes 20 r) else None.

(** A block with these transactions, the last of them by its fee recipient. *)
Definition raw_receipts : list receipt :=
  zip_with (λ raw g, Receipt 12000002 (toy raw) g) raws [21000; 80000; 40000; 21000; 21000]%N.
Definition raw_block : fullblock :=
  FullBlock 12000002 1 (bytes 48 1) (active_val 1)
    (Some (CBlock VDeneb 12000002 1 (Payload (bytes 20 9) (view_tx toy toy_rec 1 <$> raws) 12000002 183000 [] 10)))
    (Some (Header 12000002 10)) (Some raw_receipts) (evs [ether_ev 100000 12000002] [] [] [] []) [] [] 1.
Lemma raw_holds : holds_raw toy toy_rec raw_block raws.
Proof. intros p (c & [= <-] & _ & _ & ->). reflexivity. Qed.
Lemma raws_transmit : Forall2 transmits txs raws.
Proof. repeat (apply Forall2_cons; split; [apply decode_spec; vm_compute; reflexivity|]). constructor. Qed.
Lemma raws_short : Forall (λ raw, N.of_nat (String.length raw) < 2 ^ 63)%N raws.
Proof. repeat (apply Forall_cons; split; [vm_compute; reflexivity|]). constructor. Qed.
Lemma builder_sends : signed toy toy_rec 1 builder_tx (bytes 20 9) ∧ sends builder_tx pool20 100000.
Proof.
  split; [|constructor]. apply (sender_spec toy toy_rec 1 builder_tx (tx_bytes builder_tx)); [|vm_compute; reflexivity|done|vm_compute; reflexivity].
  apply decode_spec. vm_compute. reflexivity.
Qed.
Lemma raw_pays : pays_mev toy toy_rec raw_block raws 100000 pool20.
Proof.
  eexists _, [eip155_raw; tx_bytes setcode_tx; tx_bytes creation_tx; tx_bytes blob_tx], (tx_bytes builder_tx), builder_tx, (bytes 20 9), pool20, 100000%N.
  split; [eexists; split; [reflexivity|]; done|]. split; [done|]. split; [apply decode_spec; vm_compute; reflexivity|].
  destruct builder_sends as [H1 H2]. split; [exact H1|]. split; [exact H2|]. split; [by left|]. split; [done|].
  left. eexists [], (ether_ev 100000 12000002), []. split; [done|]. split; [done|]. split; [|done]. intros x Hx. by apply elem_of_nil in Hx.
Qed.
Lemma raw_served : served_block toy raw_block 10 raws txs raw_receipts.
Proof.
  split.
  - do 2 eexists. split; [reflexivity|]. split; [right; split; [by left|]; split; done|]. done.
  - apply raws_transmit.
  - unfold raw_receipts, raws. cbn [zip_with]. repeat (apply Forall2_cons; split; [reflexivity|]). constructor.
  - done.
Qed.
(** The same for hashes of any length. *)
Definition toy_rec' (h : string) (y r s : N) : option string := Some (bytes 20 r).
