(** Property C99: what the proof endpoint offers, the contract pays. Each theorem is followed by a concrete instance of its
    hypotheses and by the list of its assumptions. *)
From Verif Require Import ClaimSamples.

(** ** C99 *)
(** The proof that is served is accepted by the contract, as long as the contract keeps the root that the request read and
    nothing more was claimed; and it pays exactly the claimable amount of the answer. *)
Theorem C99_pays H sha cfg l o E a w p q P1 P2 P3 P : (∀ x, String.length (H x) = 32%nat) → evolve H (new_oracle cfg) l o → wf_env E →
  serve sha E (GetProof a) w o = Ok (Answer (BProof p)) → sees P1 P2 P3 a w →
  pl_report P = pl_report P2 → (∀ a20, spells a20 (to_lower a) → claimed P a20 = claimed P3 a20) →
  uint256 (pf_balance p) → (0 ≤ pf_claimable p)%Z →
  ∃ a20 pre sibs P', spells a20 (to_lower a) ∧ pf_proof p = (λ b, "0x" +:+ hex_encode b) <$> sibs ∧
    acts H q P (Claim a20 (pf_balance p) pre sibs) P' ∧ pl_paid P' = (pl_paid P + pf_claimable p)%Z.
Proof. exact (λ HH, offered H HH sha cfg l o E a w p q P1 P2 P3 P). Qed.
(** The owner of validator 1, after the second report. *)
Example C99_pays_example : (∀ x, String.length (toy x) = 32%nat) ∧ wf_env backward ∧
  ∃ o p, evolve toy (new_oracle (cfg_at Mainnet 12000001)) two_checkpoints o ∧
    serve toy backward (GetProof owner_text) (claim_wire o 12000002 12000002) o = Ok (Answer (BProof p)) ∧
    sees (second_pool o) (second_pool o) (second_pool o) owner_text (claim_wire o 12000002 12000002) ∧
    uint256 (pf_balance p) ∧ pf_claimable p = 21666%Z ∧ length (pf_proof p) = 2%nat.
Proof.
  split; [exact toy_length|]. split; [exact backward_wf|]. destruct both_asked as (o & He & _ & (p & Hs & Hb & Hc & Hl) & _).
  exists o, p. split; [exact He|]. split; [exact Hs|]. split; [exact (sees_second o)|]. split; [rewrite Hb; by split|]. done.
Qed.

(** Exactly these requests of an oracle that keeps up are answered: the checkpoint of the slot that was read has the root that
    was read a moment later, and the address is one of its leaves. *)
Theorem C99_answered H sha cfg l o E a w P1 P2 P3 : evolve H (new_oracle cfg) l o → wf_env E → sees P1 P2 P3 a w → hex_text 40 a →
  keeps_up w (or_st o) → (∀ f, w_final w = Some f → (f < 2 ^ 64)%N) → (st_latest (or_st o) + 64 < 2 ^ 64)%N →
  (∃ p, serve sha E (GetProof a) w o = Ok (Answer (BProof p))) ↔ ∃ k1 r1 k2 r2, pl_report P1 = Some (k1, r1) ∧ pl_report P2 = Some (k2, r2) ∧
    ∃ l1 E1 l2 o1 c, l = l1 ++ Freeze E1 :: l2 ∧ wf_env E1 ∧ evolve H (new_oracle cfg) l1 o1 ∧ snapshot H E1 (or_st o1) = Ok (Some c) ∧ st_latest (or_st o1) = k1 ∧
      st_committed (or_st o) !! k1 = Some c ∧ oc_root c = "0x" +:+ hex_encode r2 ∧
      (to_lower (st_fees_addr (or_st o1)) = to_lower a ∨ withdraws_to (or_st o1) (to_lower a)).
Proof. exact (proof_answered H sha cfg l o E a w P1 P2 P3). Qed.
Example C99_answered_example : wf_env backward ∧ hex_text 40 owner_text ∧
  ∃ o, evolve toy (new_oracle (cfg_at Mainnet 12000001)) two_checkpoints o ∧
    sees (second_pool o) (second_pool o) (second_pool o) owner_text (claim_wire o 12000002 12000002) ∧
    keeps_up (claim_wire o 12000002 12000002) (or_st o) ∧ (st_latest (or_st o) + 64 < 2 ^ 64)%N ∧
    ∃ p, serve toy backward (GetProof owner_text) (claim_wire o 12000002 12000002) o = Ok (Answer (BProof p)).
Proof.
  split; [exact backward_wf|]. split; [exact owner_hex|]. destruct both_asked as (o & He & (_ & _ & _ & _ & Hl) & (p & Hs & _) & _).
  exists o. split; [exact He|]. split; [exact (sees_second o)|]. split; [exists 12000010%N; rewrite Hl; split; [reflexivity|split; discriminate]|].
  split; [rewrite Hl; reflexivity|]. exists p. exact Hs.
Qed.

(** Everybody with a leaf is answered: this is false while a report is consolidated. The slot and the root are two calls
    (onchain.go:833-845); the slot of the first report with the root of the second is refused, although the oracle has both
    checkpoints, with the roots of the contract and a leaf for the address. *)
Theorem C99_between_refuted : ∃ cfg l o E a w P1 P2, evolve toy (new_oracle cfg) l o ∧ wf_env E ∧ hex_text 40 a ∧ keeps_up w (or_st o) ∧
  later toy 1 P1 P2 ∧ sees P1 P2 P2 a w ∧
  (∀ P, P ∈ [P1; P2] → ∃ k root c, pl_report P = Some (k, root) ∧ st_committed (or_st o) !! k = Some c ∧
    oc_root c = "0x" +:+ hex_encode root ∧ is_Some (oc_leafs c !! to_lower a)) ∧
  serve toy E (GetProof a) w o = Ok (Refuse 500 "contract merkle root does not match oracle state").
Proof. exact asked_between. Qed.
Print Assumptions C99_pays.
Print Assumptions C99_answered.
Print Assumptions C99_between_refuted.
