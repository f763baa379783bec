(** Vocabulary of C99: what the proof endpoint asks of the contract, at three different moments. *)
From Verif Require Export QuorumSpec ApiSpec.

(** The contract after some more actions. *)
Inductive later (H : string → string) (q : nat) : pool → pool → Prop :=
| later_same P : later H q P P
| later_act P x P' P'' : acts H q P x P' → later H q P' P'' → later H q P P''.
(** The request for [addr] (api.go:936, onchain.go:833-845, api.go:979) reads the slot of [P1], the root of [P2] and what was
    claimed in [P3]. *)
Definition sees (P1 P2 P3 : pool) (addr : string) (w : wire) : Prop :=
  (∃ k1 r1 k2 r2, pl_report P1 = Some (k1, r1) ∧ pl_report P2 = Some (k2, r2) ∧ w_onchain w = Some ("0x" +:+ hex_encode r2, k1)) ∧
  ∀ a20, spells a20 (to_lower addr) → w_claimed w (to_lower addr) = Some (claimed P3 a20).
