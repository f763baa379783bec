(** Vocabulary of the theorems about the comparison of the state with the contract. *)
From Verif Require Export QuorumSpec StopSpec.

(** The contract [P] holds what the pool received, as far as [s] goes, and was not claimed; it tells this and the claims. *)
Definition contract_tells (P : pool) (s : ost) (a : MainLoop.answers) : Prop :=
  an_balance a = Some (received s - pl_paid P)%Z ∧ ∀ a20, an_claimed a a20 = Some (claimed P a20).
