(** Vocabulary for the copies of the validators (C103). *)
From Verif Require Export Gob Checkpoint PersistSpec.

(** What fits into a gob message: amounts and texts of less than some gigabytes. *)
Definition copyable (v : vinfo) : Prop :=
  (Z.abs_N (v_acc v) < 256 ^ (2 ^ 32))%N ∧ (Z.abs_N (v_pend v) < 256 ^ (2 ^ 32))%N ∧ (Z.abs_N (v_coll v) < 256 ^ (2 ^ 32))%N ∧
  (N.of_nat (String.length (v_addr v)) < 2 ^ 33)%N ∧ (N.of_nat (String.length (v_key v)) < 2 ^ 33)%N ∧ is_u64 (v_index v).
