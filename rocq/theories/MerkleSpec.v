(** Vocabulary of the theorems about leaves, trees, proofs and checkpoints. *)
From Coq Require Export Sorting.Sorted.
From Verif Require Export Spec Checkpoint.

(** ** The ledger that a checkpoint publishes *)

(** [a] is, in lowercase, the withdrawal address of some tracked validator. *)
Definition withdraws_to (s : ost) (a : string) : Prop :=
  ∃ i v, st_vals s !! i = Some v ∧ to_lower (v_addr v) = a.

(** Strictly increasing in the byte-wise order. *)
Definition increasing (l : list string) : Prop :=
  StronglySorted (λ a b, String.compare a b = Lt) l.

(** [a20] are the 20 bytes written in hex by the string [a]. *)
Definition spells (a20 a : string) : Prop :=
  String.length a20 = 20%nat ∧ (a = "0x" +:+ hex_encode a20 ∨ a = hex_encode a20).

(** The state entitles [a20] to [z]: as the fee recipient, or as a withdrawal address. *)
Definition entitled (s : ost) (a20 : string) (z : Z) : Prop :=
  (spells a20 (to_lower (st_fees_addr s)) ∧ z = st_fees s) ∨
  ∃ a, spells a20 a ∧ withdraws_to s a ∧ z = published a s.

(** No validator withdraws to the fee recipient, or to the pool contract. *)
Definition fees_apart (s : ost) : Prop := ¬ withdraws_to s (to_lower (st_fees_addr s)).
Definition pool_apart (s : ost) : Prop := ¬ withdraws_to s (to_lower (st_pool s)).

(** ** The contract's side *)

(** Value of a big-endian byte string. *)
Definition be_value (w : string) : N := fold_left (λ a c, 256 * a + N_of_ascii c)%N (list_ascii_of_string w) 0%N.

(** abi.encodePacked(address, uint256): what the contract hashes for a claim of [z] by [a20]. *)
Definition claim (a20 : string) (z : Z) (pre : string) : Prop :=
  ∃ w, String.length a20 = 20%nat ∧ String.length w = 32%nat ∧ Z.of_N (be_value w) = z ∧ pre = a20 +:+ w.

(** OpenZeppelin MerkleProof: the smaller of the two hashes first. *)
Definition ordered (a b : string) : string := if String.ltb a b then a +:+ b else b +:+ a.
Fixpoint climb (H : string → string) (x : string) (proof : list string) : string :=
  match proof with [] => x | sib :: proof => climb H (H (ordered x sib)) proof end.
Definition proves (H : string → string) (root : string) (proof : list string) (pre : string) : Prop :=
  climb H (H pre) proof = root.

(** ** The tree *)

(** What is hashed to get the next level: neighbours in order, an odd node with itself. *)
Fixpoint pairs (l : list string) : list string :=
  match l with
  | [] => []
  | [a] => [a +:+ a]
  | a :: b :: l => ordered a b :: pairs l
  end.
(** [merkle H l root ins]: [root] is the root over [l], and [ins] are the inputs hashed on the way. *)
Inductive merkle (H : string → string) : list string → string → list string → Prop :=
| merkle_root x : merkle H [x] x []
| merkle_level l root ins : (2 ≤ length l)%nat → merkle H (H <$> pairs l) root ins → merkle H l root (pairs l ++ ins).

(** What the contract hashes while checking a proof. *)
Fixpoint path_inputs (H : string → string) (x : string) (proof : list string) : list string :=
  match proof with [] => [] | sib :: proof => ordered x sib :: path_inputs H (H (ordered x sib)) proof end.
Definition claim_inputs (H : string → string) (pre : string) (proof : list string) : list string :=
  pre :: path_inputs H (H pre) proof.

(** Two different inputs with the same hash, one from each list. *)
Definition collision (H : string → string) (xs ys : list string) : Prop :=
  ∃ x y, x ∈ xs ∧ y ∈ ys ∧ x ≠ y ∧ H x = H y.

(** The preimages of a list of leaves. *)
Definition preimages (ls : list rawleaf) (ps : list string) : Prop :=
  Forall2 (λ l p, ∃ a20, spells a20 (leaf_addr l) ∧ claim a20 (leaf_bal l) p) ls ps.

(** Amounts that fit in a uint256. *)
Definition uint256 (z : Z) : Prop := (0 ≤ z < 2 ^ 256)%Z.
Definition fits (s : ost) : Prop :=
  uint256 (st_fees s) ∧ ∀ a, uint256 (published a s).

(** ** Histories with checkpoints *)

(** Operations on the oracle: process a slot, or freeze a checkpoint. *)
Inductive operation := Process (E : env) (fb : fullblock) | Freeze (E : env).
Inductive evolve (H : string → string) : oracle → list operation → oracle → Prop :=
| evolve_nil o : evolve H o [] o
| evolve_process o E fb o1 n l o2 : wf_env E → fb_duty_slot fb ≠ 0%N →
    advance E fb o = Done o1 n → evolve H o1 l o2 → evolve H o (Process E fb :: l) o2
| evolve_freeze o E s1 b l o2 : wf_env E →
    freeze H E (or_st o) = Ok (s1, b) → evolve H (Oracle (or_cfg o) s1) l o2 → evolve H o (Freeze E :: l) o2.

(** The keys of the map of checkpoints, in some order. *)
Definition checkpoint_keys (s : ost) (keys : list N) : Prop := keys ≡ₚ (map_to_list (st_committed s)).*1.
