(** Vocabulary of the theorems about the pool contract and the oracles together. The contract is not in /repo (only its
    interface is, contract/abi.abi); what the theorems assume of it is written down here. *)
From Verif Require Export AgreeSpec MerkleSpec.

(** ** The chain *)
(** [s] is the state that the blocks of the chain give, from the deployment up to [slot]. *)
Definition chain_state (c0 : config) (nd0 : node) (E0 : env) (slot : N) (s : ost) : Prop :=
  ∃ fbs o, run (new_oracle c0) ((λ fb, (E0, fb)) <$> fbs) o ∧
    Forall (λ fb, ∃ n, (c_dep_slot c0 ≤ n)%N ∧ fetches nd0 n fb) fbs ∧ st_latest (or_st o) = slot ∧ or_st o = s.
(** The chain carries no negative amounts, sane balances, and the blocks are as C01 and C06 require. *)
Record sound_chain (c0 : config) (nd0 : node) (E0 : env) : Prop := SoundChain {
  sd_balances : sane_balances E0;
  sd_block : ∀ slot fb, (c_dep_slot c0 ≤ slot)%N → fetches nd0 slot fb →
    wf_block E0 (c_pool c0) fb ∧ nonneg_block E0 (c_pool c0) fb ∧ ¬ era (c_network c0) slot PreFork1 }.
(** What is hashed for the tree of a state. *)
Definition hashed (H : string → string) (s : ost) (xs : list string) : Prop :=
  ∃ E ls ps root ins, wf_env E ∧ aggregate E s = Ok ls ∧ preimages ls ps ∧ merkle H (H <$> ps) root ins ∧ xs = ps ++ ins.

(** ** The contract: submitReport (contract.go:1040), claimRewards (contract.go:914) *)
(** The votes so far, the consolidated slot and root, and what was claimed by each address (20 bytes) and in total. *)
Record pool := Pool {
  pl_votes : list (N * N * string);
  pl_report : option (N * string);
  pl_claimed : gmap string Z;
  pl_paid : Z }.
Definition new_pool : pool := Pool [] None ∅ 0.
Definition claimed (P : pool) (a20 : string) : Z := default 0%Z (pl_claimed P !! a20).
(** At least [q] different members voted for this root. *)
Definition quorum (q : nat) (P : pool) (slot : N) (root : string) : Prop :=
  ∃ ms, NoDup ms ∧ (q ≤ length ms)%nat ∧ ∀ i, i ∈ ms → (i, slot, root) ∈ pl_votes P.

Inductive action :=
| Vote (member : N) (slot : N) (root : string)
| Consolidate (slot : N) (root : string)
| Claim (a20 : string) (z : Z) (pre : string) (proof : list string).
(** Members may vote as often as they like. A root is consolidated with a quorum, for a later slot than the last one. A
    claim with a proof for the cumulative amount [z] pays what was not claimed yet. *)
Inductive acts (H : string → string) (q : nat) (P : pool) : action → pool → Prop :=
| acts_vote i slot root : acts H q P (Vote i slot root) (Pool ((i, slot, root) :: pl_votes P) (pl_report P) (pl_claimed P) (pl_paid P))
| acts_consolidate slot root : quorum q P slot root → (∀ k r, pl_report P = Some (k, r) → (k < slot)%N) →
    acts H q P (Consolidate slot root) (Pool (pl_votes P) (Some (slot, root)) (pl_claimed P) (pl_paid P))
| acts_claim slot root a20 z pre proof : pl_report P = Some (slot, root) → claim a20 z pre →
    Forall (λ b, String.length b = 32%nat) proof → proves H root proof pre → (claimed P a20 ≤ z)%Z →
    acts H q P (Claim a20 z pre proof)
      (Pool (pl_votes P) (pl_report P) (<[a20 := z]> (pl_claimed P)) (pl_paid P + (z - claimed P a20))).

(** ** Who takes part *)
(** A process of the deployment that watches the chain submits this root. *)
Definition submitted_by (sha H : string → string) (c0 : config) (nd0 : node) (E0 : env) (slot : N) (root : string) : Prop :=
  ∃ m e L', crew sha H c0 nd0 E0 (Up m) ∧ live sha H c0 e (Up m) = (Some (slot, root), L').
(** Members outside [bad] vote for what such a process submits; the pool received less than 2^256 wei; and nobody who
    claims has found a collision with the inputs of the tree. *)
Definition fair (sha H : string → string) (c0 : config) (nd0 : node) (E0 : env) (bad : list N) (P : pool) (x : action) : Prop :=
  match x with
  | Vote i slot root => i ∈ bad ∨ submitted_by sha H c0 nd0 E0 slot root
  | Consolidate slot root => ∀ s, chain_state c0 nd0 E0 slot s → (received s < 2 ^ 256)%Z
  | Claim a20 z pre proof => ∃ slot root s xs, pl_report P = Some (slot, root) ∧ chain_state c0 nd0 E0 slot s ∧
      hashed H s xs ∧ ¬ collision H (claim_inputs H pre proof) xs
  end.
Inductive operates (sha H : string → string) (c0 : config) (nd0 : node) (E0 : env) (q : nat) (bad : list N) : pool → Prop :=
| operates_new : operates sha H c0 nd0 E0 q bad new_pool
| operates_act P x P' : operates sha H c0 nd0 E0 q bad P → fair sha H c0 nd0 E0 bad P x → acts H q P x P' →
    operates sha H c0 nd0 E0 q bad P'.

(** What the state gives to an address, as a withdrawal address and as the fee recipient. *)
Definition due (s : ost) (a20 : string) : Z :=
  (published ("0x" +:+ hex_encode a20) s + if bool_decide (to_lower (st_fees_addr s) = "0x" +:+ hex_encode a20 ∨ to_lower (st_fees_addr s) = hex_encode a20)
   then st_fees s else 0)%Z.
(** The larger of the two. *)
Definition larger (s : ost) (a20 : string) : Z :=
  Z.max (published ("0x" +:+ hex_encode a20) s) (if bool_decide (to_lower (st_fees_addr s) = "0x" +:+ hex_encode a20 ∨ to_lower (st_fees_addr s) = hex_encode a20)
   then st_fees s else 0).
(** [s] is a state that the blocks of the chain give up to [slot], for some order of the answers about its validators at
    each block. *)
Definition possible_state (c0 : config) (nd0 : node) (E0 : env) (slot : N) (s : ost) : Prop :=
  ∃ l o, run (new_oracle c0) l o ∧ Forall (λ x, wf_env x.1 ∧ reflects E0 x.1 ∧ ∃ n, (c_dep_slot c0 ≤ n)%N ∧ fetches nd0 n x.2) l ∧
    st_latest (or_st o) = slot ∧ or_st o = s.
