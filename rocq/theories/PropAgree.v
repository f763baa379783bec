(** C74: all oracles of a deployment report the same root. *)
From Verif Require Export AgreeSamples.

(** Two processes of a deployment that watch the same chain, whatever became of each of them before (crashes, restarts
    from nothing, from own files or from another one's state; requests left unanswered; map iterations and answers in any
    order), and that report the same slot, report the same root. Missing: chained consolidations (see C16). *)
Theorem C74_same_root_partial sha H c0 nd0 E0 m1 m2 e1 e2 slot b1 b2 L1 L2 : typed_config c0 → (0 < c_dep_slot c0)%N → one_chain E0 →
  crew sha H c0 nd0 E0 (Up m1) → crew sha H c0 nd0 E0 (Up m2) →
  live sha H c0 e1 (Up m1) = (Some (slot, b1), L1) → live sha H c0 e2 (Up m2) = (Some (slot, b2), L2) → b1 = b2.
Proof. exact (crew_roots sha H c0 nd0 E0 m1 m2 e1 e2 slot b1 b2 L1 L2). Qed.
(** One reported the first checkpoint, the other one lost its node, started again, and iterates the other way round. *)
Example C74_both_report : ∃ m1 m2 b1 b2 L1 L2, typed_config cfg_loop ∧ (0 < c_dep_slot cfg_loop)%N ∧ one_chain honest ∧
  crew toy toy cfg_loop the_chain honest (Up m1) ∧ crew toy toy cfg_loop the_chain honest (Up m2) ∧
  live toy toy cfg_loop (told_by honest the_chain first_on) (Up m1) = (Some (12000003%N, b1), L1) ∧
  live toy toy cfg_loop (told_by backward the_chain first_on) (Up m2) = (Some (12000003%N, b2), L2).
Proof. exact both_report. Qed.

(** At the same slot they have the same state, except for the recorded hash and which checkpoints are frozen (see C41). *)
Theorem C74_same_state_partial sha H c0 nd0 E0 m1 m2 : typed_config c0 → (0 < c_dep_slot c0)%N → one_chain E0 →
  crew sha H c0 nd0 E0 (Up m1) → crew sha H c0 nd0 E0 (Up m2) →
  st_latest (or_st (m_or m1)) = st_latest (or_st (m_or m2)) → same_work (m_or m1) (m_or m2).
Proof. exact (crew_states sha H c0 nd0 E0 m1 m2). Qed.
(** Checkpoints that both have are the same, claims and proofs included. *)
Theorem C74_same_checkpoints_partial sha H c0 nd0 E0 m1 m2 k c1 c2 : typed_config c0 → (0 < c_dep_slot c0)%N → one_chain E0 →
  crew sha H c0 nd0 E0 (Up m1) → crew sha H c0 nd0 E0 (Up m2) →
  st_committed (or_st (m_or m1)) !! k = Some c1 → st_committed (or_st (m_or m2)) !! k = Some c2 → c1 = c2.
Proof. exact (crew_checkpoints sha H c0 nd0 E0 m1 m2 k c1 c2). Qed.
(** A third process, synced from the second, next to the first. *)
Example C74_third_process : ∃ m1 m3, crew toy toy cfg_loop the_chain honest (Up m1) ∧ crew toy toy cfg_loop the_chain honest (Up m3) ∧
  m_pc m3 = Begin ∧ st_latest (or_st (m_or m1)) = 12000003%N ∧ st_latest (or_st (m_or m3)) = 12000003%N ∧ st_vals (or_st (m_or m1)) ≠ ∅ ∧
  is_Some (st_committed (or_st (m_or m1)) !! 12000003%N) ∧ is_Some (st_committed (or_st (m_or m3)) !! 12000003%N).
Proof. exact three_states. Qed.

(** With a consolidation into a validator that has exited too, two oracles that process the same blocks, given the same
    answers in another order, compute different roots for the same checkpoint: the pool's fees differ. *)
Theorem C74_chained_refuted : ∃ c0 l1 l2 o1 o2 c1 c2, typed_config c0 ∧ wf_envs l1 ∧ wf_envs l2 ∧ same_history l1 l2 ∧
  run (new_oracle c0) l1 o1 ∧ run (new_oracle c0) l2 o2 ∧ st_latest (or_st o1) = st_latest (or_st o2) ∧
  is_checkpoint o1 = Ok (Some true) ∧ is_checkpoint o2 = Ok (Some true) ∧
  snapshot toy honest (or_st o1) = Ok (Some c1) ∧ snapshot toy honest (or_st o2) = Ok (Some c2) ∧
  oc_root c1 ≠ oc_root c2 ∧ oc_leafs c1 !! c_fees_addr c0 ≠ oc_leafs c2 !! c_fees_addr c0.
Proof. exact chained_roots. Qed.

Print Assumptions C74_chained_refuted.
Print Assumptions C74_same_root_partial.
Print Assumptions C74_same_state_partial.
Print Assumptions C74_same_checkpoints_partial.
