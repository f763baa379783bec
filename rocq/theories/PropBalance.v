(** C108: the comparison of the state with the contract. *)
From Verif Require Export ReconSamples.

(** ** C108 *)
(** A process of the deployment that watches the chain compares its state with what the contract tells at the same block,
    whoever claimed whatever before with whatever proofs, and goes on. Missing: chained consolidations (see C16), and a
    validator that withdraws to the fee recipient. *)
Theorem C108_compares_partial sha H c0 nd0 E0 q bad P m a f20 : typed_config c0 → (0 < c_dep_slot c0)%N → one_chain E0 →
  sound_chain c0 nd0 E0 → (0 ≤ c_feepct c0)%Z → (∀ x, String.length (H x) = 32%nat) → (length bad < q)%nat →
  names f20 (c_fees_addr c0) → crew sha H c0 nd0 E0 (Up m) → operates sha H c0 nd0 E0 q bad P →
  (∀ k r, pl_report P = Some (k, r) → (k ≤ st_latest (or_st (m_or m)))%N) → compares a m → wf_env (an_env a) →
  contract_tells P (or_st (m_or m)) a → fees_apart (or_st (m_or m)) → live sha H c0 (Tick a) (Up m) = (None, Up m).
Proof. exact (λ T D C S F HH B, recon_passes sha H c0 nd0 E0 q bad T D C S F HH B P m a f20). Qed.
(** After two reports and a claim. *)
Example C108_example : typed_config cfg_loop ∧ (0 < c_dep_slot cfg_loop)%N ∧ one_chain honest ∧ sound_chain cfg_loop the_chain honest ∧
  (0 ≤ c_feepct cfg_loop)%Z ∧ (∀ x, String.length (toy x) = 32%nat) ∧ (length [7%N] < 2)%nat ∧ names fees20 (c_fees_addr cfg_loop) ∧
  ∃ P m, operates toy toy cfg_loop the_chain honest 2 [7%N] P ∧ pl_paid P = 21666%Z ∧ crew toy toy cfg_loop the_chain honest (Up m) ∧
  (∀ k r, pl_report P = Some (k, r) → (k ≤ st_latest (or_st (m_or m)))%N) ∧ compares (compared P (or_st (m_or m)) 12000003) m ∧
  contract_tells P (or_st (m_or m)) (compared P (or_st (m_or m)) 12000003) ∧ fees_apart (or_st (m_or m)) ∧ received (or_st (m_or m)) = 145787%Z.
Proof.
  split; [exact cfg_loop_typed|]. split; [reflexivity|]. split; [exact honest_one|]. split; [exact chain_is_sound|].
  split; [discriminate|]. split; [exact toy_length|]. split; [exact (le_n 2)|]. split; [apply fees_names|]. exact recon_instance.
Qed.
(** If a validator withdraws to the fee recipient the process ends at its first comparison, here before anything was
    claimed. *)
Theorem C108_refuted : ∃ c0 nd0 E0 P m a f20, typed_config c0 ∧ (0 < c_dep_slot c0)%N ∧ one_chain E0 ∧ sound_chain c0 nd0 E0 ∧ (0 ≤ c_feepct c0)%Z ∧
  names f20 (c_fees_addr c0) ∧ crew toy toy c0 nd0 E0 (Up m) ∧ operates toy toy c0 nd0 E0 1 [] P ∧
  (∀ k r, pl_report P = Some (k, r) → (k ≤ st_latest (or_st (m_or m)))%N) ∧ compares a m ∧ wf_env (an_env a) ∧ contract_tells P (or_st (m_or m)) a ∧
  ∃ fs, live toy toy c0 (Tick a) (Up m) = (None, Down fs).
Proof. exact recon_refutation. Qed.

Print Assumptions C108_compares_partial.
Print Assumptions C108_refuted.
