(** C80, C81: the contract and the oracles together. *)
From Verif Require Export ShadowSamples.

(** ** C80 *)
(** Fewer than [q] members are dishonest, the others run processes of the deployment that watch the chain: the consolidated
    root is that of the chain's state at the slot. Missing here and below: chained consolidations (see C16). *)
Theorem C80_root_partial sha H c0 nd0 E0 q bad P slot root : typed_config c0 → (0 < c_dep_slot c0)%N → one_chain E0 →
  sound_chain c0 nd0 E0 → (0 ≤ c_feepct c0)%Z → (∀ x, String.length (H x) = 32%nat) → (length bad < q)%nat →
  operates sha H c0 nd0 E0 q bad P → pl_report P = Some (slot, root) →
  ∃ s E c, chain_state c0 nd0 E0 slot s ∧ wf_env E ∧ snapshot H E s = Ok (Some c) ∧ oc_root c = "0x" +:+ hex_encode root.
Proof. exact (λ T D C S F HH B, one_root sha H c0 nd0 E0 q bad T D C S F HH B P slot root). Qed.
(** Whatever was claimed with whatever proofs, the contract has paid no more than the pool received, and to nobody more
    than the chain's state gives them. *)
Theorem C80_solvent_partial sha H c0 nd0 E0 q bad P slot root : typed_config c0 → (0 < c_dep_slot c0)%N → one_chain E0 →
  sound_chain c0 nd0 E0 → (0 ≤ c_feepct c0)%Z → (∀ x, String.length (H x) = 32%nat) → (length bad < q)%nat →
  operates sha H c0 nd0 E0 q bad P → pl_report P = Some (slot, root) →
  ∃ s, chain_state c0 nd0 E0 slot s ∧ (pl_paid P ≤ received s)%Z ∧ ∀ a20, (claimed P a20 ≤ due s a20)%Z.
Proof. exact (λ T D C S F HH B, pool_solvent sha H c0 nd0 E0 q bad T D C S F HH B P slot root). Qed.
(** On every chain, chained consolidations included, it is the root of a state that the blocks of the chain give for some
    order of the answers about its validators. *)
Theorem C80_any_root sha H c0 nd0 E0 q bad P slot root : typed_config c0 → (0 < c_dep_slot c0)%N → (length bad < q)%nat →
  operates sha H c0 nd0 E0 q bad P → pl_report P = Some (slot, root) →
  ∃ s E c, possible_state c0 nd0 E0 slot s ∧ wf_env E ∧ snapshot H E s = Ok (Some c) ∧ oc_root c = "0x" +:+ hex_encode root.
Proof. exact (λ T D, possible_root sha H c0 nd0 E0 T D q bad P slot root). Qed.
(** That order matters: a consolidation into a validator that has exited too, no dishonest member, and the root that is
    consolidated is not that of the chain's state in the canonical order. (C74_chained_refuted) *)
Theorem C80_root_refuted : ∃ c0 nd0 E0 P slot root s E c, typed_config c0 ∧ (0 < c_dep_slot c0)%N ∧ wf_env E0 ∧ reflects E0 E0 ∧ sound_chain c0 nd0 E0 ∧
  (0 ≤ c_feepct c0)%Z ∧ operates toy toy c0 nd0 E0 1 [] P ∧ pl_report P = Some (slot, root) ∧
  chain_state c0 nd0 E0 slot s ∧ wf_env E ∧ snapshot toy E s = Ok (Some c) ∧ oc_root c ≠ "0x" +:+ hex_encode root.
Proof. exact split_refutation. Qed.
(** Before the first report nothing is paid. *)
Theorem C80_nothing_before sha H c0 nd0 E0 q bad P : operates sha H c0 nd0 E0 q bad P → pl_report P = None → pl_paid P = 0%Z.
Proof. exact (unpaid sha H c0 nd0 E0 q bad P). Qed.
(** After a first vote. *)
Example C80_voted : ∃ P, operates toy toy cfg_loop the_chain honest 2 [7%N] P ∧ length (pl_votes P) = 1%nat ∧ pl_report P = None.
Proof.
  eexists. split; [eapply (operates_act _ _ _ _ _ _ _ _ (Vote 7 12000003 "wrong")); [apply operates_new|left; left|constructor]|done].
Qed.
(** The chain's state at a slot is unique. *)
Theorem C80_one_state c0 nd0 E0 slot s1 s2 : typed_config c0 → (0 < c_dep_slot c0)%N →
  chain_state c0 nd0 E0 slot s1 → chain_state c0 nd0 E0 slot s2 → s1 = s2.
Proof. exact (λ T D, chain_unique c0 nd0 E0 T D slot s1 s2). Qed.
(** Two honest members of three, one vote for a wrong root, one claim. *)
Example C80_example : typed_config cfg_loop ∧ (0 < c_dep_slot cfg_loop)%N ∧ one_chain honest ∧ sound_chain cfg_loop the_chain honest ∧
  (0 ≤ c_feepct cfg_loop)%Z ∧ (∀ x, String.length (toy x) = 32%nat) ∧ (length [7%N] < 2)%nat ∧
  ∃ P root wrong, operates toy toy cfg_loop the_chain honest 2 [7%N] P ∧ pl_report P = Some (12000003%N, root) ∧
    (7%N, 12000003%N, wrong) ∈ pl_votes P ∧ wrong ≠ root ∧ pl_paid P = 21666%Z ∧ claimed P (owner 1) = 21666%Z.
Proof.
  split; [exact cfg_loop_typed|]. split; [reflexivity|]. split; [exact honest_one|]. split; [exact chain_is_sound|].
  split; [discriminate|]. split; [exact toy_length|]. split; [exact (le_n 2)|]. exact contract_history.
Qed.
Example C80_state : chain_state cfg_loop the_chain honest 12000003 end_state ∧ received end_state = 145787%Z ∧ due end_state (owner 1) = 21666%Z.
Proof. split; [exact end_chain|]. by vm_compute. Qed.

(** ** C81 *)
(** At any time, everybody whom the chain's state at the consolidated slot gives something can claim it, in full, whatever
    they and others claimed before. Missing: see C80, and a validator that withdraws to the fee recipient (see C23). *)
Theorem C81_claimable_partial sha H c0 nd0 E0 q bad P slot root s f20 a20 z : typed_config c0 → (0 < c_dep_slot c0)%N → one_chain E0 →
  sound_chain c0 nd0 E0 → (0 ≤ c_feepct c0)%Z → (∀ x, String.length (H x) = 32%nat) → (length bad < q)%nat →
  operates sha H c0 nd0 E0 q bad P → pl_report P = Some (slot, root) →
  chain_state c0 nd0 E0 slot s → fees_apart s → names f20 (c_fees_addr c0) → entitled s a20 z →
  ∃ pre proof P', acts H q P (Claim a20 z pre proof) P' ∧ pl_paid P' = (pl_paid P + (z - claimed P a20))%Z ∧ claimed P' a20 = z.
Proof. exact (λ T D C S F HH B, can_claim sha H c0 nd0 E0 q bad T D C S F HH B P slot root s f20 a20 z). Qed.
(** The fee recipient, after the claim above. *)
Example C81_example : chain_state cfg_loop the_chain honest 12000003 end_state ∧ fees_apart end_state ∧ names fees20 (c_fees_addr cfg_loop) ∧
  entitled end_state fees20 (st_fees end_state) ∧ (st_fees end_state > 0)%Z.
Proof.
  split; [exact end_chain|]. split; [apply apart_sound; by vm_compute|]. split; [apply fees_names|]. split; [|by vm_compute].
  left. split; [|reflexivity]. split; [reflexivity|]. left. vm_compute. reflexivity.
Qed.
(** If one of them withdraws to the fee recipient: that address is never paid more than the larger of its two amounts, on
    whatever chain of the kind above, so the smaller one is lost to it. *)
Theorem C81_larger_partial sha H c0 nd0 E0 q bad P slot root s a20 : typed_config c0 → (0 < c_dep_slot c0)%N → one_chain E0 →
  sound_chain c0 nd0 E0 → (0 ≤ c_feepct c0)%Z → (∀ x, String.length (H x) = 32%nat) → (length bad < q)%nat →
  operates sha H c0 nd0 E0 q bad P → pl_report P = Some (slot, root) → chain_state c0 nd0 E0 slot s → (claimed P a20 ≤ larger s a20)%Z.
Proof. exact (λ T D C S F HH B, paid_larger sha H c0 nd0 E0 q bad T D C S F HH B P slot root s a20). Qed.
Example C81_amounts : chain_state cfg_shadow the_chain honest 12000003 shadow_state ∧ due shadow_state (owner 1) = 31672%Z ∧
  larger shadow_state (owner 1) = 21666%Z.
Proof. split; [exact shadow_chain|exact shadow_amounts]. Qed.
(** So the claim does not hold for all states: here the address has claimed what its validator earned, and nobody can make a
    claim for the pool fees that the state gives it. *)
Theorem C81_refuted : ∃ c0 nd0 E0 P slot root s f20 a20 z, typed_config c0 ∧ (0 < c_dep_slot c0)%N ∧ one_chain E0 ∧ sound_chain c0 nd0 E0 ∧
  (0 ≤ c_feepct c0)%Z ∧ operates toy toy c0 nd0 E0 1 [] P ∧ pl_report P = Some (slot, root) ∧ chain_state c0 nd0 E0 slot s ∧
  names f20 (c_fees_addr c0) ∧ entitled s a20 z ∧ (claimed P a20 + z = due s a20)%Z ∧ (0 < z)%Z ∧
  ∀ pre proof P', ¬ acts toy 1 P (Claim a20 z pre proof) P'.
Proof. exact claim_refutation. Qed.

(** ** C24 *)
(** What the contract takes: every element of a published proof is a word of 32 bytes. *)
Theorem C24_words H E s c a p : (∀ x, String.length (H x) = 32%nat) → snapshot H E s = Ok (Some c) →
  oc_proofs c !! a = Some ((λ b, "0x" +:+ hex_encode b) <$> p) → Forall (λ b, String.length b = 32%nat) p.
Proof. exact (λ HH, snapshot_words H HH E s c a p). Qed.
Example C24_words_example : (∀ x, String.length (toy x) = 32%nat) ∧ ∃ c, snapshot toy honest (after Mainnet 12000001 6) = Ok (Some c) ∧
  (list_fmap _ _ String.length <$> oc_proofs c !! "0x1515151515151515151515151515151515151515") = Some [66; 66; 66]%nat.
Proof. split; [exact toy_length|]. apply (ex_snapshot (λ c, _)). by vm_compute. Qed.

Print Assumptions C80_root_partial.
Print Assumptions C80_solvent_partial.
Print Assumptions C80_any_root.
Print Assumptions C80_root_refuted.
Print Assumptions C80_nothing_before.
Print Assumptions C80_one_state.
Print Assumptions C81_claimable_partial.
Print Assumptions C81_larger_partial.
Print Assumptions C81_refuted.
Print Assumptions C24_words.
