(** Properties C29-C34, C36, C59: saving, loading, stopping and resuming. [sha] is SHA-256 and [H] Keccak-256; the
    theorems hold for every pair of functions. Each theorem is followed by a concrete instance of its hypotheses
    and by the list of its assumptions. The instances live through the scheduled fee change of Mainnet. *)
From Verif Require Import PersistSamples.

(** ** C29 *)
Theorem C29_save_then_load sha H E b o o0 fs f20 : wf_env E → saveable (or_st o) → same_params (or_st o) (or_cfg o0) →
  st_feepct (or_st o) = c_feepct (or_cfg o0) → wf_records (or_st o) → pool_apart (or_st o) → names f20 (st_fees_addr (or_st o)) →
  load_json sha H E (save sha b o fs).2 o0 = Done (Oracle (or_cfg o0) (set_hash "" (or_st o))) true ∧
  (b = true → load_path sha H E (save sha b o fs).2 (slot_path (st_latest (or_st o))) o0 =
                Done (Oracle (or_cfg o0) (set_hash "" (or_st o))) true).
Proof. exact (λ W S, save_load sha H E b o o0 fs f20 W (saveable_range _ S)). Qed.
(** For the states a deployment reaches, under the configuration it was started with. *)
Theorem C29_reachable sha H H' E c0 l o b fs f20 : typed_config c0 → Forall typed_operation l → evolve H (new_oracle c0) l o →
  wf_env E → pool_apart (or_st o) → names f20 (c_fees_addr c0) →
  load_json sha H' E (save sha b o fs).2 (new_oracle c0) = Done (Oracle (or_cfg o) (set_hash "" (or_st o))) true.
Proof. exact (reach_load sha H H' E c0 l o b fs f20). Qed.
(** [pool_apart] cannot be dropped: with a validator withdrawing to the pool the file that was saved ends the process. *)
Theorem C29_pool_owner_refuted : ∃ c0 l o, typed_config c0 ∧ Forall typed_operation l ∧ evolve toy (new_oracle c0) l o ∧
  ∀ sha H E b fs, wf_env E → ∃ d, load_json sha H E (save sha b o fs).2 (new_oracle c0) = Dead d.
Proof. exact pool_owner_no_load. Qed.

Example C29_example : ∃ o, wf_env backward ∧ saveable (or_st o) ∧ same_params (or_st o) (or_cfg o) ∧
  st_feepct (or_st o) = c_feepct (or_cfg o) ∧ wf_records (or_st o) ∧ pool_apart (or_st o) ∧ names fees20 (st_fees_addr (or_st o)) ∧
  st_latest (or_st o) = 14082460%N ∧ pend_of (or_st o) 2 = Some 58000%Z ∧ is_Some (st_committed (or_st o) !! 14082459%N).
Proof.
  destruct sample_ready as (o1 & o & _ & _ & _ & ([Dc [P1 P2 P3 P4 P5 P6 P7] _ _] & S & R & N & A) & _ & F & _ & P). exists o. split; [apply backward_wf|].
  split; [done|]. split; [by rewrite Dc|]. split; [by rewrite Dc|]. do 3 (split; [done|]). split; [apply F|]. split; [done|].
  apply (sample_keys _ _ _ _ _ F). by left.
Qed.
Example C29_reachable_example : ∃ o, typed_config cfg_live ∧ Forall typed_operation (before_change ++ after_change) ∧
  evolve toy (new_oracle cfg_live) (before_change ++ after_change) o ∧ wf_env honest ∧ pool_apart (or_st o) ∧
  names fees20 (c_fees_addr cfg_live) ∧ c_feepct (or_cfg o) = 500%Z ∧ c_feepct cfg_live = 700%Z.
Proof.
  destruct sample_ready as (o1 & o & H1 & H2 & _ & ([Dc _ _ _] & _ & _ & _ & A) & _ & F & _). exists o.
  split; [apply cfg_live_typed|]. split; [apply Forall_app; split; [apply before_ok|apply after_ok]|].
  split; [by eapply evolve_app|]. split; [apply honest_wf|]. split; [done|]. split; [apply cfg_live_names|].
  split; [|done]. rewrite Dc. apply F.
Qed.
Print Assumptions C29_save_then_load.
Print Assumptions C29_reachable.
Print Assumptions C29_pool_owner_refuted.

(** ** C30. The comparison ignores capitalisation, hence [to_lower]. *)
Theorem C30_authentic sha H E raw o o' b : load_bytes sha H E raw o = Done o' b →
  ∃ s, unmarshal raw = Some s ∧ same_content (or_st o') s ∧
    to_lower (st_hash s) = "0x" +:+ hex_encode (sha (marshal (or_st o'))).
Proof. exact (load_authentic sha H E raw o o' b). Qed.
Theorem C30_tampered sha s raw H E o o' b s1 : in_range s → load_bytes sha H E raw o = Done o' b →
  unmarshal raw = Some s1 → to_lower (st_hash s1) = hash_text sha s →
  same_content s1 s ∨ collision sha [marshal (set_hash "" s1)] [marshal (set_hash "" s)].
Proof. exact (tamper sha s raw H E o o' b s1). Qed.
Theorem C30_refused sha s raw H E o s1 : digest sha → in_range s → unmarshal raw = Some s1 → st_hash s1 = hash_text sha s →
  ¬ same_content s1 s → ¬ collision sha [marshal (set_hash "" s1)] [marshal (set_hash "" s)] →
  load_bytes sha H E raw o = Fail o "hash mismatch".
Proof. exact (tamper_refused sha s raw H E o s1). Qed.

(** A hash function with collisions, and a file with more fees than were saved: accepted, and a collision shows. *)
Example C30_example : ∃ s s1 o', let sha := λ _, bytes 32 7 in let raw := marshal (hash_state sha s1) in
  in_range s ∧ load_bytes sha toy honest raw (new_oracle cfg_live) = Done o' true ∧
  unmarshal raw = Some (hash_state sha s1) ∧ to_lower (st_hash (hash_state sha s1)) = hash_text sha s ∧
  st_fees s1 = (st_fees s + 1)%Z ∧ ¬ same_content (hash_state sha s1) s.
Proof. exact tampered_sample. Qed.
(** A hash that tells the two apart. *)
Example C30_refused_example : ∃ sha s s1, digest sha ∧ in_range s ∧ unmarshal (marshal s1) = Some s1 ∧ st_hash s1 = hash_text sha s ∧
  ¬ same_content s1 s ∧ ¬ collision sha [marshal (set_hash "" s1)] [marshal (set_hash "" s)].
Proof. exact refused_sample. Qed.
Print Assumptions C30_authentic.
Print Assumptions C30_tampered.
Print Assumptions C30_refused.

(** ** C31. Everything but the fee matches; the fee is the configured one or the one in force at the state's slot. *)
Theorem C31_matching_partial sha H E raw o o' b : load_bytes sha H E raw o = Done o' b →
  same_params (or_st o') (or_cfg o) ∧ or_cfg o' = cset_feepct (st_feepct (or_st o')) (or_cfg o) ∧
  (st_feepct (or_st o') = c_feepct (or_cfg o) ∨
   fee_in_force (c_network (or_cfg o)) (c_feepct (or_cfg o)) (st_latest (or_st o')) (st_feepct (or_st o'))).
Proof. exact (load_params sha H E raw o o' b). Qed.
(** That it is always the one in force fails: a state past the change is accepted with the configured older fee. *)
Theorem C31_fee_in_force_refuted : ∃ c o, ∀ sha H E b fs, wf_env E → ∃ o',
  load_json sha H E (save sha b o fs).2 (new_oracle c) = Done o' true ∧
  ¬ fee_in_force (c_network c) (c_feepct c) (st_latest (or_st o')) (st_feepct (or_st o')).
Proof. exact stale_fee_loads. Qed.

Example C31_example : ∃ raw o', load_bytes toy toy honest raw (new_oracle cfg_live) = Done o' true ∧
  st_latest (or_st o') = 14082460%N ∧ st_feepct (or_st o') = 500%Z ∧ c_feepct cfg_live = 700%Z.
Proof.
  destruct sample_ready as (o1 & o & _ & _ & _ & (D & S & R & N & A) & _ & F & _).
  exists (marshal (hash_state toy (or_st o))), (rehash "" o). split; [|split; [apply F|split; [apply F|done]]].
  apply (load_deployed toy toy honest cfg_live o fees20); try done; [by apply saveable_range|apply honest_wf].
Qed.
Print Assumptions C31_matching_partial.
Print Assumptions C31_fee_in_force_refuted.

(** ** C32. The state is untouched; of the configuration only the fee may differ. *)
Theorem C32_file_partial sha H E fs p o : 
  match load_path sha H E fs p o with
  | Done o' false => o' = o
  | Fail o' e => or_st o' = or_st o ∧ or_cfg o' = cset_feepct (c_feepct (or_cfg o')) (or_cfg o)
  | _ => True
  end.
Proof. exact (path_untouched sha H E fs p o). Qed.
Theorem C32_given_slot_partial sha H E fs n o : 
  match load_given sha H E fs n o with
  | Done o' false | Fail o' _ => or_st o' = or_st o ∧ or_cfg o' = cset_feepct (c_feepct (or_cfg o')) (or_cfg o)
  | _ => True
  end.
Proof. exact (given_untouched sha H E fs n o). Qed.
(** The fee does differ. *)
Theorem C32_configuration_refuted : ∃ o c, ∀ sha H E b fs, wf_env E → ∃ o' e,
  load_json sha H E (save sha b o fs).2 (new_oracle c) = Fail o' e ∧ c_feepct c = 700%Z ∧ c_feepct (or_cfg o') = 500%Z.
Proof. exact failed_load_changes. Qed.

(** A folder with one unusable file. *)
Example C32_example : load_path toy toy honest {[ state_path := "{" ]} state_path (new_oracle cfg_live) =
    Fail (new_oracle cfg_live) "could not unmarshal json file" ∧
  load_given toy toy honest {[ slot_path 7 := "[]" ]} 8 (new_oracle cfg_live) = Done (new_oracle cfg_live) false.
Proof. split; by vm_compute. Qed.
Print Assumptions C32_file_partial.
Print Assumptions C32_given_slot_partial.
Print Assumptions C32_configuration_refuted.

(** ** C33. However often a deployment is stopped and started, it does the same as one that never stopped. *)
Theorem C33_interruptions_change_nothing sha H c0 l o : typed_config c0 → lives sha H c0 (new_oracle c0) l o →
  Forall typed_operation (work l) → ∃ p, evolve H (new_oracle c0) (work l) p ∧ same_oracle p o.
Proof. exact (λ Tc Hl T, lives_uninterrupted sha H c0 l o Tc Hl T). Qed.
(** Conversely, after any part of the work it can be stopped, started, and finish. *)
Theorem C33_resume sha H c0 l1 o1 l2 o2 : typed_config c0 → Forall typed_operation l1 →
  evolve H (new_oracle c0) l1 o1 → evolve H o1 l2 o2 →
  ∀ E b slot fs f20, wf_env E → pool_apart (or_st o1) → names f20 (c_fees_addr c0) →
  c_dry_run c0 = true ∨ (∀ k, is_Some (st_committed (or_st o1) !! k) → (k ≤ slot)%N) →
  ∃ o1' o2', startup sha H E None (Some slot) (save sha b o1 fs).2 c0 = Ok o1' ∧ evolve H o1' l2 o2' ∧ same_oracle o2' o2.
Proof. exact (resume sha H c0 l1 o1 l2 o2). Qed.

(** Stopped after the first checkpoint; the fee change is processed by the second process. *)
Example C33_example : ∃ o, typed_config cfg_live ∧ 
  lives toy toy cfg_live (new_oracle cfg_live) stop_between o ∧ Forall typed_operation (work stop_between) ∧
  st_latest (or_st o) = 14082460%N ∧ pend_of (or_st o) 2 = Some 58000%Z.
Proof. exact stopped_sample. Qed.
Example C33_resume_example : ∃ o1 o2, evolve toy (new_oracle cfg_live) before_change o1 ∧ evolve toy o1 after_change o2 ∧
  typed_config cfg_live ∧ Forall typed_operation before_change ∧ wf_env honest ∧ pool_apart (or_st o1) ∧
  names fees20 (c_fees_addr cfg_live) ∧ (∀ k, is_Some (st_committed (or_st o1) !! k) → (k ≤ 14082459)%N) ∧
  pend_of (or_st o2) 2 = Some 58000%Z.
Proof.
  destruct sample_ready as (o1 & o & H1 & H2 & (_ & _ & _ & _ & A) & _ & F & _ & _ & P). exists o1, o. do 2 (split; [done|]).
  split; [apply cfg_live_typed|]. split; [apply before_ok|]. split; [apply honest_wf|]. split; [done|].
  split; [apply cfg_live_names|]. split; [|done]. intros k Hk. apply (sample_keys _ _ _ _ _ F), elem_of_list_singleton in Hk. by subst.
Qed.
Print Assumptions C33_interruptions_change_nothing.
Print Assumptions C33_resume.

(** ** C34. [k] writes of the save complete, the next one stops after [cut] bytes. *)
Theorem C34_never_partial_content sha H E b o k cut fs onchain c o' : in_range (or_st o) →
  startup sha H E None onchain (save_crash sha b o k cut fs) c = Ok o' →
  same_content (or_st o') (or_st o) ∨ ∃ p raw s, fs !! p = Some raw ∧ unmarshal raw = Some s ∧ same_content (or_st o') s.
Proof. exact (crash_startup sha H E b o k cut fs onchain c o'). Qed.
Theorem C34_torn_refused sha H E b o cut fs onchain c : in_range (or_st o) →
  (cut < String.length (marshal (hash_state sha (or_st o))))%nat →
  ∃ e, startup sha H E None onchain (save_crash sha b o 0 cut fs) c = Die (Fatal e).
Proof. exact (torn_startup sha H E b o cut fs onchain c). Qed.
(** The service does not survive it, though a complete older copy lies in the folder from which it started before. *)
Theorem C34_survives_refuted : ∃ c o1 o2 l1 l2, typed_config c ∧ Forall typed_operation (l1 ++ l2) ∧
  evolve toy (new_oracle c) l1 o1 ∧ evolve toy o1 l2 o2 ∧
  ∀ sha H E, wf_env E → let fs := (save sha true o1 ∅).2 in
    (∃ o', startup sha H E None (Some (st_latest (or_st o1))) fs c = Ok o' ∧ same_content (or_st o') (or_st o1)) ∧
    (∃ e, startup sha H E None (Some (st_latest (or_st o1))) (save_crash sha true o2 0 10 fs) c = Die (Fatal e)) ∧
    save_crash sha true o2 0 10 fs !! slot_path (st_latest (or_st o1)) = Some (marshal (hash_state sha (or_st o1))).
Proof. exact torn_sample. Qed.

(** The copy of the slot is torn, state.json is complete. *)
Example C34_example : ∃ o o', in_range (or_st o) ∧ (10 < String.length (marshal (hash_state toy (or_st o))))%nat ∧
  startup toy toy honest None (Some 14082460%N) (save_crash toy true o 1 10 ∅) cfg_live = Ok o' ∧
  same_content (or_st o') (or_st o) ∧ pend_of (or_st o) 2 = Some 58000%Z.
Proof. exact second_torn. Qed.
Print Assumptions C34_never_partial_content.
Print Assumptions C34_torn_refused.
Print Assumptions C34_survives_refuted.

(** ** C36 *)
Theorem C36_restart sha H c0 l o : typed_config c0 → Forall typed_operation (work l) → lives sha H c0 (new_oracle c0) l o →
  ∀ E b slot fs f20, wf_env E → pool_apart (or_st o) → names f20 (c_fees_addr c0) →
  c_dry_run c0 = true ∨ (∀ k, is_Some (st_committed (or_st o) !! k) → (k ≤ slot)%N) →
  ∃ o', startup sha H E None (Some slot) (save sha b o fs).2 c0 = Ok o' ∧ same_oracle o' o.
Proof. exact (reach_startup sha H c0 l o). Qed.
(** Going back to an older copy works between states of the same fee. *)
Theorem C36_rollback_partial sha H E c0 l1 l2 o1 o2 fs f20 k b : typed_config c0 →
  Forall typed_operation l1 → evolve H (new_oracle c0) l1 o1 → Forall typed_operation l2 → evolve H (new_oracle c0) l2 o2 →
  wf_env E → pool_apart (or_st o1) → pool_apart (or_st o2) → names f20 (c_fees_addr c0) → c_dry_run c0 = false →
  st_feepct (or_st o1) = st_feepct (or_st o2) → st_latest (or_st o1) ≠ st_latest (or_st o2) →
  is_Some (st_committed (or_st o2) !! k) → (st_latest (or_st o1) < k)%N →
  ∃ o', startup sha H E None (Some (st_latest (or_st o1))) (save sha b o2 (save sha true o1 fs).2).2 c0 = Ok o' ∧ same_oracle o' o1.
Proof. exact (reach_rollback sha H E c0 l1 l2 o1 o2 fs f20 k b). Qed.
(** Across the change it does not. *)
Theorem C36_rollback_refuted : ∃ c0 l1 l2 o1 o2, typed_config c0 ∧ c_dry_run c0 = false ∧
  Forall typed_operation (l1 ++ l2) ∧ evolve toy (new_oracle c0) l1 o1 ∧ evolve toy o1 l2 o2 ∧
  pool_apart (or_st o1) ∧ pool_apart (or_st o2) ∧ names fees20 (c_fees_addr c0) ∧
  ∀ sha H E b, wf_env E →
    ∃ e, startup sha H E None (Some (st_latest (or_st o1))) (save sha b o2 (save sha true o1 ∅).2).2 c0 = Die (Fatal e).
Proof. exact rollback_sample. Qed.

(** A restart of the deployment that has been restarted and has changed its fee. *)
Example C36_example : ∃ o, typed_config cfg_live ∧ Forall typed_operation (work stop_between) ∧
  lives toy toy cfg_live (new_oracle cfg_live) stop_between o ∧ wf_env backward ∧ pool_apart (or_st o) ∧
  names fees20 (c_fees_addr cfg_live) ∧ (∀ k, is_Some (st_committed (or_st o) !! k) → (k ≤ 14082460)%N) ∧
  st_feepct (or_st o) = 500%Z ∧ c_feepct cfg_live = 700%Z.
Proof. exact restarted_sample. Qed.
(** Two checkpoints after the change, the contract having only the first. *)
Example C36_rollback_example : ∃ o1 o2,
  evolve toy (new_oracle cfg_live) (before_change ++ after_change) o1 ∧
  evolve toy (new_oracle cfg_live) (before_change ++ after_change ++ one_more) o2 ∧
  Forall typed_operation (before_change ++ after_change) ∧ Forall typed_operation (before_change ++ after_change ++ one_more) ∧
  pool_apart (or_st o1) ∧ pool_apart (or_st o2) ∧ c_dry_run cfg_live = false ∧
  st_feepct (or_st o1) = st_feepct (or_st o2) ∧ st_latest (or_st o1) = 14082460%N ∧ st_latest (or_st o2) = 14082461%N ∧
  is_Some (st_committed (or_st o2) !! 14082461%N).
Proof. exact two_checkpoints_after. Qed.
Print Assumptions C36_restart.
Print Assumptions C36_rollback_partial.
Print Assumptions C36_rollback_refuted.

(** ** C59. Every reachable state freezes exactly when no validator withdraws to the pool ... *)
Theorem C59_freezes_iff H c0 l o E f20 : evolve H (new_oracle c0) l o →
  wf_env E → names f20 (c_fees_addr c0) → (∃ s b, freeze H E (or_st o) = Ok (s, b)) ↔ pool_apart (or_st o).
Proof. exact (freezes_iff H c0 l o E f20). Qed.
(** ... and once one does, the deployment neither freezes nor starts ever again. *)
Theorem C59_never_again sha H c0 l o l' o' : typed_config c0 → Forall typed_operation l → evolve H (new_oracle c0) l o →
  ¬ pool_apart (or_st o) → Forall typed_operation l' → evolve H o l' o' →
  ∀ E b onchain fs, wf_env E → (∃ d, freeze H E (or_st o') = Die d) ∧
    (∃ d, startup sha H E None onchain (save sha b o' fs).2 c0 = Die d).
Proof. exact (never_again sha H c0 l o l' o'). Qed.
(** One block proposed by a validator that never asked for anything brings it about. *)
Theorem C59_cannot_be_stopped_refuted : ∃ c0 i fb o, typed_config c0 ∧ typed_block fb ∧
  evolve toy (new_oracle c0) [Process honest fb] o ∧ fb_duty_index fb = i ∧ ev_subscribe (fb_events fb) = [] ∧
  st_vals (or_st (new_oracle c0)) !! i = None ∧ ∀ E, wf_env E → ∃ d, freeze toy E (or_st o) = Die d.
Proof. exact pool_owner_attack. Qed.

Example C59_example : ∃ o,
  evolve toy (new_oracle cfg_live) (before_change ++ after_change) o ∧ wf_env honest ∧
  names fees20 (c_fees_addr cfg_live) ∧ pool_apart (or_st o).
Proof.
  destruct sample_ready as (o1 & o & H1 & H2 & _ & (_ & _ & _ & _ & A) & _). exists o.
  split; [by eapply evolve_app|]. split; [apply honest_wf|]. split; [apply cfg_live_names|done].
Qed.
(** The attacker's block, then a slot with two ordinary subscriptions. *)
Example C59_never_again_example : ∃ o o', typed_config cfg_live ∧ Forall typed_operation pool_owner_work ∧
  evolve toy (new_oracle cfg_live) pool_owner_work o ∧ ¬ pool_apart (or_st o) ∧ Forall typed_operation afterwards ∧
  evolve toy o afterwards o' ∧ map_size (st_vals (or_st o')) = 3%nat.
Proof. exact attacked_sample. Qed.
Print Assumptions C59_freezes_iff.
Print Assumptions C59_never_again.
Print Assumptions C59_cannot_be_stopped_refuted.
