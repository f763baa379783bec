(** Properties of checkpoint sync: C71, C72, C73. *)
From Verif Require Import ApiSamples.
From Verif Require Export SyncSamples.

(** ** C71: checkpoint sync gives exactly the provider's state *)

(** A process that fetches the state of a running oracle of the same deployment starts with that oracle's state and
    with its fee percentage, whatever lies in its own folder. *)
Theorem C71_synced sha H H' E E' c0 c1 l o w r slot fs f20 : typed_config c0 → Forall typed_operation (work l) →
  lives sha H c0 (new_oracle c0) l o → same_setup c0 c1 → wf_env E → pool_apart (or_st o) → names f20 (c_fees_addr c0) →
  c_dry_run c1 = true ∨ not_ahead (or_st o) slot → serve sha E' GetState w o = Ok r →
  sync_startup sha H' E (sent_state r) (Some slot) fs c1 =
    Ok (Oracle (cset_feepct (st_feepct (or_st o)) c1) (set_hash "" (or_st o))).
Proof. exact (synced sha H H' E E' c0 c1 l o w r slot fs f20). Qed.
(** The provider is past the change of the fee, the client's configuration still has the old one. *)
Example C71_past_the_fee_change : ∃ o r, typed_config cfg_live ∧ Forall typed_operation (work stop_between) ∧
  lives toy toy cfg_live (new_oracle cfg_live) stop_between o ∧ same_setup cfg_live cfg_live ∧ wf_env backward ∧ pool_apart (or_st o) ∧
  names fees20 (c_fees_addr cfg_live) ∧ not_ahead (or_st o) 14082460 ∧
  serve toy honest GetState (plain_wire 14082470) o = Ok r ∧ st_feepct (or_st o) = 500%Z ∧ c_feepct cfg_live = 700%Z.
Proof. exact sync_sample. Qed.
(** From there it does the same work with the same results. *)
Theorem C71_goes_on sha H c0 l1 o1 l2 o2 E E' w r slot fs f20 : typed_config c0 → Forall typed_operation l1 →
  evolve H (new_oracle c0) l1 o1 → evolve H o1 l2 o2 → wf_env E → pool_apart (or_st o1) → names f20 (c_fees_addr c0) →
  c_dry_run c0 = true ∨ not_ahead (or_st o1) slot → serve sha E' GetState w o1 = Ok r →
  ∃ o1' o2', sync_startup sha H E (sent_state r) (Some slot) fs c0 = Ok o1' ∧ evolve H o1' l2 o2' ∧ same_oracle o2' o2.
Proof. exact (synced_goes_on sha H c0 l1 o1 l2 o2 E E' w r slot fs f20). Qed.
Example C71_over_the_change : ∃ o1 o2 r, Forall typed_operation before_change ∧ evolve toy (new_oracle cfg_live) before_change o1 ∧
  evolve toy o1 after_change o2 ∧ pool_apart (or_st o1) ∧ not_ahead (or_st o1) 14082459 ∧
  serve toy honest GetState (plain_wire 14082470) o1 = Ok r ∧ pend_of (or_st o2) 2 = Some 58000%Z.
Proof. exact goes_on_sample. Qed.
(** An answer that was cut short anywhere before the final line break ends the process. *)
Theorem C71_truncated sha H E s p x onchain fs c : in_range s → state_body s = p +:+ x →
  (String.length p < String.length (state_body s) - 1)%nat →
  ∃ e, sync_startup sha H E (Fetched 200 (Some p)) onchain fs c = Die (Fatal e).
Proof. exact (body_cut sha H E s p x onchain fs c). Qed.
Example C71_cut : ∃ s p x, in_range s ∧ st_latest s = 14082459%N ∧ state_body s = p +:+ x ∧ p ≠ "" ∧
  (String.length p < String.length (state_body s) - 1)%nat.
Proof. exact cut_sample. Qed.

(** ** C72: syncing from a running oracle works at any time and loses no checkpoint *)

(** As stated it is false, twice. First: a provider that has frozen a checkpoint which the contract does not have yet.
    A client outside dry-run mode and without files of its own cannot start; [slot] is a checkpoint of the provider. *)
Theorem C72_ahead_refuted : ∃ c0 l o r slot, typed_config c0 ∧ Forall typed_operation (work l) ∧ lives toy toy c0 (new_oracle c0) l o ∧
  serve toy honest GetState (plain_wire 14082470) o = Ok r ∧
  is_Some (st_committed (or_st o) !! slot) ∧ (slot ≤ st_latest (or_st o))%N ∧
  ∀ E, wf_env E → ∃ e, sync_startup toy toy E (sent_state r) (Some slot) ∅ c0 = Die (Fatal e).
Proof. exact ahead_refutation. Qed.
(** In general: *)
Theorem C72_ahead_dies sha H H' E E' c0 c1 l o w r slot fs f20 k : typed_config c0 → Forall typed_operation (work l) →
  lives sha H c0 (new_oracle c0) l o → same_setup c0 c1 → wf_env E → pool_apart (or_st o) → names f20 (c_fees_addr c0) →
  c_dry_run c1 = false → is_Some (st_committed (or_st o) !! k) → (slot < k)%N → no_copies fs slot (c_cp_size c0) →
  serve sha E' GetState w o = Ok r →
  ∃ e, sync_startup sha H' E (sent_state r) (Some slot) fs c1 = Die (Fatal e).
Proof. exact (ahead_dies sha H H' E E' c0 c1 l o w r slot fs f20 k). Qed.
Example C72_ahead : ∃ o r, lives toy toy cfg_live (new_oracle cfg_live) stop_between o ∧ pool_apart (or_st o) ∧
  c_dry_run cfg_live = false ∧ is_Some (st_committed (or_st o) !! 14082460%N) ∧ no_copies ∅ 14082459 (c_cp_size cfg_live) ∧
  serve toy honest GetState (plain_wire 14082470) o = Ok r.
Proof. exact ahead_sample. Qed.
(** Second: a provider that has processed a checkpoint slot and not frozen it yet. The client starts, and never freezes
    that checkpoint, though there are validators to pay. *)
Theorem C72_window_refuted : ∃ c0 l1 m1 E w r raw onchain l2 m2 k k', typed_config c0 ∧ (0 < c_dep_slot c0)%N ∧
  Forall typed_event (l1 ++ l2) ∧ lifetime toy toy c0 l1 (Down ∅) = ([], Up m1) ∧ checkpoint_slot c0 k ∧
  st_latest (or_st (m_or m1)) = k ∧ st_vals (or_st (m_or m1)) ≠ ∅ ∧
  serve toy E GetState w (m_or m1) = Ok r ∧ sent_state r = Fetched 200 (Some raw) ∧
  lifetime toy toy c0 (Start honest (Some raw) onchain :: l2) (Down ∅) = ([], Up m2) ∧
  st_committed (or_st (m_or m2)) !! k = None ∧ (k < k')%N ∧ is_Some (st_committed (or_st (m_or m2)) !! k').
Proof. exact window_skips. Qed.
(** Missing: the window, and that the start succeeds when the provider is ahead. If states are served and signals come
    outside the window only, then every process of a deployment has frozen every checkpoint that its history passed with
    validators to pay, whichever of them synced from which. *)
Theorem C72_no_checkpoint_lost_partial sha H c0 m : typed_config c0 → (0 < c_dep_slot c0)%N → fleet sha H c0 (λ m, ¬ in_window c0 m) (Up m) →
  ∃ ops, lived H c0 ops (m_or m) ∧ ∀ k, passes H c0 ops k → (in_window c0 m → k ≠ st_latest (or_st (m_or m))) →
    is_Some (st_committed (or_st (m_or m)) !! k).
Proof. exact (fleet_checkpoints sha H c0 m). Qed.
Example C72_second_process : fleet toy toy cfg_loop (λ m, ¬ in_window cfg_loop m) (Up synced_machine) ∧
  is_Some (st_committed (or_st (m_or synced_machine)) !! 12000001%N).
Proof. exact second_fleet. Qed.

(** ** C73: a state outside the history of the deployment is refused *)

(** As stated it is false: the hash is only that of the text itself. A state with one wei more of fees than the
    provider has, with its own hash, is taken over. *)
Theorem C73_forged_state_accepted_refuted : ∃ c0 l o s, typed_config c0 ∧ Forall typed_operation l ∧ evolve toy (new_oracle c0) l o ∧
  st_latest s = st_latest (or_st o) ∧ st_fees s = (st_fees (or_st o) + 1)%Z ∧
  ∀ E, wf_env E → ∃ o', sync_startup toy toy E (Fetched 200 (Some (state_body (hash_state toy s)))) (Some 14082459%N) ∅ c0 = Ok o' ∧
    same_content (or_st o') s.
Proof. exact forged_sample. Qed.
(** In general: any state with the right parameters is accepted. *)
Theorem C73_trusts_provider sha H E s c1 slot fs f20 : in_range s → same_params s c1 →
  st_feepct s = c_feepct c1 → wf_env E → wf_records s → pool_apart s → names f20 (st_fees_addr s) →
  c_dry_run c1 = true ∨ not_ahead s slot →
  sync_startup sha H E (Fetched 200 (Some (state_body (hash_state sha s)))) (Some slot) fs c1 = Ok (Oracle c1 (set_hash "" s)).
Proof. exact (trusts sha H E s c1 slot fs f20). Qed.
Example C73_some_state : ∃ o, in_range (or_st o) ∧ same_params (or_st o) cfg_live ∧ st_feepct (or_st o) = c_feepct cfg_live ∧
  wf_records (or_st o) ∧ pool_apart (or_st o) ∧ names fees20 (st_fees_addr (or_st o)) ∧ not_ahead (or_st o) 14082459.
Proof. exact trust_sample. Qed.
(** Missing: providers outside the deployment. As long as the processes of a deployment only sync from each other, each
    of them has a state of the history, and whatever it submits is the root of such a state at a checkpoint slot. *)
Theorem C73_fleet_history_partial sha H c0 P m : typed_config c0 → (0 < c_dep_slot c0)%N → fleet sha H c0 P (Up m) →
  ∃ ops, lived H c0 ops (m_or m).
Proof. exact (fleet_history sha H c0 P m). Qed.
Theorem C73_fleet_submissions_partial sha H c0 P m e slot bytes L' : typed_config c0 → (0 < c_dep_slot c0)%N → fleet sha H c0 P (Up m) →
  live sha H c0 e (Up m) = (Some (slot, bytes), L') →
  c_dry_run c0 = false ∧ (∃ a root os, e = Tick a ∧ an_onchain a = Some (root, os) ∧ slot = u64_add os (c_cp_size c0)) ∧
  checkpoint_slot c0 slot ∧
  ∃ ops p E c, evolve H (new_oracle c0) ops p ∧ st_latest (or_st p) = slot ∧ wf_env E ∧ snapshot H E (or_st p) = Ok (Some c) ∧
    oc_root c = "0x" +:+ hex_encode bytes.
Proof. exact (fleet_submission sha H c0 P m e slot bytes L'). Qed.
(** The second process of C72 submits the checkpoint after those it got from the provider. *)
Example C73_second_process_submits : ∃ m bytes L', fleet toy toy cfg_loop (λ m, ¬ in_window cfg_loop m) (Up m) ∧
  live toy toy cfg_loop (Tick (replies (first_root, 12000003%N) (sample_block 4))) (Up m) = (Some (12000005%N, bytes), L').
Proof. exact second_submits. Qed.

Print Assumptions C71_synced.
Print Assumptions C71_goes_on.
Print Assumptions C71_truncated.
Print Assumptions C72_ahead_refuted.
Print Assumptions C72_ahead_dies.
Print Assumptions C72_window_refuted.
Print Assumptions C72_no_checkpoint_lost_partial.
Print Assumptions C73_forged_state_accepted_refuted.
Print Assumptions C73_trusts_provider.
Print Assumptions C73_fleet_history_partial.
Print Assumptions C73_fleet_submissions_partial.
