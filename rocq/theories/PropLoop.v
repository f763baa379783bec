(** Properties of the main loop over whole lives of the process: C40, C41, C60, C88. *)
From Verif Require Export GuardProofs LoopSamples.

(** ** C40: only the checkpoint directly after the on-chain one is submitted, never in a dry run *)

(** Whatever the files, the checkpoint sync answer and the nodes' answers: a submission is made outside dry-run mode, for
    the on-chain slot plus the checkpoint size, and carries the root of the latest frozen checkpoint, which is of that
    slot. *)
Theorem C40_only_the_next_is_submitted sha H c0 fs l sent m e slot bytes L' :
  lifetime sha H c0 l (Down fs) = (sent, Up m) → live sha H c0 e (Up m) = (Some (slot, bytes), L') →
  ∃ a root os k c, e = Tick a ∧ an_onchain a = Some (root, os) ∧ c_dry_run (or_cfg (m_or m)) = false ∧
    slot = u64_add os (c_cp_size (or_cfg (m_or m))) ∧
    st_committed (or_st (m_or m)) !! k = Some c ∧ (∀ k', is_Some (st_committed (or_st (m_or m)) !! k') → (k' ≤ k)%N) ∧
    oc_slot c = slot ∧ (oc_root c = "0x" +:+ hex_encode bytes ∨ oc_root c = hex_encode bytes).
Proof. exact (submission_any sha H c0 fs l sent m e slot bytes L'). Qed.
(** A deployment that only loads its own files, through any number of stops, torn files and restarts: every submission is
    for a checkpoint slot and carries the root of the state that an uninterrupted run has at that slot. *)
Theorem C40_submitted_root_is_of_the_history sha H c0 l sent m e slot bytes L' : typed_config c0 → (0 < c_dep_slot c0)%N →
  Forall typed_event l → lifetime sha H c0 l (Down ∅) = (sent, Up m) → live sha H c0 e (Up m) = (Some (slot, bytes), L') →
  c_dry_run c0 = false ∧ (∃ a root os, e = Tick a ∧ an_onchain a = Some (root, os) ∧ slot = u64_add os (c_cp_size c0)) ∧
  checkpoint_slot c0 slot ∧
  ∃ ops p E c, evolve H (new_oracle c0) ops p ∧ st_latest (or_st p) = slot ∧ wf_env E ∧ snapshot H E (or_st p) = Ok (Some c) ∧
    oc_root c = "0x" +:+ hex_encode bytes.
Proof. exact (submission_own sha H c0 l sent m e slot bytes L'). Qed.
(** A life with a submission: from the first slot to the report of the first checkpoint. *)
Example C40_submission : ∃ m bytes L', typed_config cfg_loop ∧ Forall typed_event first_report ∧
  lifetime toy toy cfg_loop first_report (Down ∅) = ([], Up m) ∧
  live toy toy cfg_loop (Tick (replies nothing_yet (sample_block 0))) (Up m) = (Some (12000001%N, bytes), L').
Proof.
  destruct first_submission as (m & bytes & L' & H). exists m, bytes, L'.
  split; [exact cfg_loop_typed|]. split; [exact first_report_typed|exact H].
Qed.

(** ** C41: a stop never makes the oracle skip a checkpoint *)

(** As stated it is false: a signal between processing a checkpoint slot and freezing it. The oracle goes on and freezes
    a later checkpoint, never this one. *)
Theorem C41_stop_skips_checkpoint_refuted : ∃ c0 l1 onchain l2 m1 m2 k k', typed_config c0 ∧ (0 < c_dep_slot c0)%N ∧
  Forall typed_event (l1 ++ [Signal Written; End Written; Start honest None onchain] ++ l2) ∧
  lifetime toy toy c0 l1 (Down ∅) = ([], Up m1) ∧ checkpoint_slot c0 k ∧ st_latest (or_st (m_or m1)) = k ∧ st_vals (or_st (m_or m1)) ≠ ∅ ∧
  lifetime toy toy c0 ([Signal Written; End Written; Start honest None onchain] ++ l2) (Up m1) = ([], Up m2) ∧
  st_committed (or_st (m_or m2)) !! k = None ∧ (k < k')%N ∧ is_Some (st_committed (or_st (m_or m2)) !! k').
Proof. exact stop_skips. Qed.
(** Missing: signals in the window between processing and freezing, where the claim is false. Everywhere else it holds:
    whatever stops, torn files and restarts the deployment went through, it has frozen every checkpoint it passed with
    validators to pay. *)
Theorem C41_stop_skips_nothing_partial sha H c0 l sent m : typed_config c0 → (0 < c_dep_slot c0)%N → Forall typed_event l →
  no_signal_in_window sha H c0 l (Down ∅) → lifetime sha H c0 l (Down ∅) = (sent, Up m) →
  ∃ ops, lived H c0 ops (m_or m) ∧ ∀ k, passes H c0 ops k → (in_window c0 m → k ≠ st_latest (or_st (m_or m))) →
    is_Some (st_committed (or_st (m_or m)) !! k).
Proof. exact (every_checkpoint sha H c0 l sent m). Qed.
(** A life with a signal outside the window, which passes two checkpoints. *)
Example C41_two_checkpoints : ∃ x m ops, Forall typed_event second_report ∧ no_signal_in_window toy toy cfg_loop second_report (Down ∅) ∧
  lifetime toy toy cfg_loop second_report (Down ∅) = ([x], Up m) ∧ lived toy cfg_loop ops (m_or m) ∧
  passes toy cfg_loop ops 12000001 ∧ passes toy cfg_loop ops 12000003.
Proof.
  destruct second_life as (x & m & c & Hl & _ & _ & Hk & Hlat). exists x, m.
  destruct (own_history toy toy cfg_loop _ _ _ cfg_loop_typed eq_refl second_report_typed Hl) as [ops Ho]. exists ops.
  split; [exact second_report_typed|]. split; [exact second_quiet|]. split; [exact Hl|]. split; [exact Ho|]. clear Hl.
  assert (is_Some (st_committed (or_st (m_or m)) !! 12000001%N)) as Hs by (by apply (a_key _ _ _ Hk)).
  split; (eapply lived_passes; [exact Ho|exact Hs|rewrite Hlat; lia|]); [exact (loop_checkpoint 0)|exact (loop_checkpoint 1)].
Qed.

(** ** C60: reporting never gets stuck *)

(** As stated it is false. A checkpoint skipped by a stop (C41) is never submitted, and nothing after it: as long as the
    contract waits for it, this oracle is silent. *)
Theorem C60_skipped_checkpoint_silences_refuted : ∃ c0 l sent m s0 k, typed_config c0 ∧ (0 < c_dep_slot c0)%N ∧ c_dry_run c0 = false ∧
  Forall typed_event l ∧ lifetime toy toy c0 l (Down ∅) = (sent, Up m) ∧ sent = [] ∧ is_Some (st_committed (or_st (m_or m)) !! k) ∧
  (s0 < c_dep_slot c0)%N ∧ ∀ l', Forall (goes_on s0) l' → (lifetime toy toy c0 l' (Up m)).1 = [].
Proof. exact stop_silences. Qed.
(** If the quorum consolidates another root, the oracle waits for ever: no slot is processed any more. *)
Theorem C60_other_root_blocks_refuted : ∃ c0 l x m root, typed_config c0 ∧ (0 < c_dep_slot c0)%N ∧ c_dry_run c0 = false ∧
  Forall typed_event l ∧ lifetime toy toy c0 l (Down ∅) = ([x], Up m) ∧
  ∀ l', Forall (λ e, match e with Tick a => ∃ slot, an_onchain a = Some (root, slot) | Ask | Signal _ => True | _ => False end) l' →
    ∃ m', lifetime toy toy c0 l' (Up m) = ([], Up m') ∧ st_latest (or_st (m_or m')) = st_latest (or_st (m_or m)).
Proof. exact other_root_sticks. Qed.
(** In general: once any checkpoint beyond the next one expected is frozen, nothing is submitted while the contract
    stays where it is. *)
Theorem C60_silent_beyond_next sha H c0 l0 sent m k s0 l : typed_config c0 → (0 < c_dep_slot c0)%N → Forall typed_event l0 →
  lifetime sha H c0 l0 (Down ∅) = (sent, Up m) → is_Some (st_committed (or_st (m_or m)) !! k) → (s0 + c_cp_size c0 < k)%N →
  Forall (goes_on s0) l → (lifetime sha H c0 l (Up m)).1 = [].
Proof. exact (silent sha H c0 l0 sent m k s0 l). Qed.
Theorem C60_waits_forever sha H c0 m c l : m_pc m = Waiting c → Forall (never_consolidates (oc_root c) (oc_slot c)) l →
  ∃ m', lifetime sha H c0 l (Up m) = ([], Up m') ∧ m_pc m' = Waiting c ∧ same_oracle (m_or m) (m_or m').
Proof. exact (waits_forever sha H c0 m c l). Qed.
(** Missing: that the step before is reached, which depends on the nodes; stops in the window of C41; other roots. When
    the checkpoint before the latest is the one on chain, the latest one is the one the contract accepts next, and it
    is submitted. *)
Theorem C60_next_is_submitted_partial sha H c0 l sent m c os root a : typed_config c0 → (0 < c_dep_slot c0)%N → (0 < c_cp_size c0)%N →
  Forall typed_event l → no_signal_in_window sha H c0 l (Down ∅) → lifetime sha H c0 l (Down ∅) = (sent, Up m) → m_pc m = Deciding c →
  c_dry_run c0 = false → (∀ x, String.length (H x) = 32%nat) →
  is_Some (st_committed (or_st (m_or m)) !! os) → (os < oc_slot c)%N →
  (∀ k, is_Some (st_committed (or_st (m_or m)) !! k) → (k ≤ os ∨ oc_slot c ≤ k)%N) →
  an_onchain a = Some (root, os) → sa_nonce (an_submit a) = None → sa_chain (an_submit a) = None → sa_auth (an_submit a) = None →
  sa_instance (an_submit a) = None → sa_send (an_submit a) = None →
  ∃ bytes L', live sha H c0 (Tick a) (Up m) = (Some (oc_slot c, bytes), L') ∧ oc_root c = "0x" +:+ hex_encode bytes.
Proof. exact (next_submitted sha H c0 l sent m c os root a). Qed.
(** The second checkpoint is due and the first one is on chain. *)
Example C60_second_due : ∃ x m c, Forall typed_event second_report ∧ no_signal_in_window toy toy cfg_loop second_report (Down ∅) ∧
  lifetime toy toy cfg_loop second_report (Down ∅) = ([x], Up m) ∧ m_pc m = Deciding c ∧ c_dry_run cfg_loop = false ∧
  (∀ x, String.length (toy x) = 32%nat) ∧ is_Some (st_committed (or_st (m_or m)) !! 12000001%N) ∧ (12000001 < oc_slot c)%N ∧
  (∀ k, is_Some (st_committed (or_st (m_or m)) !! k) → (k ≤ 12000001 ∨ oc_slot c ≤ k)%N) ∧
  an_onchain (replies (first_root, 12000001%N) (sample_block 2)) = Some (first_root, 12000001%N).
Proof.
  destruct second_life as (x & m & c & Hl & Hpc & Hc & Hk & _). exists x, m, c.
  split; [exact second_report_typed|]. split; [exact second_quiet|]. split; [exact Hl|]. split; [exact Hpc|]. clear Hl.
  split; [reflexivity|]. split; [exact toy_length|]. split; [by apply (a_key _ _ _ Hk)|]. split; [by rewrite Hc|]. split; [|reflexivity].
  intros k Hx. apply (keys_are_spec _ _ _ Hk) in Hx. rewrite Hc. apply elem_of_cons in Hx as [->|[->|Hx]%elem_of_cons]; [right; lia|left; lia|by apply elem_of_nil in Hx].
Qed.
(** The waiting of [C60_waits_forever] is reached. *)
Example C60_waiting : ∃ x m c, lifetime toy toy cfg_loop reported (Down ∅) = ([x], Up m) ∧ m_pc m = Waiting c ∧ oc_slot c = 12000001%N ∧
  oc_root c ≠ "0x" +:+ hex_encode (bytes 32 200).
Proof. exact reported_life. Qed.

(** ** C88: only finalized slots are processed, and only balanced books are frozen *)

(** The books change only in the step that processes the next slot, while both clients are in sync and the slot is
    finalized. *)
Theorem C88_only_finalized sha H c0 m e sent m' : live sha H c0 e (Up m) = (sent, Up m') → books (or_st (m_or m')) ≠ books (or_st (m_or m)) →
  ∃ a f d, e = Tick a ∧ an_exec a = Some false ∧ an_dist a = Some d ∧ (d ≤ 5)%N ∧ an_final a = Some f ∧
    st_latest (or_st (m_or m')) = st_next (or_st (m_or m)) ∧ (st_latest (or_st (m_or m')) ≤ f)%N.
Proof. exact (only_finalized sha H c0 m e sent m'). Qed.
(** A checkpoint is frozen only at a checkpoint slot, when everything owed equals everything received; it is the
    checkpoint of the latest slot, and the others stay. *)
Theorem C88_only_balanced sha H c0 fs l sent m e sent' m' : lifetime sha H c0 l (Down fs) = (sent, Up m) →
  live sha H c0 e (Up m) = (sent', Up m') → st_committed (or_st (m_or m')) ≠ st_committed (or_st (m_or m)) →
  owed (or_st (m_or m)) = received (or_st (m_or m)) ∧
  ((st_latest (or_st (m_or m)) < 2 ^ 64)%N → ∃ j, st_latest (or_st (m_or m)) = (c_dep_slot (or_cfg (m_or m)) + j * c_cp_size (or_cfg (m_or m)))%N) ∧
  ∃ c, oc_slot c = st_latest (or_st (m_or m)) ∧
    st_committed (or_st (m_or m')) = <[st_latest (or_st (m_or m)) := c]> (st_committed (or_st (m_or m))).
Proof. exact (only_balanced sha H c0 fs l sent m e sent' m'). Qed.
(** The first slot is processed, then frozen. *)
Example C88_processed : ∃ m m', lifetime toy toy cfg_loop (take 1 first_report) (Down ∅) = ([], Up m) ∧
  live toy toy cfg_loop (Tick (replies nothing_yet (sample_block 0))) (Up m) = (None, Up m') ∧ books (or_st (m_or m')) ≠ books (or_st (m_or m)).
Proof.
  destruct (ex_life (λ sent m, match sent, live toy toy cfg_loop (Tick (replies nothing_yet (sample_block 0))) (Up m) with
    | [], (None, Up m') => negb (st_latest (or_st (m_or m')) =? st_latest (or_st (m_or m)))%N | _, _ => false end)
    toy toy cfg_loop (take 1 first_report) (Down ∅)) as (sent & m & Hl & Ht); [by vm_compute|].
  destruct sent; [|discriminate Ht]. exists m. destruct (live _ _ _ _ (Up m)) as [[|] [|m']]; try discriminate Ht. exists m'. split; [exact Hl|].
  clear Hl. split; [reflexivity|]. apply negb_true_iff, N.eqb_neq in Ht. intros E. apply Ht. injection E. intros. assumption.
Qed.
Example C88_frozen : ∃ m m', lifetime toy toy cfg_loop (take 3 first_report) (Down ∅) = ([], Up m) ∧
  live toy toy cfg_loop (Tick (replies nothing_yet (sample_block 0))) (Up m) = (None, Up m') ∧
  st_committed (or_st (m_or m')) ≠ st_committed (or_st (m_or m)).
Proof.
  destruct (ex_life (λ sent m, match sent, live toy toy cfg_loop (Tick (replies nothing_yet (sample_block 0))) (Up m) with
    | [], (None, Up m') => negb (map_size (st_committed (or_st (m_or m'))) =? map_size (st_committed (or_st (m_or m))))%nat | _, _ => false end)
    toy toy cfg_loop (take 3 first_report) (Down ∅)) as (sent & m & Hl & Ht); [by vm_compute|].
  destruct sent; [|discriminate Ht]. exists m. destruct (live _ _ _ _ (Up m)) as [[|] [|m']]; try discriminate Ht. exists m'. split; [exact Hl|].
  clear Hl. split; [reflexivity|]. apply negb_true_iff, Nat.eqb_neq in Ht. intros E. apply Ht. by rewrite E.
Qed.

Print Assumptions C88_only_finalized.
Print Assumptions C88_only_balanced.
Print Assumptions C40_only_the_next_is_submitted.
Print Assumptions C40_submitted_root_is_of_the_history.
Print Assumptions C41_stop_skips_checkpoint_refuted.
Print Assumptions C41_stop_skips_nothing_partial.
Print Assumptions C60_skipped_checkpoint_silences_refuted.
Print Assumptions C60_other_root_blocks_refuted.
Print Assumptions C60_silent_beyond_next.
Print Assumptions C60_waits_forever.
Print Assumptions C60_next_is_submitted_partial.
