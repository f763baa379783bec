(** What the process leaves when it stops, and why it stops: C93, C94. *)
From Verif Require Import StopProofs LoopSamples.

(** ** C93: an orderly stop loses nothing, and the copy of a checkpoint stays *)

(** A signal, the end and a new start lead to the same oracle, wherever the loop was (unless it was saving itself) and
    whatever happened before; provided that no validator withdraws to the pool (C59), and that the contract is not
    behind. *)
Theorem C93_stop_start sha H c0 l sent m E slot torn f20 : typed_config c0 → (0 < c_dep_slot c0)%N → names f20 (c_fees_addr c0) →
  Forall typed_event l → lifetime sha H c0 l (Down ∅) = (sent, Up m) → m_pc m ≠ Saving →
  wf_env E → pool_apart (or_st (m_or m)) →
  c_dry_run c0 = true ∨ (∀ k, is_Some (st_committed (or_st (m_or m)) !! k) → (k ≤ slot)%N) →
  ∃ m', lifetime sha H c0 [Signal Written; End torn; Start E None (Some slot)] (Up m) = ([], Up m') ∧
    m_pc m' = Begin ∧ same_oracle (m_or m) (m_or m').
Proof. exact (stop_start sha H c0 l sent m E slot torn f20). Qed.
(** At the end of a checkpoint the state is copied under its slot. The copy can be loaded as long as the process is not
    started again, whatever the loop, signals and the disk do later, and also if the process is killed. *)
Theorem C93_copy_kept sha H c0 l sent m a l2 sent' L E f20 : typed_config c0 → (0 < c_dep_slot c0)%N → names f20 (c_fees_addr c0) →
  Forall typed_event l → lifetime sha H c0 l (Down ∅) = (sent, Up m) → m_pc m = Saving → an_disk a = Written → typed_answers a →
  Forall typed_event l2 → Forall no_start l2 → lifetime sha H c0 (Tick a :: l2) (Up m) = (sent', L) →
  wf_env E → pool_apart (or_st (m_or m)) →
  ∃ o', load_path sha H E (left_files L) (slot_path (st_latest (or_st (m_or m)))) (new_oracle c0) = Done o' true ∧ same_oracle (m_or m) o'.
Proof. exact (copy_kept sha H c0 l sent m a l2 sent' L E f20). Qed.
(** Only a signal and the end of a checkpoint touch files, and only these two. *)
Theorem C93_only_files sha H c0 e m sent L p : live sha H c0 e (Up m) = (sent, L) → left_files L !! p ≠ m_files m !! p →
  (p = state_path ∧ ((∃ d, e = Signal d) ∨ m_pc m = Saving)) ∨ (p = slot_path (st_latest (or_st (m_or m))) ∧ m_pc m = Saving).
Proof. exact (event_files sha H c0 e m sent L p). Qed.

(** Full claim: C93_stop_start without the condition that the loop is not saving. It is false: the process ends after the
    handler's save while the loop has truncated the file again, and from then on it never starts from its files. *)
Theorem C93_saving_lost sha H c0 l sent m E slot cut : typed_config c0 → (0 < c_dep_slot c0)%N →
  Forall typed_event l → lifetime sha H c0 l (Down ∅) = (sent, Up m) → m_pc m = Saving →
  (cut < String.length (marshal (hash_state sha (or_st (m_or m)))))%nat →
  ∃ fs, lifetime sha H c0 [Signal Written; End (Stopped 0 cut); Start E None slot] (Up m) = ([], Down fs).
Proof. exact (stop_saving sha H c0 l sent m E slot cut). Qed.

(** The signal of C41: between the processing of a slot and its freezing. *)
Example C93_stop_example : lifetime toy toy cfg_loop at_checkpoint (Down ∅) = ([], Up window_machine) ∧ m_pc window_machine ≠ Saving ∧
  pool_apart (or_st (m_or window_machine)) ∧ (∀ k, is_Some (st_committed (or_st (m_or window_machine)) !! k) → (k ≤ 11999999)%N).
Proof.
  destruct window_life as [Hl Ht]. split; [exact Hl|]. clear Hl. revert Ht. generalize window_machine. intros m Ht.
  apply andb_prop in Ht as [[[[Hpc Hlat]%andb_prop Hk]%andb_prop _]%andb_prop Ha]. split; [by destruct (m_pc m)|]. split; [by apply apart_sound|].
  intros k Hx. apply (keys_are_spec _ _ _ Hk) in Hx. by apply elem_of_nil in Hx.
Qed.
(** The first checkpoint is frozen, not reported because the contract has another slot, and copied; then the next slot is
    processed and the process is killed. *)
Definition elsewhere : string * N := ("", 5%N).
Definition to_saving : list event := first_report ++ ticks 1 elsewhere 0.
Definition then_killed : list event := ticks 1 elsewhere 1 ++ [End Written].
Example C93_copy_example : ∃ m L, lifetime toy toy cfg_loop to_saving (Down ∅) = ([], Up m) ∧ m_pc m = Saving ∧ pool_apart (or_st (m_or m)) ∧
  st_latest (or_st (m_or m)) = 12000001%N ∧ Forall typed_event (to_saving ++ then_killed) ∧ Forall no_start then_killed ∧
  lifetime toy toy cfg_loop (Tick (replies elsewhere (sample_block 1)) :: then_killed) (Up m) = ([], L).
Proof.
  destruct (ex_life (λ sent m, match sent, m_pc m, lifetime toy toy cfg_loop (Tick (replies elsewhere (sample_block 1)) :: then_killed) (Up m) with
    | [], Saving, ([], _) => apart_test (to_lower (st_pool (or_st (m_or m)))) (or_st (m_or m)) && (st_latest (or_st (m_or m)) =? 12000001)%N | _, _, _ => false end)
    toy toy cfg_loop to_saving (Down ∅)) as (sent & m & Hl & Ht); [by vm_compute|].
  destruct sent; [|discriminate Ht]. exists m. destruct (lifetime _ _ _ (_ :: _) (Up m)) as [sent' L]. exists L. split; [exact Hl|]. clear Hl.
  destruct (m_pc m); try discriminate Ht. destruct sent'; [|discriminate Ht]. apply andb_prop in Ht as [Ha Hlat]. split; [reflexivity|]. split; [by apply apart_sound|].
  split; [by apply N.eqb_eq|]. split; [|split; [|reflexivity]].
  - unfold to_saving, then_killed. rewrite !Forall_app. split; [split; [exact first_report_typed|by apply ticks_typed, Nat.lt_0_succ]|].
    split; [apply ticks_typed; lia|]. apply Forall_cons. split; [done|by apply Forall_nil].
  - repeat (apply Forall_cons; split; [done|]). by apply Forall_nil.
Qed.
(** The signal comes while this copy is written. *)
Theorem C93_saving_refuted : ∃ m, typed_config cfg_loop ∧ Forall typed_event to_saving ∧
  lifetime toy toy cfg_loop to_saving (Down ∅) = ([], Up m) ∧ m_pc m = Saving ∧ pool_apart (or_st (m_or m)) ∧
  (∀ k, is_Some (st_committed (or_st (m_or m)) !! k) → (k ≤ 12000001)%N) ∧
  ∀ E, ∃ fs, lifetime toy toy cfg_loop [Signal Written; End (Stopped 0 10); Start E None (Some 12000001%N)] (Up m) = ([], Down fs).
Proof.
  destruct (ex_life (λ sent m, match sent, m_pc m with
    | [], Saving => apart_test (to_lower (st_pool (or_st (m_or m)))) (or_st (m_or m)) && keys_are [12000001%N] m
        && (10 <? String.length (marshal (hash_state toy (or_st (m_or m)))))%nat | _, _ => false end)
    toy toy cfg_loop to_saving (Down ∅)) as (sent & m & Hl & Ht); [by vm_compute|].
  destruct sent; [|discriminate Ht]. exists m. split; [exact cfg_loop_typed|].
  assert (Forall typed_event to_saving) as Ty.
  { unfold to_saving. rewrite Forall_app. split; [exact first_report_typed|by apply ticks_typed, Nat.lt_0_succ]. }
  split; [exact Ty|]. split; [exact Hl|].
  destruct (m_pc m) eqn:Hpc; try discriminate Ht. apply andb_prop in Ht as [[Ha Hk]%andb_prop Hlen%Nat.ltb_lt].
  split; [done|]. split; [by apply apart_sound|]. split.
  - intros k Hx. apply (keys_are_spec _ _ _ Hk) in Hx. apply elem_of_list_singleton in Hx as ->. reflexivity.
  - intros E. by apply (C93_saving_lost toy toy cfg_loop to_saving [] m E (Some 12000001%N) 10 cfg_loop_typed eq_refl Ty Hl).
Qed.

(** ** C94: the process ends by itself exactly for one of the reasons listed in StopSpec.v *)
Theorem C94_ends_for sha H c0 l sent m a f20 : typed_config c0 → (0 < c_dep_slot c0)%N → (0 < c_cp_size c0)%N → names f20 (c_fees_addr c0) →
  Forall typed_event l → lifetime sha H c0 l (Down ∅) = (sent, Up m) → typed_answers a →
  (∃ x fs, live sha H c0 (Tick a) (Up m) = (x, Down fs)) ↔ ends_for a m.
Proof. exact (ends_iff sha H c0 l sent m a f20). Qed.

(** Reporting while the contract cannot be reached, and waiting for slots while the contract has one wei too few. *)
Definition unreachable (fb : fullblock) : MainLoop.answers :=
  Answers honest (serving fb) (Some false) (Some 0%N) (Some 12000100%N) false None (λ _, None) true (Some 0%N) (Some 1%N) None (sends (Mined 1 false)) Written.
Definition one_short (fb : fullblock) : MainLoop.answers :=
  Answers honest (serving fb) (Some false) (Some 0%N) (Some 12000000%N) true (Some (-1)%Z) (λ _, Some 0%Z) true (Some 0%N) (Some 1%N) None (sends (Mined 1 false)) Written.
Example C94_onchain : ∃ m, lifetime toy toy cfg_loop first_report (Down ∅) = ([], Up m) ∧ ends_for (unreachable (sample_block 0)) m.
Proof.
  destruct (ex_life (λ sent m, match sent, m_pc m with [], Deciding _ => true | _, _ => false end) toy toy cfg_loop first_report (Down ∅)) as (sent & m & Hl & Ht); [by vm_compute|].
  destruct sent; [|discriminate Ht]. exists m. split; [exact Hl|]. clear Hl. destruct (m_pc m) as [| | | | |c| |] eqn:E; try discriminate Ht.
  by eapply (for_onchain _ _ c); [right; left|].
Qed.
Example C94_assets : ∃ m, lifetime toy toy cfg_loop [Start honest None (Some 11999999%N)] (Down ∅) = ([], Up m) ∧ ends_for (one_short (sample_block 0)) m ∧
  typed_answers (one_short (sample_block 0)) ∧ ¬ ends_for (replies nothing_yet (sample_block 0)) m.
Proof.
  destruct (ex_life (λ sent m, match sent, m_pc m, live toy toy cfg_loop (Tick (replies nothing_yet (sample_block 0))) (Up m) with
      [], Begin, (_, Up _) => (st_next (or_st (m_or m)) =? 12000001)%N && (owed (or_st (m_or m)) =? 0)%Z && (map_size (st_vals (or_st (m_or m))) =? 0)%nat
        && String.eqb (st_fees_addr (or_st (m_or m))) fees_str | _, _, _ => false end)
    toy toy cfg_loop [Start honest None (Some 11999999%N)] (Down ∅)) as (sent & m & Hl & Ht); [by vm_compute|].
  destruct sent; [|discriminate Ht]. exists m. split; [exact Hl|].
  assert (typed_answers (one_short (sample_block 0)) ∧ Forall typed_event [Start honest None (Some 11999999%N)]) as [T1 T2].
  { destruct (sample_typed 0 nothing_yet (Nat.lt_0_succ _)) as [A1 A2 A3 A4]. split; [split; [done|done|done|by intros f [= <-]]|].
    apply Forall_cons. split; [done|by apply Forall_nil]. }
  destruct (m_pc m) eqn:E; try discriminate Ht. destruct (live _ _ _ _ (Up m)) as [x [|m']] eqn:Hv; try discriminate Ht.
  apply andb_prop in Ht as [[[Hn%N.eqb_eq Ho%Z.eqb_eq]%andb_prop Hv0%Nat.eqb_eq]%andb_prop Hfe%String.eqb_eq]. split; [|split; [exact T1|]].
  - apply map_size_empty_inv in Hv0. eapply (for_assets _ _ (-1)%Z [] 0%Z fees20 0%Z); [|done| |by exists []| |done|].
    + split; [done|]. split; [split; [done|by exists 0%N]|]. split; [|done]. exists 12000000%N. split; [done|]. rewrite Hn. done.
    + split; [constructor|]. intros a. rewrite elem_of_nil. split; [done|]. intros (i & v & Hi & _). by rewrite Hv0, lookup_empty in Hi.
    + rewrite Hfe. exact fees_names.
    + rewrite Ho. done.
  - intros X. apply (C94_ends_for toy toy cfg_loop _ _ m _ fees20 cfg_loop_typed eq_refl eq_refl fees_names T2 Hl (sample_typed 0 nothing_yet (Nat.lt_0_succ _))) in X as (y & fs & X).
    rewrite Hv in X. discriminate X.
Qed.
Print Assumptions C93_stop_start.
Print Assumptions C93_saving_lost.
Print Assumptions C93_saving_refuted.
Print Assumptions C93_copy_kept.
Print Assumptions C93_only_files.
Print Assumptions C94_ends_for.
