(** Concrete cases of checkpoint sync used by PropSync.v. *)
From Verif Require Import ApiSamples.
From Verif Require Export SyncProofs LoopSamples.

(** The configuration of the samples in dry-run mode. *)
Definition cfg_dry : config := Config Mainnet pool_str 14082459 100 1 700 fees_str true 1000.
Lemma cfg_dry_same : same_setup cfg_live cfg_dry ∧ same_setup cfg_live cfg_live.
Proof. by repeat split. Qed.

Lemma sync_life : ∃ o, lives toy toy cfg_live (new_oracle cfg_live) stop_between o ∧ pool_apart (or_st o) ∧
  sample_facts 14082460 500 [14082459; 14082460]%N o.
Proof.
  destruct stopped_life as (o1 & o2 & _ & _ & Hl & A & F & _). exists (rehash "" o2). split; [exact Hl|]. split; [exact A|exact F].
Qed.
Lemma sync_not_ahead o : sample_facts 14082460 500 [14082459; 14082460]%N o → not_ahead (or_st o) 14082460.
Proof.
  intros F k Hk. apply (sample_keys _ _ _ _ k F) in Hk. apply elem_of_cons in Hk as [->|Hk%elem_of_list_singleton]; [lia|]. by subst.
Qed.
(** The client's configuration says 700, the provider is past the change of the fee to 500. *)
Lemma sync_sample : ∃ o r, typed_config cfg_live ∧ Forall typed_operation (work stop_between) ∧
  lives toy toy cfg_live (new_oracle cfg_live) stop_between o ∧ same_setup cfg_live cfg_live ∧ wf_env backward ∧ pool_apart (or_st o) ∧
  names fees20 (c_fees_addr cfg_live) ∧ not_ahead (or_st o) 14082460 ∧
  serve toy honest GetState (plain_wire 14082470) o = Ok r ∧ st_feepct (or_st o) = 500%Z ∧ c_feepct cfg_live = 700%Z.
Proof.
  destruct sync_life as (o & Hl & A & F). eexists o, _. split; [exact cfg_live_typed|]. split; [exact stop_typed|]. split; [exact Hl|].
  split; [apply cfg_dry_same|]. split; [apply backward_wf|]. split; [exact A|]. split; [apply cfg_live_names|].
  split; [exact (sync_not_ahead _ F)|]. split; [reflexivity|]. split; [apply F|reflexivity].
Qed.
Lemma ahead_sample : ∃ o r, lives toy toy cfg_live (new_oracle cfg_live) stop_between o ∧ pool_apart (or_st o) ∧
  c_dry_run cfg_live = false ∧ is_Some (st_committed (or_st o) !! 14082460%N) ∧ no_copies ∅ 14082459 (c_cp_size cfg_live) ∧
  serve toy honest GetState (plain_wire 14082470) o = Ok r.
Proof.
  destruct sync_life as (o & Hl & A & F). eexists o, _. split; [exact Hl|]. split; [exact A|]. split; [reflexivity|].
  split; [apply (sample_keys _ _ _ _ _ F); by right; left|]. split; [|reflexivity]. intros k _. apply lookup_empty.
Qed.
Lemma ahead_refutation : ∃ c0 l o r slot, typed_config c0 ∧ Forall typed_operation (work l) ∧ lives toy toy c0 (new_oracle c0) l o ∧
  serve toy honest GetState (plain_wire 14082470) o = Ok r ∧
  is_Some (st_committed (or_st o) !! slot) ∧ (slot ≤ st_latest (or_st o))%N ∧
  ∀ E, wf_env E → ∃ e, sync_startup toy toy E (sent_state r) (Some slot) ∅ c0 = Die (Fatal e).
Proof.
  destruct sync_life as (o & Hl & A & F). exists cfg_live, stop_between, o. eexists _, 14082459%N. split; [exact cfg_live_typed|].
  split; [exact stop_typed|]. split; [exact Hl|]. split; [reflexivity|]. split; [apply (sample_keys _ _ _ _ _ F); by left|].
  split; [destruct F as (-> & _); lia|]. intros E W.
  apply (ahead_dies toy toy toy E honest cfg_live cfg_live stop_between o (plain_wire 14082470) _ 14082459 ∅ fees20 14082460 cfg_live_typed stop_typed Hl);
    [apply cfg_dry_same|exact W|exact A|apply cfg_live_names|reflexivity|apply (sample_keys _ _ _ _ _ F); by right; left|lia| |reflexivity].
  intros k _. apply lookup_empty.
Qed.
Lemma goes_on_sample : ∃ o1 o2 r, Forall typed_operation before_change ∧ evolve toy (new_oracle cfg_live) before_change o1 ∧
  evolve toy o1 after_change o2 ∧ pool_apart (or_st o1) ∧ not_ahead (or_st o1) 14082459 ∧
  serve toy honest GetState (plain_wire 14082470) o1 = Ok r ∧ pend_of (or_st o2) 2 = Some 58000%Z.
Proof.
  destruct sample_ready as (o1 & o2 & H1 & H2 & (_ & _ & _ & _ & A) & _ & F & _ & _ & P). eexists o1, o2, _.
  split; [apply before_ok|]. split; [exact H1|]. split; [exact H2|]. split; [exact A|]. split; [|split; [reflexivity|exact P]].
  intros k Hk. apply (sample_keys _ _ _ _ k F), elem_of_list_singleton in Hk. by subst.
Qed.
(** A state with one wei more in the fees than any life of the deployment could have there. *)
Lemma forged_sample : ∃ c0 l o s, typed_config c0 ∧ Forall typed_operation l ∧ evolve toy (new_oracle c0) l o ∧
  st_latest s = st_latest (or_st o) ∧ st_fees s = (st_fees (or_st o) + 1)%Z ∧
  ∀ E, wf_env E → ∃ o', sync_startup toy toy E (Fetched 200 (Some (state_body (hash_state toy s)))) (Some 14082459%N) ∅ c0 = Ok o' ∧
    same_content (or_st o') s.
Proof.
  destruct sample_ready as (o & _ & He & _ & (D & S & R & N & A) & _ & F & _). exists cfg_live, before_change, o, (set_fees (st_fees (or_st o) + 1) (or_st o)).
  split; [exact cfg_live_typed|]. split; [apply before_ok|]. split; [exact He|]. do 2 (split; [reflexivity|]). intros E W.
  exists (Oracle cfg_live (set_hash "" (set_fees (st_fees (or_st o) + 1) (or_st o)))). split; [|reflexivity].
  apply (trusts toy toy E _ cfg_live 14082459 ∅ fees20).
  - apply more_fees. by apply saveable_range.
  - destruct D as [_ [? ? ? ? ? ? ?] _ _]. split; cbn [set_fees]; done.
  - cbn. apply F.
  - exact W.
  - exact R.
  - exact A.
  - exact N.
  - right. intros k Hk. apply (sample_keys _ _ _ _ k F), elem_of_list_singleton in Hk. by subst.
Qed.
(** The beginning of an answer. *)
Lemma cut_sample : ∃ s p x, in_range s ∧ st_latest s = 14082459%N ∧ state_body s = p +:+ x ∧ p ≠ "" ∧ (String.length p < String.length (state_body s) - 1)%nat.
Proof.
  destruct sample_ready as (o & _ & _ & _ & (_ & S & _) & _ & F & _). exists (or_st o), "{". eexists. split; [by apply saveable_range|]. split; [apply F|].
  split; [unfold state_body, enc_state; cbn [compact]; rewrite sapp_assoc; reflexivity|]. split; [done|].
  unfold state_body, enc_state. cbn [compact]. rewrite !string_length_app. cbn [String.length]. lia.
Qed.

(** ** A provider asked between processing and freezing its first checkpoint *)
Definition sync_window : event := Start honest (Some (state_body (hash_state toy (or_st (m_or window_machine))))) (Some 11999999%N).
Lemma window_synced : live toy toy cfg_loop sync_window (Down ∅) = (None, Up (Machine Begin (rehash "" (m_or window_machine)) empty_cache ∅)).
Proof.
  destruct window_life as [Hl Ht]. destruct (own_history toy toy cfg_loop _ _ _ cfg_loop_typed eq_refl at_checkpoint_typed Hl) as (ops & q & He & T & Hs).
  clear Hl. unfold sync_window. revert Ht Hs. generalize window_machine. intros m Ht Hs. destruct (reach_ready _ _ _ _ cfg_loop_typed T He) as (D & R & Hw).
  apply andb_prop in Ht as [[[[Hpc Hlat]%andb_prop Hk]%andb_prop _]%andb_prop Ha].
  assert (D' : deployed cfg_loop (m_or m)) by (rewrite (same_rehash _ _ Hs); by apply deployed_rehash).
  assert (Hst : startup toy toy honest (Some (state_body (hash_state toy (or_st (m_or m))))) (Some 11999999%N) ∅ cfg_loop = Ok (rehash "" (m_or m))).
  { unfold startup. rewrite (load_synced _ _ _ _ _ fees20).
    - rewrite <-(dp_cfg _ _ D'). cbn [or_cfg or_st]. change (committed_keys (set_hash "" (or_st (m_or m)))) with (committed_keys (or_st (m_or m))).
      rewrite (no_rollback _ 11999999); [by rewrite andb_false_r|]. intros k Hx. apply (keys_are_spec _ _ _ Hk) in Hx. by apply elem_of_nil in Hx.
    - rewrite (same_rehash _ _ Hs). by apply range_hash.
    - exact (dp_params _ _ D').
    - apply (deployed_setup cfg_loop cfg_loop _ D'). by repeat split.
    - apply honest_wf.
    - by rewrite (same_rehash _ _ Hs).
    - by apply apart_sound.
    - rewrite (sp_fees_addr _ _ (dp_params _ _ D')). apply fees_names. }
  cbn [live]. by rewrite Hst.
Qed.
Lemma window_skips : ∃ c0 l1 m1 E w r raw onchain l2 m2 k k', typed_config c0 ∧ (0 < c_dep_slot c0)%N ∧
  Forall typed_event (l1 ++ l2) ∧ lifetime toy toy c0 l1 (Down ∅) = ([], Up m1) ∧ checkpoint_slot c0 k ∧
  st_latest (or_st (m_or m1)) = k ∧ st_vals (or_st (m_or m1)) ≠ ∅ ∧
  serve toy E GetState w (m_or m1) = Ok r ∧ sent_state r = Fetched 200 (Some raw) ∧
  lifetime toy toy c0 (Start honest (Some raw) onchain :: l2) (Down ∅) = ([], Up m2) ∧
  st_committed (or_st (m_or m2)) !! k = None ∧ (k < k')%N ∧ is_Some (st_committed (or_st (m_or m2)) !! k').
Proof.
  destruct window_life as [Hl Ht]. destruct (window_facts _ Ht) as [Hlat Hv]. clear Ht.
  destruct (ex_life (λ sent m, match sent with [] => keys_are [12000003%N] m | _ => false end) toy toy cfg_loop on_to_next
    (Up (Machine Begin (rehash "" (m_or window_machine)) empty_cache ∅))) as (sent & m2 & Hl2 & Hk); [by vm_compute|].
  destruct sent; [|discriminate Hk].
  exists cfg_loop, at_checkpoint, window_machine, honest, (plain_wire 12000010). eexists _, _, (Some 11999999%N), on_to_next, m2, 12000001%N, 12000003%N.
  split; [exact cfg_loop_typed|]. split; [reflexivity|].
  split; [apply Forall_app; split; [exact at_checkpoint_typed|]; pose proof on_to_next_typed as Hn; apply Forall_app in Hn; apply Hn|].
  split; [exact Hl|]. split; [exact (loop_checkpoint 0)|]. split; [exact Hlat|]. split; [exact Hv|]. split; [reflexivity|]. split; [reflexivity|].
  split.
  - cbn [lifetime]. fold sync_window. rewrite window_synced, Hl2. reflexivity.
  - clear Hl Hl2. split; [by apply (not_a_key _ _ _ Hk)|]. split; [reflexivity|]. by apply (a_key _ _ _ Hk).
Qed.

(** ** A second process that starts from the first one's state *)
Definition provider_machine : machine :=
  match lifetime toy toy cfg_loop second_report (Down ∅) with (_, Up m) => m | (_, Down fs) => Machine Begin (new_oracle cfg_loop) empty_cache fs end.
Definition provider_test (m : machine) : bool :=
  match m_pc m with Deciding c => (oc_slot c =? 12000003)%N | _ => false end && keys_are [12000003; 12000001]%N m &&
  apart_test (to_lower (st_pool (or_st (m_or m)))) (or_st (m_or m)).
Lemma provider_life : (∃ sent, lifetime toy toy cfg_loop second_report (Down ∅) = (sent, Up provider_machine)) ∧ provider_test provider_machine = true.
Proof.
  destruct (ex_life (λ _, provider_test) toy toy cfg_loop second_report (Down ∅)) as (sent & m & Hl & Ht); [by vm_compute|].
  unfold provider_machine. rewrite Hl. split; [by exists sent|exact Ht].
Qed.
Lemma provider_fleet : fleet toy toy cfg_loop (λ m, ¬ in_window cfg_loop m) (Up provider_machine) ∧ ¬ in_window cfg_loop provider_machine.
Proof.
  destruct provider_life as [[sent Hl] Ht]. split.
  - eapply fleet_lifetime; [apply fleet_empty|exact second_report_typed|exact second_quiet|exact Hl].
  - clear Hl. revert Ht. generalize provider_machine. intros m Ht. apply andb_prop in Ht as [[Hpc _]%andb_prop _].
    intros [[Hx|Hx] _]; rewrite Hx in Hpc; discriminate Hpc.
Qed.
Definition synced_machine : machine := Machine Begin (rehash "" (m_or provider_machine)) empty_cache ∅.
Definition sync_second : event := Start honest (Some (state_body (hash_state toy (or_st (m_or provider_machine))))) (Some 12000003%N).
Lemma second_synced : live toy toy cfg_loop sync_second (Down ∅) = (None, Up synced_machine).
Proof.
  destruct provider_life as [[sent Hl] Ht]. destruct (own_history toy toy cfg_loop _ _ _ cfg_loop_typed eq_refl second_report_typed Hl) as (ops & q & He & T & Hs).
  clear Hl. unfold sync_second, synced_machine. revert Ht Hs. generalize provider_machine. intros m Ht Hs. destruct (reach_ready _ _ _ _ cfg_loop_typed T He) as (D & R & Hw).
  apply andb_prop in Ht as [[_ Hk]%andb_prop Ha].
  assert (D' : deployed cfg_loop (m_or m)) by (rewrite (same_rehash _ _ Hs); by apply deployed_rehash).
  assert (Hst : startup toy toy honest (Some (state_body (hash_state toy (or_st (m_or m))))) (Some 12000003%N) ∅ cfg_loop = Ok (rehash "" (m_or m))).
  { unfold startup. rewrite (load_synced _ _ _ _ _ fees20).
    - rewrite <-(dp_cfg _ _ D'). cbn [or_cfg or_st]. change (committed_keys (set_hash "" (or_st (m_or m)))) with (committed_keys (or_st (m_or m))).
      rewrite (no_rollback _ 12000003); [by rewrite andb_false_r|]. intros k Hx. apply (keys_are_spec _ _ _ Hk) in Hx.
      apply elem_of_cons in Hx as [->|[->|Hx]%elem_of_cons]; [lia|lia|by apply elem_of_nil in Hx].
    - rewrite (same_rehash _ _ Hs). by apply range_hash.
    - exact (dp_params _ _ D').
    - apply (deployed_setup cfg_loop cfg_loop _ D'). by repeat split.
    - apply honest_wf.
    - by rewrite (same_rehash _ _ Hs).
    - by apply apart_sound.
    - rewrite (sp_fees_addr _ _ (dp_params _ _ D')). apply fees_names. }
  cbn [live]. by rewrite Hst.
Qed.
Lemma second_fleet : fleet toy toy cfg_loop (λ m, ¬ in_window cfg_loop m) (Up synced_machine) ∧ is_Some (st_committed (or_st (m_or synced_machine)) !! 12000001%N).
Proof.
  destruct provider_fleet as [HF HP]. split.
  - eapply (fleet_sync _ _ _ _ (Down ∅) honest provider_machine honest (plain_wire 12000010)); [apply fleet_empty|exact HF|exact HP|reflexivity|reflexivity|exact second_synced].
  - destruct provider_life as [_ Ht]. unfold synced_machine. cbn [m_or]. revert Ht. generalize provider_machine. intros m Ht.
    apply andb_prop in Ht as [[_ Hk]%andb_prop _]. change (st_committed (or_st (rehash "" (m_or m)))) with (st_committed (or_st (m_or m))). by apply (a_key _ _ _ Hk).
Qed.
Definition on_to_third : list event := ticks 2 (first_root, 12000003%N) 3 ++ ticks 5 (first_root, 12000003%N) 4.
Lemma second_submits : ∃ m bytes L', fleet toy toy cfg_loop (λ m, ¬ in_window cfg_loop m) (Up m) ∧
  live toy toy cfg_loop (Tick (replies (first_root, 12000003%N) (sample_block 4))) (Up m) = (Some (12000005%N, bytes), L').
Proof.
  destruct second_fleet as [HF _].
  destruct (ex_life (λ sent m, match live toy toy cfg_loop (Tick (replies (first_root, 12000003%N) (sample_block 4))) (Up m) with
    | (Some (k, _), _) => (k =? 12000005)%N | _ => false end) toy toy cfg_loop on_to_third (Up synced_machine)) as (sent & m & Hl & Ht); [by vm_compute|].
  assert (Hq : quiet_test toy toy cfg_loop on_to_third (Up synced_machine) = true) by (by vm_compute).
  exists m. destruct (live _ _ _ _ (Up m)) as [[[k b]|] L']; [|discriminate Ht]. apply N.eqb_eq in Ht as ->. exists b, L'. split; [|reflexivity].
  eapply fleet_lifetime; [exact HF| | |exact Hl].
  - apply Forall_app. split; apply ticks_typed; lia.
  - by apply quiet_sound.
Qed.
Lemma trust_sample : ∃ o, in_range (or_st o) ∧ same_params (or_st o) cfg_live ∧ st_feepct (or_st o) = c_feepct cfg_live ∧
  wf_records (or_st o) ∧ pool_apart (or_st o) ∧ names fees20 (st_fees_addr (or_st o)) ∧ not_ahead (or_st o) 14082459.
Proof.
  destruct sample_ready as (o & _ & _ & _ & (D & S & R & N & A) & _ & F & _). exists o. split; [by apply saveable_range|].
  split; [exact (dp_params _ _ D)|]. split; [apply F|]. split; [exact R|]. split; [exact A|]. split; [exact N|].
  intros k Hk. apply (sample_keys _ _ _ _ k F), elem_of_list_singleton in Hk. by subst.
Qed.
