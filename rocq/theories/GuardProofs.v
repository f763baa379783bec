(** What the main loop checks before it processes a slot and before it freezes a checkpoint. *)
From Verif Require Export LoopProofs.

(** The books do not change, and the configuration does not, unless a slot is processed. *)
Lemma step_other sha H a m sent m' : m_pc m ≠ Begin → step sha H a m = (sent, Ok m') →
  books (or_st (m_or m')) = books (or_st (m_or m)) ∧ or_cfg (m_or m') = or_cfg (m_or m).
Proof.
  intros Hb Hs. unfold step, stay in Hs. destruct (m_pc m) as [| | |c|c|c|c|] eqn:Hpc; [done|..].
  - injection Hs as _ Hs. unfold step_processed in Hs. cbv zeta in Hs. destruct (_ && _); [done|]. apply rbind_ok in Hs as ([[]|] & _ & Hs); [| |done].
    + destruct (offchain_reconciliation _); [|done]. by injection Hs as <-.
    + by injection Hs as <-.
  - injection Hs as _ Hs. unfold step_freezing in Hs. cbv zeta in Hs. apply rbind_ok in Hs as ([s' b] & Hf & Hs).
    assert (books s' = books (or_st (m_or m))) as Hbk by (apply freeze_inv in Hf as [(_ & -> & _)|(_ & c & _ & _ & ->)]; done).
    destruct b; [destruct (latest_committed_state (committed_keys s') s'); [|done]|]; injection Hs as <-; done.
  - injection Hs as _ Hs. unfold step_polling in Hs. destruct (an_report a); [|done]. destruct (an_quorum a); [|done].
    destruct (latest_committed_slot (committed_keys (or_st (m_or m)))); [case_match|]; by injection Hs as <-.
  - injection Hs as _ Hs. unfold step_resting in Hs. destruct (c_dry_run _); [|destruct (an_onchain a); [|done]]; by injection Hs as <-.
  - unfold step_deciding, fatal in Hs. destruct (an_onchain a) as [[r os]|]; [|done]. destruct (negb _ && _).
    + destruct (update_root _ _ _) as [x [e|]]; [destruct (contains _ _); [|done]|]; by injection Hs as _ <-.
    + by injection Hs as _ <-.
  - injection Hs as _ Hs. unfold step_waiting in Hs. destruct (an_onchain a) as [[r os]|]; [|done]. destruct (_ && _); by injection Hs as <-.
  - by injection Hs as _ <-.
Qed.
Lemma step_begin sha H a m sent m' : m_pc m = Begin → step sha H a m = (sent, Ok m') →
  m' = m ∨ ∃ f d fb, an_exec a = Some false ∧ an_dist a = Some d ∧ (d ≤ 5)%N ∧ an_final a = Some f ∧ (st_next (or_st (m_or m)) ≤ f)%N ∧
    advance (an_env a) fb (m_or m) = Done (m_or m') (st_next (or_st (m_or m))) ∧ m_pc m' = Processed.
Proof.
  intros Hpc Hs. unfold step, stay in Hs. rewrite Hpc in Hs. injection Hs as _ Hs. unfold step_top in Hs. cbv zeta in Hs.
  unfold are_nodes_in_sync in Hs. destruct (an_exec a) as [sy|]; [|done]. destruct (an_dist a) as [d|]; [|done].
  destruct sy; [left; by injection Hs as <-|]. destruct (N.ltb_spec 5 d) as [|Hd]; cbn [negb] in Hs; [left; by injection Hs as <-|].
  destruct (an_final a) as [f|]; [|left; by injection Hs as <-]. destruct (N.leb_spec (st_next (or_st (m_or m))) f) as [Hf|_].
  - apply rbind_ok in Hs as ([fb ca] & _ & Hs). destruct (advance (an_env a) fb (m_or m)) as [o' n| |] eqn:Ha; [|done|done].
    injection Hs as <-. right. exists f, d, fb. do 5 (split; [done|]). split; [|done].
    pose proof (advance_slots _ _ _ _ _ Ha) as (_ & <- & _). exact Ha.
  - left. destruct (an_due a); [|by injection Hs as <-]. apply rbind_ok in Hs as (u & _ & Hs). apply rbind_ok in Hs as (cl & _ & Hs).
    destruct (an_balance a); [|by injection Hs as <-]. destruct cl; [|by injection Hs as <-].
    destruct (onchain_reconciliation _ _ _); [|done]. by injection Hs as <-.
Qed.

(** C88 *)
Lemma only_finalized sha H c0 m e sent m' : live sha H c0 e (Up m) = (sent, Up m') → books (or_st (m_or m')) ≠ books (or_st (m_or m)) →
  ∃ a f d, e = Tick a ∧ an_exec a = Some false ∧ an_dist a = Some d ∧ (d ≤ 5)%N ∧ an_final a = Some f ∧
    st_latest (or_st (m_or m')) = st_next (or_st (m_or m)) ∧ (st_latest (or_st (m_or m')) ≤ f)%N.
Proof.
  intros Hl Hb. destruct e as [E sync onchain|a| |d|d]; cbn [live] in Hl; [injection Hl as _ <-; done| |injection Hl as _ <-; done|injection Hl as _ <-; done|done].
  destruct (step sha H a m) as [x [m1|]] eqn:Hs; [|done]. injection Hl as -> ->.
  assert (m_pc m = Begin ∨ m_pc m ≠ Begin) as [Hpc|Hpc] by (destruct (m_pc m); [by left|by right..]).
  - apply step_begin in Hs as [->|(f & d & fb & H1 & H2 & H3 & H4 & H5 & H6 & _)]; [done| |done].
    exists a, f, d. do 5 (split; [done|]). pose proof (advance_slots _ _ _ _ _ H6) as (_ & _ & _ & Hla & _). rewrite Hla. done.
  - apply step_other in Hs as [? _]; done.
Qed.

(** The loop freezes only what it has checked. *)
Definition checked (L : life) : Prop :=
  match L with
  | Down _ => True
  | Up m => m_pc m = Freezing → owed (or_st (m_or m)) = received (or_st (m_or m)) ∧ is_checkpoint (m_or m) = Ok (Some true)
  end.
Lemma checked_step sha H a m sent m' : step sha H a m = (sent, Ok m') → checked (Up m').
Proof.
  intros Hs Hf. unfold step, stay in Hs. destruct (m_pc m) as [| | |c|c|c|c|] eqn:Hpc.
  - assert (step sha H a m = (None, Ok m')) as Hs' by (unfold step, stay; rewrite Hpc; injection Hs as _ ->; done).
    apply step_begin in Hs' as [->|(f & d & fb & _ & _ & _ & _ & _ & _ & H6)]; congruence.
  - injection Hs as _ Hs. unfold step_processed in Hs. cbv zeta in Hs. destruct (_ && _); [done|]. apply rbind_ok in Hs as ([[]|] & Hc & Hs); [| |done].
    + destruct (offchain_reconciliation _) eqn:Hr; [|done]. injection Hs as <-. cbn [goto m_or]. split; [|done].
      unfold offchain_reconciliation in Hr. rewrite liabilities_owed, assets_received in Hr. by apply Z.eqb_eq.
    + by injection Hs as <-.
  - injection Hs as _ Hs. unfold step_freezing in Hs. cbv zeta in Hs. apply rbind_ok in Hs as ([s' b] & Hf' & Hs).
    destruct b; [destruct (latest_committed_state (committed_keys s') s'); [|done]|]; by injection Hs as <-.
  - injection Hs as _ Hs. unfold step_polling in Hs. destruct (an_report a); [|done]. destruct (an_quorum a); [|done].
    destruct (latest_committed_slot (committed_keys (or_st (m_or m)))); [case_match|]; injection Hs as <-; cbn in Hf; congruence.
  - injection Hs as _ Hs. unfold step_resting in Hs. destruct (c_dry_run _); [|destruct (an_onchain a); [|done]]; by injection Hs as <-.
  - unfold step_deciding, fatal in Hs. destruct (an_onchain a) as [[r os]|]; [|done]. destruct (negb _ && _).
    + destruct (update_root _ _ _) as [x [e|]]; [destruct (contains _ _); [|done]|]; by injection Hs as _ <-.
    + by injection Hs as _ <-.
  - injection Hs as _ Hs. unfold step_waiting in Hs. destruct (an_onchain a) as [[r os]|]; [|done]. destruct (_ && _); injection Hs as <-; cbn in Hf; congruence.
  - by injection Hs as _ <-.
Qed.
Lemma checked_live sha H c0 e L sent L' : checked L → live sha H c0 e L = (sent, L') → checked L'.
Proof.
  intros Hc. destruct L as [fs|m].
  - destruct e; cbn [live]; try (by intros [= <- <-]). destruct (startup _ _ _ _ _ _ _); by intros [= <- <-].
  - destruct e as [E sync onchain|a| |d|d]; cbn [live]; [intros [= <- <-]; exact Hc| |intros [= <- <-]; exact Hc|intros [= <- <-]; exact Hc|by intros [= <- <-]].
    destruct (step sha H a m) as [x [m'|]] eqn:Hs; intros [= <- <-]; [|done]. by eapply checked_step.
Qed.
Lemma checked_lifetime sha H c0 l L sent L' : checked L → lifetime sha H c0 l L = (sent, L') → checked L'.
Proof.
  revert L sent. induction l as [|e l IH]; intros L sent Hc; cbn [lifetime]; [by intros [= <- <-]|].
  destruct (live sha H c0 e L) as [s1 L1] eqn:H1. destruct (lifetime sha H c0 l L1) as [s2 L2] eqn:H2. intros [= _ <-].
  eapply IH; [|exact H2]. by eapply checked_live.
Qed.
Lemma frozen_step sha H a m sent m' : step sha H a m = (sent, Ok m') → st_committed (or_st (m_or m')) ≠ st_committed (or_st (m_or m)) →
  m_pc m = Freezing ∧ ∃ c, oc_slot c = st_latest (or_st (m_or m)) ∧
    st_committed (or_st (m_or m')) = <[st_latest (or_st (m_or m)) := c]> (st_committed (or_st (m_or m))).
Proof.
  intros Hs Hne. destruct (m_pc m) as [| | |c|c|c|c|] eqn:Hpc.
  - apply step_begin in Hs as [->|(f & d & fb & _ & _ & _ & _ & _ & Ha & _)]; [done| |done]. destruct Hne.
    by apply advance_committed in Ha.
  - unfold step, stay in Hs. rewrite Hpc in Hs. injection Hs as _ Hs. unfold step_processed in Hs. cbv zeta in Hs. destruct (_ && _); [done|].
    apply rbind_ok in Hs as ([[]|] & _ & Hs); [destruct (offchain_reconciliation _); [|done]| |done]; by injection Hs as <-.
  - split; [done|]. unfold step, stay in Hs. rewrite Hpc in Hs. injection Hs as _ Hs. unfold step_freezing in Hs. cbv zeta in Hs.
    apply rbind_ok in Hs as ([s' b] & Hf & Hs).
    assert (or_st (m_or m') = s') as Hs' by (destruct b; [destruct (latest_committed_state (committed_keys s') s'); [|done]|]; by injection Hs as <-).
    rewrite Hs' in *. apply freeze_inv in Hf as [(_ & -> & _)|(_ & c & _ & Hc & ->)]; [done|]. by exists c.
  - unfold step, stay in Hs. rewrite Hpc in Hs. injection Hs as _ Hs. unfold step_polling in Hs. destruct (an_report a); [|done]. destruct (an_quorum a); [|done].
    destruct (latest_committed_slot (committed_keys (or_st (m_or m)))); [case_match|]; by injection Hs as <-.
  - unfold step, stay in Hs. rewrite Hpc in Hs. injection Hs as _ Hs. unfold step_resting in Hs. destruct (c_dry_run _); [|destruct (an_onchain a); [|done]]; by injection Hs as <-.
  - unfold step, step_deciding, fatal in Hs. rewrite Hpc in Hs. destruct (an_onchain a) as [[r os]|]; [|done]. destruct (negb _ && _).
    + destruct (update_root _ _ _) as [x [e|]]; [destruct (contains _ _); [|done]|]; by injection Hs as _ <-.
    + by injection Hs as _ <-.
  - unfold step, stay in Hs. rewrite Hpc in Hs. injection Hs as _ Hs. unfold step_waiting in Hs. destruct (an_onchain a) as [[r os]|]; [|done]. destruct (_ && _); by injection Hs as <-.
  - unfold step, stay in Hs. rewrite Hpc in Hs. by injection Hs as _ <-.
Qed.
Lemma only_balanced sha H c0 fs l sent m e sent' m' : lifetime sha H c0 l (Down fs) = (sent, Up m) →
  live sha H c0 e (Up m) = (sent', Up m') → st_committed (or_st (m_or m')) ≠ st_committed (or_st (m_or m)) →
  owed (or_st (m_or m)) = received (or_st (m_or m)) ∧
  ((st_latest (or_st (m_or m)) < 2 ^ 64)%N → ∃ j, st_latest (or_st (m_or m)) = (c_dep_slot (or_cfg (m_or m)) + j * c_cp_size (or_cfg (m_or m)))%N) ∧
  ∃ c, oc_slot c = st_latest (or_st (m_or m)) ∧
    st_committed (or_st (m_or m')) = <[st_latest (or_st (m_or m)) := c]> (st_committed (or_st (m_or m))).
Proof.
  intros Hl Hv Hne. apply checked_lifetime in Hl; [|done].
  destruct e as [E sync onchain|a| |d|d]; cbn [live] in Hv; [by injection Hv as _ <-| |by injection Hv as _ <-|by injection Hv as _ <-|done].
  destruct (step sha H a m) as [x [m1|]] eqn:Hs; [|done]. injection Hv as -> ->.
  apply frozen_step in Hs as [Hpc Hc]; [|done]. destruct (Hl Hpc) as [Ho Hcp]. split; [done|]. split; [|done].
  intros Hlt. apply is_checkpoint_inv in Hcp; [|done]. by apply Hcp.
Qed.
