(** Concrete lives of the process, used by the examples of PropLoop.v. *)
From Verif Require Export LoopProofs OnchainSamples.

(** Checkpoints at 12000001, 12000003 and 12000005, not a dry run. *)
Definition cfg_loop : config := Config Mainnet pool_str 12000001 100 2 700 fees_str false 1000.
Lemma cfg_loop_typed : typed_config cfg_loop.
Proof. by vm_compute. Qed.

(** What is answered at a step while [fb] is the block asked for and [on] is on chain. *)
Definition replies (on : string * N) (fb : fullblock) : MainLoop.answers :=
  Answers honest (serving fb) (Some false) (Some 0%N) (Some 12000100%N) false None (λ _, None) true (Some 0%N) (Some 1%N) (Some on)
    (sends (Mined 1 false)) Written.
(** Block number [i] of [history 12000001], starting at 0. *)
Definition sample_block (i : nat) : fullblock := nth i (snd <$> history 12000001) (missed_slot 0 0 no_events).
Definition ticks (n : nat) (on : string * N) (i : nat) : list event := repeat (Tick (replies on (sample_block i))) n.

Lemma proposers_u64 n : is_u64 (d_index (proposers n)).
Proof.
  unfold proposers. cbv zeta. cbn [d_index]. destruct (n <? 12000001)%N; [done|]. generalize (N.to_nat (N.min (n - 12000001) 100)). intros j.
  do 6 (destruct j as [|j]; [done|]). by destruct j.
Qed.
Lemma serving_typed fb : typed_block fb → (∀ c, fb_cblock fb = Some c → is_u64 (p_number (cb_payload c))) → typed_node (serving fb).
Proof.
  intros [T1 T2 T3 T4 T5] Hn. split.
  - intros e l Hl. assert (l = (λ k, proposers (32 * e + N.of_nat k)) <$> seq 0 32) as -> by (symmetry; exact (Some_inj _ _ Hl)).
    apply Forall_fmap, Forall_forall. intros k _. apply proposers_u64.
  - intros slot c [= Hc]. by apply Hn.
  - intros n l [= <-]. done.
  - intros n l [= <-]. done.
  - intros n l [= <-]. done.
Qed.
Lemma sample_typed i on : (i < 6)%nat → typed_answers (replies on (sample_block i)).
Proof.
  intros Hi. split; [apply honest_wf|apply (honest_typed active_val)| |by intros f [= <-]].
  assert (typed_test (sample_block i) = true ∧ ∀ c, fb_cblock (sample_block i) = Some c → is_u64 (p_number (cb_payload c))) as [Ht Hn].
  { do 6 (destruct i as [|i]; [split; [by vm_compute|]; intros c Hc; vm_compute in Hc; try discriminate Hc; injection Hc as <-; by vm_compute|]). lia. }
  apply serving_typed; [by apply typed_sound|done].
Qed.
Lemma ticks_typed n on i : (i < 6)%nat → Forall typed_event (ticks n on i).
Proof. intros Hi. apply Forall_forall. intros e He%elem_of_list_In%repeat_spec. subst e. by apply sample_typed. Qed.

(** A boolean test of how a life ends. *)
Definition life_test (P : list (N * string) → machine → bool) (x : list (N * string) * life) : bool :=
  match x with (sent, Up m) => P sent m | _ => false end.
Lemma ex_life P sha H c0 l L : life_test P (lifetime sha H c0 l L) = true → ∃ sent m, lifetime sha H c0 l L = (sent, Up m) ∧ P sent m = true.
Proof. destruct (lifetime sha H c0 l L) as [sent [fs|m]]; [done|]. eauto. Qed.
Definition keys_are (l : list N) (m : machine) : bool := bool_decide (committed_keys (or_st (m_or m)) = l).
Lemma keys_are_spec l m k : keys_are l m = true → is_Some (st_committed (or_st (m_or m)) !! k) ↔ k ∈ l.
Proof. intros H%bool_decide_eq_true. rewrite <-H. symmetry. apply keys_elem, committed_keys_ok. Qed.

(** ** From the first slot to the first submission *)
Definition nothing_yet : string * N := ("", 11999999%N).
Definition first_report : list event := Start honest None (Some 11999999%N) :: ticks 5 nothing_yet 0.
Lemma first_report_typed : Forall typed_event first_report.
Proof. apply Forall_cons. split; [done|]. by apply ticks_typed, Nat.lt_0_succ. Qed.
Definition sent_is (k : N) (sent : list (N * string)) : bool := bool_decide (fst <$> sent = [k]).
Lemma first_submission : ∃ m bytes L', lifetime toy toy cfg_loop first_report (Down ∅) = ([], Up m) ∧
  live toy toy cfg_loop (Tick (replies nothing_yet (sample_block 0))) (Up m) = (Some (12000001%N, bytes), L').
Proof.
  destruct (ex_life (λ sent m, match sent, live toy toy cfg_loop (Tick (replies nothing_yet (sample_block 0))) (Up m) with
    | [], (Some (k, _), _) => (k =? 12000001)%N | _, _ => false end) toy toy cfg_loop first_report (Down ∅)) as (sent & m & Hl & Ht); [by vm_compute|].
  destruct sent; [|done]. exists m. destruct (live _ _ _ _ (Up m)) as [[[k b]|] L']; [|done]. apply N.eqb_eq in Ht as ->. exists b, L'. split; [exact Hl|reflexivity].
Qed.

(** ** A signal between processing and freezing the first checkpoint *)
Definition at_checkpoint : list event := Start honest None (Some 11999999%N) :: ticks 1 nothing_yet 0.
Definition window_machine : machine :=
  match lifetime toy toy cfg_loop at_checkpoint (Down ∅) with (_, Up m) => m | (_, Down fs) => Machine Begin (new_oracle cfg_loop) empty_cache fs end.
Definition window_test (m : machine) : bool :=
  match m_pc m with Processed => true | _ => false end && (st_latest (or_st (m_or m)) =? 12000001)%N && keys_are [] m &&
  (3 <=? map_size (st_vals (or_st (m_or m))))%nat && apart_test (to_lower (st_pool (or_st (m_or m)))) (or_st (m_or m)).
Lemma window_life : lifetime toy toy cfg_loop at_checkpoint (Down ∅) = ([], Up window_machine) ∧ window_test window_machine = true.
Proof.
  destruct (ex_life (λ sent m, match sent with [] => window_test m | _ => false end) toy toy cfg_loop at_checkpoint (Down ∅)) as (sent & m & Hl & Ht); [by vm_compute|].
  destruct sent; [|discriminate Ht]. unfold window_machine. rewrite Hl. split; [reflexivity|exact Ht].
Qed.
Lemma at_checkpoint_typed : Forall typed_event at_checkpoint.
Proof. apply Forall_cons. split; [done|]. by apply ticks_typed, Nat.lt_0_succ. Qed.
(** The stop, the restart, and on to the end of the next checkpoint. *)
Definition stop_restart : list event := [Signal Written; End Written; Start honest None (Some 11999999%N)].
Definition on_to_next : list event := ticks 2 nothing_yet 1 ++ ticks 6 nothing_yet 2.
Lemma restarted : ∃ fs, lifetime toy toy cfg_loop stop_restart (Up window_machine) = ([], Up (Machine Begin (rehash "" (m_or window_machine)) empty_cache fs)).
Proof.
  destruct window_life as [Hl Ht]. destruct (own_history toy toy cfg_loop _ _ _ cfg_loop_typed eq_refl at_checkpoint_typed Hl) as (ops & q & He & T & Hs).
  clear Hl. revert Ht Hs. generalize window_machine. intros m Ht Hs. destruct (reach_ready _ _ _ _ cfg_loop_typed T He) as (D & R & Hw).
  apply andb_prop in Ht as [[[[Hpc Hlat]%andb_prop Hk]%andb_prop _]%andb_prop Ha].
  unfold stop_restart. cbn [lifetime live save_now m_pc m_or m_files m_cache].
  assert (m_pc m = Processed) as -> by (by destruct (m_pc m)). cbn [disk_after].
  assert (Hst : startup toy toy honest None (Some 11999999%N) (save toy false (m_or m) (m_files m)).2 cfg_loop = Ok (rehash "" (m_or m))).
  { apply (startup_saved _ _ _ _ _ _ _ _ fees20).
    - rewrite (same_rehash _ _ Hs). by apply deployed_rehash.
    - rewrite (same_rehash _ _ Hs). by apply range_hash.
    - apply honest_wf.
    - by rewrite (same_rehash _ _ Hs).
    - by apply apart_sound.
    - rewrite (same_rehash _ _ Hs). cbn. rewrite (sp_fees_addr _ _ (dp_params _ _ D)). apply fees_names.
    - right. intros k Hx. apply (keys_are_spec _ _ _ Hk) in Hx. by apply elem_of_nil in Hx. }
  rewrite Hst. eexists. reflexivity.
Qed.
Lemma skipped_life : ∃ m, lifetime toy toy cfg_loop (stop_restart ++ on_to_next) (Up window_machine) = ([], Up m) ∧ keys_are [12000003%N] m = true ∧ m_pc m = Saving.
Proof.
  destruct restarted as [fs Hr].
  destruct (ex_life (λ sent m, match sent, m_pc m with [], Saving => keys_are [12000003%N] m | _, _ => false end) toy toy cfg_loop on_to_next
    (Up (Machine Begin (rehash "" (m_or window_machine)) empty_cache fs))) as (sent & m & Hl & Ht); [by vm_compute|].
  destruct sent; [|discriminate Ht]. exists m. pose proof (lifetime_app toy toy cfg_loop stop_restart on_to_next _ _ _ Hr) as Ha. rewrite Hl in Ha. cbn [fst snd app] in Ha.
  split; [exact Ha|]. destruct (m_pc m); try discriminate Ht. split; [exact Ht|reflexivity].
Qed.
Lemma on_to_next_typed : Forall typed_event (stop_restart ++ on_to_next).
Proof.
  apply Forall_app. split; [repeat (apply Forall_cons; split; [done|]); by apply Forall_nil|].
  apply Forall_app. split; apply ticks_typed; lia.
Qed.
Lemma loop_checkpoint j : checkpoint_slot cfg_loop (12000001 + j * 2).
Proof. by exists j. Qed.
(** Everything that can be said about a stop in the window. *)
Lemma window_facts m : window_test m = true → st_latest (or_st (m_or m)) = 12000001%N ∧ st_vals (or_st (m_or m)) ≠ ∅.
Proof.
  intros [[[[_ Hlat]%andb_prop _]%andb_prop Hv]%andb_prop _]%andb_prop. split; [by apply N.eqb_eq|].
  intros He. apply Nat.leb_le in Hv. rewrite He in Hv. vm_compute in Hv. lia.
Qed.
Lemma a_key l m k : keys_are l m = true → bool_decide (k ∈ l) = true → is_Some (st_committed (or_st (m_or m)) !! k).
Proof. intros Hk Hn. apply (keys_are_spec _ _ _ Hk). by apply bool_decide_eq_true in Hn. Qed.
Lemma not_a_key l m k : keys_are l m = true → bool_decide (k ∈ l) = false → st_committed (or_st (m_or m)) !! k = None.
Proof. rewrite bool_decide_eq_false. intros Hk Hn. destruct (st_committed (or_st (m_or m)) !! k) eqn:E; [|done]. exfalso. apply Hn, (keys_are_spec _ _ _ Hk). eauto. Qed.
Lemma stop_skips : ∃ c0 l1 onchain l2 m1 m2 k k', typed_config c0 ∧ (0 < c_dep_slot c0)%N ∧
  Forall typed_event (l1 ++ [Signal Written; End Written; Start honest None onchain] ++ l2) ∧
  lifetime toy toy c0 l1 (Down ∅) = ([], Up m1) ∧ checkpoint_slot c0 k ∧ st_latest (or_st (m_or m1)) = k ∧ st_vals (or_st (m_or m1)) ≠ ∅ ∧
  lifetime toy toy c0 ([Signal Written; End Written; Start honest None onchain] ++ l2) (Up m1) = ([], Up m2) ∧
  st_committed (or_st (m_or m2)) !! k = None ∧ (k < k')%N ∧ is_Some (st_committed (or_st (m_or m2)) !! k').
Proof.
  destruct window_life as [Hl Ht]. destruct skipped_life as (m2 & Hl2 & Hk & _). destruct (window_facts _ Ht) as [Hlat Hv]. clear Ht.
  exists cfg_loop, at_checkpoint, (Some 11999999%N), on_to_next, window_machine, m2, 12000001%N, 12000003%N.
  split; [exact cfg_loop_typed|]. split; [reflexivity|]. split; [by apply Forall_app; split; [exact at_checkpoint_typed|exact on_to_next_typed]|].
  split; [exact Hl|]. split; [exact (loop_checkpoint 0)|]. split; [exact Hlat|]. split; [exact Hv|]. split; [exact Hl2|].
  clear Hl Hl2. split; [|split; [reflexivity|]].
  - by apply (not_a_key _ _ _ Hk).
  - by apply (a_key _ _ _ Hk).
Qed.
Lemma stop_silences : ∃ c0 l sent m s0 k, typed_config c0 ∧ (0 < c_dep_slot c0)%N ∧ c_dry_run c0 = false ∧ Forall typed_event l ∧
  lifetime toy toy c0 l (Down ∅) = (sent, Up m) ∧ sent = [] ∧ is_Some (st_committed (or_st (m_or m)) !! k) ∧ (s0 < c_dep_slot c0)%N ∧
  ∀ l', Forall (goes_on s0) l' → (lifetime toy toy c0 l' (Up m)).1 = [].
Proof.
  destruct window_life as [Hl _]. destruct skipped_life as (m2 & Hl2 & Hk & _).
  pose proof (lifetime_app toy toy cfg_loop at_checkpoint (stop_restart ++ on_to_next) _ _ _ Hl) as Ha. rewrite Hl2 in Ha. cbn [fst snd app] in Ha. clear Hl Hl2.
  exists cfg_loop, (at_checkpoint ++ stop_restart ++ on_to_next), [], m2, 11999999%N, 12000003%N.
  assert (Forall typed_event (at_checkpoint ++ stop_restart ++ on_to_next)) as Te by (by apply Forall_app; split; [exact at_checkpoint_typed|exact on_to_next_typed]).
  assert (is_Some (st_committed (or_st (m_or m2)) !! 12000003%N)) as Hs by (by apply (a_key _ _ _ Hk)).
  split; [exact cfg_loop_typed|]. split; [reflexivity|]. split; [reflexivity|]. split; [exact Te|]. split; [exact Ha|]. split; [reflexivity|]. split; [exact Hs|].
  split; [reflexivity|]. intros l' Hg. exact (silent toy toy cfg_loop _ _ _ 12000003 11999999 l' cfg_loop_typed eq_refl Te Ha Hs eq_refl Hg).
Qed.

(** ** Another root is consolidated *)
Definition reported : list event := first_report ++ ticks 1 nothing_yet 0.
Lemma reported_typed : Forall typed_event reported.
Proof. apply Forall_app. split; [exact first_report_typed|]. apply ticks_typed. lia. Qed.
Lemma reported_life : ∃ x m c, lifetime toy toy cfg_loop reported (Down ∅) = ([x], Up m) ∧ m_pc m = Waiting c ∧ oc_slot c = 12000001%N ∧ oc_root c ≠ "0x" +:+ hex_encode (bytes 32 200).
Proof.
  destruct (ex_life (λ sent m, match sent, m_pc m with [_], Waiting c => (oc_slot c =? 12000001)%N && negb (String.eqb (oc_root c) ("0x" +:+ hex_encode (bytes 32 200))) | _, _ => false end)
    toy toy cfg_loop reported (Down ∅)) as (sent & m & Hl & Ht); [by vm_compute|].
  destruct sent as [|x []]; try discriminate Ht. destruct (m_pc m) as [| | | | | |c|] eqn:Hpc; try discriminate Ht. exists x, m, c.
  split; [exact Hl|]. split; [exact Hpc|]. clear Hl. apply andb_prop in Ht as [H1 H2]. split; [by apply N.eqb_eq|].
  apply negb_true_iff, String.eqb_neq in H2. exact H2.
Qed.
Lemma other_root_sticks : ∃ c0 l x m root, typed_config c0 ∧ (0 < c_dep_slot c0)%N ∧ c_dry_run c0 = false ∧ Forall typed_event l ∧
  lifetime toy toy c0 l (Down ∅) = ([x], Up m) ∧
  ∀ l', Forall (λ e, match e with Tick a => ∃ slot, an_onchain a = Some (root, slot) | Ask | Signal _ => True | _ => False end) l' →
    ∃ m', lifetime toy toy c0 l' (Up m) = ([], Up m') ∧ st_latest (or_st (m_or m')) = st_latest (or_st (m_or m)).
Proof.
  destruct reported_life as (x & m & c & Hl & Hpc & _ & Hr). exists cfg_loop, reported, x, m, ("0x" +:+ hex_encode (bytes 32 200)).
  split; [exact cfg_loop_typed|]. split; [reflexivity|]. split; [reflexivity|]. split; [exact reported_typed|]. split; [exact Hl|]. clear Hl.
  intros l' Hg. destruct (waits_forever toy toy cfg_loop m c l' Hpc) as (m' & Hm' & _ & Hs).
  - eapply Forall_impl; [exact Hg|]. intros [| a | | |]; cbn; try done. intros [slot Ho]. exists ("0x" +:+ hex_encode (bytes 32 200), slot). split; [exact Ho|].
    intros He. apply Hr. by injection He.
  - exists m'. split; [exact Hm'|]. symmetry. apply same_latest. exact Hs.
Qed.

(** ** An undisturbed life *)
Fixpoint quiet_test (sha H : string → string) (c0 : config) (l : list event) (L : life) : bool :=
  match l with
  | [] => true
  | e :: l =>
      match e, L with
      | Signal _, Up m => match m_pc m with Processed | Freezing => false | _ => true end
      | _, _ => true
      end && quiet_test sha H c0 l (live sha H c0 e L).2
  end.
Lemma quiet_sound sha H c0 l L : quiet_test sha H c0 l L = true → no_signal_in_window sha H c0 l L.
Proof.
  revert L. induction l as [|e l IH]; intros L Hq l1 d l2 sent m Hl Hlife; [by destruct l1|].
  cbn [quiet_test] in Hq. apply andb_prop in Hq as [Hq1 Hq2]. destruct l1 as [|e1 l1]; cbn in Hl; injection Hl as -> ->.
  - injection Hlife as _ ->. intros [[Hp|Hp] _]; by rewrite Hp in Hq1.
  - cbn [lifetime] in Hlife. destruct (live sha H c0 e1 L) as [x L1]. destruct (lifetime sha H c0 l1 L1) as [y L2] eqn:E.
    injection Hlife as _ ->. by eapply IH.
Qed.
Definition first_root : string :=
  match lifetime toy toy cfg_loop reported (Down ∅) with (_, Up m) => match m_pc m with Waiting c => oc_root c | _ => "" end | _ => "" end.
(** The first root is consolidated, a signal comes while its copy is saved, and the process goes on to the next checkpoint. *)
Definition second_report : list event :=
  reported ++ ticks 1 (first_root, 12000001%N) 0 ++ [Signal (Unopened 0)] ++ ticks 3 (first_root, 12000001%N) 1 ++ ticks 5 (first_root, 12000001%N) 2.
Lemma second_report_typed : Forall typed_event second_report.
Proof.
  apply Forall_app. split; [exact reported_typed|]. repeat (apply Forall_app; split); [apply ticks_typed; lia| |apply ticks_typed; lia|apply ticks_typed; lia].
  apply Forall_cons. split; [done|by apply Forall_nil].
Qed.
Lemma second_quiet : no_signal_in_window toy toy cfg_loop second_report (Down ∅).
Proof. apply quiet_sound. by vm_compute. Qed.
Lemma second_life : ∃ x m c, lifetime toy toy cfg_loop second_report (Down ∅) = ([x], Up m) ∧ m_pc m = Deciding c ∧ oc_slot c = 12000003%N ∧
  keys_are [12000003; 12000001]%N m = true ∧ st_latest (or_st (m_or m)) = 12000003%N.
Proof.
  destruct (ex_life (λ sent m, match sent, m_pc m with [_], Deciding c => (oc_slot c =? 12000003)%N && keys_are [12000003; 12000001]%N m && (st_latest (or_st (m_or m)) =? 12000003)%N | _, _ => false end)
    toy toy cfg_loop second_report (Down ∅)) as (sent & m & Hl & Ht); [by vm_compute|].
  destruct sent as [|x []]; try discriminate Ht. destruct (m_pc m) as [| | | | |c| |] eqn:Hpc; try discriminate Ht. exists x, m, c.
  split; [exact Hl|]. split; [exact Hpc|]. clear Hl. apply andb_prop in Ht as [[H1 H2]%andb_prop H3]. split; [by apply N.eqb_eq|].
  split; [exact H2|by apply N.eqb_eq].
Qed.
