(** Concrete deployments used by the examples of PropPersist.v. *)
From Verif Require Export ResumeProofs MerkleSamples.

(** ** Computable versions of the typing hypotheses *)
Definition u64_test (n : N) : bool := (n <? two64)%N.
Lemma u64_sound n : u64_test n = true → is_u64 n.
Proof. by intros ?%N.ltb_lt. Qed.
Definition log_test (x : rawlog) : bool :=
  (String.length (l_addr x) =? 20)%nat && forallb (λ t, (String.length t =? 32)%nat) (l_topics x) && u64_test (l_block x) &&
  (String.length (l_tx x) =? 32)%nat && u64_test (l_txindex x) && (String.length (l_blockhash x) =? 32)%nat && u64_test (l_index x).
Lemma log_sound x : log_test x = true → good_log x.
Proof.
  unfold log_test. intros [[[[[[H1 H2]%andb_prop H3]%andb_prop H4]%andb_prop H5]%andb_prop H6]%andb_prop H7]%andb_prop.
  split; [by apply Nat.eqb_eq|]. split; [by eapply forallb_Forall; [|exact H2]; intros ? ?%Nat.eqb_eq|].
  split; [by apply u64_sound|]. split; [by apply Nat.eqb_eq|]. split; [by apply u64_sound|]. split; [by apply Nat.eqb_eq|by apply u64_sound].
Qed.
Definition typed_test (fb : fullblock) : bool :=
  u64_test (fb_duty_index fb) && match get_number fb with Ok n => u64_test n | Die _ => true end &&
  forallb (λ x, (String.length (sub_sender x) =? 20)%nat && u64_test (sub_id x) && log_test (sub_log x)) (ev_subscribe (fb_events fb)) &&
  forallb (λ x, (String.length (uns_sender x) =? 20)%nat && u64_test (uns_id x) && log_test (uns_log x)) (ev_unsubscribe (fb_events fb)) &&
  forallb (λ x, (String.length (er_sender x) =? 20)%nat && log_test (er_log x)) (ev_ether_received (fb_events fb)).
Lemma typed_sound fb : typed_test fb = true → typed_block fb.
Proof.
  unfold typed_test. intros [[[[H1 H2]%andb_prop H3]%andb_prop H4]%andb_prop H5]%andb_prop. split.
  - by apply u64_sound.
  - intros n Hn. rewrite Hn in H2. by apply u64_sound.
  - eapply forallb_Forall; [|exact H3]. intros x [[A B]%andb_prop C]%andb_prop.
    split; [by apply Nat.eqb_eq|]. split; [by apply u64_sound|by apply log_sound].
  - eapply forallb_Forall; [|exact H4]. intros x [[A B]%andb_prop C]%andb_prop.
    split; [by apply Nat.eqb_eq|]. split; [by apply u64_sound|by apply log_sound].
  - eapply forallb_Forall; [|exact H5]. intros x [A B]%andb_prop. split; [by apply Nat.eqb_eq|by apply log_sound].
Qed.
Lemma honest_typed val : typed_env (honest_env val []) ∧ typed_env (backward_env val []).
Proof. split; intros slot l [= <-]; constructor. Qed.

(** ** A deployment that lives through the scheduled fee change *)
Definition cfg_live : config := Config Mainnet pool_str 14082459 100 1 700 fees_str false 1000.
(** The same with another collateral. *)
Definition cfg_other : config := Config Mainnet pool_str 14082459 100 1 700 fees_str false 2000.
Definition fee_block : fullblock :=
  mev_block 14082460 1 100000 (Events [ether_ev 100000 14082460] [] [] [(500%Z, lg 14082460)] [] [] [] [] [] []).
Definition before_change : list operation :=
  [Process honest (foreign_block 14082459 9 (evs [] [sub_ev 1 1000 14082459; sub_ev 2 1000 14082459] [] [] [])); Freeze honest].
Definition after_change : list operation := [Process honest fee_block; Freeze backward].
Lemma before_ok : Forall wf_operation before_change ∧ Forall typed_operation before_change.
Proof.
  split.
  - apply Forall_cons; split; [by split; [apply honest_wf|]|]. apply Forall_cons; split; [apply honest_wf|by apply Forall_nil].
  - apply Forall_cons; split; [|apply Forall_cons; split; [|by apply Forall_nil]].
    + split; [apply (honest_typed active_val)|]. apply typed_sound. by vm_compute.
    + done.
Qed.
Lemma after_ok : Forall wf_operation after_change ∧ Forall typed_operation after_change.
Proof.
  split.
  - apply Forall_cons; split; [by split; [apply honest_wf|]|]. apply Forall_cons; split; [apply backward_wf|by apply Forall_nil].
  - apply Forall_cons; split; [|apply Forall_cons; split; [|by apply Forall_nil]].
    + split; [apply (honest_typed active_val)|]. apply typed_sound. by vm_compute.
    + done.
Qed.
Lemma cfg_live_typed : typed_config cfg_live.
Proof. by vm_compute. Qed.

Definition sample_facts (slot : N) (fee : Z) (keys : list N) (o : oracle) : Prop :=
  st_latest (or_st o) = slot ∧ st_feepct (or_st o) = fee ∧ apart_test (to_lower (st_pool (or_st o))) (or_st o) = true ∧
  committed_keys (or_st o) = keys ∧ map_size (st_vals (or_st o)) = 2%nat.
Lemma sample_life : ∃ o1 o2,
  evolve toy (new_oracle cfg_live) before_change o1 ∧ evolve toy o1 after_change o2 ∧
  sample_facts 14082459 700 [14082459%N] o1 ∧ sample_facts 14082460 500 [14082459; 14082460]%N o2 ∧
  load_checks (or_st o2) cfg_other = (cset_feepct 500 cfg_other, Some "collateral mismatch") ∧
  pend_of (or_st o2) 2 = Some 58000%Z.
Proof.
  destruct (ex_evolve (λ o1, sample_facts 14082459 700 [14082459%N] o1 ∧
     match evolve_fn toy o1 after_change with
     | Some o2 => sample_facts 14082460 500 [14082459; 14082460]%N o2 ∧
         load_checks (or_st o2) cfg_other = (cset_feepct 500 cfg_other, Some "collateral mismatch") ∧
         pend_of (or_st o2) 2 = Some 58000%Z
     | None => False
     end) toy (new_oracle cfg_live) before_change (proj1 before_ok)) as (o1 & H1 & F1 & H2).
  { vm_compute. repeat split. }
  destruct (evolve_fn toy o1 after_change) as [o2|] eqn:E2; [|done]. exists o1, o2. split; [done|].
  split; [by apply evolve_fn_evolve; [apply after_ok|]|]. done.
Qed.

(** Restarting between the two checkpoints. *)
Lemma sample_apart slot fee keys o : sample_facts slot fee keys o → pool_apart (or_st o).
Proof. intros (_ & _ & Ha & _). by apply apart_sound. Qed.
Lemma cfg_live_names : names fees20 (c_fees_addr cfg_live).
Proof. apply fees_names. Qed.
(** What the theorems ask of a state, for the states of this deployment. *)
Lemma live_ready l o : evolve toy (new_oracle cfg_live) l o → Forall typed_operation l →
  deployed cfg_live o ∧ saveable (or_st o) ∧ wf_records (or_st o) ∧ names fees20 (st_fees_addr (or_st o)).
Proof.
  intros He Ht. assert (deployed cfg_live o) as D by (by eapply deployed_evolve; [|apply deployed_new]).
  split; [done|]. split; [by eapply saveable_evolve; [| |apply saveable_new, cfg_live_typed]|].
  split; [by eapply evolve_records; [|apply fresh_records]|].
  rewrite (sp_fees_addr _ _ (dp_params _ _ D)). exact cfg_live_names.
Qed.
Lemma sample_ready : ∃ o1 o2,
  evolve toy (new_oracle cfg_live) before_change o1 ∧ evolve toy o1 after_change o2 ∧
  (deployed cfg_live o1 ∧ saveable (or_st o1) ∧ wf_records (or_st o1) ∧ names fees20 (st_fees_addr (or_st o1)) ∧ pool_apart (or_st o1)) ∧
  (deployed cfg_live o2 ∧ saveable (or_st o2) ∧ wf_records (or_st o2) ∧ names fees20 (st_fees_addr (or_st o2)) ∧ pool_apart (or_st o2)) ∧
  sample_facts 14082459 700 [14082459%N] o1 ∧ sample_facts 14082460 500 [14082459; 14082460]%N o2 ∧
  load_checks (or_st o2) cfg_other = (cset_feepct 500 cfg_other, Some "collateral mismatch") ∧
  pend_of (or_st o2) 2 = Some 58000%Z.
Proof.
  destruct sample_life as (o1 & o2 & H1 & H2 & F1 & F2 & C & P). exists o1, o2. do 2 (split; [done|]).
  destruct (live_ready _ _ H1 (proj2 before_ok)) as (D1 & S1 & R1 & N1).
  destruct (live_ready (before_change ++ after_change) o2) as (D2 & S2 & R2 & N2).
  { by eapply evolve_app. } { apply Forall_app. split; [apply before_ok|apply after_ok]. }
  split; [by repeat (split; [done|]); eapply sample_apart|]. split; [by repeat (split; [done|]); eapply sample_apart|]. done.
Qed.
(** The checkpoints of a sample are those listed. *)
Lemma sample_keys slot fee keys o k : sample_facts slot fee keys o → is_Some (st_committed (or_st o) !! k) ↔ k ∈ keys.
Proof.
  intros (_ & _ & _ & <- & _). symmetry. apply keys_elem, committed_keys_ok.
Qed.
(** Another state of the same deployment after the change, with the old fee: deployed later. *)
Definition cfg_late : config := Config Mainnet pool_str 14082461 100 1 700 fees_str false 1000.
Lemma stale_fee : ∃ l o, evolve toy (new_oracle cfg_late) l o ∧ Forall typed_operation l ∧
  sample_facts 14082461 700 [] o.
Proof.
  exists [Process honest (foreign_block 14082461 9 (evs [] [sub_ev 1 1000 14082461; sub_ev 2 1000 14082461] [] [] []))].
  edestruct (ex_evolve (sample_facts 14082461 700 []) toy (new_oracle cfg_late)) as (o & He & Hf); [| |exists o; split; [exact He|split; [|exact Hf]]].
  - apply Forall_cons; split; [by split; [apply honest_wf|]|by apply Forall_nil].
  - vm_compute. repeat split.
  - apply Forall_cons; split; [|by apply Forall_nil]. split; [apply (honest_typed active_val)|]. apply typed_sound. by vm_compute.
Qed.
(** Validator 154 withdraws to the pool; it proposes one block that pays the pool. *)
Definition pool_owner_work : list operation := [Process honest (vanilla_block 14082459 154 (evs [] [] [] [] []))].
Lemma pool_owner_ok : Forall wf_operation pool_owner_work ∧ Forall typed_operation pool_owner_work.
Proof.
  split; (apply Forall_cons; split; [|by apply Forall_nil]).
  - by split; [apply honest_wf|].
  - split; [apply (honest_typed active_val)|]. apply typed_sound. by vm_compute.
Qed.
Lemma pool_owner_run : ∃ o, evolve toy (new_oracle cfg_live) pool_owner_work o ∧
  withdraws_to (or_st o) (to_lower (st_pool (or_st o))).
Proof.
  destruct (ex_evolve (λ o, match st_vals (or_st o) !! 154%N with
     | Some v => String.eqb (to_lower (v_addr v)) (to_lower (st_pool (or_st o))) = true | None => False end)
     toy (new_oracle cfg_live) pool_owner_work (proj1 pool_owner_ok)) as (o & He & Hf).
  { by vm_compute. }
  exists o. split; [done|]. destruct (st_vals (or_st o) !! 154%N) as [v|] eqn:Hv; [|done]. exists 154%N, v. split; [done|].
  by apply String.eqb_eq.
Qed.
Lemma pool_owner_no_load : ∃ c0 l o, typed_config c0 ∧ Forall typed_operation l ∧ evolve toy (new_oracle c0) l o ∧
  ∀ sha H E b fs, wf_env E → ∃ d, load_json sha H E (save sha b o fs).2 (new_oracle c0) = Dead d.
Proof.
  destruct pool_owner_run as (o & He & Hw). exists cfg_live, pool_owner_work, o. split; [apply cfg_live_typed|].
  split; [apply pool_owner_ok|]. split; [done|]. intros sha H E b fs W.
  destruct (reach_ready _ _ _ _ cfg_live_typed (proj2 pool_owner_ok) He) as (D & R & _).
  apply pool_owner_load; [done..|]. eexists. by apply deployed_checks.
Qed.
Lemma pool_owner_attack : ∃ c0 i fb o, typed_config c0 ∧ typed_block fb ∧
  evolve toy (new_oracle c0) [Process honest fb] o ∧ fb_duty_index fb = i ∧ ev_subscribe (fb_events fb) = [] ∧
  st_vals (or_st (new_oracle c0)) !! i = None ∧ ∀ E, wf_env E → ∃ d, freeze toy E (or_st o) = Die d.
Proof.
  destruct pool_owner_run as (o & He & Hw). exists cfg_live, 154%N, (vanilla_block 14082459 154 (evs [] [] [] [] [])), o.
  split; [apply cfg_live_typed|]. destruct pool_owner_ok as [_ T]. apply Forall_cons in T as [[_ T] _].
  split; [exact T|]. split; [exact He|]. do 2 (split; [done|]). split; [apply lookup_empty|].
  intros E W. by apply pool_owner_freeze.
Qed.
(** What comes after the attack. *)
Definition afterwards : list operation :=
  [Process backward (foreign_block 14082460 9 (evs [] [sub_ev 1 1000 14082460; sub_ev 2 1000 14082460] [] [] []))].
Lemma afterwards_ok : Forall wf_operation afterwards ∧ Forall typed_operation afterwards.
Proof.
  split; (apply Forall_cons; split; [|by apply Forall_nil]).
  - by split; [apply backward_wf|].
  - split; [apply (honest_typed active_val)|]. apply typed_sound. by vm_compute.
Qed.
Lemma attacked_sample : ∃ o o', typed_config cfg_live ∧ Forall typed_operation pool_owner_work ∧
  evolve toy (new_oracle cfg_live) pool_owner_work o ∧ ¬ pool_apart (or_st o) ∧ Forall typed_operation afterwards ∧
  evolve toy o afterwards o' ∧ map_size (st_vals (or_st o')) = 3%nat.
Proof.
  destruct (ex_evolve (λ o, match st_vals (or_st o) !! 154%N with
     | Some v => String.eqb (to_lower (v_addr v)) (to_lower (st_pool (or_st o))) = true | None => False end ∧
     match evolve_fn toy o afterwards with Some o' => map_size (st_vals (or_st o')) = 3%nat | None => False end)
     toy (new_oracle cfg_live) pool_owner_work (proj1 pool_owner_ok)) as (o & He & Hf & Ha).
  { vm_compute. by split. }
  destruct (evolve_fn toy o afterwards) as [o'|] eqn:E2; [|done]. exists o, o'. split; [apply cfg_live_typed|].
  split; [apply pool_owner_ok|]. split; [done|]. split.
  { intros Hn. apply Hn. destruct (st_vals (or_st o) !! 154%N) as [v|] eqn:Hv; [|done]. exists 154%N, v. split; [done|].
    by apply String.eqb_eq. }
  split; [apply afterwards_ok|]. split; [by apply evolve_fn_evolve; [apply afterwards_ok|]|done].
Qed.

(** A state with more fees. *)
Lemma more_fees s : in_range s → in_range (set_fees (st_fees s + 1) s).
Proof. intros (A & B & C). done. Qed.
Lemma more_fees_differ h s : ¬ same_content (set_hash h (set_fees (st_fees s + 1) s)) s.
Proof. unfold same_content. intros Heq. apply (f_equal st_fees) in Heq. cbn in Heq. lia. Qed.
Lemma tampered_sample : ∃ s s1 o', let sha := λ _, bytes 32 7 in let raw := marshal (hash_state sha s1) in
  in_range s ∧ load_bytes sha toy honest raw (new_oracle cfg_live) = Done o' true ∧
  unmarshal raw = Some (hash_state sha s1) ∧ to_lower (st_hash (hash_state sha s1)) = hash_text sha s ∧
  st_fees s1 = (st_fees s + 1)%Z ∧ ¬ same_content (hash_state sha s1) s.
Proof.
  destruct sample_ready as (o1 & o2 & _ & _ & (D & S & R & N & A) & _). set (sha := λ _ : string, bytes 32 7).
  set (s := or_st o1). set (s1 := set_fees (st_fees s + 1) s).
  assert (in_range s1) as Hr by (by apply more_fees, saveable_range).
  exists s, s1, (rehash "" (Oracle (or_cfg o1) s1)). cbv zeta. split; [by apply saveable_range|]. split.
  { apply (load_deployed sha toy honest cfg_live (Oracle (or_cfg o1) s1) fees20); try done; [|apply honest_wf].
    destruct D as [D1 [? ? ? ? ? ? ?] D3 D4]. done. }
  split; [by apply unmarshal_marshal, range_hash|]. split; [exact (hash_text_lower sha s1)|]. split; [done|].
  apply more_fees_differ.
Qed.
Lemma refused_sample : ∃ sha s s1, digest sha ∧ in_range s ∧ unmarshal (marshal s1) = Some s1 ∧ st_hash s1 = hash_text sha s ∧
  ¬ same_content s1 s ∧ ¬ collision sha [marshal (set_hash "" s1)] [marshal (set_hash "" s)].
Proof.
  destruct sample_ready as (o1 & o2 & _ & _ & (D & S & R & N & A) & _). set (s := or_st o1).
  set (sha := λ x, if String.eqb x (marshal (set_hash "" s)) then bytes 32 7 else bytes 32 8).
  set (s1 := set_hash (hash_text sha s) (set_fees (st_fees s + 1) s)).
  assert (in_range s) as Hs by (by apply saveable_range).
  assert (in_range s1) as Hr by (by apply range_hash, more_fees).
  exists sha, s, s1. split. { intros x. unfold sha. by destruct (String.eqb x _). }
  split; [done|]. split; [by apply unmarshal_marshal|]. split; [done|].
  assert (¬ same_content s1 s) as Hne by apply more_fees_differ. split; [done|].
  intros (x & y & Hx%elem_of_list_singleton & Hy%elem_of_list_singleton & Hxy & Hh). subst x y.
  unfold sha in Hh. rewrite String.eqb_refl in Hh. apply String.eqb_neq in Hxy. rewrite Hxy in Hh. by vm_compute in Hh.
Qed.

Lemma stale_fee_loads : ∃ c o, ∀ sha H E b fs, wf_env E → ∃ o',
  load_json sha H E (save sha b o fs).2 (new_oracle c) = Done o' true ∧
  ¬ fee_in_force (c_network c) (c_feepct c) (st_latest (or_st o')) (st_feepct (or_st o')).
Proof.
  destruct stale_fee as (l & o & He & T & F). exists cfg_late, o. intros sha H E b fs W.
  assert (typed_config cfg_late) as Tc by (by vm_compute).
  eexists. split; [apply (reach_load sha toy H E cfg_late l o b fs fees20 Tc T He W); [by eapply sample_apart|apply fees_names]|].
  destruct F as (F1 & F2 & _). cbn [or_st]. change (st_latest (set_hash "" (or_st o))) with (st_latest (or_st o)).
  change (st_feepct (set_hash "" (or_st o))) with (st_feepct (or_st o)). rewrite F1, F2. cbn [c_network c_feepct cfg_late].
  intros Hf. assert (fee_in_force Mainnet 700 14082461 500) as Hg.
  { right. exists 14082460%N. split; [done|]. split; [done|]. intros k z Hk _.
    by destruct (schedule_single Mainnet k z 14082460 500 Hk eq_refl) as [-> _]. }
  by pose proof (fee_in_force_fun _ _ _ _ _ Hf Hg).
Qed.
Lemma failed_load_changes : ∃ o c, ∀ sha H E b fs, wf_env E → ∃ o' e,
  load_json sha H E (save sha b o fs).2 (new_oracle c) = Fail o' e ∧ c_feepct c = 700%Z ∧ c_feepct (or_cfg o') = 500%Z.
Proof.
  destruct sample_ready as (o1 & o & _ & _ & _ & (D & S & R & N & A) & _ & _ & C & _). exists o, cfg_other. intros sha H E b fs W.
  exists (Oracle (cset_feepct 500 cfg_other) (or_st (new_oracle cfg_other))), "collateral mismatch". split; [|done].
  unfold load_json, load_path. rewrite save_state_file. by apply load_saved_bad; [apply saveable_range|].
Qed.

(** One restart, after the first checkpoint; the hash is asked for in between. *)
Definition stop_between : list happening :=
  (Step <$> before_change) ++ [Rehash; Restart honest true 14082459 ∅] ++ (Step <$> after_change).
Lemma lives_steps sha H c0 o l o' l' o'' : evolve H o l o' → lives sha H c0 o' l' o'' → lives sha H c0 o ((Step <$> l) ++ l') o''.
Proof.
  induction 1 as [o|o E fb o1 n l o2 W Hd Ha _ IH|o E s1 b l o2 W Hf _ IH]; intros Hl; [done|..]; cbn.
  - eapply lives_step; [|by apply IH]. eapply evolve_process; [done|done|done|constructor].
  - eapply lives_step; [|by apply IH]. eapply evolve_freeze; [done|done|constructor].
Qed.
Lemma stopped_life : ∃ o1 o2, evolve toy (new_oracle cfg_live) before_change o1 ∧ evolve toy o1 after_change o2 ∧
  lives toy toy cfg_live (new_oracle cfg_live) stop_between (rehash "" o2) ∧ pool_apart (or_st o2) ∧
  sample_facts 14082460 500 [14082459; 14082460]%N o2 ∧ pend_of (or_st o2) 2 = Some 58000%Z.
Proof.
  destruct sample_ready as (o1 & o2 & H1 & H2 & (D1 & S1 & R1 & N1 & A1) & (_ & _ & _ & _ & A2) & F1 & F2 & _ & P).
  exists o1, o2. do 2 (split; [done|]). split; [|done]. eapply lives_steps; [done|]. apply lives_hash.
  eapply (lives_restart _ _ _ _ _ _ _ _ (rehash "" o1)); [apply honest_wf| | |].
  - intros k Hk. apply (sample_keys _ _ _ _ k F1), elem_of_list_singleton in Hk. by subst.
  - change (rehash "" o1) with (rehash "" (rehash (hash_text toy (or_st o1)) o1)).
    apply (startup_saved _ _ _ _ _ _ _ _ fees20); [by apply deployed_rehash|by apply range_hash, saveable_range|apply honest_wf|done|done|done|].
    right. intros k Hk. apply (sample_keys _ _ _ _ k F1), elem_of_list_singleton in Hk. by subst.
  - rewrite <-(app_nil_r (Step <$> after_change)). eapply lives_steps; [by apply evolve_rehash|constructor].
Qed.
Lemma stop_work : work stop_between = before_change ++ after_change.
Proof. done. Qed.
Lemma stop_typed : Forall typed_operation (work stop_between).
Proof. rewrite stop_work. apply Forall_app. split; [apply before_ok|apply after_ok]. Qed.
Lemma stopped_sample : ∃ o, typed_config cfg_live ∧ 
  lives toy toy cfg_live (new_oracle cfg_live) stop_between o ∧ Forall typed_operation (work stop_between) ∧
  st_latest (or_st o) = 14082460%N ∧ pend_of (or_st o) 2 = Some 58000%Z.
Proof.
  destruct stopped_life as (o1 & o2 & _ & _ & Hl & _ & F & P). exists (rehash "" o2). split; [apply cfg_live_typed|].
  split; [done|]. split; [apply stop_typed|]. split; [apply F|done].
Qed.
Lemma restarted_sample : ∃ o, typed_config cfg_live ∧ Forall typed_operation (work stop_between) ∧
  lives toy toy cfg_live (new_oracle cfg_live) stop_between o ∧ wf_env backward ∧ pool_apart (or_st o) ∧
  names fees20 (c_fees_addr cfg_live) ∧ (∀ k, is_Some (st_committed (or_st o) !! k) → (k ≤ 14082460)%N) ∧
  st_feepct (or_st o) = 500%Z ∧ c_feepct cfg_live = 700%Z.
Proof.
  destruct stopped_life as (o1 & o2 & _ & _ & Hl & A & F & P). exists (rehash "" o2). split; [apply cfg_live_typed|].
  split; [apply stop_typed|]. split; [done|]. split; [apply backward_wf|]. split; [exact A|]. split; [apply cfg_live_names|].
  split; [|split; [apply F|done]]. intros k Hk. apply (sample_keys _ _ _ _ k F) in Hk.
  apply elem_of_cons in Hk as [->|Hk%elem_of_list_singleton]; [lia|]. by subst.
Qed.
(** Torn writes. *)
Lemma torn_sample : ∃ c o1 o2 l1 l2, typed_config c ∧ Forall typed_operation (l1 ++ l2) ∧
  evolve toy (new_oracle c) l1 o1 ∧ evolve toy o1 l2 o2 ∧
  ∀ sha H E, wf_env E → let fs := (save sha true o1 ∅).2 in
    (∃ o', startup sha H E None (Some (st_latest (or_st o1))) fs c = Ok o' ∧ same_content (or_st o') (or_st o1)) ∧
    (∃ e, startup sha H E None (Some (st_latest (or_st o1))) (save_crash sha true o2 0 10 fs) c = Die (Fatal e)) ∧
    save_crash sha true o2 0 10 fs !! slot_path (st_latest (or_st o1)) = Some (marshal (hash_state sha (or_st o1))).
Proof.
  destruct sample_ready as (o1 & o2 & H1 & H2 & (D1 & S1 & R1 & N1 & A1) & (_ & S2 & _) & F1 & _).
  exists cfg_live, o1, o2, before_change, after_change. split; [apply cfg_live_typed|]. split; [exact stop_typed|].
  do 2 (split; [done|]). intros sha H E W. cbv zeta. split; [|split].
  - exists (rehash "" o1). split; [|done]. apply (startup_saved _ _ _ _ _ _ _ _ fees20); try done; [by apply saveable_range|].
    right. destruct F1 as (F1 & F). rewrite F1. intros k Hk. apply (sample_keys _ _ _ _ k (conj F1 F)), elem_of_list_singleton in Hk. by subst.
  - apply torn_startup; [by apply saveable_range|apply marshal_length].
  - unfold save_crash, save_writes. cbn [write_some]. rewrite lookup_insert_ne by (apply not_eq_sym, slot_state_apart).
    apply save_slot_file.
Qed.
Lemma second_torn : ∃ o o', in_range (or_st o) ∧ (10 < String.length (marshal (hash_state toy (or_st o))))%nat ∧
  startup toy toy honest None (Some 14082460%N) (save_crash toy true o 1 10 ∅) cfg_live = Ok o' ∧
  same_content (or_st o') (or_st o) ∧ pend_of (or_st o) 2 = Some 58000%Z.
Proof.
  destruct sample_ready as (o1 & o2 & _ & _ & _ & (D & S & R & N & A) & _ & F & _ & P). exists o2, (rehash "" o2).
  split; [by apply saveable_range|]. split; [apply marshal_length|]. split; [|done].
  assert (save_crash toy true o2 1 10 ∅ !! state_path = Some (marshal (hash_state toy (or_st o2)))) as Hf.
  { unfold save_crash, save_writes. cbn [write_some]. rewrite lookup_insert_ne by apply slot_state_apart. apply lookup_insert. }
  unfold startup, load_json, load_path. rewrite Hf.
  rewrite (load_deployed _ _ _ _ _ fees20); [|done|by apply saveable_range|apply honest_wf|done|done|done].
  change (committed_keys (or_st (rehash "" o2))) with (committed_keys (or_st o2)). rewrite (no_rollback (or_st o2) 14082460).
  - by rewrite andb_false_r.
  - intros k Hk. apply (sample_keys _ _ _ _ k F) in Hk. apply elem_of_cons in Hk as [->|Hk%elem_of_list_singleton]; [lia|]. by subst.
Qed.
(** Going back. *)
Lemma rollback_sample : ∃ c0 l1 l2 o1 o2, typed_config c0 ∧ c_dry_run c0 = false ∧
  Forall typed_operation (l1 ++ l2) ∧ evolve toy (new_oracle c0) l1 o1 ∧ evolve toy o1 l2 o2 ∧
  pool_apart (or_st o1) ∧ pool_apart (or_st o2) ∧ names fees20 (c_fees_addr c0) ∧
  ∀ sha H E b, wf_env E →
    ∃ e, startup sha H E None (Some (st_latest (or_st o1))) (save sha b o2 (save sha true o1 ∅).2).2 c0 = Die (Fatal e).
Proof.
  destruct sample_ready as (o1 & o2 & H1 & H2 & (D1 & S1 & R1 & N1 & A1) & (D2 & S2 & R2 & N2 & A2) & F1 & F2 & _).
  exists cfg_live, before_change, after_change, o1, o2. split; [apply cfg_live_typed|]. split; [done|]. split; [exact stop_typed|].
  do 4 (split; [done|]). split; [apply cfg_live_names|]. intros sha H E b W.
  assert (is_Some (st_committed (or_st o2) !! 14082460%N)) as Hk by (apply (sample_keys _ _ _ _ _ F2); right; by left).
  destruct F1 as (L1 & Fe1 & _), F2 as (L2 & Fe2 & _).
  apply (rollback_stops sha H E cfg_live o1 o2 _ fees20 14082460 b); try done.
  - by apply saveable_range.
  - by apply saveable_range.
  - by rewrite Fe2.
  - by rewrite L1, L2.
  - apply save_slot_file.
  - by rewrite L1.
Qed.
Definition one_more : list operation :=
  [Process honest (foreign_block 14082461 9 (evs [ether_ev 5000 14082461] [] [] [] [])); Freeze honest].
Lemma one_more_ok : Forall wf_operation one_more ∧ Forall typed_operation one_more.
Proof.
  split.
  - apply Forall_cons; split; [by split; [apply honest_wf|]|]. apply Forall_cons; split; [apply honest_wf|by apply Forall_nil].
  - apply Forall_cons; split; [|apply Forall_cons; split; [done|by apply Forall_nil]].
    split; [apply (honest_typed active_val)|]. apply typed_sound. by vm_compute.
Qed.
Lemma two_checkpoints_after : ∃ o1 o2,
  evolve toy (new_oracle cfg_live) (before_change ++ after_change) o1 ∧
  evolve toy (new_oracle cfg_live) (before_change ++ after_change ++ one_more) o2 ∧
  Forall typed_operation (before_change ++ after_change) ∧ Forall typed_operation (before_change ++ after_change ++ one_more) ∧
  pool_apart (or_st o1) ∧ pool_apart (or_st o2) ∧ c_dry_run cfg_live = false ∧
  st_feepct (or_st o1) = st_feepct (or_st o2) ∧ st_latest (or_st o1) = 14082460%N ∧ st_latest (or_st o2) = 14082461%N ∧
  is_Some (st_committed (or_st o2) !! 14082461%N).
Proof.
  destruct (ex_evolve (λ o1, sample_facts 14082460 500 [14082459; 14082460]%N o1 ∧
     match evolve_fn toy o1 one_more with
     | Some o2 => st_latest (or_st o2) = 14082461%N ∧ st_feepct (or_st o2) = 500%Z ∧
         apart_test (to_lower (st_pool (or_st o2))) (or_st o2) = true ∧
         existsb (N.eqb 14082461) (committed_keys (or_st o2)) = true
     | None => False
     end) toy (new_oracle cfg_live) (before_change ++ after_change)) as (o1 & H1 & F1 & H2).
  { apply Forall_app. split; [apply before_ok|apply after_ok]. }
  { vm_compute. repeat split. }
  destruct (evolve_fn toy o1 one_more) as [o2|] eqn:E2; [|done]. destruct H2 as (L2 & Fe2 & A2 & K2).
  apply evolve_fn_evolve in E2; [|apply one_more_ok].
  exists o1, o2. split; [done|]. split; [rewrite app_assoc; by eapply evolve_app|].
  split; [exact stop_typed|]. split. { rewrite app_assoc. apply Forall_app. split; [exact stop_typed|apply one_more_ok]. }
  split; [by eapply sample_apart|]. split; [by apply apart_sound|]. split; [done|]. destruct F1 as (L1 & Fe1 & _).
  split; [congruence|]. do 2 (split; [done|]). apply (keys_elem _ _ _ (committed_keys_ok _)).
  apply existsb_exists in K2 as (k & Hk & ->%N.eqb_eq). by apply elem_of_list_In.
Qed.
