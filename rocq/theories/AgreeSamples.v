(** Concrete processes of one deployment that watch one chain, used by PropAgree.v. *)
From Verif Require Import ApiSamples.
From Verif Require Export AgreeProofs SyncSamples.

(** Subscriptions, an MEV block, and a vanilla block. *)
Definition chain_blocks : list fullblock :=
  [sample_block 0; sample_block 1;
   block 12000003 5 pool20 [Tx (Some (bytes 20 5)) 1 0 12 0 0 (bytes 32 4) (Some (bytes 20 6))] [Receipt 12000003 (bytes 32 4) 21000] 21000 (evs [] [] [] [] [])].
Definition at_slot (n : N) : option fullblock := List.find (λ fb, (fb_duty_slot fb =? n)%N) chain_blocks.
Definition at_number (n : N) : option fullblock :=
  List.find (λ fb, match fb_cblock fb with Some c => (p_number (cb_payload c) =? n)%N | None => false end) chain_blocks.
Definition about {A} (f : events → A) (n : N) : option A := (λ fb, f (fb_events fb)) <$> at_number n.
(** All there is to know about the chain of these blocks. *)
Definition the_chain : node :=
  Node 1 (λ e, Some ((λ k, proposers (32 * e + N.of_nat k)) <$> seq 0 32))
    (λ req _, match req with [i] => Some [(i, active_val i)] | _ => None end)
    (λ slot, fb_cblock <$> at_slot slot)
    (about ev_ether_received) (about ev_subscribe) (about ev_unsubscribe) (about ev_pool_fee) (about ev_fee_recipient)
    (about ev_checkpoint_size) (about ev_collateral) (about ev_bans) (about ev_unbans)
    (λ n, fb ← at_number n; fb_header fb)
    (λ h, List.find (λ r, String.eqb (rc_tx r) h) (concat (default [] ∘ fb_receipts <$> chain_blocks))).
(** A node that has lost its connection. *)
Definition mute : node :=
  Node 1 (λ _, None) (λ _ _, None) (λ _, None) (λ _, None) (λ _, None) (λ _, None) (λ _, None) (λ _, None) (λ _, None)
    (λ _, None) (λ _, None) (λ _, None) (λ _, None) (λ _, None).

Lemma chain_echoes : echoes the_chain the_chain.
Proof. split; done. Qed.
Lemma mute_echoes : echoes the_chain mute.
Proof. split; done. Qed.
Lemma honest_reflects : reflects honest honest ∧ reflects honest backward.
Proof.
  assert (∀ req req0, req ≡ₚ req0 → (λ i, (i, active_val i)) <$> remove_dups req ≡ₚ (λ i, (i, active_val i)) <$> remove_dups req0) as Hp.
  { intros req req0 Hp. apply fmap_Permutation. apply NoDup_Permutation; [apply NoDup_remove_dups..|]. intros i. rewrite !elem_of_remove_dups. by rewrite Hp. }
  split; split; try done; intros req req0 slot r Hreq [= <-]; eexists; (split; [reflexivity|]); [by apply Hp|].
  rewrite <-Permutation_rev. by apply Hp.
Qed.
Lemma honest_one : one_chain honest.
Proof.
  split; [apply honest_wf|apply honest_reflects|]. intros slot pcs req r [= <-] _ i t w Hit. by apply elem_of_nil in Hit.
Qed.

Lemma chain_typed : typed_node the_chain.
Proof.
  assert (Forall (λ fb, typed_test fb = true ∧ match fb_cblock fb with Some c => (p_number (cb_payload c) <? two64)%N | None => true end = true) chain_blocks) as Hall.
  { repeat (apply Forall_cons; split; [split; by vm_compute|]). by apply Forall_nil. }
  assert (∀ f fb, List.find f chain_blocks = Some fb → typed_block fb ∧ ∀ c, fb_cblock fb = Some c → is_u64 (p_number (cb_payload c))) as Hf.
  { intros f fb [Hin _]%find_some. apply elem_of_list_In in Hin. rewrite Forall_forall in Hall. destruct (Hall _ Hin) as [Ht Hn]. split; [by apply typed_sound|].
    intros c Hc. rewrite Hc in Hn. by apply N.ltb_lt. }
  split.
  - intros e l Hl. assert (l = (λ k, proposers (32 * e + N.of_nat k)) <$> seq 0 32) as -> by (symmetry; exact (Some_inj _ _ Hl)).
    apply Forall_fmap, Forall_forall. intros k _. apply proposers_u64.
  - intros slot c Hb. change (fb_cblock <$> at_slot slot = Some (Some c)) in Hb. unfold at_slot in Hb. apply fmap_Some in Hb as (fb & Hfb & Hc).
    apply Hf in Hfb as [_ Hn]. by apply Hn.
  - intros n l Hb. change (about ev_ether_received n = Some l) in Hb. unfold about, at_number in Hb. apply fmap_Some in Hb as (fb & Hfb & ->). by apply Hf in Hfb as [[] _].
  - intros n l Hb. change (about ev_subscribe n = Some l) in Hb. unfold about, at_number in Hb. apply fmap_Some in Hb as (fb & Hfb & ->). by apply Hf in Hfb as [[] _].
  - intros n l Hb. change (about ev_unsubscribe n = Some l) in Hb. unfold about, at_number in Hb. apply fmap_Some in Hb as (fb & Hfb & ->). by apply Hf in Hfb as [[] _].
Qed.
Definition told_by (E : env) (nd : node) (on : string * N) : event :=
  Tick (Answers E nd (Some false) (Some 0%N) (Some 12000003%N) false None (λ _, None) true (Some 0%N) (Some 1%N) (Some on) (sends (Mined 1 false)) Written).
Lemma told_ok E nd on : E = honest ∨ E = backward → nd = the_chain ∨ nd = mute → typed_event (told_by E nd on) ∧ watches the_chain honest (told_by E nd on).
Proof.
  intros HE Hnd. split.
  - split; cbn [told_by an_env an_node an_final].
    + destruct HE as [->| ->]; [apply honest_wf|apply backward_wf].
    + destruct HE as [->| ->]; intros slot l [= <-]; by apply Forall_nil.
    + destruct Hnd as [->| ->]; [exact chain_typed|]. split; intros; discriminate.
    + by intros f [= <-].
  - split; cbn [told_by an_env an_node].
    + destruct Hnd as [->| ->]; [exact chain_echoes|exact mute_echoes].
    + destruct HE as [->| ->]; apply honest_reflects.
Qed.
Lemma crew_lifetime sha H c0 nd0 E0 l L sent L' : crew sha H c0 nd0 E0 L → Forall (λ e, typed_event e ∧ watches nd0 E0 e) l →
  lifetime sha H c0 l L = (sent, L') → crew sha H c0 nd0 E0 L'.
Proof.
  revert L sent. induction l as [|e l IH]; intros L sent HF Te Hl; [by injection Hl as _ <-|].
  apply Forall_cons in Te as [[Te1 Te2] Te3]. cbn [lifetime] in Hl. destruct (live sha H c0 e L) as [s1 L1] eqn:H1.
  destruct (lifetime sha H c0 l L1) as [s2 L2] eqn:H2. injection Hl as _ <-. eapply (IH L1); [|done|exact H2]. by eapply crew_event.
Qed.

(** The first process: it reports the first checkpoint and is about to report the second. *)
Definition first_on : string * N := (first_root, 12000001%N).
Definition steady : list event :=
  Start honest None (Some 11999999%N) :: repeat (told_by honest the_chain nothing_yet) 6 ++ repeat (told_by honest the_chain first_on) 9.
(** The second one iterates over its maps the other way round, loses its node at its first step, starts again, and finds
    the first checkpoint reported already. *)
Definition shaky : list event :=
  [Start backward None (Some 11999999%N); told_by backward mute nothing_yet; Start backward None (Some 11999999%N)] ++
  repeat (told_by backward the_chain first_on) 14.
Lemma told_many E nd on n : E = honest ∨ E = backward → nd = the_chain ∨ nd = mute →
  Forall (λ e, typed_event e ∧ watches the_chain honest e) (repeat (told_by E nd on) n).
Proof. intros HE Hn. apply Forall_forall. intros e He%elem_of_list_In%repeat_spec. subst e. by apply told_ok. Qed.
Lemma steady_ok : Forall (λ e, typed_event e ∧ watches the_chain honest e) steady.
Proof. apply Forall_cons. split; [done|]. apply Forall_app. split; apply told_many; by left. Qed.
Lemma shaky_ok : Forall (λ e, typed_event e ∧ watches the_chain honest e) shaky.
Proof.
  apply Forall_app. split; [|apply told_many; [by right|by left]].
  apply Forall_cons. split; [done|]. apply Forall_cons. split; [by apply told_ok; right|]. apply Forall_cons. split; [done|by apply Forall_nil].
Qed.
Definition second_test (E : env) (n : nat) (sent : list (N * string)) (m : machine) : bool :=
  (length sent =? n)%nat && match live toy toy cfg_loop (told_by E the_chain first_on) (Up m) with (Some (k, _), _) => (k =? 12000003)%N | _ => false end &&
  (3 <=? map_size (st_vals (or_st (m_or m))))%nat && (st_latest (or_st (m_or m)) =? 12000003)%N && keys_are [12000003; 12000001]%N m &&
  apart_test (to_lower (st_pool (or_st (m_or m)))) (or_st (m_or m)).
Lemma second_facts E n sent m : second_test E n sent m = true →
  (∃ bytes L', live toy toy cfg_loop (told_by E the_chain first_on) (Up m) = (Some (12000003%N, bytes), L')) ∧
  st_vals (or_st (m_or m)) ≠ ∅ ∧ st_latest (or_st (m_or m)) = 12000003%N ∧ keys_are [12000003; 12000001]%N m = true ∧
  apart_test (to_lower (st_pool (or_st (m_or m)))) (or_st (m_or m)) = true.
Proof.
  unfold second_test. intros [[[[[_ Hs]%andb_prop Hv]%andb_prop Hl]%andb_prop Hk]%andb_prop Ha]%andb_prop.
  split; [|split; [|split; [by apply N.eqb_eq|split; [exact Hk|exact Ha]]]].
  - clear -Hs. destruct (live _ _ _ _ (Up m)) as [[[k b]|] L']; [|discriminate Hs]. apply N.eqb_eq in Hs as ->. by exists b, L'.
  - clear -Hv. intros He. apply Nat.leb_le in Hv. rewrite He in Hv. vm_compute in Hv. lia.
Qed.
Lemma two_processes : ∃ m1 m2, (∃ x, lifetime toy toy cfg_loop steady (Down ∅) = ([x], Up m1)) ∧ second_test honest 1 [(0%N, "")] m1 = true ∧
  lifetime toy toy cfg_loop shaky (Down ∅) = ([], Up m2) ∧ second_test backward 0 [] m2 = true.
Proof.
  destruct (ex_life (second_test honest 1) toy toy cfg_loop steady (Down ∅)) as (s1 & m1 & Hl1 & Ht1); [by vm_compute|].
  destruct (ex_life (second_test backward 0) toy toy cfg_loop shaky (Down ∅)) as (s2 & m2 & Hl2 & Ht2); [by vm_compute|].
  exists m1, m2. destruct s1 as [|x1 []]; [discriminate Ht1| |discriminate Ht1]. destruct s2; [|discriminate Ht2].
  split; [by exists x1|]. split; [exact Ht1|]. split; [exact Hl2|exact Ht2].
Qed.
Lemma two_crew : ∃ m1 m2, crew toy toy cfg_loop the_chain honest (Up m1) ∧ crew toy toy cfg_loop the_chain honest (Up m2) ∧
  second_test honest 1 [(0%N, "")] m1 = true ∧ second_test backward 0 [] m2 = true.
Proof.
  destruct two_processes as (m1 & m2 & [x H1] & T1 & H2 & T2). exists m1, m2.
  split; [exact (crew_lifetime _ _ _ _ _ _ _ _ _ (crew_empty _ _ _ _ _) steady_ok H1)|].
  split; [exact (crew_lifetime _ _ _ _ _ _ _ _ _ (crew_empty _ _ _ _ _) shaky_ok H2)|]. split; [exact T1|exact T2].
Qed.
Lemma both_report : ∃ m1 m2 b1 b2 L1 L2, typed_config cfg_loop ∧ (0 < c_dep_slot cfg_loop)%N ∧ one_chain honest ∧
  crew toy toy cfg_loop the_chain honest (Up m1) ∧ crew toy toy cfg_loop the_chain honest (Up m2) ∧
  live toy toy cfg_loop (told_by honest the_chain first_on) (Up m1) = (Some (12000003%N, b1), L1) ∧
  live toy toy cfg_loop (told_by backward the_chain first_on) (Up m2) = (Some (12000003%N, b2), L2).
Proof.
  destruct two_crew as (m1 & m2 & C1 & C2 & T1 & T2). apply second_facts in T1 as [(b1 & L1 & S1) _]. apply second_facts in T2 as [(b2 & L2 & S2) _].
  exists m1, m2, b1, b2, L1, L2. split; [exact cfg_loop_typed|]. split; [reflexivity|]. split; [exact honest_one|]. split; [exact C1|].
  split; [exact C2|]. split; [exact S1|exact S2].
Qed.

(** A third one starts from the state of the second. *)
Lemma crew_range H c0 m : typed_config c0 → (0 < c_dep_slot c0)%N → crew toy H c0 the_chain honest (Up m) →
  deployed c0 (m_or m) ∧ in_range (or_st (m_or m)) ∧ wf_records (or_st (m_or m)).
Proof.
  intros Tc Hd Hc. pose proof (crew_known _ _ _ _ _ _ Tc Hd Hc) as [Hk _ _ _]. apply known_good in Hk as (ops & (q & He & T & Hs) & _).
  destruct (reach_ready _ _ _ _ Tc T He) as (D & R & Hw). rewrite (same_rehash _ _ Hs). split; [by apply deployed_rehash|]. split; [by apply range_hash|done].
Qed.
Lemma third_synced m : crew toy toy cfg_loop the_chain honest (Up m) → keys_are [12000003; 12000001]%N m = true →
  apart_test (to_lower (st_pool (or_st (m_or m)))) (or_st (m_or m)) = true →
  live toy toy cfg_loop (Start honest (Some (state_body (hash_state toy (or_st (m_or m))))) (Some 12000003%N)) (Down ∅) =
    (None, Up (Machine Begin (rehash "" (m_or m)) empty_cache ∅)).
Proof.
  intros Hc Hk Ha. destruct (crew_range toy cfg_loop m cfg_loop_typed eq_refl Hc) as (D & R & Hw). clear Hc.
  assert (Hst : startup toy toy honest (Some (state_body (hash_state toy (or_st (m_or m))))) (Some 12000003%N) ∅ cfg_loop = Ok (rehash "" (m_or m))).
  { unfold startup. rewrite (load_synced _ _ _ _ _ fees20).
    - rewrite <-(dp_cfg _ _ D). cbn [or_cfg or_st]. change (committed_keys (set_hash "" (or_st (m_or m)))) with (committed_keys (or_st (m_or m))).
      rewrite (no_rollback _ 12000003); [by rewrite andb_false_r|]. intros k Hx. apply (keys_are_spec _ _ _ Hk) in Hx.
      apply elem_of_cons in Hx as [->|[->|Hx]%elem_of_cons]; [lia|lia|by apply elem_of_nil in Hx].
    - exact R.
    - exact (dp_params _ _ D).
    - apply (deployed_setup cfg_loop cfg_loop _ D). by repeat split.
    - apply honest_wf.
    - exact Hw.
    - by apply apart_sound.
    - rewrite (sp_fees_addr _ _ (dp_params _ _ D)). apply fees_names. }
  cbn [live]. by rewrite Hst.
Qed.
Lemma three_states : ∃ m1 m3, crew toy toy cfg_loop the_chain honest (Up m1) ∧ crew toy toy cfg_loop the_chain honest (Up m3) ∧
  m_pc m3 = Begin ∧ st_latest (or_st (m_or m1)) = 12000003%N ∧ st_latest (or_st (m_or m3)) = 12000003%N ∧ st_vals (or_st (m_or m1)) ≠ ∅ ∧
  is_Some (st_committed (or_st (m_or m1)) !! 12000003%N) ∧ is_Some (st_committed (or_st (m_or m3)) !! 12000003%N).
Proof.
  destruct two_crew as (m1 & m2 & C1 & C2 & T1 & T2). apply second_facts in T1 as (_ & V1 & L1 & K1 & _).
  apply second_facts in T2 as (_ & _ & L2 & K2 & A2). exists m1, (Machine Begin (rehash "" (m_or m2)) empty_cache ∅). split; [exact C1|]. split.
  { eapply (crew_sync _ _ _ _ _ (Down ∅) honest m2 honest (plain_wire 12000010)); [apply crew_empty|exact C2|reflexivity|reflexivity|exact (third_synced m2 C2 K2 A2)]. }
  split; [reflexivity|]. split; [exact L1|]. split; [exact L2|]. split; [exact V1|]. split; [by apply (a_key _ _ _ K1)|].
  cbn [m_or]. change (st_committed (or_st (rehash "" (m_or m2)))) with (st_committed (or_st (m_or m2))). by apply (a_key _ _ _ K2).
Qed.

(** ** A consolidation whose target has exited too *)
Definition cfg_chained : config := Config Mainnet pool_str 11999998 100 2 700 fees_str false 1000.
Definition two_exited (i : N) : bval := if (i <=? 2)%N then exited_val i else active_val i.
(** Three subscribers; validator 1 consolidates into 2, and both have exited at the cleanup, which is at a checkpoint. *)
Definition chained_way (E : env) : list (env * fullblock) :=
  [(honest, foreign_block 11999998 9 (evs [] [sub_ev 1 100000 11999998; sub_ev 2 100000 11999998; sub_ev 3 100000 11999998] [] [] []));
   (honest, idle 11999999); (E, idle 12000000)].
Definition chained_test (fees : Z) (root : string) (o : oracle) : bool :=
  (st_latest (or_st o) =? 12000000)%N && match is_checkpoint o with Ok (Some true) => true | _ => false end &&
  match snapshot toy honest (or_st o) with
  | Ok (Some c) => String.eqb (oc_root c) root && match oc_leafs c !! fees_str with Some l => String.eqb (leaf_addr l) fees_str && (leaf_bal l =? fees)%Z | None => false end
  | _ => false
  end.
Lemma chained_test_ok fees root o : chained_test fees root o = true → st_latest (or_st o) = 12000000%N ∧ is_checkpoint o = Ok (Some true) ∧
  ∃ c, snapshot toy honest (or_st o) = Ok (Some c) ∧ oc_root c = root ∧ oc_leafs c !! fees_str = Some (RawLeaf fees_str fees).
Proof.
  unfold chained_test. intros Ht. apply andb_prop in Ht as [Ht H3]. apply andb_prop in Ht as [H1 H2]. apply N.eqb_eq in H1.
  destruct (is_checkpoint o) as [[[]|]|]; try discriminate. destruct (snapshot _ _ _) as [[c|]|]; try discriminate.
  apply andb_prop in H3 as [H3 H4]. apply String.eqb_eq in H3.
  destruct (oc_leafs c !! fees_str) as [[a z]|] eqn:Hl; [|discriminate]. apply andb_prop in H4 as [H4 H5]. apply String.eqb_eq in H4. apply Z.eqb_eq in H5.
  cbn in H4, H5. subst a z. eauto 6.
Qed.
Lemma honest_same : same_chain honest honest.
Proof. split; cbn; [intros req1 req2 slot Hp; by rewrite (remove_dups_perm _ _ Hp)|done..]. Qed.
Lemma chained_roots : ∃ c0 l1 l2 o1 o2 c1 c2, typed_config c0 ∧ wf_envs l1 ∧ wf_envs l2 ∧ same_history l1 l2 ∧
  run (new_oracle c0) l1 o1 ∧ run (new_oracle c0) l2 o2 ∧ st_latest (or_st o1) = st_latest (or_st o2) ∧
  is_checkpoint o1 = Ok (Some true) ∧ is_checkpoint o2 = Ok (Some true) ∧
  snapshot toy honest (or_st o1) = Ok (Some c1) ∧ snapshot toy honest (or_st o2) = Ok (Some c2) ∧
  oc_root c1 ≠ oc_root c2 ∧ oc_leafs c1 !! c_fees_addr c0 ≠ oc_leafs c2 !! c_fees_addr c0.
Proof.
  destruct (ex_run (λ o, chained_test 14000 "0x0000000000000000000000000000000000000ce8f39f8c58e0ccb21cac0f11e4" o = true)
    (new_oracle cfg_chained) (chained_way (honest_env two_exited [(1, 2)]%N))) as (o1 & R1 & T1); [by vm_compute|].
  destruct (ex_run (λ o, chained_test 7000 "0x000000000000000000000000000000000000067479cfc6365ec3fb3a1a67810c" o = true)
    (new_oracle cfg_chained) (chained_way (shuffled_env two_exited [(1, 2)]%N))) as (o2 & R2 & T2); [by vm_compute|].
  apply chained_test_ok in T1 as (L1 & K1 & c1 & S1 & Rt1 & Lf1). apply chained_test_ok in T2 as (L2 & K2 & c2 & S2 & Rt2 & Lf2).
  exists cfg_chained, (chained_way (honest_env two_exited [(1, 2)]%N)), (chained_way (shuffled_env two_exited [(1, 2)]%N)), o1, o2, c1, c2.
  assert (∀ i, b_index (two_exited i) = i) as Hi by (intros i; unfold two_exited; by destruct (i <=? 2)%N).
  split; [by vm_compute|]. split; [|split; [|split; [|split; [exact R1|split; [exact R2|split; [by rewrite L1, L2|]]]]]].
  - repeat (apply Forall_cons; split); [apply honest_wf|apply honest_wf|by apply honest_env_wf|done].
  - repeat (apply Forall_cons; split); [apply honest_wf|apply honest_wf|by apply shuffled_env_wf|done].
  - do 2 (apply Forall2_cons; split; [split; [apply honest_same|done]|]). apply Forall2_cons; split; [split; [apply shuffled_same|done]|done].
  - split; [exact K1|]. split; [exact K2|]. split; [exact S1|]. split; [exact S2|]. rewrite Rt1, Rt2. split; [discriminate|].
    cbn [c_fees_addr cfg_chained]. rewrite Lf1, Lf2. discriminate.
Qed.
