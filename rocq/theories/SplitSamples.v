(** A chain with a consolidation into a validator that has exited too, and an oracle that hears of its validators in
    another order. Used by PropQuorum.v. *)
From Verif Require Import ApiSamples.
From Verif Require Export QuorumSamples.

(** Three subscribers; validator 1 consolidates into 2, and both have exited at the cleanup, which is at a checkpoint. *)
Definition split_blocks : list fullblock :=
  [foreign_block 11999998 9 (evs [] [sub_ev 1 100000 11999998; sub_ev 2 100000 11999998; sub_ev 3 100000 11999998] [] [] []);
   idle 11999999; idle 12000000].
Definition split_slot (n : N) : option fullblock := List.find (λ fb, (fb_duty_slot fb =? n)%N) split_blocks.
Definition split_number (n : N) : option fullblock :=
  List.find (λ fb, match fb_cblock fb with Some c => (p_number (cb_payload c) =? n)%N | None => false end) split_blocks.
Definition split_about {A} (f : events → A) (n : N) : option A := (λ fb, f (fb_events fb)) <$> split_number n.
Definition split_chain : node :=
  Node 1 (λ e, Some ((λ k, Duty (32 * e + N.of_nat k) 9 (bytes 48 9)) <$> seq 0 32))
    (λ req _, match req with [i] => Some [(i, active_val i)] | _ => None end)
    (λ slot, fb_cblock <$> split_slot slot)
    (split_about ev_ether_received) (split_about ev_subscribe) (split_about ev_unsubscribe) (split_about ev_pool_fee) (split_about ev_fee_recipient)
    (split_about ev_checkpoint_size) (split_about ev_collateral) (split_about ev_bans) (split_about ev_unbans)
    (λ n, fb ← split_number n; fb_header fb) (λ h, None).
Definition one_way : env := honest_env two_exited [(1, 2)]%N.
Definition other_way : env := shuffled_env two_exited [(1, 2)]%N.
Lemma two_index i : b_index (two_exited i) = i.
Proof. unfold two_exited. by destruct (i <=? 2)%N. Qed.
Lemma ways_reflect : reflects one_way one_way ∧ reflects one_way other_way.
Proof.
  assert (∀ req req0, req ≡ₚ req0 → (λ i, (i, two_exited i)) <$> remove_dups req ≡ₚ (λ i, (i, two_exited i)) <$> remove_dups req0) as Hp.
  { intros req req0 Hp. apply fmap_Permutation. apply NoDup_Permutation; [apply NoDup_remove_dups..|]. intros i. rewrite !elem_of_remove_dups. by rewrite Hp. }
  split; split; try done; intros req req0 slot r Hreq [= <-]; eexists; (split; [reflexivity|]); [by apply Hp|].
  rewrite <-Permutation_rev. by apply Hp.
Qed.
Lemma split_typed : typed_node split_chain.
Proof.
  assert (Forall (λ fb, typed_test fb = true ∧ match fb_cblock fb with Some c => (p_number (cb_payload c) <? two64)%N | None => true end = true) split_blocks) as Hall.
  { repeat (apply Forall_cons; split; [split; by vm_compute|]). by apply Forall_nil. }
  assert (∀ f fb, List.find f split_blocks = Some fb → typed_block fb ∧ ∀ c, fb_cblock fb = Some c → is_u64 (p_number (cb_payload c))) as Hf.
  { intros f fb [Hin _]%find_some. apply elem_of_list_In in Hin. rewrite Forall_forall in Hall. destruct (Hall _ Hin) as [Ht Hn]. split; [by apply typed_sound|].
    intros c Hc. rewrite Hc in Hn. by apply N.ltb_lt. }
  split.
  - intros e l Hl. assert (l = (λ k, Duty (32 * e + N.of_nat k) 9 (bytes 48 9)) <$> seq 0 32) as -> by (symmetry; exact (Some_inj _ _ Hl)).
    apply Forall_fmap, Forall_forall. intros k _. done.
  - intros slot c Hb. change (fb_cblock <$> split_slot slot = Some (Some c)) in Hb. unfold split_slot in Hb. apply fmap_Some in Hb as (fb & Hfb & Hc).
    apply Hf in Hfb as [_ Hn]. by apply Hn.
  - intros n l Hb. change (split_about ev_ether_received n = Some l) in Hb. unfold split_about, split_number in Hb. apply fmap_Some in Hb as (fb & Hfb & ->). by apply Hf in Hfb as [[] _].
  - intros n l Hb. change (split_about ev_subscribe n = Some l) in Hb. unfold split_about, split_number in Hb. apply fmap_Some in Hb as (fb & Hfb & ->). by apply Hf in Hfb as [[] _].
  - intros n l Hb. change (split_about ev_unsubscribe n = Some l) in Hb. unfold split_about, split_number in Hb. apply fmap_Some in Hb as (fb & Hfb & ->). by apply Hf in Hfb as [[] _].
Qed.
Definition split_told (E : env) (on : string * N) : event :=
  Tick (Answers E split_chain (Some false) (Some 0%N) (Some 12000000%N) false None (λ _, None) true (Some 0%N) (Some 1%N) (Some on) (sends (Mined 1 false)) Written).
Lemma split_ok on : typed_event (split_told other_way on) ∧ watches split_chain one_way (split_told other_way on).
Proof.
  split; [split; cbn [split_told an_env an_node an_final]|split; cbn [split_told an_env an_node]].
  - apply shuffled_env_wf, two_index.
  - intros slot l [= <-]. by repeat constructor.
  - exact split_typed.
  - by intros f [= <-].
  - split; done.
  - apply ways_reflect.
Qed.
Lemma split_many on n : Forall (λ e, typed_event e ∧ watches split_chain one_way e) (repeat (split_told other_way on) n).
Proof. apply Forall_forall. intros e He%elem_of_list_In%repeat_spec. subst e. apply split_ok. Qed.

(** The process that hears it the other way reports the first checkpoint, and then the second. *)
Definition split_on : string * N := ("0x000000000000000000000000000000000000000000000013dcbb445788bff034", 11999998%N).
Definition split_life : list event :=
  Start other_way None (Some 11999996%N) :: repeat (split_told other_way ("", 11999996%N)) 6 ++ repeat (split_told other_way split_on) 9.
Lemma split_life_ok : Forall (λ e, typed_event e ∧ watches split_chain one_way e) split_life.
Proof. apply Forall_cons. split; [done|]. apply Forall_app. split; apply split_many. Qed.
Definition split_root : string := "0x000000000000000000000000000000000000067479cfc6365ec3fb3a1a67810c".
Definition split_test (sent : list (N * string)) (m : machine) : bool :=
  match live toy toy cfg_chained (split_told other_way split_on) (Up m) with
  | (Some (k, b), _) => (k =? 12000000)%N && String.eqb ("0x" +:+ hex_encode b) split_root
  | _ => false
  end.
Lemma split_submitted : ∃ root, submitted_by toy toy cfg_chained split_chain one_way 12000000 root ∧ "0x" +:+ hex_encode root = split_root.
Proof.
  destruct (ex_life split_test toy toy cfg_chained split_life (Down ∅)) as (sent & m & Hl & Ht); [by vm_compute|].
  unfold split_test in Ht. destruct (live _ _ _ _ (Up m)) as [[[k b]|] L'] eqn:He; [|discriminate Ht].
  apply andb_prop in Ht as [Hk%N.eqb_eq Hb%String.eqb_eq]. subst k. exists b. split; [|exact Hb].
  exists m, (split_told other_way split_on), L'. split; [|exact He].
  exact (crew_lifetime _ _ _ _ _ _ _ _ _ (crew_empty _ _ _ _ _) split_life_ok Hl).
Qed.

(** ** The state of the chain *)
Definition split_fetch (slot : N) : res (fullblock * cache) :=
  fetch_full_block split_chain one_way pool_str true slot (or_st (new_oracle cfg_chained)) empty_cache.
Definition split_block (slot : N) : fullblock := match split_fetch slot with Ok (fb, _) => fb | Die _ => missed_slot 0 0 no_events end.
Definition split_slots : list N := [11999998; 11999999; 12000000]%N.
Lemma split_fetched slot : slot ∈ split_slots → fetches split_chain slot (split_block slot).
Proof.
  intros Hs. assert (forallb (λ n, match split_fetch n with Ok _ => true | _ => false end) split_slots = true) as Hf by by vm_compute.
  rewrite forallb_forall in Hf. apply elem_of_list_In, Hf in Hs. unfold split_block. destruct (split_fetch slot) as [[fb ca]|] eqn:Hx; [|done].
  exists split_chain, one_way, pool_str, true, (or_st (new_oracle cfg_chained)), empty_cache, ca. split; [by split|]. split; [by left|exact Hx].
Qed.
Definition split_oracle : oracle := default (new_oracle cfg_chained) (run_fn (new_oracle cfg_chained) ((λ fb, (one_way, fb)) <$> (split_block <$> split_slots))).
Lemma split_state : chain_state cfg_chained split_chain one_way 12000000 (or_st split_oracle).
Proof.
  exists (split_block <$> split_slots), split_oracle. split; [|split; [|split; [by vm_compute|done]]].
  - apply run_fn_run. unfold split_oracle. assert (bool_decide (is_Some (run_fn (new_oracle cfg_chained) ((λ fb, (one_way, fb)) <$> (split_block <$> split_slots)))) = true) as Hx by by vm_compute.
    apply bool_decide_eq_true in Hx as [x Hx]. by rewrite Hx.
  - apply Forall_fmap, Forall_forall. intros n Hn. exists n. split; [|by apply split_fetched].
    assert (forallb (λ n, (11999998 <=? n)%N) split_slots = true) as Hs by by vm_compute. rewrite forallb_forall in Hs. by apply elem_of_list_In, Hs, N.leb_le in Hn.
Qed.
Definition kind_test (fb : fullblock) : bool :=
  match fb_cblock fb with Some _ => true | None => false end &&
  match mev_reward one_way fb with
  | Ok (r, true, _) => (length (filter (λ e, er_amount e = r) (ev_ether_received (fb_events fb))) <=? 1)%nat
  | _ => true
  end && nonneg_test one_way pool_str fb.
Lemma kind_sound fb : kind_test fb = true → wf_block one_way pool_str fb ∧ nonneg_block one_way pool_str fb.
Proof.
  unfold kind_test. intros [[H1 H2]%andb_prop H3]%andb_prop. split; [|by apply nonneg_test_sound]. split.
  - intros Hn. by rewrite Hn in H1.
  - intros r rcp Hm _. rewrite Hm in H2. by apply Nat.leb_le.
  - intros slot l i [= <-] Hi. apply elem_of_cons in Hi as [[= -> ?]|Hi]; [done|by apply elem_of_nil in Hi].
Qed.
Lemma split_sound : sound_chain cfg_chained split_chain one_way.
Proof.
  split; [apply env_sane; intros i; unfold two_exited; by destruct (i <=? 2)%N|]. intros slot fb Hle Hf. assert (slot ∈ split_slots) as Hin.
  { apply fetched_told in Hf as (_ & _ & _ & b & _ & _ & _ & Hb & _). change (fb_cblock <$> split_slot slot = Some b) in Hb.
    apply fmap_Some in Hb as (x & Hx & _). unfold split_slot in Hx. apply find_some in Hx as [Hx Heq]. apply N.eqb_eq in Heq. subst slot.
    apply elem_of_list_In in Hx. assert (Forall (λ fb, bool_decide (fb_duty_slot fb ∈ split_slots) = true) split_blocks) as Hall.
    { repeat (apply Forall_cons; split; [by vm_compute|]). by apply Forall_nil. }
    rewrite Forall_forall in Hall. apply Hall in Hx. by apply bool_decide_eq_true in Hx. }
  pose proof (told_kin _ _ _ _ (fetched_told _ _ _ Hf) (fetched_told _ _ _ (split_fetched _ Hin))) as Hk.
  assert (forallb (λ n, kind_test (split_block n) && kind_test (bare (split_block n)) && match reward_method Mainnet n with Ok PreFork1 => false | _ => true end &&
    match fb_receipts (split_block n) with Some _ => true | None => false end) split_slots = true) as G by by vm_compute.
  rewrite forallb_forall in G. apply elem_of_list_In in Hin. pose proof (G _ Hin) as Hg.
  apply andb_prop in Hg as [[[G1 G2]%andb_prop G3]%andb_prop G4].
  assert (¬ era Mainnet slot PreFork1) as He by (intros He%era_method; by rewrite He in G3).
  apply kind_sound in G1 as [? ?]. apply kind_sound in G2 as [? ?].
  destruct Hk as [->|[->|Hk]]; [done|done|]. by rewrite Hk in G4.
Qed.

(** ** The contract *)
Definition split_snap (s : ost) : bool :=
  match snapshot toy honest s with Ok (Some c) => negb (String.eqb (oc_root c) split_root) | _ => false end && (received s <? 2 ^ 256)%Z.
Lemma split_refutation : ∃ c0 nd0 E0 P slot root s E c, typed_config c0 ∧ (0 < c_dep_slot c0)%N ∧ wf_env E0 ∧ reflects E0 E0 ∧ sound_chain c0 nd0 E0 ∧
  (0 ≤ c_feepct c0)%Z ∧ operates toy toy c0 nd0 E0 1 [] P ∧ pl_report P = Some (slot, root) ∧
  chain_state c0 nd0 E0 slot s ∧ wf_env E ∧ snapshot toy E s = Ok (Some c) ∧ oc_root c ≠ "0x" +:+ hex_encode root.
Proof.
  destruct split_submitted as (root & Hs & Hr). assert (typed_config cfg_chained) as Tc by by vm_compute.
  assert (split_snap (or_st split_oracle) = true) as Ht by by vm_compute. apply andb_prop in Ht as [Ht Hrec%Z.ltb_lt].
  destruct (snapshot toy honest (or_st split_oracle)) as [[c|]|] eqn:Hsn; try discriminate Ht.
  apply negb_true_iff, String.eqb_neq in Ht. rewrite <-Hr in Ht. pose proof split_state as Hst.
  revert Hst Hrec Hsn. generalize (or_st split_oracle). intros s Hst Hrec Hsn.
  set (P1 := Pool [(1, 12000000, root)]%N None ∅ 0).
  assert (operates toy toy cfg_chained split_chain one_way 1 [] P1) as O1
    by exact (operates_act _ _ _ _ _ _ _ new_pool (Vote 1 12000000 root) P1 (operates_new _ _ _ _ _ _ _) (or_intror Hs) (acts_vote toy 1 new_pool 1 12000000 root)).
  set (P2 := Pool (pl_votes P1) (Some (12000000%N, root)) ∅ 0).
  exists cfg_chained, split_chain, one_way, P2, 12000000%N, root, s, honest, c.
  split; [exact Tc|]. split; [reflexivity|]. split; [apply honest_env_wf, two_index|]. split; [apply ways_reflect|]. split; [exact split_sound|].
  split; [discriminate|]. split; [|split; [reflexivity|split; [exact Hst|split; [apply honest_wf|split; [exact Hsn|exact Ht]]]]].
  eapply operates_act; [exact O1| |apply (acts_consolidate toy 1 P1 12000000 root); [|done]].
  - intros s' Hs'. rewrite (chain_unique _ _ _ Tc eq_refl _ _ _ Hs' Hst). exact Hrec.
  - exists [1%N]. split; [apply NoDup_singleton|]. split; [done|]. intros i [->|Hi]%elem_of_cons; [left|by apply elem_of_nil in Hi].
Qed.
