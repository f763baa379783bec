(** A concrete history of the contract with two oracles and a dishonest member, used by PropQuorum.v. *)
From Verif Require Import ApiSamples.
From Verif Require Export QuorumProofs AgreeSamples.

(** The blocks of the chain, as a node serves them. *)
Definition fetch_at (slot : N) : res (fullblock * cache) :=
  fetch_full_block the_chain honest pool_str true slot (or_st (new_oracle cfg_loop)) empty_cache.
Definition block_at (slot : N) : fullblock := match fetch_at slot with Ok (fb, _) => fb | Die _ => missed_slot 0 0 no_events end.
Definition slots : list N := [12000001; 12000002; 12000003]%N.
Lemma block_at_fetched slot : slot ∈ slots → fetches the_chain slot (block_at slot).
Proof.
  intros Hs. assert (forallb (λ n, match fetch_at n with Ok _ => true | _ => false end) slots = true) as Hf by by vm_compute.
  rewrite forallb_forall in Hf. apply elem_of_list_In, Hf in Hs. unfold block_at. destruct (fetch_at slot) as [[fb ca]|] eqn:Hx; [|done].
  exists the_chain, honest, pool_str, true, (or_st (new_oracle cfg_loop)), empty_cache, ca. split; [exact chain_echoes|]. split; [by left|exact Hx].
Qed.
Definition good_test (fb : fullblock) : bool :=
  match fb_cblock fb with Some _ => true | None => false end &&
  match mev_reward honest fb with
  | Ok (r, true, _) => (length (filter (λ e, er_amount e = r) (ev_ether_received (fb_events fb))) <=? 1)%nat
  | _ => true
  end && nonneg_test honest pool_str fb.
Lemma good_sound fb : good_test fb = true → wf_block honest pool_str fb ∧ nonneg_block honest pool_str fb.
Proof.
  unfold good_test. intros [[H1 H2]%andb_prop H3]%andb_prop. split; [|by apply nonneg_test_sound]. split.
  - intros Hn. by rewrite Hn in H1.
  - intros r rcp Hm _. rewrite Hm in H2. by apply Nat.leb_le.
  - intros slot l i [= <-]. apply not_elem_of_nil.
Qed.
Lemma chain_good slot : slot ∈ slots →
  good_test (block_at slot) = true ∧ good_test (bare (block_at slot)) = true ∧ fb_receipts (block_at slot) ≠ None.
Proof.
  intros Hs. assert (forallb (λ n, good_test (block_at n) && good_test (bare (block_at n)) &&
    match fb_receipts (block_at n) with Some _ => true | None => false end) slots = true) as Hf by by vm_compute.
  rewrite forallb_forall in Hf. apply elem_of_list_In, Hf in Hs. apply andb_prop in Hs as [[H1 H2]%andb_prop H3].
  split; [done|]. split; [done|]. intros Hn. by rewrite Hn in H3.
Qed.
Lemma chain_is_sound : sound_chain cfg_loop the_chain honest.
Proof.
  split; [apply honest_sane|]. intros slot fb Hle Hf. assert (slot ∈ slots) as Hin.
  { apply fetched_told in Hf as (_ & _ & _ & b & _ & _ & _ & Hb & _). change (fb_cblock <$> at_slot slot = Some b) in Hb.
    apply fmap_Some in Hb as (x & Hx & _). unfold at_slot in Hx. apply find_some in Hx as [Hx Heq]. apply N.eqb_eq in Heq. subst slot.
    apply elem_of_list_In in Hx. assert (Forall (λ fb, bool_decide (fb_duty_slot fb ∈ slots) = true) chain_blocks) as Hall.
    { repeat (apply Forall_cons; split; [by vm_compute|]). by apply Forall_nil. }
    rewrite Forall_forall in Hall. apply Hall in Hx. by apply bool_decide_eq_true in Hx. }
  pose proof (told_kin _ _ _ _ (fetched_told _ _ _ Hf) (fetched_told _ _ _ (block_at_fetched _ Hin))) as Hk.
  destruct (chain_good _ Hin) as (G1 & G2 & G3). assert (¬ era Mainnet slot PreFork1) as He.
  { intros He%era_method. assert (forallb (λ n, match reward_method Mainnet n with Ok PreFork1 => false | _ => true end) slots = true) as Hs by by vm_compute.
    rewrite forallb_forall in Hs. apply elem_of_list_In, Hs in Hin. by rewrite He in Hin. }
  destruct Hk as [->|[->|Hk]].
  - apply good_sound in G1 as [? ?]. done.
  - apply good_sound in G2 as [? ?]. done.
  - exfalso. apply G3. by rewrite Hk.
Qed.

(** The state at the second checkpoint. *)
Definition end_oracle : oracle := default (new_oracle cfg_loop) (run_fn (new_oracle cfg_loop) ((λ fb, (honest, fb)) <$> (block_at <$> slots))).
Definition end_state : ost := or_st end_oracle.
Lemma end_chain : chain_state cfg_loop the_chain honest 12000003 end_state.
Proof.
  exists (block_at <$> slots), end_oracle. split; [|split; [|split; [by vm_compute|done]]].
  - apply run_fn_run. unfold end_oracle. assert (bool_decide (is_Some (run_fn (new_oracle cfg_loop) ((λ fb, (honest, fb)) <$> (block_at <$> slots)))) = true) as Hx by by vm_compute.
    apply bool_decide_eq_true in Hx as [x Hx]. by rewrite Hx.
  - apply Forall_fmap, Forall_forall. intros n Hn. exists n. split; [|by apply block_at_fetched].
    assert (forallb (λ n, (12000001 <=? n)%N) slots = true) as Hs by by vm_compute. rewrite forallb_forall in Hs. by apply elem_of_list_In, Hs, N.leb_le in Hn.
Qed.

(** A claim against the root of a state, and what is hashed for it. *)
Fixpoint tree_inputs (H : string → string) (fuel : nat) (l : list string) : list string :=
  match fuel with
  | O => []
  | S fuel => if (2 <=? length l)%nat then pairs l ++ tree_inputs H fuel (H <$> pairs l) else []
  end.
Lemma merkle_inputs H l root ins : merkle H l root ins → ∀ fuel, (length l ≤ fuel)%nat → ins = tree_inputs H fuel l.
Proof.
  induction 1 as [x|l root ins Hl _ IH]; intros fuel Hf; destruct fuel as [|fuel]; cbn [length tree_inputs] in *; [done|done|lia|].
  apply Nat.leb_le in Hl as Hl'. rewrite Hl'. f_equal. apply IH. rewrite fmap_length, pairs_length. rewrite Nat.div2_div.
  enough (S (length l) / 2 < S fuel)%nat by lia. apply Nat.div_lt_upper_bound; lia.
Qed.
Definition apart_inputs (H : string → string) (xs ys : list string) : bool :=
  forallb (λ x, forallb (λ y, String.eqb x y || negb (String.eqb (H x) (H y))) ys) xs.
Lemma apart_inputs_sound H xs ys : apart_inputs H xs ys = true → ¬ collision H xs ys.
Proof.
  unfold apart_inputs. rewrite forallb_forall. intros Hf (x & y & Hx%elem_of_list_In & Hy%elem_of_list_In & Hne & He).
  specialize (Hf x Hx). rewrite forallb_forall in Hf. specialize (Hf y Hy). apply orb_prop in Hf as [->%String.eqb_eq|Hf]; [done|].
  rewrite He, String.eqb_refl in Hf. done.
Qed.
Definition fair_test (H : string → string) (s : ost) (a20 : string) (z : Z) : bool :=
  let l := RawLeaf ("0x" +:+ hex_encode a20) z in
  match aggregate honest s with
  | Ok ls =>
      match tree_proof H (leaf_hash H <$> ls) (leaf_hash H l) with
      | Some p =>
          let ps := leaf_preimage <$> ls in
          String.eqb (climb H (leaf_hash H l) p) (tree_root H (leaf_hash H <$> ls)) &&
          forallb (λ b, (String.length b =? 32)%nat) p && (2 <=? length p)%nat && (String.length a20 =? 20)%nat &&
          String.eqb (leaf_preimage l) (a20 +:+ sol_uint256 z) && (be_value (sol_uint256 z) =? Z.to_N z)%N &&
          (0 <=? z)%Z && (2 <=? length ls)%nat &&
          apart_inputs H (claim_inputs H (leaf_preimage l) p) (ps ++ tree_inputs H (length ls) (H <$> ps))
      | None => false
      end
  | Die _ => false
  end.
Lemma fair_instance H s a20 z : fits s → fair_test H s a20 z = true →
  ∃ c root pre p xs, snapshot H honest s = Ok (Some c) ∧ oc_root c = "0x" +:+ hex_encode root ∧ hashed H s xs ∧ claim a20 z pre ∧
    Forall (λ b, String.length b = 32%nat) p ∧ (2 ≤ length p)%nat ∧ proves H root p pre ∧ ¬ collision H (claim_inputs H pre p) xs.
Proof.
  intros Hfit. unfold fair_test. destruct (aggregate honest s) as [ls|] eqn:Ha; [|done].
  destruct (tree_proof _ _ _) as [p|] eqn:Hp; [|done].
  intros [[[[[[[[Hc Hf]%andb_prop Hn]%andb_prop H20]%andb_prop Hpre]%andb_prop Hz]%andb_prop H0]%andb_prop H2]%andb_prop Hno]%andb_prop.
  apply Nat.leb_le in H2, Hn. apply String.eqb_eq in Hc, Hpre. apply Nat.eqb_eq in H20. apply N.eqb_eq in Hz. apply Z.leb_le in H0.
  destruct (snapshot_spec H honest s ls Ha) as [[Hl _]|(_ & c & Hs & _ & _ & Hr & _)]; [lia|].
  destruct (tree_merkle H (leaf_hash H <$> ls)) as [ins Hm]; [by rewrite fmap_length|].
  assert (leaf_hash H <$> ls = H <$> (leaf_preimage <$> ls)) as Hx by (rewrite <-list_fmap_compose; done).
  exists c, (tree_root H (leaf_hash H <$> ls)), (leaf_preimage (RawLeaf ("0x" +:+ hex_encode a20) z)), p, ((leaf_preimage <$> ls) ++ ins).
  split; [done|]. split; [done|]. split; [|split; [|split; [|split; [done|split; [exact Hc|]]]]].
  - exists honest, ls, (leaf_preimage <$> ls), (tree_root H (leaf_hash H <$> ls)), ins. split; [apply honest_wf|]. split; [done|].
    split; [by apply (tree_of_claims honest s ls honest_wf)|]. split; [|done]. by rewrite <-Hx.
  - rewrite Hpre. exists (sol_uint256 z). split; [done|]. split; [apply sol_uint256_length|]. rewrite Hz. split; [lia|done].
  - rewrite forallb_forall in Hf. apply Forall_forall. intros x Hx'. apply Nat.eqb_eq, Hf. by apply elem_of_list_In.
  - rewrite Hx in Hm. pose proof (merkle_inputs _ _ _ _ Hm (length ls)) as Hi. rewrite !fmap_length in Hi. rewrite (Hi (le_n _)).
    by apply apart_inputs_sound.
Qed.

(** Members 1 and 2 run oracles, member 7 votes for something else; the root is consolidated with two votes, and the owner
    of validator 1 claims. *)
Lemma contract_history : ∃ P root wrong, operates toy toy cfg_loop the_chain honest 2 [7%N] P ∧ pl_report P = Some (12000003%N, root) ∧
  (7%N, 12000003%N, wrong) ∈ pl_votes P ∧ wrong ≠ root ∧ pl_paid P = 21666%Z ∧ claimed P (owner 1) = 21666%Z.
Proof.
  destruct both_report as (m1 & m2 & b1 & b2 & L1 & L2 & Tc & Hd & C & C1 & C2 & S1 & S2).
  pose proof (crew_roots _ _ _ _ _ _ _ _ _ _ _ _ _ _ Tc Hd C C1 C2 S1 S2) as <-.
  assert (submitted_by toy toy cfg_loop the_chain honest 12000003 b1) as Hr1 by (do 3 eexists; split; [exact C1|exact S1]).
  clear m1 m2 L1 L2 C1 C2 S1 S2.
  destruct (reported_root _ _ _ Tc Hd C _ _ _ _ Hr1) as (s & E & c & Hs & W & Hsn & Hrt).
  pose proof (chain_unique _ _ _ Tc Hd _ _ _ Hs end_chain) as ->. clear Hs.
  assert (received end_state < 2 ^ 256)%Z as Hrec by by vm_compute.
  destruct (chain_facts _ _ _ Hd C chain_is_sound ltac:(done) _ _ end_chain) as (_ & _ & _ & _ & Hfit & _). specialize (Hfit Hrec).
  destruct (fair_instance toy end_state (owner 1) 21666 Hfit) as (c' & root & pre & p & xs & Hsn' & Hrt' & Hh & Hcl & Hp & _ & Hpr & Hno); [by vm_compute|].
  rewrite (snapshot_same toy E honest end_state W honest_wf), Hsn' in Hsn. injection Hsn as ->.
  rewrite Hrt' in Hrt. injection Hrt as Hrt. apply hex_encode_inj in Hrt as ->.
  pose proof end_chain as Hend. clear Hfit Hsn' W. revert Hend Hrec Hh. generalize end_state. intros S Hend Hrec Hh.
  set (P3 := Pool [(2, 12000003, b1); (7, 12000003, b1 +:+ "!"); (1, 12000003, b1)]%N None ∅ 0).
  set (P1 := Pool [(1, 12000003, b1)]%N None ∅ 0). set (P2 := Pool [(7, 12000003, b1 +:+ "!"); (1, 12000003, b1)]%N None ∅ 0).
  assert (operates toy toy cfg_loop the_chain honest 2 [7%N] P1) as O1
    by exact (operates_act _ _ _ _ _ _ _ new_pool (Vote 1 12000003 b1) P1 (operates_new _ _ _ _ _ _ _) (or_intror Hr1) (acts_vote toy 2 new_pool 1 12000003 b1)).
  assert (7%N ∈ [7%N]) as H7 by left.
  assert (operates toy toy cfg_loop the_chain honest 2 [7%N] P2) as O2
    by exact (operates_act _ _ _ _ _ _ _ P1 (Vote 7 12000003 (b1 +:+ "!")) P2 O1 (or_introl H7) (acts_vote toy 2 P1 7 12000003 (b1 +:+ "!"))).
  assert (operates toy toy cfg_loop the_chain honest 2 [7%N] P3) as O3
    by exact (operates_act _ _ _ _ _ _ _ P2 (Vote 2 12000003 b1) P3 O2 (or_intror Hr1) (acts_vote toy 2 P2 2 12000003 b1)).
  set (P4 := Pool (pl_votes P3) (Some (12000003%N, b1)) ∅ 0).
  assert (operates toy toy cfg_loop the_chain honest 2 [7%N] P4) as O4.
  { eapply operates_act; [exact O3| |apply (acts_consolidate toy 2 P3 12000003 b1); [|done]].
    - intros s Hs. by rewrite (chain_unique _ _ _ Tc Hd _ _ _ Hs Hend).
    - exists [1; 2]%N. split; [by apply (bool_decide_unpack _); vm_compute|]. split; [done|]. intros i [->|[->|Hi]%elem_of_cons]%elem_of_cons.
      + right. right. left.
      + left.
      + exfalso. exact (not_elem_of_nil _ Hi). }
  eexists (Pool (pl_votes P4) (pl_report P4) (<[owner 1 := 21666%Z]> (pl_claimed P4)) (pl_paid P4 + (21666 - claimed P4 (owner 1)))), b1, (b1 +:+ "!").
  split.
  { eapply operates_act; [exact O4| |eapply (acts_claim toy 2 P4 12000003 b1 (owner 1) 21666 pre p); [done|exact Hcl|exact Hp|exact Hpr|done]].
    exists 12000003%N, b1, S, xs. split; [done|]. split; [exact Hend|]. split; [exact Hh|exact Hno]. }
  split; [done|]. split; [right; left|]. split.
  { intros Hx. apply (f_equal String.length) in Hx. rewrite string_length_app in Hx. cbn in Hx. lia. }
  split; [done|]. unfold claimed. cbn [pl_claimed]. by rewrite lookup_insert.
Qed.
