(** The chain of AgreeSamples.v with an operator of the pool who runs a validator on it that withdraws to the fee recipient.
    Used by PropQuorum.v. *)
From Verif Require Import ApiSamples.
From Verif Require Export SplitSamples.

Definition owner_fees : string := "0x" +:+ hex_encode (owner 1).
Definition cfg_shadow : config := Config Mainnet pool_str 12000001 100 2 700 owner_fees false 1000.
Lemma shadow_sound : sound_chain cfg_shadow the_chain honest.
Proof. destruct chain_is_sound as [S1 S2]. split; [exact S1|]. exact S2. Qed.

(** ** The state at the second checkpoint *)
Definition shadow_oracle : oracle := default (new_oracle cfg_shadow) (run_fn (new_oracle cfg_shadow) ((λ fb, (honest, fb)) <$> (block_at <$> slots))).
Definition shadow_state : ost := or_st shadow_oracle.
Lemma shadow_chain : chain_state cfg_shadow the_chain honest 12000003 shadow_state.
Proof.
  exists (block_at <$> slots), shadow_oracle. split; [|split; [|split; [by vm_compute|done]]].
  - apply run_fn_run. unfold shadow_oracle.
    assert (bool_decide (is_Some (run_fn (new_oracle cfg_shadow) ((λ fb, (honest, fb)) <$> (block_at <$> slots)))) = true) as Hx by by vm_compute.
    apply bool_decide_eq_true in Hx as [x Hx]. by rewrite Hx.
  - apply Forall_fmap, Forall_forall. intros n Hn. exists n. split; [|by apply block_at_fetched].
    assert (forallb (λ n, (12000001 <=? n)%N) slots = true) as Hs by by vm_compute. rewrite forallb_forall in Hs. by apply elem_of_list_In, Hs, N.leb_le in Hn.
Qed.

(** ** A process reports it *)
Definition shadow_on : string * N := ("0x00000000000000000000000000000000000000025c5582306fef35f980e980de", 12000001%N).
Definition shadow_life : list event :=
  Start honest None (Some 11999999%N) :: repeat (told_by honest the_chain nothing_yet) 6 ++ repeat (told_by honest the_chain shadow_on) 9.
Lemma shadow_life_ok : Forall (λ e, typed_event e ∧ watches the_chain honest e) shadow_life.
Proof. apply Forall_cons. split; [done|]. apply Forall_app. split; apply told_many; by left. Qed.
Definition shadow_test (sent : list (N * string)) (m : machine) : bool :=
  match live toy toy cfg_shadow (told_by honest the_chain shadow_on) (Up m) with (Some (k, _), _) => (k =? 12000003)%N | _ => false end.
Lemma shadow_submitted : ∃ root, submitted_by toy toy cfg_shadow the_chain honest 12000003 root.
Proof.
  destruct (ex_life shadow_test toy toy cfg_shadow shadow_life (Down ∅)) as (sent & m & Hl & Ht); [by vm_compute|].
  unfold shadow_test in Ht. destruct (live _ _ _ _ (Up m)) as [[[k b]|] L'] eqn:He; [|discriminate Ht].
  apply N.eqb_eq in Ht. subst k. exists b, m, (told_by honest the_chain shadow_on), L'. split; [|exact He].
  exact (crew_lifetime _ _ _ _ _ _ _ _ _ (crew_empty _ _ _ _ _) shadow_life_ok Hl).
Qed.

(** ** The contract *)
Lemma shadow_amounts : due shadow_state (owner 1) = 31672%Z ∧ larger shadow_state (owner 1) = 21666%Z.
Proof. by vm_compute. Qed.
Lemma shadow_entitled : entitled shadow_state (owner 1) 10006.
Proof. left. split; [|by vm_compute]. split; [reflexivity|]. left. by vm_compute. Qed.
Lemma claim_refutation : ∃ c0 nd0 E0 P slot root s f20 a20 z, typed_config c0 ∧ (0 < c_dep_slot c0)%N ∧ one_chain E0 ∧ sound_chain c0 nd0 E0 ∧
  (0 ≤ c_feepct c0)%Z ∧ operates toy toy c0 nd0 E0 1 [] P ∧ pl_report P = Some (slot, root) ∧ chain_state c0 nd0 E0 slot s ∧
  names f20 (c_fees_addr c0) ∧ entitled s a20 z ∧ (claimed P a20 + z = due s a20)%Z ∧ (0 < z)%Z ∧
  ∀ pre proof P', ¬ acts toy 1 P (Claim a20 z pre proof) P'.
Proof.
  assert (typed_config cfg_shadow) as Tc by by vm_compute. assert (0 < c_dep_slot cfg_shadow)%N as Hd by reflexivity.
  destruct shadow_submitted as (b1 & Hr1). pose proof shadow_entitled as Hen. destruct shadow_amounts as [Hdue _].
  destruct (reported_root _ _ _ Tc Hd honest_one _ _ _ _ Hr1) as (s & E & c & Hs & W & Hsn & Hrt).
  pose proof (chain_unique _ _ _ Tc Hd _ _ _ Hs shadow_chain) as ->. clear Hs.
  assert (received shadow_state < 2 ^ 256)%Z as Hrec by by vm_compute.
  destruct (chain_facts _ _ _ Hd honest_one shadow_sound ltac:(done) _ _ shadow_chain) as (_ & _ & _ & _ & Hfit & _). specialize (Hfit Hrec).
  destruct (fair_instance toy shadow_state (owner 1) 21666 Hfit) as (c' & root & pre & p & xs & Hsn' & Hrt' & Hh & Hcl & Hp & _ & Hpr & Hno); [by vm_compute|].
  rewrite (snapshot_same toy E honest shadow_state W honest_wf), Hsn' in Hsn. injection Hsn as ->.
  rewrite Hrt' in Hrt. injection Hrt as Hrt. apply hex_encode_inj in Hrt as ->.
  pose proof shadow_chain as Hend. clear Hfit Hsn' W. revert Hend Hrec Hh Hen Hdue. generalize shadow_state. intros S Hend Hrec Hh Hen Hdue.
  set (P1 := Pool [(1, 12000003, b1)]%N None ∅ 0). set (P2 := Pool (pl_votes P1) (Some (12000003%N, b1)) ∅ 0).
  assert (operates toy toy cfg_shadow the_chain honest 1 [] P1) as O1
    by exact (operates_act _ _ _ _ _ _ _ new_pool (Vote 1 12000003 b1) P1 (operates_new _ _ _ _ _ _ _) (or_intror Hr1) (acts_vote toy 1 new_pool 1 12000003 b1)).
  assert (operates toy toy cfg_shadow the_chain honest 1 [] P2) as O2.
  { eapply operates_act; [exact O1| |apply (acts_consolidate toy 1 P1 12000003 b1); [|done]].
    - intros s Hs. by rewrite (chain_unique _ _ _ Tc Hd _ _ _ Hs Hend).
    - exists [1%N]. split; [apply NoDup_singleton|]. split; [done|]. intros i [->|Hi]%elem_of_cons; [left|by apply elem_of_nil in Hi]. }
  set (P3 := Pool (pl_votes P2) (pl_report P2) (<[owner 1 := 21666%Z]> (pl_claimed P2)) (pl_paid P2 + (21666 - claimed P2 (owner 1)))).
  assert (claimed P3 (owner 1) = 21666%Z) as Hc3 by (unfold claimed, P3; cbn [pl_claimed]; by rewrite lookup_insert).
  exists cfg_shadow, the_chain, honest, P3, 12000003%N, b1, S, (owner 1), (owner 1), 10006%Z.
  split; [exact Tc|]. split; [exact Hd|]. split; [exact honest_one|]. split; [exact shadow_sound|]. split; [discriminate|]. split.
  { eapply operates_act; [exact O2| |eapply (acts_claim toy 1 P2 12000003 b1 (owner 1) 21666 pre p); [done|exact Hcl|exact Hp|exact Hpr|done]].
    exists 12000003%N, b1, S, xs. split; [done|]. split; [exact Hend|]. split; [exact Hh|exact Hno]. }
  split; [done|]. split; [exact Hend|]. split; [split; [done|by vm_compute]|]. split; [exact Hen|]. split; [by rewrite Hc3, Hdue|]. split; [done|].
  intros pre' proof P' Ha. inversion Ha as [| |? ? ? ? ? ? _ _ _ _ Hle]; subst. rewrite Hc3 in Hle. lia.
Qed.
