(** The contract between two checkpoints, for the examples of PropClaim.v. *)
From Verif Require Export ApiSamples ClaimProofs.
From Verif Require Import QuorumProofs StringProofs.

(** The root (32 bytes) that the oracle keeps for a slot. *)
Definition root_at (o : oracle) (k : N) : string :=
  hex_decode (substring 2 64 (default "" (oc_root <$> st_committed (or_st o) !! k))).
(** The contract after the first report, then with the vote for the second, then with the second report; nothing is claimed. *)
Definition first_pool (o : oracle) : pool := Pool [(1, 12000001, root_at o 12000001)]%N (Some (12000001%N, root_at o 12000001)) ∅ 0.
Definition voted_pool (o : oracle) : pool :=
  Pool [(1, 12000002, root_at o 12000002); (1, 12000001, root_at o 12000001)]%N (Some (12000001%N, root_at o 12000001)) ∅ 0.
Definition second_pool (o : oracle) : pool :=
  Pool [(1, 12000002, root_at o 12000002); (1, 12000001, root_at o 12000001)]%N (Some (12000002%N, root_at o 12000002)) ∅ 0.
Lemma pools_later o : later toy 1 (first_pool o) (second_pool o).
Proof.
  apply (later_act _ _ _ (Vote 1 12000002 (root_at o 12000002)) (voted_pool o)); [exact (acts_vote toy 1 (first_pool o) 1 12000002 _)|].
  apply (later_act _ _ _ (Consolidate 12000002 (root_at o 12000002)) (second_pool o)); [|apply later_same].
  apply (acts_consolidate toy 1 (voted_pool o)).
  - exists [1%N]. split; [apply NoDup_singleton|]. split; [done|]. intros i ->%elem_of_list_singleton. left.
  - intros k r Hr. cbn [voted_pool pl_report] in Hr. injection Hr as <- _. done.
Qed.
(** Nodes that answer with the slot of one contract state and the root of another. *)
Definition claim_wire (o : oracle) (root_slot slot : N) : wire :=
  Wire (Some 12000010%N) (Some ("0x" +:+ hex_encode (root_at o root_slot), slot)) (λ _, Some 0%Z) (λ _, Some []) (λ _, Some []) (Some sample_beacon)
    (Some 1%N) (Some (1%N, "0x00")) (Some true) (SyncAt 0) [].
Definition owner_text : string := "0x1111111111111111111111111111111111111111".
Lemma owner_hex : hex_text 40 owner_text.
Proof. apply ApiProofs.valid_address_spec. by vm_compute. Qed.
Lemma sees_second o : sees (second_pool o) (second_pool o) (second_pool o) owner_text (claim_wire o 12000002 12000002).
Proof. split; [by do 4 eexists|]. intros a20 _. done. Qed.
Lemma sees_between o : sees (first_pool o) (second_pool o) (second_pool o) owner_text (claim_wire o 12000002 12000001).
Proof. split; [by do 4 eexists|]. intros a20 _. done. Qed.

Definition keeps_both (o : oracle) : Prop :=
  oc_root <$> st_committed (or_st o) !! 12000001%N = Some ("0x" +:+ hex_encode (root_at o 12000001)) ∧
  oc_root <$> st_committed (or_st o) !! 12000002%N = Some ("0x" +:+ hex_encode (root_at o 12000002)) ∧
  bool_decide (is_Some (st_committed (or_st o) !! 12000001%N ≫= λ c, oc_leafs c !! owner_text)) = true ∧
  bool_decide (is_Some (st_committed (or_st o) !! 12000002%N ≫= λ c, oc_leafs c !! owner_text)) = true ∧
  st_latest (or_st o) = 12000002%N.
Lemma both_asked : ∃ o, evolve toy (new_oracle (cfg_at Mainnet 12000001)) two_checkpoints o ∧ keeps_both o ∧
  (∃ p, serve toy backward (GetProof owner_text) (claim_wire o 12000002 12000002) o = Ok (Answer (BProof p)) ∧
    pf_balance p = 21666%Z ∧ pf_claimable p = 21666%Z ∧ length (pf_proof p) = 2%nat) ∧
  serve toy backward (GetProof owner_text) (claim_wire o 12000002 12000001) o =
    Ok (Refuse 500 "contract merkle root does not match oracle state").
Proof.
  destruct (ex_evolve (λ o, keeps_both o ∧
    match serve toy backward (GetProof owner_text) (claim_wire o 12000002 12000002) o with
    | Ok (Answer (BProof p)) => pf_balance p = 21666%Z ∧ pf_claimable p = 21666%Z ∧ length (pf_proof p) = 2%nat | _ => False end ∧
    serve toy backward (GetProof owner_text) (claim_wire o 12000002 12000001) o =
      Ok (Refuse 500 "contract merkle root does not match oracle state"))
    toy (new_oracle (cfg_at Mainnet 12000001)) two_checkpoints two_checkpoints_wf) as (o & He & Hk & Hp & Hr); [by vm_compute|].
  exists o. split; [exact He|]. split; [exact Hk|]. split; [|exact Hr]. clear He Hk Hr.
  destruct (serve _ _ _ _ _) as [[b|]|]; [|done..]. destruct b; try done. eexists. split; [reflexivity|exact Hp].
Qed.
Lemma asked_between : ∃ cfg l o E a w P1 P2, evolve toy (new_oracle cfg) l o ∧ wf_env E ∧ hex_text 40 a ∧ keeps_up w (or_st o) ∧
  later toy 1 P1 P2 ∧ sees P1 P2 P2 a w ∧
  (∀ P, P ∈ [P1; P2] → ∃ k root c, pl_report P = Some (k, root) ∧ st_committed (or_st o) !! k = Some c ∧
    oc_root c = "0x" +:+ hex_encode root ∧ is_Some (oc_leafs c !! to_lower a)) ∧
  serve toy E (GetProof a) w o = Ok (Refuse 500 "contract merkle root does not match oracle state").
Proof.
  destruct both_asked as (o & He & (H1 & H2 & H3 & H4 & Hl) & _ & Hr).
  exists (cfg_at Mainnet 12000001), two_checkpoints, o, backward, owner_text, (claim_wire o 12000002 12000001), (first_pool o), (second_pool o).
  split; [exact He|]. split; [exact backward_wf|]. split; [exact owner_hex|]. split; [exists 12000010%N; rewrite Hl; split; [reflexivity|split; discriminate]|].
  split; [apply pools_later|]. split; [apply sees_between|]. split; [|exact Hr]. clear He Hr Hl.
  apply bool_decide_eq_true_1 in H3, H4. change (to_lower owner_text) with owner_text.
  assert (∀ k, oc_root <$> st_committed (or_st o) !! k = Some ("0x" +:+ hex_encode (root_at o k)) →
    is_Some (st_committed (or_st o) !! k ≫= λ c, oc_leafs c !! owner_text) →
    ∃ c, st_committed (or_st o) !! k = Some c ∧ oc_root c = "0x" +:+ hex_encode (root_at o k) ∧ is_Some (oc_leafs c !! owner_text)) as Hc.
  { intros k Hk Hq. destruct (st_committed (or_st o) !! k) as [c|] eqn:Ec; [|discriminate].
    exists c. split; [reflexivity|]. split; [|exact Hq]. unfold root_at in *. rewrite Ec in Hk |- *. injection Hk as Hk. exact Hk. }
  intros P [->|[->|[]%elem_of_nil]%elem_of_cons]%elem_of_cons.
  - destruct (Hc _ H1 H3) as (c & Hk & Hx). exists 12000001%N, (root_at o 12000001), c. split; [reflexivity|]. split; [exact Hk|exact Hx].
  - destruct (Hc _ H2 H4) as (c & Hk & Hx). exists 12000002%N, (root_at o 12000002), c. split; [reflexivity|]. split; [exact Hk|exact Hx].
Qed.
