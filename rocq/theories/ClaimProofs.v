(** Proofs of C99. *)
From Verif Require Export ClaimSpec.
From Verif Require Import LoopProofs CheckpointProofs QuorumProofs ApiProofs OverlayProofs OnchainProofs ServeProofs StringProofs.

(** The checkpoint behind an answer. *)
Lemma answered_from sha E a w o p : serve sha E (GetProof a) w o = Ok (Answer (BProof p)) →
  ∃ root slot c leaf, hex_text 40 a ∧ w_onchain w = Some (root, slot) ∧ st_committed (or_st o) !! slot = Some c ∧ oc_root c = root ∧
    oc_proofs c !! to_lower a = Some (pf_proof p) ∧ oc_leafs c !! to_lower a = Some leaf.
Proof.
  cbn [serve]. intros Hm. destruct (merkle_proof E a w o) as [[b|? ?]|] eqn:Hp; [|done..]. injection Hm as ->.
  unfold merkle_proof, if_ready in Hp. case_match; [|discriminate].
  destruct (is_valid_address a) eqn:Hva; [|discriminate]. cbn [negb] in Hp. apply valid_address_spec in Hva.
  destruct (w_onchain w) as [[root slot]|] eqn:Ho; [|discriminate].
  destruct (st_committed (or_st o) !! slot) as [c|] eqn:Hc; [|discriminate].
  destruct (String.eqb_spec root (oc_root c)) as [->|]; [|discriminate]. cbn [negb] in Hp.
  destruct (oc_proofs c !! to_lower a) as [pr|] eqn:Hpr; [|discriminate].
  destruct (oc_leafs c !! to_lower a) as [leaf|] eqn:Hl; [|discriminate].
  unfold claimed_balance in Hp. rewrite (hex_text_address _ (to_lower_hex_text _ _ Hva)) in Hp. cbn [negb rbind] in Hp.
  destruct (w_claimed w (to_lower a)) as [z|] eqn:Hz; [|discriminate]. injection Hp as <-. cbn [pf_proof].
  exists (oc_root c), slot, c, leaf. done.
Qed.
(** The checkpoint of a slot in the history. *)
Lemma committed_from H cfg l o k c : evolve H (new_oracle cfg) l o → st_committed (or_st o) !! k = Some c →
  ∃ l1 E1 l2 o1, l = l1 ++ Freeze E1 :: l2 ∧ wf_env E1 ∧ evolve H (new_oracle cfg) l1 o1 ∧ snapshot H E1 (or_st o1) = Ok (Some c) ∧ st_latest (or_st o1) = k.
Proof.
  intros He Hc. apply (ApiProofs.evolve_frozen _ _ _ _ He) in Hc as [Hc|Hc]; [cbn in Hc; by rewrite lookup_empty in Hc|exact Hc].
Qed.

(** ** What is offered is paid *)
Lemma offered H (HH : ∀ x, String.length (H x) = 32%nat) sha cfg l o E a w p q P1 P2 P3 P : evolve H (new_oracle cfg) l o → wf_env E →
  serve sha E (GetProof a) w o = Ok (Answer (BProof p)) → sees P1 P2 P3 a w →
  pl_report P = pl_report P2 → (∀ a20, spells a20 (to_lower a) → claimed P a20 = claimed P3 a20) →
  uint256 (pf_balance p) → (0 ≤ pf_claimable p)%Z →
  ∃ a20 pre sibs P', spells a20 (to_lower a) ∧ pf_proof p = (λ b, "0x" +:+ hex_encode b) <$> sibs ∧
    acts H q P (Claim a20 (pf_balance p) pre sibs) P' ∧ pl_paid P' = (pl_paid P + pf_claimable p)%Z.
Proof.
  intros He W Hs [(k1 & r1 & k2 & r2 & HP1 & HP2 & Hw) Hcl] HP HC Hu Hpos.
  destruct (serve_proof H sha cfg l o E a w p He W Hs) as (_ & Ho & _ & Hz & Hcb & l1 & E1 & l2 & o1 & _ & _ & _ & _ & _ & a20 & Hsp & _ & Hpr).
  destruct (Hpr Hu) as (pre & root & sibs & Hc & Hr & Hpf & Hv). clear Hpr.
  assert (root = r2) as ->.
  { rewrite Hw in Ho. injection Ho as Ho _. rewrite Hr in Ho. apply (app_prefix_inj "0x") in Ho. symmetry. by apply hex_encode_inj. }
  specialize (Hcl a20 Hsp). rewrite Hz in Hcl. injection Hcl as Hcl. specialize (HC a20 Hsp).
  exists a20, pre, sibs. eexists. split; [done|]. split; [done|]. split.
  - eapply (acts_claim _ _ _ k2 r2); [by rewrite HP|done| |done|lia].
    destruct (answered_from _ _ _ _ _ _ Hs) as (x & k & c & leaf & _ & _ & Hk & _ & Hst & _).
    destruct (committed_from _ _ _ _ _ _ He Hk) as (? & E2 & ? & o2 & _ & _ & _ & Hsn & _). rewrite Hpf in Hst.
    exact (snapshot_words H HH _ _ _ _ _ Hsn Hst).
  - cbn [pl_paid]. lia.
Qed.

(** ** Who is answered *)
Lemma hex_spelled a : hex_text 40 a → ∃ a20, spells a20 (to_lower a).
Proof.
  intros (b & -> & Hl & Hf). assert (sforall is_hex_char b = true) as Hs.
  { apply sforall_Forall. eapply Forall_impl; [exact Hf|]. intros c. by apply hex_char_spec. }
  destruct (hex2bytes_in_hex 20 b Hl Hs) as [Hn He]. exists (hex2bytes b). split; [done|]. left. rewrite <-He. done.
Qed.
Lemma proof_answered H sha cfg l o E a w P1 P2 P3 : evolve H (new_oracle cfg) l o → wf_env E → sees P1 P2 P3 a w → hex_text 40 a →
  keeps_up w (or_st o) → (∀ f, w_final w = Some f → (f < 2 ^ 64)%N) → (st_latest (or_st o) + 64 < 2 ^ 64)%N →
  (∃ p, serve sha E (GetProof a) w o = Ok (Answer (BProof p))) ↔ ∃ k1 r1 k2 r2, pl_report P1 = Some (k1, r1) ∧ pl_report P2 = Some (k2, r2) ∧
    ∃ l1 E1 l2 o1 c, l = l1 ++ Freeze E1 :: l2 ∧ wf_env E1 ∧ evolve H (new_oracle cfg) l1 o1 ∧ snapshot H E1 (or_st o1) = Ok (Some c) ∧ st_latest (or_st o1) = k1 ∧
      st_committed (or_st o) !! k1 = Some c ∧ oc_root c = "0x" +:+ hex_encode r2 ∧
      (to_lower (st_fees_addr (or_st o1)) = to_lower a ∨ withdraws_to (or_st o1) (to_lower a)).
Proof.
  intros He W [(k1 & r1 & k2 & r2 & HP1 & HP2 & Hw) Hcl] Hx Hkeep Hf Hl. split.
  - intros [p Hs]. exists k1, r1, k2, r2. split; [done|]. split; [done|].
    destruct (answered_from _ _ _ _ _ _ Hs) as (x & k & c & leaf & _ & Ho & Hk & Hroot & _ & Hlf). rewrite Hw in Ho. injection Ho as <- <-.
    destruct (committed_from _ _ _ _ _ _ He Hk) as (l1 & E1 & l2 & o1 & -> & W1 & He1 & Hsn & Hlat).
    exists l1, E1, l2, o1, c. do 7 (split; [done|]).
    destruct (proj1 (stored_addresses H E1 _ c (to_lower a) W1 Hsn) (ex_intro _ _ Hlf)) as [->|?]; [by left|by right].
  - intros (k1' & r1' & k2' & r2' & HP1' & HP2' & l1 & E1 & l2 & o1 & c & -> & W1 & He1 & Hsn & Hlat & Hk & Hroot & Hadr).
    rewrite HP1 in HP1'. injection HP1' as <- <-. rewrite HP2 in HP2'. injection HP2' as <- <-.
    assert (is_Some (oc_leafs c !! to_lower a)) as [leaf Hlf].
    { apply (stored_addresses H E1 _ c (to_lower a) W1 Hsn). destruct Hadr as [?|?]; [by left|by right]. }
    destruct (snapshot_inv H E1 _ c Hsn) as [ls Ha].
    destruct (snapshot_spec H E1 _ ls Ha) as [[_ Hn]|(_ & c' & Hs' & _ & _ & _ & _ & Hall)]; [congruence|].
    assert (c' = c) as -> by congruence. specialize (Hall (to_lower a)). rewrite Hlf in Hall. destruct Hall as (pr & Hpr & _).
    destruct (hex_spelled a Hx) as [a20 Hsp]. specialize (Hcl a20 Hsp).
    destruct Hkeep as (f & Hfin & Hle). cbn [serve]. unfold merkle_proof, if_ready.
    rewrite (proj2 (oracle_ready_spec w _ f Hfin (Hf f Hfin) Hl) Hle).
    rewrite (proj2 (valid_address_spec a) Hx). cbn [negb]. rewrite Hw, Hk, Hroot, String.eqb_refl. cbn [negb].
    rewrite Hpr, Hlf. unfold claimed_balance. rewrite (hex_text_address _ (to_lower_hex_text _ _ Hx)), Hcl. cbn [negb rbind reply_map]. by eexists.
Qed.
