(** Proofs of C100. *)
From Verif Require Export CallSpec AbiProofs.
From Verif Require Import ClaimProofs CheckpointProofs StringProofs OnchainProofs.

Lemma word_nonempty w r : String.length w = 32%nat → String.eqb (w +:+ r) "" = false.
Proof. destruct w; [discriminate|done]. Qed.
Lemma word_full w : String.length w = 32%nat → String.eqb w "" = false.
Proof. destruct w; [discriminate|done]. Qed.
Lemma ask_answered H call sig args out : call (substring 0 4 (H sig) +:+ args) = Some out → String.eqb out "" = false → ask_view H call sig args = Some out.
Proof. intros Hc Hn. unfold ask_view. by rewrite Hc, Hn. Qed.
Lemma ask_plain H call sig out : call (substring 0 4 (H sig)) = Some out → String.eqb out "" = false → ask_view H call sig "" = Some out.
Proof. intros Hc Hn. apply ask_answered; [|done]. by rewrite string_app_nil_r. Qed.
Lemma zero_address a : String.length a = 20%nat → address_word a (be_bytes 12 0 +:+ a).
Proof. intros Ha. split; [done|]. f_equal. Qed.

(** ** Single words *)
Lemma first_word_iff out w : first_word out = Some w ↔ String.length w = 32%nat ∧ ∃ r, out = w +:+ r.
Proof.
  unfold first_word. destruct (Nat.ltb_spec (String.length out) 32) as [Hl|Hl].
  - split; [done|]. intros [Hw [r ->]]. rewrite string_length_app in Hl. lia.
  - split.
    + intros [= <-]. destruct (word_split 32 out Hl) as [H1 H2]. split; [done|]. by exists (sdrop 32 out).
    + intros [Hw [r ->]]. f_equal. rewrite <-Hw. apply substring_app.
Qed.
Lemma unpack_single p out vs : unpack [p] out = Some vs ↔ ∃ v w r, vs = [v] ∧ holds p v w ∧ out = w +:+ r.
Proof.
  rewrite unpack_holds. split.
  - intros Hh. inversion Hh as [|? v w ? ? r Hv Hn]; subst. inversion Hn; subst. eauto 10.
  - intros (v & w & r & -> & Hv & ->). repeat constructor. done.
Qed.
Lemma first_uint64_iff out n : first_uint64 out = Some n ↔ ∃ w r, uint64_word n w ∧ out = w +:+ r.
Proof.
  unfold first_uint64. split.
  - destruct (unpack [PUint64] out) as [vs|] eqn:Hu; [|done]. apply unpack_single in Hu as (v & w & r & -> & Hh & ->).
    inversion Hh; subst. intros [= ->]. eauto.
  - intros (w & r & Hw & ->). rewrite (proj2 (unpack_single PUint64 (w +:+ r) [VUint64 n])); [done|]. do 3 eexists. split; [done|]. split; [by apply holds_uint64|done].
Qed.
Lemma first_big_iff out z : first_big out = Some z ↔ ∃ w r, uint256_word z w ∧ out = w +:+ r.
Proof.
  unfold first_big. split.
  - destruct (unpack [PUint256] out) as [vs|] eqn:Hu; [|done]. apply unpack_single in Hu as (v & w & r & -> & Hh & ->).
    inversion Hh; subst. intros [= ->]. eauto.
  - intros (w & r & Hw & ->). rewrite (proj2 (unpack_single PUint256 (w +:+ r) [VBig z])); [done|]. do 3 eexists. split; [done|]. split; [by apply holds_big|done].
Qed.
Lemma first_address_iff out a : first_address out = Some a ↔ String.length a = 20%nat ∧ ∃ p r, String.length p = 12%nat ∧ out = p +:+ a +:+ r.
Proof.
  unfold first_address. split.
  - destruct (unpack [PAddress] out) as [vs|] eqn:Hu; [|done]. apply unpack_single in Hu as (v & w & r & -> & Hh & ->).
    inversion Hh; subst. intros [= ->]. split; [done|]. exists p, r. split; [done|]. by rewrite string_app_assoc.
  - intros (Ha & p & r & Hp & ->). rewrite (proj2 (unpack_single PAddress (p +:+ a +:+ r) [VAddress a])); [done|].
    exists (VAddress a), (p +:+ a), r. split; [done|]. split; [by apply holds_address|]. by rewrite string_app_assoc.
Qed.

(** ** Lists *)
Lemma string_list_inj a b : list_ascii_of_string a = list_ascii_of_string b → a = b.
Proof. intros E. by rewrite <-(string_of_list_ascii_of_string a), E, string_of_list_ascii_of_string. Qed.
Lemma read_addresses_spec n : ∀ d l, (32 * n ≤ String.length d)%nat → read_addresses n d = l ↔ length l = n ∧ elements_of l d.
Proof.
  induction n as [|n IH]; intros d l Hd; cbn [read_addresses].
  - split; [intros <-; split; [done|constructor]|]. intros [Hl _]. by destruct l.
  - destruct (word_split 32 d) as [H1 H2]; [lia|]. destruct (word_split 12 (substring 0 32 d)) as [H3 H4]; [lia|].
    assert (String.length (sdrop 12 (substring 0 32 d)) = 20%nat) as H5 by (rewrite sdrop_length; lia).
    assert (32 * n ≤ String.length (sdrop 32 d))%nat as H6 by (rewrite sdrop_length; lia). split.
    + intros <-. destruct (proj1 (IH (sdrop 32 d) _ H6) eq_refl) as [Hl He]. split; [cbn [length]; by rewrite Hl|].
      rewrite H1 at 3. rewrite H3 at 2. by constructor.
    + intros [Hl He]. inversion He as [|p a l' r Hp Ha Hr]; subst; [done|]. cbn [length] in Hl.
      assert (String.length (p +:+ a) = 32%nat) as Hpa by (rewrite string_length_app; lia).
      assert (substring 0 32 ((p +:+ a) +:+ r) = p +:+ a) as -> by (rewrite <-Hpa; apply substring_app).
      assert (sdrop 32 ((p +:+ a) +:+ r) = r) as Hdr by (rewrite <-Hpa; apply sdrop_app). rewrite Hdr in *.
      assert (sdrop 12 (p +:+ a) = a) as -> by (rewrite <-Hp; apply sdrop_app). f_equal. apply IH; [done|]. split; [lia|done].
Qed.
Lemma elements_length l d : elements_of l d → (32 * length l ≤ String.length d)%nat.
Proof. induction 1 as [|p a l r Hp Ha _ IH]; cbn [length]; [lia|]. rewrite !string_length_app. lia. Qed.
Lemma first_addresses_iff out l : first_addresses out = Some l ↔
  ∃ w r0 o w2 d, number_word (N.of_nat o) w ∧ out = w +:+ r0 ∧ sdrop o out = w2 +:+ d ∧ number_word (N.of_nat (length l)) w2 ∧ elements_of l d.
Proof.
  unfold first_addresses. destruct (N.ltb_spec (N.of_nat (String.length out)) 32) as [Hs|Hs].
  { split; [done|]. intros (w & r0 & o & w2 & d & [Hw _] & -> & _). rewrite string_length_app in Hs. lia. }
  destruct (word_split 32 out) as [H1 H2]; [lia|]. rewrite word_number_value. set (off := be_value (substring 0 32 out)).
  assert (∀ w r0 o, number_word (N.of_nat o) w → out = w +:+ r0 → off = N.of_nat o) as Hoff.
  { intros w r0 o [Hw Hv] E. unfold off. rewrite E. rewrite <-Hw, substring_app. done. }
  destruct (N.ltb_spec (N.of_nat (String.length out)) (off + 32)) as [Hst|Hst].
  { split; [done|]. intros (w & r0 & o & w2 & d & Hw & E & Hd & [Hw2 _] & _). rewrite (Hoff _ _ _ Hw E) in Hst.
    assert (String.length (sdrop o out) = String.length (w2 +:+ d)) as Hx by by rewrite Hd. rewrite sdrop_length, string_length_app in Hx. lia. }
  replace (off + 32 - 32)%N with off by lia. rewrite word_number_value. set (k := N.to_nat off).
  destruct (word_split 32 (sdrop k out)) as [H3 H4]; [rewrite sdrop_length; unfold k; lia|].
  set (n := be_value (substring 0 32 (sdrop k out))).
  assert (sdrop (N.to_nat (off + 32)) out = sdrop 32 (sdrop k out)) as Hdd.
  { apply string_list_inj. rewrite !sdrop_list, drop_drop. f_equal. unfold k. lia. }
  assert (String.length (sdrop 32 (sdrop k out)) = String.length out - k - 32)%nat as Hlen by by rewrite !sdrop_length.
  assert (number_word off (substring 0 32 out)) as Wo by done. assert (number_word n (substring 0 32 (sdrop k out))) as Wn by done.
  assert (∀ w r0 o w2 d, number_word (N.of_nat o) w → out = w +:+ r0 → sdrop o out = w2 +:+ d → number_word (N.of_nat (length l)) w2 →
    n = N.of_nat (length l) ∧ d = sdrop 32 (sdrop k out)) as Hnl.
  { intros w r0 o w2 d Hw E Hd [Hw2 Hv2]. pose proof (Hoff _ _ _ Hw E) as Ho. assert (k = o) as -> by (unfold k; lia). unfold n. rewrite Hd.
    split; [rewrite <-Hw2, substring_app; done|]. rewrite <-Hw2 at 1. by rewrite sdrop_app. }
  destruct (N.ltb_spec (N.of_nat (String.length out)) (off + 32 + n)) as [Ht|Ht].
  { split; [done|]. intros (w & r0 & o & w2 & d & Hw & E & Hd & Hw2 & He). destruct (Hnl _ _ _ _ _ Hw E Hd Hw2) as [Hn ->].
    apply elements_length in He. rewrite Hlen in He. unfold k in He. lia. }
  destruct (N.ltb_spec (N.of_nat (String.length out) - (off + 32)) (32 * n)) as [Hf|Hf].
  { split; [done|]. intros (w & r0 & o & w2 & d & Hw & E & Hd & Hw2 & He). destruct (Hnl _ _ _ _ _ Hw E Hd Hw2) as [Hn ->].
    apply elements_length in He. rewrite Hlen in He. unfold k in He. lia. }
  rewrite Hdd. pose proof (read_addresses_spec (N.to_nat n) (sdrop 32 (sdrop k out)) l ltac:(rewrite Hlen; unfold k; lia)) as Hr. split.
  - intros [= Hl]. apply Hr in Hl as [Hl He]. exists (substring 0 32 out), (sdrop 32 out), k, (substring 0 32 (sdrop k out)), (sdrop 32 (sdrop k out)).
    split; [by unfold k; rewrite N2Nat.id|]. split; [done|]. split; [done|]. split; [by rewrite Hl, N2Nat.id|done].
  - intros (w & r0 & o & w2 & d & Hw & E & Hd & Hw2 & He). destruct (Hnl _ _ _ _ _ Hw E Hd Hw2) as [Hn ->]. f_equal. apply Hr. split; [lia|done].
Qed.

Lemma words_elements l ws : Forall2 address_word l ws → elements_of l (String.concat "" ws).
Proof.
  induction 1 as [|a w l ws [Ha Hw] _ IH]; [constructor|].
  assert (String.concat "" (w :: ws) = w +:+ String.concat "" ws) as -> by (destruct ws; [by rewrite string_app_nil_r|done]).
  rewrite Hw. by constructor.
Qed.
Lemma members_read w1 w2 l ws : number_word 32 w1 → number_word (N.of_nat (length l)) w2 → Forall2 address_word l ws →
  first_addresses (w1 +:+ w2 +:+ String.concat "" ws) = Some l.
Proof.
  intros [H1 V1] H2 Hw. apply first_addresses_iff. exists w1, (w2 +:+ String.concat "" ws), 32%nat, w2, (String.concat "" ws).
  split; [done|]. split; [done|]. split; [|split; [done|by apply words_elements]]. rewrite <-H1 at 1. apply sdrop_app.
Qed.

(** ** The views *)
Section views.
Context (H : string → string) (B : holdings) (call : string → option string) (A : answered_by H B call).
Lemma slot_read : ask_slot H call = Some (bk_slot B).
Proof.
  destruct (A CSlot _ (data_slot H _ eq_refl)) as (out & Ho & Hc). inversion Ho; subst. unfold ask_slot.
  rewrite (ask_plain _ _ _ _ Hc) by by eapply word_full, uint64_word_length. cbn [mbind option_bind]. apply first_uint64_iff. exists out, "". by rewrite string_app_nil_r.
Qed.
Lemma root_read : ask_root H call = Some ("0x" +:+ hex_encode (bk_root B)).
Proof.
  destruct (A CRoot _ (data_root H _ eq_refl)) as (out & Ho & Hc). inversion Ho; subst. unfold ask_root.
  rewrite (ask_plain _ _ _ _ Hc) by by eapply word_full. cbn [mbind option_bind].
  rewrite (proj2 (first_word_iff (bk_root B) (bk_root B))); [done|]. split; [done|]. exists "". by rewrite string_app_nil_r.
Qed.
Lemma members_asked : ask_members H call = Some (bk_members B).
Proof.
  destruct (A CMembers _ (data_members H _ eq_refl)) as (out & Ho & Hc). inversion Ho as [| |w1 w2 ws H1 H2 Hw| | | | | | | | |]; subst. unfold ask_members.
  rewrite (ask_plain _ _ _ _ Hc) by by apply word_nonempty, H1. cbn [mbind option_bind]. by apply members_read.
Qed.
Lemma quorum_read : ask_quorum H call = Some (bk_quorum B).
Proof.
  destruct (A CQuorum _ (data_quorum H _ eq_refl)) as (out & Ho & Hc). inversion Ho; subst. unfold ask_quorum.
  rewrite (ask_plain _ _ _ _ Hc) by by eapply word_full, uint64_word_length. cbn [mbind option_bind]. apply first_uint64_iff. exists out, "". by rewrite string_app_nil_r.
Qed.
Lemma size_read : ask_size H call = Some (bk_size B).
Proof.
  destruct (A CSize _ (data_size H _ eq_refl)) as (out & Ho & Hc). inversion Ho; subst. unfold ask_size.
  rewrite (ask_plain _ _ _ _ Hc) by by eapply word_full, uint64_word_length. cbn [mbind option_bind]. apply first_uint64_iff. exists out, "". by rewrite string_app_nil_r.
Qed.
Lemma coll_read : ask_collateral H call = Some (bk_coll B).
Proof.
  destruct (A CColl _ (data_coll H _ eq_refl)) as (out & Ho & Hc). inversion Ho; subst. unfold ask_collateral.
  rewrite (ask_plain _ _ _ _ Hc) by by eapply word_full, uint256_word_length. cbn [mbind option_bind]. apply first_big_iff. exists out, "". by rewrite string_app_nil_r.
Qed.
Lemma deployed_read : ask_deployment H call = Some (bk_deployed B).
Proof.
  destruct (A CDeployed _ (data_deployed H _ eq_refl)) as (out & Ho & Hc). inversion Ho; subst. unfold ask_deployment.
  rewrite (ask_plain _ _ _ _ Hc) by by eapply word_full, uint256_word_length. cbn [mbind option_bind]. apply first_big_iff. exists out, "". by rewrite string_app_nil_r.
Qed.
Lemma fee_read : ask_fee H call = Some (bk_fee B).
Proof.
  destruct (A CFee _ (data_fee H _ eq_refl)) as (out & Ho & Hc). inversion Ho; subst. unfold ask_fee.
  rewrite (ask_plain _ _ _ _ Hc) by by eapply word_full, uint256_word_length. cbn [mbind option_bind]. apply first_big_iff. exists out, "". by rewrite string_app_nil_r.
Qed.
Lemma recipient_read : ask_recipient H call = Some (bk_recipient B).
Proof.
  destruct (A CRecipient _ (data_recipient H _ eq_refl)) as (out & Ho & Hc). inversion Ho as [| | | | | | | |w Hw| | |]; subst. unfold ask_recipient.
  rewrite (ask_plain _ _ _ _ Hc) by by eapply word_full, address_word_length. cbn [mbind option_bind]. apply first_address_iff. destruct Hw as [Ha ->].
  split; [done|]. eexists _, "". split; [|by rewrite string_app_nil_r]. done.
Qed.
Lemma claimed_read a : String.length a = 20%nat → ask_claimed H call a = Some (bk_claimed B a).
Proof.
  intros Ha. destruct (A (CClaimed a) _ (data_claimed H _ a _ eq_refl (zero_address a Ha))) as (out & Ho & Hc). inversion Ho; subst. unfold ask_claimed.
  rewrite (ask_answered _ _ _ _ _ Hc) by by eapply word_full, uint256_word_length. cbn [mbind option_bind]. apply first_big_iff. exists out, "". by rewrite string_app_nil_r.
Qed.
Lemma hash_read a : String.length a = 20%nat → String.length (bk_voted B a) = 32%nat ∧
  (out ← ask_view H call "addressToVotedReportHash(address)" (be_bytes 12 0 +:+ a); first_word out) = Some (bk_voted B a).
Proof.
  intros Ha. destruct (A (CVoted a) _ (data_voted H _ a _ eq_refl (zero_address a Ha))) as (out & Ho & Hc). inversion Ho as [| | | | | | | | | |? Hv|]; subst.
  split; [done|]. rewrite (ask_answered _ _ _ _ _ Hc) by by eapply word_full. cbn [mbind option_bind].
  apply first_word_iff. split; [done|]. exists "". by rewrite string_app_nil_r.
Qed.
Lemma report_read h : String.length h = 32%nat →
  (out ← ask_view H call "reportHashToReport(bytes32)" h;
   match unpack [PUint64; PUint64] out with Some [VUint64 slot; VUint64 votes] => Some (slot, votes) | _ => None end) = Some (bk_reports B h).
Proof.
  intros Hh. destruct (A (CReport h) _ (data_report H _ h eq_refl Hh)) as (out & Ho & Hc). inversion Ho as [| | | | | | | | | | |? w1 w2 H1 H2]; subst.
  rewrite (ask_answered _ _ _ _ _ Hc) by by eapply word_nonempty, uint64_word_length. cbn [mbind option_bind].
  rewrite (proj2 (unpack_holds [PUint64; PUint64] (w1 +:+ w2) [VUint64 (bk_reports B h).1; VUint64 (bk_reports B h).2])); [by destruct (bk_reports B h)|].
  constructor; [by constructor|]. rewrite <-(string_app_nil_r w2). constructor; [by constructor|]. constructor.
Qed.
End views.

Lemma views_read H B call : answered_by H B call →
  ask_slot H call = Some (bk_slot B) ∧ ask_root H call = Some ("0x" +:+ hex_encode (bk_root B)) ∧ ask_members H call = Some (bk_members B) ∧
  ask_quorum H call = Some (bk_quorum B) ∧ ask_size H call = Some (bk_size B) ∧ ask_collateral H call = Some (bk_coll B) ∧
  ask_deployment H call = Some (bk_deployed B) ∧ ask_fee H call = Some (bk_fee B) ∧ ask_recipient H call = Some (bk_recipient B) ∧
  ∀ a, String.length a = 20%nat → ask_claimed H call a = Some (bk_claimed B a).
Proof.
  intros A. split; [by apply slot_read|]. split; [by apply root_read|]. split; [by apply members_asked|]. split; [by apply quorum_read|].
  split; [by apply size_read|]. split; [by apply coll_read|]. split; [by apply deployed_read|]. split; [by apply fee_read|]. split; [by apply recipient_read|].
  intros a. by apply claimed_read.
Qed.
Lemma pair_read H B1 B2 call1 call2 : answered_by H B1 call1 → answered_by H B2 call2 →
  ask_slot_and_root H call1 call2 = Some ("0x" +:+ hex_encode (bk_root B2), bk_slot B1) ∧
  ∀ a, String.length a = 20%nat → ask_voted H call1 call2 a = Some (bk_reports B2 (bk_voted B1 a)).
Proof.
  intros A1 A2. split.
  - unfold ask_slot_and_root. rewrite (slot_read H B1 call1 A1). cbn [mbind option_bind]. by rewrite (root_read H B2 call2 A2).
  - intros a Ha. destruct (hash_read H B1 call1 A1 a Ha) as [Hl Hr]. unfold ask_voted.
    destruct (ask_view H call1 _ _) as [out|]; [|done]. cbn [mbind option_bind] in Hr |- *. rewrite Hr. exact (report_read H B2 call2 A2 _ Hl).
Qed.
Lemma empty_unread H call : (∀ d, call d = None ∨ call d = Some "") →
  ask_slot H call = None ∧ ask_root H call = None ∧ ask_members H call = None ∧ ask_quorum H call = None ∧ ask_size H call = None ∧
  ask_collateral H call = None ∧ ask_deployment H call = None ∧ ask_fee H call = None ∧ ask_recipient H call = None ∧
  (∀ a, ask_claimed H call a = None) ∧ ∀ call2 a, ask_voted H call call2 a = None.
Proof.
  intros Hc. assert (∀ sig args, ask_view H call sig args = None) as Ha.
  { intros sig args. unfold ask_view. by destruct (Hc (substring 0 4 (H sig) +:+ args)) as [->| ->]. }
  unfold ask_slot, ask_root, ask_members, ask_quorum, ask_size, ask_collateral, ask_deployment, ask_fee, ask_recipient, ask_claimed, ask_voted.
  do 9 (split; [by rewrite Ha|]). split; [intros a; by rewrite Ha|]. intros call2 a. by rewrite Ha.
Qed.
(** Only a full word is read. *)
Lemma ask_inv H call sig args out : ask_view H call sig args = Some out → call (substring 0 4 (H sig) +:+ args) = Some out.
Proof. unfold ask_view. destruct (call _) as [x|]; [|done]. destruct (String.eqb x ""); [done|]. by intros [= ->]. Qed.
Lemma root_exact H call t : ask_root H call = Some t ↔ ∃ w r, call (substring 0 4 (H "rewardsRoot()")) = Some (w +:+ r) ∧ String.length w = 32%nat ∧ t = "0x" +:+ hex_encode w.
Proof.
  unfold ask_root. split.
  - destruct (ask_view H call _ _) as [out|] eqn:Ha; [|done]. cbn [mbind option_bind]. destruct (first_word out) as [w|] eqn:Hw; [|done]. intros [= <-].
    apply first_word_iff in Hw as [Hl [r ->]]. apply ask_inv in Ha. rewrite string_app_nil_r in Ha. eauto 10.
  - intros (w & r & Hc & Hl & ->). rewrite (ask_plain _ _ _ _ Hc) by by apply word_nonempty. cbn [mbind option_bind].
    by rewrite (proj2 (first_word_iff (w +:+ r) w)) by eauto.
Qed.
Lemma slot_exact H call n : ask_slot H call = Some n ↔ ∃ w r, call (substring 0 4 (H "lastConsolidatedSlot()")) = Some (w +:+ r) ∧ uint64_word n w.
Proof.
  unfold ask_slot. split.
  - destruct (ask_view H call _ _) as [out|] eqn:Ha; [|done]. cbn [mbind option_bind]. intros (w & r & Hw & ->)%first_uint64_iff.
    apply ask_inv in Ha. rewrite string_app_nil_r in Ha. eauto.
  - intros (w & r & Hc & Hw). rewrite (ask_plain _ _ _ _ Hc) by by eapply word_nonempty, uint64_word_length. cbn [mbind option_bind].
    apply first_uint64_iff. eauto.
Qed.

(** ** Where they are used *)
Lemma config_called E args sel pool20 A pool dry c H B call : get_config E args sel pool20 A pool dry = Ok c → config_reads H call A → answered_by H B call →
  c_cp_size c = bk_size B ∧ c_coll c = bk_coll B ∧ names (bk_recipient B) (c_fees_addr c) ∧ Z.of_N (c_dep_block c) = (bk_deployed B mod 2 ^ 64)%Z.
Proof.
  intros Hg (R1 & R2 & R3 & R4 & R5 & R6) A0.
  destruct (views_read H B call A0) as (_ & _ & V3 & V4 & V5 & V6 & V7 & _ & V9 & _).
  rewrite V7 in R1. rewrite V5 in R2. rewrite V9 in R3. rewrite V6 in R4. rewrite V3 in R5. rewrite V4 in R6. unfold get_config in Hg.
  destruct (ga_exec_chain A) as [exec|]; cbn [must rbind] in Hg; [|done].
  destruct (ga_cons_chain A) as [cons|]; cbn [must rbind] in Hg; [|done]. destruct (negb _); [done|].
  destruct (network_of cons) as [net|]; cbn [must rbind] in Hg; [|done].
  destruct (ga_genesis A) as [genesis|]; cbn [must rbind] in Hg; [|done].
  destruct (ga_balance A); cbn [must rbind] in Hg; [|done]. rewrite R1 in Hg. cbn [must rbind] in Hg.
  destruct (ga_block A) as [[time txs]|]; cbn [must rbind] in Hg; [|done].
  destruct (ga_cblock A _) as [cb|]; cbn [must rbind] in Hg; [|done].
  destruct (get_number _) as [n|]; cbn [rbind] in Hg; [|done]. destruct (negb _); [done|].
  destruct (match decode_initial_fee args sel pool20 txs with Some f => Some f | None => default_fee net end) as [fee|]; cbn [must rbind] in Hg; [|done].
  rewrite R2, R3, R4, R5, R6 in Hg. cbn [must rbind] in Hg. injection Hg as <-. cbn [c_cp_size c_coll c_fees_addr c_dep_block].
  split; [done|]. split; [done|]. split.
  - destruct (A0 CRecipient _ (data_recipient H _ eq_refl)) as (out & Ho & _). inversion Ho as [| | | | | | | |w [Ha _]| | |]; subst.
    split; [done|]. apply to_lower_addr.
  - destruct (A0 CDeployed _ (data_deployed H _ eq_refl)) as (out & Ho & _). inversion Ho as [| | | | | |w [Hz _]| | | | |]; subst.
    unfold uint256 in Hz. unfold u64, two64. rewrite N2Z.inj_mod, N2Z.inj_abs_N, Z.abs_eq by lia. done.
Qed.
Lemma calls_seen H P1 P2 P3 B1 B2 B3 call1 call2 call3 a w : kept_by P1 B1 → kept_by P2 B2 → kept_by P3 B3 →
  answered_by H B1 call1 → answered_by H B2 call2 → answered_by H B3 call3 →
  w_onchain w = ask_slot_and_root H call1 call2 → w_claimed w (to_lower a) = ask_claimed H call3 (hex_to_address (to_lower a)) → hex_text 40 a → sees P1 P2 P3 a w.
Proof.
  intros [K1 _] [K2 _] [_ K3] A1 A2 A3 Hw Hc Hx. split.
  - rewrite (proj1 (pair_read _ _ _ _ _ A1 A2)) in Hw. do 4 eexists. split; [exact K1|]. split; [exact K2|]. exact Hw.
  - intros a20 [Hl Hs]. assert (hex_to_address (to_lower a) = a20) as E.
    { apply names_address. split; [done|]. rewrite ApiProofs.to_lower_idem. destruct Hs as [Hs|Hs]; [done|]. exfalso.
      destruct Hx as (b & -> & Hb & _). apply (f_equal String.length) in Hs. rewrite to_lower_length, hex_encode_length, Hl, string_length_app, Hb in Hs. discriminate Hs. }
    rewrite Hc, E, (claimed_read _ _ _ A3 a20 Hl). f_equal. apply K3.
Qed.
