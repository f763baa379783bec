(** Proofs about checkpoints: hashed leaves, stored proofs, the set of checkpoints, the sync verdict. *)
From Verif Require Import StringProofs RewardProofs StepProofs RunProofs SlotProofs.
From Verif Require Export TreeProofs.

(** ** Hashing a leaf *)
Lemma hex_val_lower c : lower_hex_char c → (hex_val c < 16)%N ∧ hex_digit (hex_val c) = c.
Proof.
  destruct c as [[] [] [] [] [] [] [] []]; vm_compute; intros [[H1 H2]|[H1 H2]];
    first [split; reflexivity|by destruct (H1 eq_refl)|by destruct (H2 eq_refl)].
Qed.

Lemma hex_decode_lower k s : String.length s = (2 * k)%nat → Forall lower_hex_char (list_ascii_of_string s) →
  String.length (hex_decode s) = k ∧ hex_encode (hex_decode s) = s.
Proof.
  revert s. induction k as [|k IH]; intros s Hl Hf.
  - destruct s; [done|]. cbn in Hl. lia.
  - destruct s as [|a [|b s]]; cbn in Hl; [lia|lia|]. cbn in Hf.
    apply Forall_cons in Hf as [Ha Hf]. apply Forall_cons in Hf as [Hb Hf].
    destruct (IH s ltac:(lia) Hf) as [IH1 IH2]. cbn [hex_decode hex_encode String.length].
    destruct (hex_val_lower a Ha) as [La Da], (hex_val_lower b Hb) as [Lb Db].
    rewrite N_ascii_embedding by lia. split; [by rewrite IH1|]. rewrite IH2.
    rewrite (N.mul_comm 16), N.div_add_l by done. rewrite N.div_small by done. rewrite N.add_0_r.
    rewrite (N.add_comm (_ * 16)), N.mod_add by done. rewrite N.mod_small by done. by rewrite Da, Db.
Qed.

Lemma hex_char_lower c : is_hex_char c = true → lower_ascii c = c → lower_hex_char c.
Proof. destruct c as [[] [] [] [] [] [] [] []]; vm_compute; intros; try discriminate; try (left; split; congruence); try (right; split; congruence); tauto. Qed.
Lemma sforall_Forall f s : sforall f s = true ↔ Forall (λ c, f c = true) (list_ascii_of_string s).
Proof.
  induction s as [|c s IH]; cbn; [split; auto|]. rewrite andb_true_iff, IH. split.
  - intros [? ?]. by constructor.
  - by intros [? ?]%Forall_cons.
Qed.
Lemma to_lower_Forall s : to_lower s = s → Forall (λ c, lower_ascii c = c) (list_ascii_of_string s).
Proof. induction s as [|c s IH]; cbn; [constructor|]. intros [= H1 H2]. constructor; auto. Qed.

Lemma good_leaf_spells l : good_leaf l → spells (sol_address (leaf_addr l)) (leaf_addr l).
Proof.
  destruct l as [a z]. unfold good_leaf, sol_address. cbn [leaf_addr]. intros [Hh Hlow]. unfold is_hex_address in Hh.
  assert (has_prefix a "0X" = false) as HX.
  { apply not_true_iff_false. intros (k & ->)%has_prefix_app. cbn in Hlow. discriminate. }
  rewrite HX, orb_false_r in Hh.
  assert (∀ b, (String.length b =? 40)%nat && sforall is_hex_char b = true → to_lower b = b →
    String.length (hex_decode b) = 20%nat ∧ hex_encode (hex_decode b) = b) as Hb.
  { intros b [H1%Nat.eqb_eq H2%sforall_Forall]%andb_true_iff H3%to_lower_Forall.
    apply hex_decode_lower; [done|]. apply Forall_forall. intros c Hc. apply hex_char_lower.
    - rewrite Forall_forall in H2. auto.
    - rewrite Forall_forall in H3. auto. }
  destruct (has_prefix a "0x") eqn:H0; cbn in Hh.
  - apply has_prefix_app in H0 as (k & ->). change (sdrop 2 ("0x" +:+ k)) with k in *.
    assert (to_lower k = k) as Hk by (by injection Hlow).
    destruct (Hb k Hh Hk) as [H1 H2]. split; [exact H1|]. left. by rewrite H2.
  - destruct (Hb a Hh Hlow) as [H1 H2]. split; [exact H1|]. right. by rewrite H2.
Qed.

Lemma be_bytes_length k n : String.length (be_bytes k n) = k.
Proof. revert n. induction k as [|k IH]; intros n; [done|]. cbn [be_bytes]. rewrite string_length_app, IH. cbn. lia. Qed.
Lemma be_value_snoc w c : be_value (w +:+ String c "") = (256 * be_value w + N_of_ascii c)%N.
Proof. unfold be_value. rewrite list_ascii_app, fold_left_app. done. Qed.
Lemma be_bytes_value k n : (n < 256 ^ N.of_nat k)%N → be_value (be_bytes k n) = n.
Proof.
  revert n. induction k as [|k IH]; intros n Hn.
  - cbn in *. assert (n = 0%N) as -> by lia. done.
  - cbn [be_bytes]. rewrite be_value_snoc, IH.
    + rewrite N_ascii_embedding by (by apply N.mod_lt). rewrite <-N.div_mod by done. done.
    + rewrite Nat2N.inj_succ, N.pow_succ_r' in Hn. by apply N.div_lt_upper_bound.
Qed.
Lemma sol_uint256_length z : String.length (sol_uint256 z) = 32%nat.
Proof. apply be_bytes_length. Qed.
Lemma sol_uint256_value z : uint256 z → Z.of_N (be_value (sol_uint256 z)) = z.
Proof.
  intros Hz. unfold sol_uint256. unfold uint256 in Hz. rewrite Z.mod_small by done. rewrite be_bytes_value.
  - apply Z2N.id. lia.
  - change (256 ^ N.of_nat 32)%N with (Z.to_N (2 ^ 256)). apply Z2N.inj_lt; lia.
Qed.

Lemma leaf_claim l : good_leaf l → uint256 (leaf_bal l) →
  ∃ a20, spells a20 (leaf_addr l) ∧ claim a20 (leaf_bal l) (leaf_preimage l).
Proof.
  intros Hg Hz. apply good_leaf_spells in Hg. exists (sol_address (leaf_addr l)). split; [done|].
  exists (sol_uint256 (leaf_bal l)). destruct Hg as [Hg _]. split; [done|].
  split; [apply sol_uint256_length|]. split; [by apply sol_uint256_value|done].
Qed.
Lemma leaf_preimage_length l : good_leaf l → String.length (leaf_preimage l) = 52%nat.
Proof.
  intros [Hl _]%good_leaf_spells. unfold leaf_preimage. rewrite string_length_app, sol_uint256_length. by rewrite Hl.
Qed.

(** Claims and big-endian values determine each other. *)
Lemma be_value_inj w1 w2 : String.length w1 = String.length w2 → be_value w1 = be_value w2 → w1 = w2.
Proof.
  unfold be_value. intros Hl Hv.
  rewrite <-(string_of_list_ascii_of_string w1), <-(string_of_list_ascii_of_string w2). f_equal.
  rewrite <-!length_list_ascii in Hl. revert Hl Hv.
  generalize (list_ascii_of_string w1) (list_ascii_of_string w2). clear.
  intros l1. induction l1 as [|c l1 IH] using rev_ind; intros l2 Hl Hv.
  - symmetry in Hl. by apply nil_length_inv in Hl as ->.
  - destruct l2 as [|d l2 _] using rev_ind; [rewrite app_length in Hl; cbn in Hl; lia|].
    rewrite !fold_left_app in Hv. cbn [fold_left] in Hv. rewrite !app_length in Hl. cbn in Hl.
    pose proof (N_of_ascii_lt c). pose proof (N_of_ascii_lt d).
    set (x := fold_left _ l1 _) in *. set (y := fold_left _ l2 _) in *.
    assert (x = y ∧ N_of_ascii c = N_of_ascii d) as [Hxy Hcd].
    { clearbody x y. lia. }
    rewrite (IH l2); [|lia|done]. f_equal. f_equal.
    rewrite <-(ascii_N_embedding c), <-(ascii_N_embedding d). by rewrite Hcd.
Qed.
Lemma claim_length a z pre : claim a z pre → String.length pre = 52%nat.
Proof. intros (w & Ha & Hw & _ & ->). rewrite string_length_app. lia. Qed.
Lemma claim_inj a b y z pre : claim a y pre → claim b z pre → a = b ∧ y = z.
Proof.
  intros (w & Ha & Hw & Hy & ->) (w' & Hb & Hw' & Hz & Heq). apply string_app_inj_l in Heq as [-> ->]; [|congruence].
  split; [done|]. congruence.
Qed.
Lemma spells_lower a20 a : spells a20 a → to_lower a = a.
Proof.
  intros [_ [->| ->]]; [apply to_lower_hex|]. apply to_lower_lower, hex_encode_lower.
Qed.

(** ** The map of leaves and the frozen state *)
Lemma raw_leaf_map_lookup ls : ∀ m a l, raw_leaf_map ls m !! a = Some l →
  (l ∈ ls ∧ leaf_addr l = a) ∨ (a ∉ leaf_addr <$> ls ∧ m !! a = Some l).
Proof.
  induction ls as [|k ls IH]; intros m a l; cbn [raw_leaf_map].
  - intros H. right. split; [apply not_elem_of_nil|done].
  - intros [[H1 H2]|[H1 H2]]%IH; [left; split; [by right|done]|].
    destruct (decide (leaf_addr k = a)) as [<-|Hne].
    + rewrite lookup_insert in H2. injection H2 as <-. left. split; [by left|done].
    + rewrite lookup_insert_ne in H2 by done. right. split; [|done]. cbn. apply not_elem_of_cons. done.
Qed.
Lemma raw_leaf_map_in ls : ∀ m l, NoDup (leaf_addr <$> ls) → l ∈ ls → raw_leaf_map ls m !! leaf_addr l = Some l.
Proof.
  induction ls as [|k ls IH]; intros m l Hnd Hin; [by apply elem_of_nil in Hin|]. cbn [raw_leaf_map].
  cbn in Hnd. apply NoDup_cons in Hnd as [Hni Hnd]. apply elem_of_cons in Hin as [->|Hin]; [|by apply IH].
  clear IH. assert (∀ m', m' !! leaf_addr k = Some k → raw_leaf_map ls m' !! leaf_addr k = Some k) as Hgo.
  { revert Hni. clear. induction ls as [|j ls IH]; intros Hni m' Hm; [done|]. cbn in *.
    apply not_elem_of_cons in Hni as [Hne Hni]. apply IH; [done|]. by rewrite lookup_insert_ne. }
  apply Hgo. apply lookup_insert.
Qed.
Lemma raw_leaf_map_dom ls a : is_Some (raw_leaf_map ls ∅ !! a) ↔ a ∈ leaf_addr <$> ls.
Proof.
  assert (∀ m, is_Some (raw_leaf_map ls m !! a) ↔ a ∈ leaf_addr <$> ls ∨ is_Some (m !! a)) as Hgo.
  { induction ls as [|k ls IH]; intros m; cbn [raw_leaf_map].
    - cbn. rewrite elem_of_nil. naive_solver.
    - rewrite IH. cbn. rewrite elem_of_cons. destruct (decide (leaf_addr k = a)) as [<-|Hne].
      + rewrite lookup_insert. split; [naive_solver|]. intros _. right. eauto.
      + rewrite lookup_insert_ne by done. naive_solver. }
  rewrite Hgo, lookup_empty. split; [intros [?|[? ?]]; done|by left].
Qed.

Lemma freeze_one_ok H ls a l : (2 ≤ length ls)%nat → l ∈ ls → leaf_addr l = a →
  ∃ p, freeze_one H (leaf_hash H <$> ls) a l = Ok ((λ b, "0x" +:+ hex_encode b) <$> p) ∧
    climb H (leaf_hash H l) p = tree_root H (leaf_hash H <$> ls).
Proof.
  intros Hlen Hin <-. unfold freeze_one, equals. rewrite Nat.eqb_refl. cbn [rbind]. rewrite String.eqb_refl. cbn [negb].
  destruct (tree_proof_ok H (leaf_hash H <$> ls) (leaf_hash H l)) as (p & Hp & Hc & _).
  - by rewrite fmap_length.
  - apply elem_of_list_fmap. eauto.
  - rewrite Hp. exists p. done.
Qed.
Lemma freeze_loop_ok H ls : (2 ≤ length ls)%nat → ∀ entries proofs,
  NoDup entries.*1 → (∀ a l, (a, l) ∈ entries → l ∈ ls ∧ leaf_addr l = a) →
  ∃ proofs', freeze_loop H (leaf_hash H <$> ls) entries proofs = Ok proofs' ∧
    (∀ a, a ∉ entries.*1 → proofs' !! a = proofs !! a) ∧
    (∀ a l, (a, l) ∈ entries → ∃ p, proofs' !! a = Some ((λ b, "0x" +:+ hex_encode b) <$> p) ∧
       climb H (leaf_hash H l) p = tree_root H (leaf_hash H <$> ls)).
Proof.
  intros Hlen entries. induction entries as [|[a l] entries IH]; intros proofs Hnd Hin.
  - exists proofs. split; [done|]. split; [done|]. by intros a l ?%elem_of_nil.
  - cbn in Hnd. apply NoDup_cons in Hnd as [Hni Hnd]. destruct (Hin a l) as [Hl Ha]; [by left|].
    destruct (freeze_one_ok H ls a l Hlen Hl Ha) as (p & Hp & Hc). cbn [freeze_loop]. rewrite Hp. cbn [rbind].
    destruct (IH (<[a:=(λ b, "0x" +:+ hex_encode b) <$> p]> proofs)) as (proofs' & Hok & Hout & Hins).
    { done. } { intros a' l' Hal. apply Hin. by right. }
    exists proofs'. split; [done|]. split.
    + intros b Hb. cbn in Hb. apply not_elem_of_cons in Hb as [Hne Hb]. rewrite Hout by done. by rewrite lookup_insert_ne.
    + intros b k [[= -> ->]|Hbk]%elem_of_cons; [|by apply Hins]. exists p. split; [|done]. rewrite Hout by done. apply lookup_insert.
Qed.

Lemma snapshot_spec H E s ls : aggregate E s = Ok ls →
  (length ls = 1%nat ∧ snapshot H E s = Ok None) ∨
  ((2 ≤ length ls)%nat ∧ ∃ c, snapshot H E s = Ok (Some c) ∧ oc_slot c = st_latest s ∧ oc_vals c = st_vals s ∧
    oc_root c = "0x" +:+ hex_encode (tree_root H (leaf_hash H <$> ls)) ∧ oc_leafs c = raw_leaf_map ls ∅ ∧
    ∀ a, match oc_leafs c !! a with
         | Some l => ∃ p, oc_proofs c !! a = Some ((λ b, "0x" +:+ hex_encode b) <$> p) ∧
                      climb H (leaf_hash H l) p = tree_root H (leaf_hash H <$> ls)
         | None => oc_proofs c !! a = None
         end).
Proof.
  intros Ha. unfold snapshot, generate_tree. rewrite Ha. cbn [rbind].
  destruct (Nat.ltb_spec (length ls) 2) as [Hlt|Hge]; cbn [rbind].
  - left. split; [|done]. apply aggregate_inv in Ha as (l0 & _ & _ & -> & _). cbn in *. lia.
  - right. split; [done|].
    destruct (freeze_loop_ok H ls Hge (map_to_list (raw_leaf_map ls ∅)) ∅) as (proofs & Hok & Hout & Hin).
    { apply NoDup_fst_map_to_list. }
    { intros a l Hal%elem_of_map_to_list. apply raw_leaf_map_lookup in Hal as [?|[_ Hal]]; [done|].
      by rewrite lookup_empty in Hal. }
    rewrite Hok. cbn [rbind]. eexists. split; [done|]. cbn. do 4 (split; [done|]). intros a.
    destruct (raw_leaf_map ls ∅ !! a) as [l|] eqn:Hl.
    + apply Hin. by apply elem_of_map_to_list.
    + rewrite Hout; [done|]. intros ([a' l] & -> & Hal)%elem_of_list_fmap. cbn in Hl.
      apply elem_of_map_to_list in Hal. congruence.
Qed.

Lemma snapshot_inv H E s c : snapshot H E s = Ok (Some c) → ∃ ls, aggregate E s = Ok ls.
Proof.
  unfold snapshot, generate_tree. destruct (aggregate E s) as [ls|d]; [eauto|]. by cbn.
Qed.

(** ** C22: order independence of the whole checkpoint *)
Lemma snapshot_same H E1 E2 s : wf_env E1 → wf_env E2 → snapshot H E1 s = snapshot H E2 s.
Proof. intros W1 W2. unfold snapshot, generate_tree. by rewrite (aggregate_same E1 E2 s W1 W2). Qed.
Lemma freeze_same H E1 E2 s : wf_env E1 → wf_env E2 → freeze H E1 s = freeze H E2 s.
Proof. intros W1 W2. unfold freeze. by rewrite (snapshot_same H E1 E2 s W1 W2). Qed.

(** ** C24 *)
Lemma leaf_fits E s ls l : wf_env E → aggregate E s = Ok ls → fits s → l ∈ ls → uint256 (leaf_bal l).
Proof.
  intros W Ha [Hf Hp] Hin. destruct (aggregate_spec E s ls W Ha) as (rest & -> & _ & _ & Hb & _).
  apply elem_of_cons in Hin as [->|Hin]; [done|]. rewrite (Hb _ Hin). apply Hp.
Qed.
Lemma aggregate_good E s ls : aggregate E s = Ok ls → Forall good_leaf ls.
Proof. by intros (l & _ & _ & _ & Hg & _)%aggregate_inv. Qed.

Lemma stored_proofs H E s c a l : wf_env E → fits s → snapshot H E s = Ok (Some c) → oc_leafs c !! a = Some l →
  leaf_addr l = a ∧
  ∃ a20 pre root p, spells a20 a ∧ claim a20 (leaf_bal l) pre ∧ oc_root c = "0x" +:+ hex_encode root ∧
    oc_proofs c !! a = Some ((λ b, "0x" +:+ hex_encode b) <$> p) ∧ proves H root p pre.
Proof.
  intros W Hfit Hs Hl. destruct (snapshot_inv H E s c Hs) as [ls Ha].
  destruct (snapshot_spec H E s ls Ha) as [[_ Hn]|(Hlen & c' & Hs' & _ & _ & Hroot & Hraw & Hall)]; [congruence|].
  assert (c' = c) as -> by congruence. specialize (Hall a). rewrite Hl in Hall. destruct Hall as (p & Hp & Hc).
  rewrite Hraw in Hl. apply raw_leaf_map_lookup in Hl as [[Hin <-]|[_ Hl]]; [|by rewrite lookup_empty in Hl].
  split; [done|]. pose proof (aggregate_good _ _ _ Ha) as Hg. rewrite Forall_forall in Hg.
  destruct (leaf_claim l (Hg _ Hin) (leaf_fits _ _ _ _ W Ha Hfit Hin)) as (a20 & Hsp & Hcl).
  exists a20, (leaf_preimage l), (tree_root H (leaf_hash H <$> ls)), p. done.
Qed.

(** Which addresses have a proof. *)
Lemma stored_addresses H E s c a : wf_env E → snapshot H E s = Ok (Some c) →
  is_Some (oc_leafs c !! a) ↔ a = to_lower (st_fees_addr s) ∨ withdraws_to s a.
Proof.
  intros W Hs. destruct (snapshot_inv H E s c Hs) as [ls Ha].
  destruct (snapshot_spec H E s ls Ha) as [[_ Hn]|(Hlen & c' & Hs' & _ & _ & Hroot & Hraw & Hall)]; [congruence|].
  assert (c' = c) as -> by congruence. rewrite Hraw, raw_leaf_map_dom.
  destruct (aggregate_spec E s ls W Ha) as (rest & -> & _ & Hiff & _). cbn. rewrite elem_of_cons, Hiff. done.
Qed.

(** ** C25 *)
Lemma tree_of_claims E s ls : wf_env E → aggregate E s = Ok ls → fits s → preimages ls (leaf_preimage <$> ls).
Proof.
  intros W Ha Hfit. pose proof (aggregate_good _ _ _ Ha) as Hg. rewrite Forall_forall in Hg.
  assert (∀ l, l ∈ ls → uint256 (leaf_bal l)) as Hu by (intros l; by eapply leaf_fits).
  clear Ha. unfold preimages. induction ls as [|l ls IH]; cbn; [constructor|]. constructor.
  - apply leaf_claim; [apply Hg|apply Hu]; by left.
  - apply IH; intros; [apply Hg|apply Hu]; by right.
Qed.
Lemma preimages_fun ls ps1 ps2 : preimages ls ps1 → preimages ls ps2 → ps1 = ps2.
Proof.
  intros H. revert ps2. induction H as [|l p ls ps (a & Hsp & Hcl) _ IH]; intros ps2 H2; inversion H2 as [|l' p' ls' ps' (b & Hsp' & Hcl') H2']; subst; [done|].
  f_equal; [|by apply IH]. assert (a = b) as <-.
  { destruct Hsp as [Ha Hsp], Hsp' as [Hb Hsp']. apply hex_encode_inj.
    assert (String.length (hex_encode a) = 40%nat) as La by (rewrite hex_encode_length, Ha; done).
    assert (String.length (hex_encode b) = 40%nat) as Lb by (rewrite hex_encode_length, Hb; done).
    destruct Hsp as [Hsp|Hsp], Hsp' as [Hsp'|Hsp']; rewrite Hsp in Hsp'.
    - by apply app_prefix_inj in Hsp'.
    - apply (f_equal String.length) in Hsp'. rewrite string_length_app, La, Lb in Hsp'. cbn in Hsp'. lia.
    - apply (f_equal String.length) in Hsp'. rewrite string_length_app, La, Lb in Hsp'. cbn in Hsp'. lia.
    - done. }
  destruct Hcl as (w & _ & Hw & Hz & ->), Hcl' as (w' & _ & Hw' & Hz' & ->). f_equal. apply be_value_inj; [congruence|lia].
Qed.

Lemma merkle_fun H l r1 i1 : merkle H l r1 i1 → ∀ r2 i2, merkle H l r2 i2 → r1 = r2 ∧ i1 = i2.
Proof.
  induction 1 as [x|l root ins Hl Hm IH]; intros r2 i2 H2.
  - inversion H2 as [|? ? ? Hl]; subst; [done|]. cbn in Hl. lia.
  - inversion H2 as [|? ? ? Hl2 Hm2]; subst; [cbn in Hl; lia|]. destruct (IH _ _ Hm2) as [-> ->]. done.
Qed.

Lemma snapshot_tree H E s c : wf_env E → fits s → snapshot H E s = Ok (Some c) →
  ∃ ls ps root ins, aggregate E s = Ok ls ∧ preimages ls ps ∧ merkle H (H <$> ps) root ins ∧ oc_root c = "0x" +:+ hex_encode root.
Proof.
  intros W Hfit Hs. destruct (snapshot_inv H E s c Hs) as [ls Ha].
  destruct (snapshot_spec H E s ls Ha) as [[_ Hn]|(Hlen & c' & Hs' & _ & _ & Hroot & Hraw & Hall)]; [congruence|].
  assert (c' = c) as -> by congruence.
  destruct (tree_merkle H (leaf_hash H <$> ls)) as [ins Hm]; [by rewrite fmap_length|].
  exists ls, (leaf_preimage <$> ls), (tree_root H (leaf_hash H <$> ls)), ins.
  split; [done|]. split; [by eapply tree_of_claims|]. split; [|done]. by rewrite <-list_fmap_compose.
Qed.

Lemma only_entitled H E s c ls ps root ins a20 z pre p :
  (∀ x, String.length (H x) = 32%nat) → wf_env E → fits s → snapshot H E s = Ok (Some c) →
  aggregate E s = Ok ls → preimages ls ps → merkle H (H <$> ps) root ins →
  claim a20 z pre → Forall (λ b, String.length b = 32%nat) p →
  (∃ r, oc_root c = "0x" +:+ hex_encode r ∧ proves H r p pre) →
  entitled s a20 z ∨ collision H (claim_inputs H pre p) (ps ++ ins).
Proof.
  intros HH W Hfit Hs Ha Hps Hm Hcl Hp (r & Hr & Hpr).
  destruct (snapshot_tree H E s c W Hfit Hs) as (ls' & ps' & root' & ins' & Ha' & Hps' & Hm' & Hroot').
  assert (ls' = ls) as -> by congruence. rewrite (preimages_fun _ _ _ Hps' Hps) in Hm'.
  destruct (merkle_fun _ _ _ _ Hm _ _ Hm') as [<- _]. rewrite Hr in Hroot'.
  apply app_prefix_inj, hex_encode_inj in Hroot' as ->.
  destruct (sound H ps root ins pre p HH) as [Hin|Hcol]; [| |done|done|done| |by right].
  - clear -Hps. apply Forall_forall. intros q Hq. apply elem_of_list_lookup in Hq as [i Hq].
    destruct (Forall2_lookup_r _ _ _ _ _ Hps Hq) as (l & _ & a & _ & Hcl). by apply claim_length in Hcl.
  - by apply claim_length in Hcl.
  - left. apply elem_of_list_lookup in Hin as [i Hq].
    destruct (Forall2_lookup_r _ _ _ _ _ Hps Hq) as (l & Hl & a & Hsp & Hcl').
    destruct (claim_inj _ _ _ _ _ Hcl Hcl') as [-> ->]. apply elem_of_list_lookup_2 in Hl.
    destruct (aggregate_spec E s ls W Ha) as (rest & -> & _ & Hiff & Hb & _).
    apply elem_of_cons in Hl as [->|Hin]; [left; done|]. right. exists (leaf_addr l). split; [done|].
    split; [|by apply Hb]. apply Hiff. apply elem_of_list_fmap. eauto.
Qed.

(** ** C23 *)
Lemma increasing_nodup l : increasing l → NoDup l.
Proof.
  induction 1 as [|a l Hs IH Hf]; constructor; [|done]. intros Hin. rewrite Forall_forall in Hf.
  specialize (Hf _ Hin). by rewrite compare_refl in Hf.
Qed.
Lemma leaves_distinct E s ls : wf_env E → fees_apart s → aggregate E s = Ok ls → NoDup (leaf_addr <$> ls).
Proof.
  intros W Hfa Ha. destruct (aggregate_spec E s ls W Ha) as (rest & -> & Hinc & Hiff & _). cbn. constructor.
  - rewrite Hiff. exact Hfa.
  - by apply increasing_nodup.
Qed.
Lemma full_balance H E s c a : wf_env E → fees_apart s → snapshot H E s = Ok (Some c) →
  (a = to_lower (st_fees_addr s) → oc_leafs c !! a = Some (RawLeaf a (st_fees s))) ∧
  (withdraws_to s a → oc_leafs c !! a = Some (RawLeaf a (published a s))).
Proof.
  intros W Hfa Hs. destruct (snapshot_inv H E s c Hs) as [ls Ha].
  destruct (snapshot_spec H E s ls Ha) as [[_ Hn]|(Hlen & c' & Hs' & _ & _ & Hroot & Hraw & Hall)]; [congruence|].
  assert (c' = c) as -> by congruence. pose proof (leaves_distinct E s ls W Hfa Ha) as Hnd.
  destruct (aggregate_spec E s ls W Ha) as (rest & -> & _ & Hiff & Hb & _). rewrite Hraw. split.
  - intros ->. apply (raw_leaf_map_in _ ∅ (RawLeaf (to_lower (st_fees_addr s)) (st_fees s)) Hnd). by left.
  - intros Hw. apply Hiff in Hw as (l & -> & Hin)%elem_of_list_fmap.
    rewrite (raw_leaf_map_in _ ∅ l Hnd) by (by right). rewrite <-(Hb _ Hin). by destruct l.
Qed.

(** ** C26 *)
Definition sound_checkpoints (H : string → string) (s : ost) : Prop :=
  (st_latest s < two64)%N ∧
  ∀ k c, st_committed s !! k = Some c → (k ≤ st_latest s)%N ∧
    (k = st_latest s → ∃ E, wf_env E ∧ snapshot H E s = Ok (Some c)).

Lemma freeze_inv H E s s' b : freeze H E s = Ok (s', b) →
  (b = false ∧ s' = s ∧ snapshot H E s = Ok None) ∨
  (b = true ∧ ∃ c, snapshot H E s = Ok (Some c) ∧ oc_slot c = st_latest s ∧
     s' = set_committed (<[st_latest s := c]> (st_committed s)) s).
Proof.
  unfold freeze. destruct (snapshot H E s) as [[c|]|d] eqn:Hs; cbn [rbind]; [|intros [= <- <-]; by left|done].
  intros Heq. right.
  assert (oc_slot c = st_latest s) as Hc.
  { destruct (snapshot_inv H E s c Hs) as [ls Ha].
    destruct (snapshot_spec H E s ls Ha) as [[_ Hn]|(_ & c' & Hs' & Hsl & _)]; congruence. }
  injection Heq as <- <-. split; [done|]. exists c. split; [done|]. split; [done|]. by rewrite Hc.
Qed.
Lemma snapshot_committed H E m s : snapshot H E (set_committed m s) = snapshot H E s.
Proof. done. Qed.

Lemma sound_process H E fb o o' n : sound_checkpoints H (or_st o) → fb_duty_slot fb ≠ 0%N → advance E fb o = Done o' n →
  sound_checkpoints H (or_st o') ∧ st_committed (or_st o') = st_committed (or_st o).
Proof.
  intros [Hlt Hall] Hnz Hadv. pose proof (advance_slots _ _ _ _ _ Hadv) as (H1 & _ & H2 & H3 & _).
  rewrite (advance_committed _ _ _ _ _ Hadv). split; [|done].
  assert (st_latest (or_st o') = st_latest (or_st o) + 1)%N as Hl.
  { rewrite H3, H2. unfold u64_add, u64. destruct (decide (st_latest (or_st o) + 1 = two64)%N) as [Heq|Hne].
    - exfalso. apply Hnz. rewrite <-H1, H2. unfold u64_add, u64. rewrite Heq. done.
    - apply N.mod_small. lia. }
  split.
  - rewrite H3, H2. unfold u64_add, u64. by apply N.mod_lt.
  - intros k c. rewrite (advance_committed _ _ _ _ _ Hadv). intros [Hk _]%Hall. split; lia.
Qed.
Lemma sound_freeze H E s s' b : sound_checkpoints H s → wf_env E → freeze H E s = Ok (s', b) →
  sound_checkpoints H s' ∧ ∀ k c, st_committed s !! k = Some c → st_committed s' !! k = Some c.
Proof.
  intros [Hlt Hall] W Hf. destruct (freeze_inv _ _ _ _ _ Hf) as [(-> & -> & _)|(-> & c & Hs & Hc & ->)]; [done|].
  split.
  - split; [done|]. cbn. intros k c'. destruct (decide (st_latest s = k)) as [<-|Hne].
    + rewrite lookup_insert. intros [= <-]. split; [done|]. intros _. exists E. by rewrite snapshot_committed.
    + rewrite lookup_insert_ne by done. intros [Hk HE]%Hall. done.
  - intros k c' Hk. cbn. destruct (decide (st_latest s = k)) as [<-|Hne]; [|by rewrite lookup_insert_ne].
    rewrite lookup_insert. destruct (Hall _ _ Hk) as [_ HE]. destruct (HE eq_refl) as (E' & W' & Hs').
    rewrite (snapshot_same H E' E s W' W), Hs in Hs'. congruence.
Qed.
Lemma evolve_sound H o l o' : evolve H o l o' → sound_checkpoints H (or_st o) →
  sound_checkpoints H (or_st o') ∧ ∀ k c, st_committed (or_st o) !! k = Some c → st_committed (or_st o') !! k = Some c.
Proof.
  induction 1 as [o|o E fb o1 n l o2 W Hnz Hadv _ IH|o E s1 b l o2 W Hf _ IH]; intros Hs; [done| |].
  - destruct (sound_process _ _ _ _ _ _ Hs Hnz Hadv) as [Hs1 Heq]. destruct (IH Hs1) as [Hs2 Hmono].
    split; [done|]. intros k c. rewrite <-Heq. apply Hmono.
  - destruct (sound_freeze _ _ _ _ _ Hs W Hf) as [Hs1 Hm]. destruct (IH Hs1) as [Hs2 Hmono].
    split; [done|]. intros k c Hk. apply Hmono. cbn. auto.
Qed.
Lemma sound_new H cfg : sound_checkpoints H (or_st (new_oracle cfg)).
Proof.
  split.
  - cbn. unfold u64_sub, u64. by apply N.mod_lt.
  - intros k c. cbn. by rewrite lookup_empty.
Qed.

(** ** C27 *)
Lemma max_fold l b : let r := fold_left (λ best slot, if (best <? slot)%N then slot else best) l b in
  (b ≤ r)%N ∧ (∀ x, x ∈ l → x ≤ r)%N ∧ (r = b ∨ r ∈ l).
Proof.
  revert b. induction l as [|x l IH]; intros b; cbn.
  - split; [done|]. split; [by intros x ?%elem_of_nil|by left].
  - destruct (N.ltb_spec b x) as [Hlt|Hge].
    + destruct (IH x) as (H1 & H2 & H3). split; [lia|]. split.
      * intros y [->|Hy]%elem_of_cons; [done|auto].
      * right. destruct H3 as [->|H3]; [by left|by right].
    + destruct (IH b) as (H1 & H2 & H3). split; [done|]. split.
      * intros y [->|Hy]%elem_of_cons; [lia|auto].
      * destruct H3 as [->|H3]; [by left|right; by right].
Qed.
Lemma latest_slot_spec l : l ≠ [] → ∃ r, latest_committed_slot l = Some r ∧ r ∈ l ∧ ∀ x, x ∈ l → (x ≤ r)%N.
Proof.
  intros Hl. unfold latest_committed_slot. destruct l as [|x l]; [done|]. eexists. split; [done|].
  destruct (max_fold (x :: l) 0) as (H1 & H2 & H3). cbv zeta in *. split; [|done].
  destruct H3 as [H3|H3]; [|done]. rewrite H3. assert (x = 0)%N as ->; [|by left].
  assert (x ≤ 0)%N; [|lia]. rewrite <-H3. apply H2. by left.
Qed.
Lemma keys_elem s keys k : checkpoint_keys s keys → k ∈ keys ↔ is_Some (st_committed s !! k).
Proof.
  intros Hk. rewrite Hk. rewrite elem_of_list_fmap. split.
  - intros ([k' c] & -> & Hin%elem_of_map_to_list). eauto.
  - intros [c Hc]. exists (k, c). split; [done|]. by apply elem_of_map_to_list.
Qed.
Lemma keys_nil s : checkpoint_keys s [] ↔ st_committed s = ∅.
Proof.
  unfold checkpoint_keys. split.
  - intros H. symmetry in H. apply Permutation_nil_r, fmap_nil_inv in H. by apply map_to_list_empty_iff.
  - intros ->. by rewrite map_to_list_empty.
Qed.
Lemma latest_state_spec s keys : checkpoint_keys s keys →
  match latest_committed_state keys s with
  | Some c => ∃ k, st_committed s !! k = Some c ∧ ∀ k' c', st_committed s !! k' = Some c' → (k' ≤ k)%N
  | None => st_committed s = ∅
  end.
Proof.
  intros Hk. unfold latest_committed_state. destruct (decide (keys = [])) as [->|Hne].
  - cbn. by apply keys_nil.
  - destruct (latest_slot_spec keys Hne) as (r & -> & Hin & Hmax).
    apply (keys_elem _ _ _ Hk) in Hin as [c Hc]. rewrite Hc. exists r. split; [done|].
    intros k' c' Hc'. apply Hmax. apply (keys_elem _ _ _ Hk). eauto.
Qed.
Lemma latest_state_same s k1 k2 : checkpoint_keys s k1 → checkpoint_keys s k2 →
  latest_committed_state k1 s = latest_committed_state k2 s.
Proof.
  intros H1 H2. pose proof (latest_state_spec s k1 H1) as L1. pose proof (latest_state_spec s k2 H2) as L2.
  destruct (latest_committed_state k1 s) as [c1|], (latest_committed_state k2 s) as [c2|]; [| | |done].
  - destruct L1 as (a & Ha & Ma), L2 as (b & Hb & Mb). pose proof (Ma _ _ Hb). pose proof (Mb _ _ Ha).
    assert (a = b) as -> by lia. congruence.
  - destruct L1 as (a & Ha & _). rewrite L2 in Ha. by rewrite lookup_empty in Ha.
  - destruct L2 as (a & Ha & _). rewrite L1 in Ha. by rewrite lookup_empty in Ha.
Qed.

(** ** C28 *)
Lemma u64_sub_exact a b : (b ≤ a)%N → (a < two64)%N → u64_sub a b = (a - b)%N.
Proof.
  intros H1 H2. unfold u64_sub, u64. rewrite (N.mod_small b) by lia.
  replace (a + (two64 - b))%N with ((a - b) + 1 * two64)%N by lia.
  rewrite N.mod_add by done. apply N.mod_small. lia.
Qed.
Lemma is_checkpoint_spec o : (st_latest (or_st o) < two64)%N → (0 < c_cp_size (or_cfg o))%N →
  (0 < st_latest (or_st o))%N → (c_dep_slot (or_cfg o) ≤ st_latest (or_st o))%N →
  ∃ b, is_checkpoint o = Ok (Some b) ∧
    (b = true ↔ ∃ k, st_latest (or_st o) = c_dep_slot (or_cfg o) + k * c_cp_size (or_cfg o))%N.
Proof.
  intros H1 H2 H3 H4. unfold is_checkpoint.
  destruct (N.eqb_spec (st_latest (or_st o)) 0) as [?|_]; [lia|].
  destruct (N.ltb_spec (st_latest (or_st o)) (c_dep_slot (or_cfg o))) as [?|_]; [lia|].
  destruct (N.eqb_spec (c_cp_size (or_cfg o)) 0) as [?|_]; [lia|]. eexists. split; [done|].
  rewrite u64_sub_exact by done. rewrite N.eqb_eq, N.mod_divide by lia. split.
  - intros [k Hk]. exists k. lia.
  - intros [k Hk]. exists k. lia.
Qed.
Lemma is_checkpoint_error o : is_checkpoint o = Ok None ↔
  st_latest (or_st o) = 0%N ∨ (st_latest (or_st o) < c_dep_slot (or_cfg o))%N.
Proof.
  unfold is_checkpoint. destruct (N.eqb_spec (st_latest (or_st o)) 0) as [?|Hne]; [tauto|].
  destruct (N.ltb_spec (st_latest (or_st o)) (c_dep_slot (or_cfg o))) as [?|Hge]; [tauto|].
  destruct (c_cp_size (or_cfg o) =? 0)%N; split; try done; lia.
Qed.
Lemma fresh_no_checkpoint cfg : (0 < c_dep_slot cfg < two64)%N → is_checkpoint (new_oracle cfg) = Ok None.
Proof.
  intros H. apply is_checkpoint_error. right. cbn. rewrite u64_sub_exact by lia. lia.
Qed.

(** ** C39 *)
Lemma equals_iff a b : String.length a = String.length b → ∃ e, equals a b = Ok e ∧ (e = true ↔ to_lower a = to_lower b).
Proof.
  intros Hl. unfold equals. rewrite Hl, Nat.eqb_refl. eexists. split; [done|]. apply String.eqb_eq.
Qed.
Lemma in_sync_none s root slot keys : checkpoint_keys s keys → st_committed s = ∅ → String.length root = 66%nat →
  ∃ b, in_sync keys s root slot = Ok (Some b) ∧ (b = true ↔ to_lower root = default_root).
Proof.
  intros Hk He Hr. assert (keys = []) as ->.
  { unfold checkpoint_keys in Hk. rewrite He, map_to_list_empty in Hk. by apply Permutation_nil_r in Hk. }
  cbn. destruct (equals_iff root default_root) as (e & -> & Hiff); [done|]. exists e. done.
Qed.
Lemma in_sync_some s root slot keys k c : checkpoint_keys s keys → st_committed s !! k = Some c →
  (∀ k' c', st_committed s !! k' = Some c' → (k' ≤ k)%N) → String.length root = String.length (oc_root c) →
  ∃ v, in_sync keys s root slot = Ok v ∧
    (v = Some true ↔ to_lower root = to_lower (oc_root c) ∧ slot = k) ∧
    (v = Some false ↔ to_lower root ≠ to_lower (oc_root c) ∧ slot ≠ k) ∧
    (v = None ↔ (to_lower root = to_lower (oc_root c) ∧ slot ≠ k) ∨ (to_lower root ≠ to_lower (oc_root c) ∧ slot = k)).
Proof.
  intros Hk Hc Hmax Hlen. unfold in_sync.
  assert (keys ≠ []) as Hne. { intros ->. apply keys_nil in Hk. rewrite Hk in Hc. by rewrite lookup_empty in Hc. }
  destruct (latest_slot_spec keys Hne) as (r & -> & Hin & Hr).
  assert (r = k) as ->.
  { apply (keys_elem _ _ _ Hk) in Hin as [c' Hc']. pose proof (Hmax _ _ Hc').
    assert (k ≤ r)%N; [|lia]. apply Hr. apply (keys_elem _ _ _ Hk). eauto. }
  rewrite Hc. destruct (equals_iff root (oc_root c) Hlen) as (e & -> & Hiff). cbn [rbind].
  destruct (N.eqb_spec slot k) as [->|Hs]; destruct e; cbn [andb orb negb]; eexists; (split; [done|]);
    (destruct (decide (to_lower root = to_lower (oc_root c))) as [Hd|Hd]; [|]); try (by apply Hiff in Hd);
    try (by exfalso; apply Hd, Hiff); repeat split; try done; try tauto; intros; exfalso; intuition congruence.
Qed.
(** A root of the wrong length ends the process. *)
Lemma in_sync_length s root slot keys k c : checkpoint_keys s keys → st_committed s !! k = Some c →
  (∀ k' c', st_committed s !! k' = Some c' → (k' ≤ k)%N) → String.length root ≠ String.length (oc_root c) →
  in_sync keys s root slot = Die (Fatal "values length mismatch").
Proof.
  intros Hk Hc Hmax Hlen. unfold in_sync.
  assert (keys ≠ []) as Hne. { intros ->. apply keys_nil in Hk. rewrite Hk in Hc. by rewrite lookup_empty in Hc. }
  destruct (latest_slot_spec keys Hne) as (r & -> & Hin & Hr).
  assert (r = k) as ->.
  { apply (keys_elem _ _ _ Hk) in Hin as [c' Hc']. pose proof (Hmax _ _ Hc').
    assert (k ≤ r)%N; [|lia]. apply Hr. apply (keys_elem _ _ _ Hk). eauto. }
  rewrite Hc. unfold equals. apply Nat.eqb_neq in Hlen. by rewrite Hlen.
Qed.

(** ** Keccak-256 yields 32 bytes *)
Lemma keccak_f_length a : length a = 25%nat → length (keccak_f a) = 25%nat.
Proof.
  unfold keccak_f. generalize round_constants. intros rcs. revert a. induction rcs as [|rc rcs IH]; intros a Ha; [done|].
  cbn [fold_left]. apply IH. unfold iota, chi. reflexivity.
Qed.
Lemma lanes_of_length k l : length (lanes_of k l) = k.
Proof. revert l. induction k as [|k IH]; intros l; [done|]. cbn [lanes_of length]. by rewrite IH. Qed.
Lemma absorb_length k l a : length a = 25%nat → length (absorb k l a) = 25%nat.
Proof.
  revert l a. induction k as [|k IH]; intros l a Ha; [done|]. cbn [absorb]. apply IH, keccak_f_length.
  rewrite zip_with_length, app_length, lanes_of_length, repeat_length, Ha. done.
Qed.
Lemma le_bytes_length k n : length (le_bytes k n) = k.
Proof. revert n. induction k as [|k IH]; intros n; [done|]. cbn [le_bytes length]. by rewrite IH. Qed.
Lemma join_length l : length (mjoin (le_bytes 8 <$> l)) = (8 * length l)%nat.
Proof.
  induction l as [|n l IH]; [done|]. rewrite fmap_cons. change (mjoin (le_bytes 8 n :: (le_bytes 8 <$> l)))
    with (le_bytes 8 n ++ mjoin (le_bytes 8 <$> l)). rewrite app_length, le_bytes_length, IH. cbn [length]. lia.
Qed.
Lemma length_of_list l : String.length (string_of_list_ascii l) = length l.
Proof. by rewrite <-length_list_ascii, list_ascii_of_string_of_list_ascii. Qed.
Lemma keccak256_length s : String.length (keccak256 s) = 32%nat.
Proof.
  unfold keccak256, of_bytes. cbv zeta. rewrite length_of_list, fmap_length, take_length, join_length, absorb_length; done.
Qed.

(** ** Balances of reachable states fit in a uint256 *)
Lemma vsum_filter_le (P : N * vinfo → Prop) `{∀ x, Decision (P x)} (m : gmap N vinfo) :
  (∀ i v, m !! i = Some v → 0 ≤ v_acc v)%Z → (0 ≤ vsum v_acc (filter P m) ≤ vsum v_acc m)%Z.
Proof.
  induction m as [|i v m Hm IH] using map_ind; intros Hpos.
  - rewrite map_filter_empty. done.
  - assert (0 ≤ v_acc v)%Z as Hv by (apply (Hpos i), lookup_insert).
    assert (∀ j w, m !! j = Some w → 0 ≤ v_acc w)%Z as Hpos'.
    { intros j w Hj. apply (Hpos j). rewrite lookup_insert_ne; [done|]. intros ->. congruence. }
    specialize (IH Hpos'). rewrite (vsum_insert_new _ m i v Hm). destruct (decide (P (i, v))) as [Hp|Hp].
    + rewrite map_filter_insert_True by done. rewrite vsum_insert_new; [lia|]. apply map_filter_lookup_None. by left.
    + rewrite map_filter_insert_False by done. rewrite delete_notin by done. lia.
Qed.
Lemma fits_total s : (∀ i v, st_vals s !! i = Some v → 0 ≤ v_acc v)%Z → (vsum v_acc (st_vals s) < 2 ^ 256)%Z →
  uint256 (st_fees s) → fits s.
Proof.
  intros Hpos Htot Hf. split; [done|]. intros a. unfold published, uint256.
  pose proof (vsum_filter_le (λ kv, to_lower (v_addr kv.2) = to_lower a) _ Hpos). lia.
Qed.
Lemma fits_run c l o : wf_envs l → wf_blocks (c_pool c) l → sound_blocks (c_network c) (c_pool c) l → (0 ≤ c_feepct c)%Z →
  run (new_oracle c) l o → (received (or_st o) < 2 ^ 256)%Z → fits (or_st o).
Proof.
  intros We Wb Sb Hfee Hr Hrec.
  destruct (run_grows (new_oracle c) l o We Sb) as (Hg & Hp & _); [|done|done|].
  { intros i v. cbn. by rewrite lookup_empty. }
  destruct (conservation c l o We Wb Hr) as [Ho _]. unfold owed in Ho.
  assert (∀ i v, st_vals (or_st o) !! i = Some v → 0 ≤ v_acc v)%Z as Hacc.
  { intros i v. apply (gr_new _ _ Hg). cbn. apply lookup_empty. }
  pose proof (gr_fees _ _ Hg) as Hf. cbn in Hf.
  pose proof (vsum_nonneg v_acc _ Hacc). pose proof (vsum_nonneg v_pend _ Hp).
  apply fits_total; [done|lia|]. unfold uint256. lia.
Qed.

(** ** AggregateValidatorsIndexes succeeds on reachable states *)
Lemma lower_hex_is_hex c : lower_hex_char c → is_hex_char c = true.
Proof.
  unfold lower_hex_char, is_hex_char. intros [[H1 H2]|[H1 H2]].
  - apply N.leb_le in H1, H2. by rewrite H1, H2.
  - apply N.leb_le in H1, H2. rewrite H1, H2. by rewrite orb_true_r.
Qed.
Lemma lower_body_hex b : String.length b = 40%nat → Forall lower_hex_char (list_ascii_of_string b) →
  is_hex_address ("0x" +:+ b) = true.
Proof.
  intros Hl Hf. unfold is_hex_address. assert (has_prefix ("0x" +:+ b) "0x" = true) as -> by (apply has_prefix_app; eauto). cbn [orb].
  change (sdrop 2 ("0x" +:+ b)) with b. rewrite Hl. cbn. apply sforall_Forall.
  eapply Forall_impl; [exact Hf|]. apply lower_hex_is_hex.
Qed.
Lemma leaves_total E s f20 : wf_env E → wf_records s → pool_apart s → names f20 (st_fees_addr s) →
  ∃ ls, aggregate E s = Ok ls.
Proof.
  intros W Hr Hp [Hf1 Hf2]. apply aggregate_succeeds; [done|done| |].
  - rewrite Hf2. apply lower_body_hex; [by rewrite hex_encode_length, Hf1|apply hex_encode_lower].
  - intros i v Hi. destruct (Hr _ _ Hi) as [_ (b & -> & Hl & Hfa)]. split; [by rewrite string_length_app, Hl|].
    change (to_lower ("0x" +:+ b)) with ("0x" +:+ to_lower b). rewrite (to_lower_lower b Hfa). by apply lower_body_hex.
Qed.
Lemma freeze_total H E s f20 : wf_env E → wf_records s → pool_apart s → names f20 (st_fees_addr s) →
  ∃ s', freeze H E s = Ok (s', bool_decide (st_vals s ≠ ∅)).
Proof.
  intros W Hr Hp Hf. destruct (leaves_total E s f20 W Hr Hp Hf) as [ls Ha]. unfold freeze.
  destruct (aggregate_spec E s ls W Ha) as (rest & -> & _ & Hiff & _).
  assert (st_vals s = ∅ ↔ rest = []) as Hne.
  { split.
    - intros He. destruct rest as [|l rest]; [done|]. exfalso.
      assert (leaf_addr l ∈ leaf_addr <$> l :: rest) as Hin by (by left).
      apply Hiff in Hin as (i & v & Hi & _). rewrite He in Hi. by rewrite lookup_empty in Hi.
    - intros ->. apply map_empty. intros i. apply eq_None_not_Some. intros [v Hv].
      assert (to_lower (v_addr v) ∈ leaf_addr <$> []) as []%elem_of_nil. apply Hiff. by exists i, v. }
  destruct (snapshot_spec H E s _ Ha) as [[Hl Hs]|(Hl & c & Hs & _)]; rewrite Hs; cbn [rbind].
  - rewrite bool_decide_eq_false_2; [eauto|]. intros Hn. apply Hn, Hne. destruct rest; [done|]. cbn in Hl. lia.
  - rewrite bool_decide_eq_true_2; [eauto|]. rewrite Hne. intros ->. cbn in Hl. lia.
Qed.

(** Freezing never changes anything but the map of checkpoints, at the current slot. *)
Lemma freeze_only H E s s' b : freeze H E s = Ok (s', b) → ∃ m, s' = set_committed m s ∧
  ∀ k, k ≠ st_latest s → m !! k = st_committed s !! k.
Proof.
  intros [(_ & -> & _)|(_ & c & _ & _ & ->)]%freeze_inv.
  - exists (st_committed s). split; [by destruct s|done].
  - eexists. split; [done|]. intros k Hk. by rewrite lookup_insert_ne.
Qed.
