(** The contract and the oracles together: the pool can pay every claim. *)
From Verif Require Export QuorumSpec AgreeProofs.
From Verif Require CleanProofs.

(** ** The states of the chain *)
Lemma run_join o l o1 l' o2 : run o l o1 → run o1 l' o2 → run o (l ++ l') o2.
Proof. induction 1 as [o|o E fb o1 n l o2' Ha Hr IH]; [done|]. intros H2. cbn. eapply run_cons; [exact Ha|]. by apply IH. Qed.
Lemma run_split o l l' o2 : run o (l ++ l') o2 → ∃ o1, run o l o1 ∧ run o1 l' o2.
Proof.
  revert o. induction l as [|[E fb] l IH]; intros o Hr; cbn in Hr; [exists o; split; [constructor|done]|].
  inversion Hr as [|? ? ? o1 n ? ? Ha Hr']; subst. destruct (IH _ Hr') as (x & H1 & H2). exists x. split; [|done]. by eapply run_cons.
Qed.
Section chain.
Context (c0 : config) (nd0 : node) (E0 : env).
Hypothesis (Tc : typed_config c0) (Hd : (0 < c_dep_slot c0)%N) (C : one_chain E0).
Definition chain_block (fb : fullblock) : Prop := ∃ n, (c_dep_slot c0 ≤ n)%N ∧ fetches nd0 n fb.
Lemma block_slot fb : chain_block fb → fb_duty_slot fb ≠ 0%N ∧ ∃ slot, fetches nd0 slot fb.
Proof.
  intros (n & Hn & Hf). split; [|by exists n]. destruct Hf as (nd & E & pool & all & s & ca & ca' & _ & _ & Hf).
  apply fetch_coherent in Hf as [-> _ _ _ _ _ _ _ _]. lia.
Qed.
Lemma blocks_slot fbs : Forall chain_block fbs → Forall (λ fb, fb_duty_slot fb ≠ 0%N) fbs ∧ Forall (λ fb, ∃ slot, fetches nd0 slot fb) fbs.
Proof. intros Hf. split; (eapply Forall_impl; [exact Hf|]); intros fb Hb; by apply block_slot in Hb as [? ?]. Qed.
Lemma chain_length fbs o : run (new_oracle c0) ((λ fb, (E0, fb)) <$> fbs) o → Forall chain_block fbs →
  (st_latest (or_st o) + 1 = c_dep_slot c0 + N.of_nat (length fbs))%N.
Proof.
  intros Hr [Hs _]%blocks_slot. destruct (run_latest _ _ _ _ Hr Hs) as [_ ->]; [exact (dp_slot _ _ (deployed_new c0))|].
  destruct Tc as (_ & Hx & _). unfold is_u64 in Hx. cbn. rewrite u64_sub_exact by lia. lia.
Qed.
Lemma chain_extends k1 s1 k2 s2 : chain_state c0 nd0 E0 k1 s1 → chain_state c0 nd0 E0 k2 s2 → (k1 ≤ k2)%N →
  ∃ a b o1 o2, run (new_oracle c0) ((λ fb, (E0, fb)) <$> a) o1 ∧ run o1 ((λ fb, (E0, fb)) <$> b) o2 ∧
    Forall chain_block a ∧ Forall chain_block b ∧ or_st o1 = s1 ∧ or_st o2 = s2.
Proof.
  intros (a & o1 & R1 & F1 & L1 & <-) (b & o2 & R2 & F2 & L2 & <-) Hk.
  pose proof (chain_length _ _ R1 F1) as N1. pose proof (chain_length _ _ R2 F2) as N2.
  rewrite <-(take_drop (length a) b), fmap_app in R2. apply run_split in R2 as (p & P1 & P2).
  rewrite <-(take_drop (length a) b) in F2. apply Forall_app in F2 as [F2 F3].
  assert (o1 = p) as ->.
  { eapply runs_agree; [exact R1|exact P1| |by apply blocks_slot..]. rewrite take_length. lia. }
  by exists a, (drop (length a) b), p, o2.
Qed.
Definition blocks_of (fbs : list fullblock) : list (env * fullblock) := (λ fb, (E0, fb)) <$> fbs.
Lemma chain_unique k s1 s2 : chain_state c0 nd0 E0 k s1 → chain_state c0 nd0 E0 k s2 → s1 = s2.
Proof.
  intros (a & o1 & R1 & F1 & L1 & <-) (b & o2 & R2 & F2 & L2 & <-).
  pose proof (chain_length _ _ R1 F1). pose proof (chain_length _ _ R2 F2).
  rewrite (runs_agree nd0 E0 a b (new_oracle c0) o1 o2); [done|done|done|lia|by apply blocks_slot..].
Qed.

(** The history that a process has gone through is that of the chain. *)
Lemma evolve_chain H ops p : evolve H (new_oracle c0) ops p → Forall (of_chain nd0 E0) ops →
  chain_state c0 nd0 E0 (st_latest (or_st p)) (or_st (plain p)).
Proof.
  intros He Hq. destruct (evolve_plain _ _ _ _ _ _ C He Hq) as (fbs & Hr & Hf).
  change (plain (new_oracle c0)) with (new_oracle c0) in Hr. exists fbs, (plain p). split; [done|]. split; [|done].
  assert ((λ fb, (E0, fb)) <$> fbs = (λ fb, (E0, fb)) <$> ([] ++ fbs)) as Hx by done.
  assert (∀ o, (c_dep_slot c0 ≤ st_latest (or_st o) + 1)%N → (st_latest (or_st o) < two64)%N → run o ((λ fb, (E0, fb)) <$> fbs) (plain p) →
    Forall chain_block fbs) as Hall.
  { clear He Hq Hx Hr. revert Hf. induction fbs as [|fb fbs IH]; intros Hf o Hge Hlt Hr; [done|]. apply Forall_cons in Hf as [(Hnz & n & Hn) Hf].
    cbn in Hr. inversion Hr as [|? ? ? o1 x ? ? Ha Hr']; subst. pose proof (advance_latest _ _ _ _ _ Hlt Hnz Ha) as Hl.
    pose proof (advance_slots _ _ _ _ _ Ha) as (G1 & _ & G3 & G4 & _).
    assert (fb_duty_slot fb = n) as <-.
    { destruct Hn as (nd & E & pool & all & s & ca & ca' & _ & _ & Hf'). by apply fetch_coherent in Hf' as [-> _ _ _ _ _ _ _ _]. }
    apply Forall_cons. split.
    - exists (fb_duty_slot fb). split; [|done]. rewrite <-G1, <-G4, Hl. exact Hge.
    - apply (IH Hf o1); [lia| |done]. rewrite G4, G3. unfold u64_add, u64. by apply N.mod_lt. }
  apply (Hall (new_oracle c0)); [|exact (dp_slot _ _ (deployed_new c0))|done].
  destruct Tc as (_ & Hx' & _). unfold is_u64 in Hx'. cbn. rewrite u64_sub_exact by lia. lia.
Qed.
(** A submitted root is the root of the chain's state at that slot. *)
Lemma reported_root sha H slot root : submitted_by sha H c0 nd0 E0 slot root →
  ∃ s E c, chain_state c0 nd0 E0 slot s ∧ wf_env E ∧ snapshot H E s = Ok (Some c) ∧ oc_root c = "0x" +:+ hex_encode root.
Proof.
  intros (m & e & L' & Hc & Hl). destruct (crew_submission _ _ _ _ _ _ _ _ _ _ Tc Hd Hc Hl) as (c & Hk & Hr).
  pose proof (crew_known _ _ _ _ _ _ Tc Hd Hc) as [(ops & p & He & _ & Hq & Hs & _) _ _ _].
  rewrite <-(proj2 (proj2 (same_latest _ _ Hs))) in Hk.
  destruct (evolve_frozen _ _ _ _ _ _ He Hk) as [Hn|(a & b & q & E & -> & Ha & _ & Hlq & W & Hsn)]; [cbn in Hn; by rewrite lookup_empty in Hn|].
  apply Forall_app in Hq as [Hq _]. exists (or_st (plain q)), E, c. split; [|done]. rewrite <-Hlq. by eapply evolve_chain.
Qed.

(** ** What the chain owes *)
Hypothesis (D : sound_chain c0 nd0 E0) (Hfee : (0 ≤ c_feepct c0)%Z).
Lemma chain_sound fbs : Forall chain_block fbs →
  wf_envs (blocks_of fbs) ∧ wf_blocks (c_pool c0) (blocks_of fbs) ∧ sound_blocks (c_network c0) (c_pool c0) (blocks_of fbs).
Proof.
  intros Hf. unfold wf_envs, wf_blocks, sound_blocks, blocks_of. rewrite !Forall_fmap.
  split; [|split]; (eapply Forall_impl; [exact Hf|]); intros fb (n & Hn & Hfe); cbn.
  - apply C.
  - by destruct (sd_block _ _ _ D _ _ Hn Hfe) as (? & ? & ?).
  - destruct (sd_block _ _ _ D _ _ Hn Hfe) as (? & ? & He). split; [exact (sd_balances _ _ _ D)|]. split; [done|].
    destruct Hfe as (nd & E & pool & all & s & ca & ca' & _ & _ & Hfe). by apply fetch_coherent in Hfe as [-> _ _ _ _ _ _ _ _].
Qed.
Lemma fresh_pend : pend_nonneg (or_st (new_oracle c0)).
Proof. intros i v. cbn. by rewrite lookup_empty. Qed.
Lemma chain_facts slot s : chain_state c0 nd0 E0 slot s →
  (∀ i v, st_vals s !! i = Some v → 0 ≤ v_acc v)%Z ∧ (0 ≤ st_fees s)%Z ∧ wf_records s ∧ (vsum v_acc (st_vals s) + st_fees s ≤ received s)%Z ∧
  ((received s < 2 ^ 256)%Z → fits s) ∧ st_fees_addr s = c_fees_addr c0.
Proof.
  intros (fbs & o & Hr & Hf & _ & <-). destruct (chain_sound _ Hf) as (We & Wb & Sb).
  destruct (run_grows (new_oracle c0) _ o We Sb fresh_pend Hfee Hr) as (Hg & Hp & _).
  destruct (conservation c0 _ o We Wb Hr) as [Ho _]. unfold owed in Ho.
  pose proof (RewardProofs.vsum_nonneg v_pend _ Hp).
  split; [intros i v; apply (gr_new _ _ Hg); cbn; apply lookup_empty|].
  split; [exact (gr_fees _ _ Hg)|]. split; [exact (run_records _ _ _ We Hr (fresh_records c0))|]. split; [lia|].
  split; [intros Hlt; by eapply fits_run|]. clear -Hr Hf Hd. revert Hr. assert (st_fees_addr (or_st (new_oracle c0)) = c_fees_addr c0) as Hx by done.
  revert Hx. generalize (new_oracle c0) as x. induction fbs as [|fb fbs IH]; intros x Hx Hr; cbn in Hr.
  - by inversion Hr; subst.
  - apply Forall_cons in Hf as [_ Hf]. inversion Hr as [|? ? ? o1 n ? ? Ha Hr']; subst. apply (IH Hf o1); [|done].
    apply advance_params in Ha as (_ & _ & -> & _). done.
Qed.
Lemma due_mono k1 s1 k2 s2 a : chain_state c0 nd0 E0 k1 s1 → chain_state c0 nd0 E0 k2 s2 → (k1 ≤ k2)%N →
  (due s1 a ≤ due s2 a)%Z ∧ (larger s1 a ≤ larger s2 a)%Z.
Proof.
  intros S1 S2 Hk. destruct (chain_facts _ _ S1) as (_ & F1 & _ & _ & _ & A1). destruct (chain_facts _ _ S2) as (_ & _ & _ & _ & _ & A2).
  destruct (chain_extends _ _ _ _ S1 S2 Hk) as (x & y & o1 & o2 & R1 & R2 & B1 & B2 & <- & <-).
  destruct (chain_sound _ B1) as (We & Wb & Sb). destruct (chain_sound _ B2) as (We' & Wb' & Sb').
  destruct (run_grows (new_oracle c0) _ o1 We Sb fresh_pend Hfee R1) as (_ & Hp & Hz).
  assert (c_network (or_cfg o1) = c_network c0 ∧ c_pool (or_cfg o1) = c_pool c0) as [E1 E2].
  { clear -R1. revert R1. assert (c_network (or_cfg (new_oracle c0)) = c_network c0 ∧ c_pool (or_cfg (new_oracle c0)) = c_pool c0) as Hx by done.
    revert Hx. generalize (new_oracle c0) as z. induction x as [|fb fbs IH]; intros z Hx Hr; cbn in Hr; [by inversion Hr; subst|].
    inversion Hr as [|? ? ? z1 n ? ? Ha Hr']; subst. apply (IH z1); [|done]. apply advance_cfg in Ha as (-> & -> & _). done. }
  rewrite <-E1, <-E2 in Sb'.
  destruct (run_grows o1 _ o2 We' Sb' Hp Hz R2) as (Hg & _). pose proof (gr_fees _ _ Hg).
  pose proof (run_published o1 _ o2 ("0x" +:+ hex_encode a) We' Sb' Hp Hz R2).
  unfold due, larger. rewrite A1, A2. case_bool_decide; lia.
Qed.
End chain.

Lemma spelt_address s a b i v : wf_records s → spells a b → st_vals s !! i = Some v → to_lower (v_addr v) = b → b = "0x" +:+ hex_encode a.
Proof.
  intros Hw [Hl Hs] Hv Hb. destruct (Hw _ _ Hv) as [_ (body & Hbody & Hlen & _)]. destruct Hs as [->| ->]; [done|]. exfalso.
  assert (String.length (to_lower (v_addr v)) = 42%nat) as Hx by (rewrite to_lower_length, Hbody, string_length_app, Hlen; done).
  rewrite Hb, hex_encode_length, Hl in Hx. discriminate Hx.
Qed.
Lemma entitled_due s a z : (∀ i v, st_vals s !! i = Some v → 0 ≤ v_acc v)%Z → (0 ≤ st_fees s)%Z → wf_records s →
  entitled s a z → (z ≤ due s a)%Z ∧ (z ≤ larger s a)%Z.
Proof.
  intros Hacc Hf Hw. assert (∀ b, 0 ≤ published b s)%Z as Hp.
  { intros b. apply (vsum_filter_le _ _ Hacc). }
  pose proof (Hp ("0x" +:+ hex_encode a)). intros [[[_ Hs] ->]|(b & Hs & (i & v & Hv & Hb) & ->)]; unfold due, larger.
  - rewrite bool_decide_eq_true_2 by (by destruct Hs; [left|right]). lia.
  - rewrite (spelt_address _ _ _ _ _ Hw Hs Hv Hb). case_bool_decide; lia.
Qed.
(** Without a validator that withdraws to the fee recipient. *)
Lemma entitled_exact s a z f20 : wf_records s → fees_apart s → names f20 (st_fees_addr s) → entitled s a z → z = due s a.
Proof.
  intros Hw Ha [Hlf Hnf]. assert (∀ b, String.length b = 20%nat → to_lower (st_fees_addr s) = hex_encode b → False) as Hno.
  { intros b Hb Hx. assert (String.length (to_lower (st_fees_addr s)) = 42%nat) as Hy by (rewrite Hnf, string_length_app, hex_encode_length, Hlf; done).
    rewrite Hx, hex_encode_length, Hb in Hy. discriminate Hy. }
  intros [[[Hl Hs] ->]|(b & Hs & (i & v & Hv & Hb) & ->)]; unfold due.
  - destruct Hs as [Hs|Hs]; [|by destruct (Hno _ Hl Hs)]. rewrite bool_decide_eq_true_2 by (by left).
    assert (published ("0x" +:+ hex_encode a) s = 0%Z) as ->; [|lia]. unfold published.
    replace (filter _ (st_vals s)) with (∅ : gmap N vinfo); [apply vsum_empty|]. symmetry. apply map_filter_empty_iff.
    intros i v Hv Hx. cbn in Hx. apply Ha. exists i, v. split; [done|]. rewrite Hs. rewrite Hx. apply (spells_lower a). split; [done|by left].
  - pose proof (spelt_address _ _ _ _ _ Hw Hs Hv Hb) as ->. rewrite bool_decide_eq_false_2; [lia|]. intros Hx. 
    destruct Hx as [Hx|Hx]; [|by destruct (Hno a (proj1 Hs) Hx)]. apply Ha. exists i, v. split; [done|]. by rewrite Hx.
Qed.

(** ** The sum over all addresses *)
Definition lsum (f : string → Z) (l : list string) : Z := foldr (λ a z, f a + z)%Z 0%Z l.
Lemma lsum_add f g l : lsum (λ a, f a + g a)%Z l = (lsum f l + lsum g l)%Z.
Proof. induction l as [|a l IH]; cbn; [done|]. unfold lsum in *. rewrite IH. lia. Qed.
Lemma lsum_ext f g l : (∀ a, a ∈ l → f a = g a) → lsum f l = lsum g l.
Proof.
  induction l as [|a l IH]; intros Hx; cbn; [done|]. unfold lsum in IH. rewrite IH, (Hx a) by (try intros ? ?; try apply Hx; set_solver). done.
Qed.
Lemma lsum_le f g l : (∀ a, a ∈ l → f a ≤ g a)%Z → (lsum f l ≤ lsum g l)%Z.
Proof.
  induction l as [|a l IH]; intros Hx; cbn; [done|]. unfold lsum in IH.
  pose proof (IH (λ b Hb, Hx b (elem_of_list_further _ _ _ Hb))). pose proof (Hx a (elem_of_list_here _ _)). lia.
Qed.
Lemma lsum_once (Q : string → Prop) `{∀ a, Decision (Q a)} z l : (0 ≤ z)%Z → NoDup l → (∀ a b, a ∈ l → b ∈ l → Q a → Q b → a = b) →
  (lsum (λ a, if decide (Q a) then z else 0) l ≤ z)%Z.
Proof.
  intros Hz. induction 1 as [|a l Ha Hn IH]; intros Hq; cbn; [done|].
  destruct (decide (Q a)) as [Hqa|Hqa].
  - enough (lsum (λ a, if decide (Q a) then z else 0) l = 0)%Z as Hx by (unfold lsum in Hx; lia).
    transitivity (lsum (λ _, 0%Z) l); [|clear; induction l; cbn; [done|]; unfold lsum in *; lia].
    apply lsum_ext. intros b Hb. destruct (decide (Q b)) as [Hqb|]; [|done]. exfalso. apply Ha.
    rewrite (Hq a b); [done|left|by right|done|done].
  - assert (∀ x y, x ∈ l → y ∈ l → Q x → Q y → x = y) as Hq' by (intros x y Hx Hy; apply Hq; by right).
    specialize (IH Hq'). unfold lsum in IH. lia.
Qed.
Lemma published_total (m : gmap N vinfo) l : (∀ i v, m !! i = Some v → 0 ≤ v_acc v)%Z → NoDup l →
  (lsum (λ a, vsum v_acc (filter (λ kv, to_lower (v_addr kv.2) = to_lower ("0x" +:+ hex_encode a)) m)) l ≤ vsum v_acc m)%Z.
Proof.
  intros Hm Hl. induction m as [|i v m Hi IH] using map_ind.
  - rewrite vsum_empty. clear. induction l as [|a l IH]; cbn; [done|]. unfold lsum in IH. rewrite map_filter_empty, vsum_empty. lia.
  - assert (∀ j w, m !! j = Some w → 0 ≤ v_acc w)%Z as Hm'.
    { intros j w Hj. apply (Hm j). rewrite lookup_insert_ne; [done|]. intros ->. congruence. }
    specialize (IH Hm'). rewrite (vsum_insert_new _ m i v Hi).
    erewrite lsum_ext; [|intros a _; apply (CleanProofs.vsum_filter_insert _ _ _ _ _ Hi)]. rewrite lsum_add.
    assert (lsum (λ a, if decide (to_lower (v_addr v) = to_lower ("0x" +:+ hex_encode a)) then v_acc v else 0) l ≤ v_acc v)%Z; [|cbn in *; lia].
    apply (lsum_once (λ a, to_lower (v_addr v) = to_lower ("0x" +:+ hex_encode a))); [|done|].
    { apply (Hm i). apply lookup_insert. }
    intros a b _ _ Ha Hb. rewrite Ha, !to_lower_hex in Hb. by apply hex_encode_inj, (inj (String.append "0x")).
Qed.
Lemma due_total s l : (∀ i v, st_vals s !! i = Some v → 0 ≤ v_acc v)%Z → (0 ≤ st_fees s)%Z → NoDup l →
  (∀ a, a ∈ l → String.length a = 20%nat) → (lsum (due s) l ≤ vsum v_acc (st_vals s) + st_fees s)%Z.
Proof.
  intros Hacc Hf Hl H20. unfold due. rewrite lsum_add. pose proof (published_total _ _ Hacc Hl) as Hp.
  set (Q := λ a, to_lower (st_fees_addr s) = "0x" +:+ hex_encode a ∨ to_lower (st_fees_addr s) = hex_encode a).
  assert (lsum (λ a, if decide (Q a) then st_fees s else 0) l ≤ st_fees s)%Z as Hq.
  { apply lsum_once; [done|done|]. intros a b Ha Hb Qa Qb. apply H20 in Ha, Hb.
    assert (∀ x y, String.length x = 20%nat → String.length y = 20%nat → "0x" +:+ hex_encode x = hex_encode y → False) as Hno.
    { intros x y Hx Hy Hxy. apply (f_equal String.length) in Hxy. rewrite string_length_app, !hex_encode_length, Hx, Hy in Hxy. discriminate Hxy. }
    destruct Qa as [Qa|Qa], Qb as [Qb|Qb]; rewrite Qa in Qb.
    - by apply hex_encode_inj, (inj (String.append "0x")).
    - by destruct (Hno a b Ha Hb Qb).
    - by destruct (Hno b a Hb Ha (eq_sym Qb)).
    - by apply hex_encode_inj. }
  rewrite (lsum_ext _ (λ a, if decide (Q a) then st_fees s else 0%Z)) in Hq by done. unfold published.
  assert (∀ f, lsum (λ a, if bool_decide (Q a) then f else 0%Z) l = lsum (λ a, if decide (Q a) then f else 0%Z) l) as Hb.
  { intros f. apply lsum_ext. intros a _. by case_bool_decide; case_decide. }
  specialize (Hb (st_fees s)). unfold Q in Hb, Hq. rewrite Hb. lia.
Qed.

(** ** Proofs consist of words *)
Lemma spells_same a b x : spells a x → spells b x → a = b.
Proof.
  assert (∀ x y, String.length x = 20%nat → String.length y = 20%nat → "0x" +:+ hex_encode x = hex_encode y → False) as Hno.
  { intros u v Hu Hv Huv. apply (f_equal String.length) in Huv. rewrite string_length_app, !hex_encode_length, Hu, Hv in Huv. discriminate Huv. }
  intros [La [-> | ->]] [Lb [Hb|Hb]].
  - by apply hex_encode_inj, (inj (String.append "0x")).
  - by destruct (Hno a b La Lb Hb).
  - by destruct (Hno b a Lb La (eq_sym Hb)).
  - by apply hex_encode_inj.
Qed.
Definition word (b : string) : Prop := String.length b = 32%nat.
Lemma fix_odd_words l : Forall word l → Forall word (fix_odd l).
Proof.
  induction l as [|a|a b l IH] using list_ind2; intros Hf; cbn; [done| |].
  - apply Forall_cons in Hf as [Ha _]. by repeat (apply Forall_cons; split).
  - apply Forall_cons in Hf as [Ha Hf]. apply Forall_cons in Hf as [Hb Hf]. by repeat (apply Forall_cons; split; [done|]); apply IH.
Qed.
Section words.
Context (H : string → string) (HH : ∀ x, word (H x)).
Lemma build_words d l : Forall word l → Forall (Forall word) (build H d l).
Proof.
  revert l. induction d as [|d IH]; intros l Hl; [by apply Forall_nil|]. rewrite build_S. apply Forall_cons. split; [by apply fix_odd_words|].
  apply IH. rewrite pair_up_pairs. apply Forall_fmap, Forall_forall. intros x _. apply HH.
Qed.
Lemma siblings_words nodes i p : Forall (Forall word) nodes → siblings nodes i = Some p → Forall word p.
Proof.
  revert i p. induction nodes as [|l nodes IH]; intros i p Hn Hs; cbn in Hs; [injection Hs as <-; by apply Forall_nil|].
  apply Forall_cons in Hn as [Hl Hn]. destruct (l !! _) as [sib|] eqn:Hsib; [|done]. cbn in Hs.
  destruct (siblings nodes _) as [rest|] eqn:Hrest; [|done]. injection Hs as <-. apply Forall_cons. split; [|by eapply IH].
  rewrite Forall_lookup in Hl. by eapply Hl.
Qed.
Definition worded (ps : gmap string (list string)) : Prop :=
  ∀ a p, ps !! a = Some p → ∃ q, p = byte_array_to_array q ∧ Forall word q.
Lemma freeze_loop_words ls l ps ps' : Forall word ls → worded ps → freeze_loop H ls l ps = Ok ps' → worded ps'.
Proof.
  intros Hls. revert ps. induction l as [|[a x] l IH]; intros ps Hp Hf; cbn [freeze_loop] in Hf; [by injection Hf as <-|].
  apply rbind_ok in Hf as (p & H1 & Hf). eapply IH; [|exact Hf]. intros b q [[<- <-]|[_ Hb]]%lookup_insert_Some; [|by eapply Hp].
  unfold freeze_one in H1. apply rbind_ok in H1 as (e & _ & H1). destruct (negb e); [done|].
  destruct (tree_proof _ _ _) as [q|] eqn:Hq; [|done]. injection H1 as <-. exists q. split; [done|].
  unfold tree_proof in Hq. destruct (last_index _ _ _) as [i|]; [|done]. cbn in Hq. eapply siblings_words; [|exact Hq]. by apply build_words.
Qed.
Lemma snapshot_words E s c a p : snapshot H E s = Ok (Some c) → oc_proofs c !! a = Some ((λ b, "0x" +:+ hex_encode b) <$> p) → Forall word p.
Proof.
  unfold snapshot. intros Hs Ha. apply rbind_ok in Hs as ([[raw ls]|] & Hg & Hs); [|done]. apply rbind_ok in Hs as (ps & Hf & Hs). injection Hs as <-.
  cbn in Ha. unfold generate_tree in Hg. apply rbind_ok in Hg as (lv & _ & Hg). destruct (_ <? _)%nat; [done|]. injection Hg as _ <-.
  apply freeze_loop_words in Hf; [|apply Forall_fmap, Forall_forall; intros x _; apply HH|by intros b q; rewrite lookup_empty].
  apply Hf in Ha as (q & Hq & Hw). unfold byte_array_to_array in Hq. enough (p = q) as -> by done.
  clear -Hq. revert q Hq. induction p as [|x p IH]; intros [|y q] Hq; try done. cbn in Hq. injection Hq as Hx Hq. f_equal; [by apply hex_encode_inj|by apply IH].
Qed.
End words.

(** ** The contract *)
Definition csum (m : gmap string Z) : Z := lsum (λ a, default 0%Z (m !! a)) (map_to_list m).*1.
Lemma csum_keys (m : gmap string Z) : csum m = foldr Z.add 0%Z (map_to_list m).*2.
Proof.
  unfold csum. assert (∀ l, (∀ a z, (a, z) ∈ l → m !! a = Some z) → lsum (λ a, default 0%Z (m !! a)) l.*1 = foldr Z.add 0%Z l.*2) as Hl.
  { induction l as [|[a z] l IH]; intros Hx; cbn; [done|]. rewrite (Hx a z) by left. cbn. unfold lsum in IH. rewrite IH; [done|].
    intros b y Hb. apply Hx. by right. }
  apply Hl. intros a z. by rewrite elem_of_map_to_list.
Qed.
Lemma csum_new (m : gmap string Z) a z : m !! a = None → csum (<[a := z]> m) = (z + csum m)%Z.
Proof.
  intros Hn. rewrite !csum_keys.
  assert (∀ x y : list Z, x ≡ₚ y → foldr Z.add 0%Z x = foldr Z.add 0%Z y) as Hp by (induction 1; cbn in *; lia).
  transitivity (foldr Z.add 0%Z ((a, z) :: map_to_list m).*2); [|done]. apply Hp, fmap_Permutation. by apply map_to_list_insert.
Qed.
Lemma csum_insert (m : gmap string Z) a z : csum (<[a := z]> m) = (csum m + (z - default 0 (m !! a)))%Z.
Proof.
  assert (∀ n, n !! a = None → csum (<[a := z]> n) = z + csum n)%Z as Hnew.
  { intros n Hn. exact (csum_new n a z Hn). }
  destruct (m !! a) as [y|] eqn:Hm; cbn.
  - rewrite <-(insert_delete m a y Hm) at 2. rewrite <-insert_delete_insert. rewrite Hnew by apply lookup_delete.
    assert (csum (<[a:=y]> (delete a m)) = y + csum (delete a m))%Z as ->.
    { apply csum_new, lookup_delete. }
    lia.
  - rewrite Hnew by done. lia.
Qed.
Lemma honest_vote (ms bad : list N) q : NoDup ms → (q ≤ length ms)%nat → (length bad < q)%nat → ∃ i, i ∈ ms ∧ i ∉ bad.
Proof.
  intros Hn Hq Hb. destruct (decide (Exists (λ i, i ∉ bad) ms)) as [Hx|Hx]; [by apply Exists_exists in Hx|].
  exfalso. apply not_Exists_Forall in Hx; [|apply _]. assert (ms ⊆+ bad) as Hs%submseteq_length; [|lia].
  apply NoDup_submseteq; [done|]. intros i Hi. rewrite Forall_forall in Hx. specialize (Hx i Hi). cbn in Hx. by apply dec_stable.
Qed.
Section contract.
Context (sha H : string → string) (c0 : config) (nd0 : node) (E0 : env) (q : nat) (bad : list N).
Hypothesis (Tc : typed_config c0) (Hd : (0 < c_dep_slot c0)%N) (C : one_chain E0) (D : sound_chain c0 nd0 E0) (Hfee : (0 ≤ c_feepct c0)%Z).
Hypothesis (HH : ∀ x, String.length (H x) = 32%nat) (Hbad : (length bad < q)%nat).
Record sane_pool (P : pool) : Prop := SanePool {
  sp_votes : ∀ i k r, (i, k, r) ∈ pl_votes P → i ∈ bad ∨ submitted_by sha H c0 nd0 E0 k r;
  sp_paid : pl_paid P = csum (pl_claimed P);
  sp_keys : ∀ a z, pl_claimed P !! a = Some z → String.length a = 20%nat ∧ (0 ≤ z)%Z;
  sp_report : match pl_report P with
    | None => pl_claimed P = ∅
    | Some (k, r) => submitted_by sha H c0 nd0 E0 k r ∧ ∃ s, chain_state c0 nd0 E0 k s ∧ (received s < 2 ^ 256)%Z ∧
        ∀ a z, pl_claimed P !! a = Some z → (z ≤ due s a)%Z ∧ (z ≤ larger s a)%Z
    end }.
Lemma claim_due k r s xs a z pre p : submitted_by sha H c0 nd0 E0 k r → chain_state c0 nd0 E0 k s → (received s < 2 ^ 256)%Z →
  hashed H s xs → ¬ collision H (claim_inputs H pre p) xs → claim a z pre → Forall (λ b, String.length b = 32%nat) p → proves H r p pre →
  (z ≤ due s a)%Z ∧ (z ≤ larger s a)%Z.
Proof.
  intros Hr Hs Hlt (E & ls & ps & root & ins & W & Hls & Hps & Hm & ->) Hno Hcl Hp Hpr.
  destruct (reported_root c0 nd0 E0 Tc Hd C sha H k r Hr) as (s' & E' & c & Hs' & W' & Hsn & Hrt).
  pose proof (chain_unique c0 nd0 E0 Tc Hd _ _ _ Hs Hs') as <-.
  destruct (chain_facts c0 nd0 E0 Hd C D Hfee _ _ Hs) as (F1 & F2 & F3 & _ & F5 & _).
  apply entitled_due; [done|done|done|]. rewrite (aggregate_same E E' s W W') in Hls.
  destruct (only_entitled H E' s c ls ps root ins a z pre p HH W' (F5 Hlt) Hsn Hls Hps Hm Hcl Hp); [by exists r|done|done].
Qed.
Lemma operates_sane P : operates sha H c0 nd0 E0 q bad P → sane_pool P.
Proof.
  induction 1 as [|P x P' HP IH Hf Ha].
  - split; cbn; [|done| |done]; intros *; [by intros ?%elem_of_nil|by rewrite lookup_empty].
  - destruct IH as [I1 I2 I3 I4]. destruct Ha as [i k r|k r (ms & Hn & Hq & Hms) Hlt|k r a z pre p Hrep Hcl Hp Hpr Hle].
    + split; cbn; [|done|done|done]. intros j l b [[= -> -> ->]|Hv]%elem_of_cons; [exact Hf|by apply I1].
    + split; cbn [pl_votes pl_paid pl_claimed pl_report]; [done|done|done|].
      destruct (honest_vote ms bad q Hn Hq Hbad) as (i & Hi & Hib). destruct (I1 _ _ _ (Hms _ Hi)) as [?|Hr]; [done|]. split; [done|].
      destruct (reported_root c0 nd0 E0 Tc Hd C sha H k r Hr) as (s & _ & _ & Hs & _). exists s. split; [done|]. split; [by apply Hf|].
      intros a z Hz. destruct (pl_report P) as [[k' r']|] eqn:Hrep; [|by rewrite I4, lookup_empty in Hz].
      destruct I4 as (_ & s' & Hs' & _ & Hx). destruct (Hx _ _ Hz) as [X1 X2]. specialize (Hlt _ _ eq_refl).
      destruct (due_mono c0 nd0 E0 Tc Hd C D Hfee _ _ _ _ a Hs' Hs) as [M1 M2]; lia.
    + split; cbn [pl_votes pl_paid pl_claimed pl_report]; [done| | |].
      * rewrite csum_insert, I2. done.
      * intros b y [[<- <-]|[_ Hb]]%lookup_insert_Some; [|by eapply I3]. destruct Hcl as (w & Ha & _ & <- & _). split; [done|lia].
      * rewrite Hrep in *. destruct I4 as (Hr & s & Hs & Hlt & Hx). split; [done|]. exists s. split; [done|]. split; [done|].
        intros b y [[<- <-]|[_ Hb]]%lookup_insert_Some; [|by apply Hx].
        destruct Hf as (k1 & r1 & s1 & xs & He & Hs1 & Hh & Hno). rewrite Hrep in He. injection He as <- <-.
        pose proof (chain_unique c0 nd0 E0 Tc Hd _ _ _ Hs Hs1) as <-. by eapply claim_due.
Qed.
Lemma pool_solvent P slot root : operates sha H c0 nd0 E0 q bad P → pl_report P = Some (slot, root) →
  ∃ s, chain_state c0 nd0 E0 slot s ∧ (pl_paid P ≤ received s)%Z ∧ ∀ a20, (claimed P a20 ≤ due s a20)%Z.
Proof.
  intros [_ I2 I3 I4]%operates_sane Hr. rewrite Hr in I4. destruct I4 as (_ & s & Hs & _ & Hx). exists s. split; [done|].
  destruct (chain_facts c0 nd0 E0 Hd C D Hfee _ _ Hs) as (F1 & F2 & _ & F4 & _ & _).
  assert (∀ a20, claimed P a20 ≤ due s a20)%Z as Hall.
  { intros a. unfold claimed. destruct (pl_claimed P !! a) as [z|] eqn:Ha; [by apply Hx|]. cbn. unfold due, published.
    pose proof (vsum_filter_le (λ kv, to_lower (v_addr kv.2) = to_lower ("0x" +:+ hex_encode a)) _ F1). case_bool_decide; lia. }
  split; [|done]. rewrite I2. etransitivity; [|exact F4]. etransitivity; [|apply (due_total s (map_to_list (pl_claimed P)).*1 F1 F2)].
  - apply lsum_le. intros a _. apply Hall.
  - apply NoDup_fst_map_to_list.
  - intros a ([b z] & -> & Hb)%elem_of_list_fmap. apply elem_of_map_to_list in Hb. by apply (I3 _ _ Hb).
Qed.
(** No address is paid more than the larger of its two amounts. *)
Lemma paid_larger P slot root s a20 : operates sha H c0 nd0 E0 q bad P → pl_report P = Some (slot, root) → chain_state c0 nd0 E0 slot s →
  (claimed P a20 ≤ larger s a20)%Z.
Proof.
  intros [_ _ _ I4]%operates_sane Hr Hs. rewrite Hr in I4. destruct I4 as (_ & s' & Hs' & _ & Hx).
  pose proof (chain_unique c0 nd0 E0 Tc Hd _ _ _ Hs Hs') as <-. destruct (chain_facts c0 nd0 E0 Hd C D Hfee _ _ Hs) as (F1 & F2 & _).
  unfold claimed. destruct (pl_claimed P !! a20) as [z|] eqn:Ha; [by apply (Hx _ _ Ha)|]. cbn. unfold larger, published.
  pose proof (vsum_filter_le (λ kv, to_lower (v_addr kv.2) = to_lower ("0x" +:+ hex_encode a20)) _ F1). lia.
Qed.
Lemma one_root P slot root : operates sha H c0 nd0 E0 q bad P → pl_report P = Some (slot, root) →
  ∃ s E c, chain_state c0 nd0 E0 slot s ∧ wf_env E ∧ snapshot H E s = Ok (Some c) ∧ oc_root c = "0x" +:+ hex_encode root.
Proof. intros [_ _ _ I4]%operates_sane Hr. rewrite Hr in I4. destruct I4 as [Hr' _]. exact (reported_root c0 nd0 E0 Tc Hd C sha H _ _ Hr'). Qed.
Lemma can_claim P slot root s f20 a20 z : operates sha H c0 nd0 E0 q bad P → pl_report P = Some (slot, root) →
  chain_state c0 nd0 E0 slot s → fees_apart s → names f20 (c_fees_addr c0) → entitled s a20 z →
  ∃ pre proof P', acts H q P (Claim a20 z pre proof) P' ∧ pl_paid P' = (pl_paid P + (z - claimed P a20))%Z ∧ claimed P' a20 = z.
Proof.
  intros Hop Hrep Hs Hap Hnf Hen. pose proof (operates_sane _ Hop) as [_ _ _ I4]. rewrite Hrep in I4. destruct I4 as (Hr & s' & Hs' & Hlt & _).
  pose proof (chain_unique c0 nd0 E0 Tc Hd _ _ _ Hs Hs') as <-.
  destruct (chain_facts c0 nd0 E0 Hd C D Hfee _ _ Hs) as (F1 & F2 & F3 & _ & F5 & F6).
  destruct (reported_root c0 nd0 E0 Tc Hd C sha H _ _ Hr) as (s' & E & c & Hx & W & Hsn & Hrt).
  pose proof (chain_unique c0 nd0 E0 Tc Hd _ _ _ Hs Hx) as <-. clear Hx.
  destruct (pool_solvent _ _ _ Hop Hrep) as (s' & Hx & _ & Hcl). pose proof (chain_unique c0 nd0 E0 Tc Hd _ _ _ Hs Hx) as <-. clear Hx.
  rewrite <-F6 in Hnf. pose proof (entitled_exact _ _ _ _ F3 Hap Hnf Hen) as Hz.
  assert (∃ a, spells a20 a ∧ oc_leafs c !! a = Some (RawLeaf a z)) as (a & Hsp & Hl).
  { destruct Hen as [[Hsp ->]|(a & Hsp & Hw & ->)].
    - eexists. split; [exact Hsp|]. by apply (full_balance H E s c).
    - exists a. split; [done|]. by apply (full_balance H E s c). }
  destruct (stored_proofs H E s c a _ W (F5 Hlt) Hsn Hl) as (_ & b20 & pre & r & p & Hsb & Hc & Hrr & Hst & Hpr).
  rewrite Hrt in Hrr. apply (inj (String.append "0x")) in Hrr. apply hex_encode_inj in Hrr as <-. cbn [leaf_bal] in Hc.
  assert (b20 = a20) as -> by by eapply spells_same.
  exists pre, p, (Pool (pl_votes P) (pl_report P) (<[a20 := z]> (pl_claimed P)) (pl_paid P + (z - claimed P a20))). split; [|split; [reflexivity|]].
  - eapply acts_claim; [exact Hrep|exact Hc| |exact Hpr|]. { exact (snapshot_words H HH _ _ _ _ _ Hsn Hst). }
    rewrite Hz. apply Hcl.
  - unfold claimed. cbn. by rewrite lookup_insert.
Qed.
End contract.

(** ** Any chain *)
Section any_chain.
Context (sha H : string → string) (c0 : config) (nd0 : node) (E0 : env).
Hypothesis (Tc : typed_config c0) (Hd : (0 < c_dep_slot c0)%N).
Lemma evolve_run o l p : evolve H o l p → Forall (of_chain nd0 E0) l →
  ∃ l', run (plain o) l' (plain p) ∧ Forall (λ x, wf_env x.1 ∧ reflects E0 x.1 ∧ fb_duty_slot x.2 ≠ 0%N ∧ ∃ slot, fetches nd0 slot x.2) l'.
Proof.
  induction 1 as [o|o E fb o1 n l o2 W Hnz Ha He IH|o E s1 b l o2 W Hf He IH]; intros HQ.
  - exists []. split; [constructor|by apply Forall_nil].
  - apply Forall_cons in HQ as [[HR HF] HQ]. destruct (IH HQ) as (l' & Hr & Hs). exists ((E, fb) :: l'). split.
    + eapply run_cons; [|exact Hr]. by apply plain_advance.
    + by apply Forall_cons.
  - apply Forall_cons in HQ as [_ HQ]. destruct (IH HQ) as (l' & Hr & Hs). exists l'. split; [|done].
    assert (plain o = plain (Oracle (or_cfg o) s1)) as ->; [|done].
    apply freeze_inv in Hf as [(_ & -> & _)|(_ & c & _ & _ & ->)]; by destruct o as [? []].
Qed.
Lemma run_slots l o p : (c_dep_slot c0 ≤ st_latest (or_st o) + 1)%N → (st_latest (or_st o) < two64)%N → run o l p →
  Forall (λ x, wf_env x.1 ∧ reflects E0 x.1 ∧ fb_duty_slot x.2 ≠ 0%N ∧ ∃ slot, fetches nd0 slot x.2) l →
  Forall (λ x, wf_env x.1 ∧ reflects E0 x.1 ∧ ∃ n, (c_dep_slot c0 ≤ n)%N ∧ fetches nd0 n x.2) l.
Proof.
  revert o. induction l as [|[E fb] l IH]; intros o Hge Hlt Hr Hf; [done|]. apply Forall_cons in Hf as [(W & R & Hnz & n & Hn) Hf]. cbn in W, R, Hnz, Hn.
  inversion Hr as [|? ? ? o1 x ? ? Ha Hr']; subst. pose proof (advance_latest _ _ _ _ _ Hlt Hnz Ha) as Hl.
  pose proof (advance_slots _ _ _ _ _ Ha) as (G1 & _ & G3 & G4 & _).
  assert (fb_duty_slot fb = n) as <-.
  { destruct Hn as (nd & E' & pool & all & s & ca & ca' & _ & _ & Hf'). by apply fetch_coherent in Hf' as [-> _ _ _ _ _ _ _ _]. }
  apply Forall_cons. split.
  - split; [done|]. split; [done|]. exists (fb_duty_slot fb). split; [|done]. rewrite <-G1, <-G4, Hl. exact Hge.
  - apply (IH o1); [lia| |done|done]. rewrite G4, G3. unfold u64_add, u64. by apply N.mod_lt.
Qed.
Lemma submitted_possible slot root : submitted_by sha H c0 nd0 E0 slot root →
  ∃ s E c, possible_state c0 nd0 E0 slot s ∧ wf_env E ∧ snapshot H E s = Ok (Some c) ∧ oc_root c = "0x" +:+ hex_encode root.
Proof.
  intros (m & e & L' & Hc & Hl). destruct (crew_submission _ _ _ _ _ _ _ _ _ _ Tc Hd Hc Hl) as (c & Hk & Hr).
  pose proof (crew_known _ _ _ _ _ _ Tc Hd Hc) as [(ops & p & He & _ & Hq & Hs & _) _ _ _].
  rewrite <-(proj2 (proj2 (same_latest _ _ Hs))) in Hk.
  destruct (evolve_frozen _ _ _ _ _ _ He Hk) as [Hn|(a & b & q & E & -> & Ha & _ & Hlq & W & Hsn)]; [cbn in Hn; by rewrite lookup_empty in Hn|].
  apply Forall_app in Hq as [Hq _]. exists (or_st (plain q)), E, c. split; [|done].
  destruct (evolve_run _ _ _ Ha Hq) as (l & Hrun & Hf). change (plain (new_oracle c0)) with (new_oracle c0) in Hrun.
  exists l, (plain q). split; [done|]. split; [|split; [exact Hlq|done]].
  apply (run_slots l (new_oracle c0) (plain q)); [|exact (dp_slot _ _ (deployed_new c0))|done|done].
  destruct Tc as (_ & Hx & _). unfold is_u64 in Hx. cbn. rewrite u64_sub_exact by lia. lia.
Qed.
Lemma operates_votes q bad P : (length bad < q)%nat → operates sha H c0 nd0 E0 q bad P →
  (∀ i k r, (i, k, r) ∈ pl_votes P → i ∈ bad ∨ submitted_by sha H c0 nd0 E0 k r) ∧
  match pl_report P with Some (k, r) => submitted_by sha H c0 nd0 E0 k r | None => pl_paid P = 0%Z end.
Proof.
  intros Hbad. induction 1 as [|P x P' HP [I1 I2] Hf Ha].
  - split; [|done]. intros i k r Hi. cbn in Hi. by apply elem_of_nil in Hi.
  - destruct Ha as [i k r|k r (ms & Hn & Hq & Hms) Hlt|k r a z pre p Hrep Hcl Hp Hpr Hle]; cbn [pl_votes pl_report pl_paid].
    + split; [|exact I2]. intros j l b [[= -> -> ->]|Hv]%elem_of_cons; [exact Hf|by apply I1].
    + split; [exact I1|]. destruct (honest_vote ms bad q Hn Hq Hbad) as (i & Hi & Hib). by destruct (I1 _ _ _ (Hms _ Hi)).
    + split; [exact I1|]. by rewrite Hrep in *.
Qed.
Lemma possible_root q bad P slot root : (length bad < q)%nat → operates sha H c0 nd0 E0 q bad P → pl_report P = Some (slot, root) →
  ∃ s E c, possible_state c0 nd0 E0 slot s ∧ wf_env E ∧ snapshot H E s = Ok (Some c) ∧ oc_root c = "0x" +:+ hex_encode root.
Proof. intros Hb [_ I]%operates_votes Hr; [|done]. rewrite Hr in I. by apply submitted_possible. Qed.
Lemma unpaid q bad P : operates sha H c0 nd0 E0 q bad P → pl_report P = None → pl_paid P = 0%Z.
Proof.
  induction 1 as [|P x P' HP IH Hf Ha]; [done|]. destruct Ha as [i k r|k r Hq Hlt|k r a z pre p Hrep Hcl Hp Hpr Hle]; cbn [pl_report pl_paid]; [done|done|].
  by rewrite Hrep.
Qed.
End any_chain.
