(** Proofs about the comparison of the state with the contract. *)
From Verif Require Export ReconSpec QuorumProofs StopProofs.
From Verif Require Import StringProofs.

(** ** Sums *)
Lemma lsum_insert (m : gmap string Z) i x l : m !! i = None → NoDup l →
  lsum (λ a, default 0%Z (<[i := x]> m !! a)) l = (lsum (λ a, default 0%Z (m !! a)) l + if bool_decide (i ∈ l) then x else 0)%Z.
Proof.
  intros Hi. induction l as [|a l IH]; intros Hn; [done|]. apply NoDup_cons in Hn as [Ha Hn]. cbn [lsum foldr]. fold (lsum (λ a, default 0%Z (<[i := x]> m !! a)) l) (lsum (λ a, default 0%Z (m !! a)) l).
  rewrite (IH Hn). destruct (decide (i = a)) as [->|Hne].
  - rewrite lookup_insert, Hi. rewrite (bool_decide_eq_false_2 _ Ha), bool_decide_eq_true_2 by left. cbn. lia.
  - rewrite lookup_insert_ne by done. rewrite (bool_decide_ext (i ∈ a :: l) (i ∈ l)); [lia|]. rewrite elem_of_cons. split; [by intros [?|?]|by right].
Qed.
Lemma csum_over (m : gmap string Z) l : NoDup l → (∀ a z, m !! a = Some z → a ∉ l → z = 0%Z) →
  csum m = lsum (λ a, default 0%Z (m !! a)) l.
Proof.
  intros Hn. induction m as [|i x m Hi IH] using map_ind; intros Hz.
  - unfold csum. rewrite map_to_list_empty. cbn. clear. induction l as [|a l IH]; [done|]. cbn [lsum foldr]. rewrite lookup_empty. cbn. exact IH.
  - rewrite csum_new, lsum_insert by done. rewrite IH.
    + case_bool_decide as Hin; [lia|]. rewrite (Hz i x); [lia|apply lookup_insert|done].
    + intros a z Ha. apply Hz. rewrite lookup_insert_ne; [done|]. intros ->. by rewrite Hi in Ha.
Qed.
Lemma paid_sum (f : string → Z) cl l z : (∀ a, cl a = Some (f a)) → paid_to cl l z → z = lsum f l.
Proof.
  intros Hc (zs & Hf & ->). induction Hf as [|a y l zs Ha _ IH]; [done|]. cbn [foldr lsum]. fold (lsum f l). rewrite <-IH. rewrite Hc in Ha. by injection Ha as ->.
Qed.

Section recon.
Context (sha H : string → string) (c0 : config) (nd0 : node) (E0 : env) (q : nat) (bad : list N).
Hypothesis (Tc : typed_config c0) (Hd : (0 < c_dep_slot c0)%N) (C : one_chain E0) (D : sound_chain c0 nd0 E0) (Hfee : (0 ≤ c_feepct c0)%Z).
Hypothesis (HH : ∀ x, String.length (H x) = 32%nat) (Hbad : (length bad < q)%nat).

Lemma crew_state m : crew sha H c0 nd0 E0 (Up m) → chain_state c0 nd0 E0 (st_latest (or_st (m_or m))) (or_st (plain (m_or m))).
Proof.
  intros Hc. pose proof (crew_known _ _ _ _ _ _ Tc Hd Hc) as [(ops & p & He & _ & Hq & Hs & _) _ _ _].
  rewrite <-(proj1 (same_latest _ _ Hs)). replace (plain (m_or m)) with (plain p); [by eapply evolve_chain|].
  by rewrite (same_rehash _ _ Hs).
Qed.
(** What is claimed is claimed by those whom a later state names. *)
Lemma claims_total P k s f20 l : operates sha H c0 nd0 E0 q bad P → (∀ j r, pl_report P = Some (j, r) → (j ≤ k)%N) → chain_state c0 nd0 E0 k s →
  names f20 (c_fees_addr c0) → withdrawal_list s l → f20 ∉ l → pl_paid P = (lsum (claimed P) l + claimed P f20)%Z.
Proof.
  intros Ho Hk Hs [Hf1 Hf2] [Hn Hl] Hf. destruct (operates_sane sha H c0 nd0 E0 q bad Tc Hd C D Hfee HH Hbad P Ho) as [_ I2 I3 I4]. rewrite I2.
  rewrite (csum_over _ (f20 :: l)); [cbn [lsum foldr]; fold (lsum (claimed P) l); unfold claimed; cbn; rewrite Z.add_comm; done|by apply NoDup_cons|].
  intros a z Ha Hno. destruct (pl_report P) as [[j r]|]; [|by rewrite I4, lookup_empty in Ha]. specialize (Hk _ _ eq_refl).
  destruct I4 as (_ & s' & Hs' & _ & Hx). destruct (I3 _ _ Ha) as [Hlen H0]. destruct (Hx _ _ Ha) as [Hz _].
  destruct (due_mono c0 nd0 E0 Tc Hd C D Hfee _ _ _ _ a Hs' Hs Hk) as [Hm _].
  destruct (chain_facts c0 nd0 E0 Hd C D Hfee _ _ Hs) as (_ & _ & Hw & _ & _ & Hfa).
  assert (due s a = 0%Z) as Hz0; [|lia]. unfold due. rewrite Hfa, bool_decide_eq_false_2.
  - assert (published ("0x" +:+ hex_encode a) s = 0%Z) as ->; [|lia]. unfold published.
    replace (filter _ (st_vals s)) with (∅ : gmap N vinfo); [apply vsum_empty|]. symmetry. apply map_filter_empty_iff.
    intros i v Hv Hy. cbn in Hy. apply Hno. right. apply Hl. exists i, v. split; [done|]. split; [done|]. rewrite Hy. apply (spells_lower a). split; [done|by left].
  - rewrite Hf2. intros [Hy|Hy].
    + injection Hy as Hy. apply hex_encode_inj in Hy. apply Hno. rewrite Hy. left.
    + apply (f_equal String.length) in Hy. rewrite string_length_app, !hex_encode_length, Hf1, Hlen in Hy. discriminate Hy.
Qed.
Lemma recon_passes P m a f20 : names f20 (c_fees_addr c0) → crew sha H c0 nd0 E0 (Up m) → operates sha H c0 nd0 E0 q bad P →
  (∀ k r, pl_report P = Some (k, r) → (k ≤ st_latest (or_st (m_or m)))%N) → compares a m → wf_env (an_env a) →
  contract_tells P (or_st (m_or m)) a → fees_apart (or_st (m_or m)) → live sha H c0 (Tick a) (Up m) = (None, Up m).
Proof.
  intros Hnf Hc Ho Hk Hcmp W [Hb Hcl] Hap. pose proof (crew_state m Hc) as Hs.
  destruct (chain_facts c0 nd0 E0 Hd C D Hfee _ _ Hs) as (_ & _ & Hw & _ & _ & Hfa).
  assert (owed (or_st (m_or m)) = received (or_st (m_or m))) as How.
  { destruct Hs as (fbs & o & Hr & Hf & _ & Heq). destruct (chain_sound c0 nd0 E0 C D _ Hf) as (We & Wb & _).
    destruct (conservation c0 _ o We Wb Hr) as [Hcons _]. rewrite Heq in Hcons. exact Hcons. }
  assert (names f20 (st_fees_addr (or_st (m_or m)))) as Hn by (change (names f20 (st_fees_addr (or_st (plain (m_or m))))); by rewrite Hfa).
  change (wf_records (or_st (m_or m))) in Hw.
  pose proof (StopProofs.compare_spec a m f20 Hcmp W Hw Hn) as Hiff.
  assert (∃ m', step_top a m = Ok m') as [m' Hst].
  { destruct (step_top a m) as [m'|d] eqn:Hx; [eauto|]. exfalso. destruct (proj1 Hiff (ex_intro _ d eq_refl)) as (l & z & Hl & Hz & Hor).
    assert (f20 ∉ l) as Hno.
    { intros (i & v & Hv & Hv1 & Hv2)%(proj2 Hl). apply Hap. exists i, v. split; [done|]. destruct Hn as [_ ->]. done. }
    destruct Hor as [(i & v & Hv & Hx1)|(b & zf & Hb' & Hzf & Hne)].
    - apply Hap. exists i, v. split; [done|]. by rewrite Hx1.
    - rewrite Hb in Hb'. injection Hb' as <-. rewrite Hcl in Hzf. injection Hzf as <-. apply (paid_sum (claimed P)) in Hz; [|done].
      pose proof (claims_total P _ _ f20 l Ho Hk Hs Hnf Hl Hno). apply Hne. rewrite How. lia. }
  destruct Hcmp as (Hpc & Hy & (f & Hf & Hlt) & Hdue). cbn [live]. unfold step. rewrite Hpc. rewrite Hst. cbn [stay].
  assert (m' = m) as ->; [|done]. revert Hst. unfold step_top. cbv zeta.
  destruct (are_nodes_in_sync _ _) as [[]|]; [|by intros [= <-]|done]. rewrite Hf. destruct (N.leb_spec (st_next (or_st (m_or m))) f); [lia|].
  rewrite Hdue. intros (u & _ & Hst)%rbind_ok. apply rbind_ok in Hst as (cl & _ & Hst). destruct (an_balance a); [|by injection Hst as <-].
  destruct cl as [l|]; [|by injection Hst as <-]. destruct (onchain_reconciliation _ _ _); [by injection Hst as <-|done].
Qed.
End recon.
