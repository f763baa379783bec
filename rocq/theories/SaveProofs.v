(** Reachable states are within the ranges of Go's types. *)
From Verif Require Export PersistSpec CodecProofs InvProofs RunProofs CheckpointProofs.

Lemma ascii_drop k s : ascii_only s = true → ascii_only (sdrop k s) = true.
Proof.
  revert s. induction k as [|k IH]; intros s Hs; [by destruct s|]. destruct s as [|c s]; [done|]. cbn [sdrop].
  apply IH. unfold ascii_only in *. cbn [sforall] in Hs. by apply andb_true_iff in Hs as [_ ?].
Qed.
Lemma ascii_hexutil b : ascii_only (hexutil_encode b) = true.
Proof. unfold hexutil_encode. rewrite ascii_only_app. cbn. apply hex_encode_ok. Qed.
Lemma ascii_withdrawal v wa wt : withdrawal_and_type v = Ok (wa, wt) → ascii_only wa = true.
Proof.
  unfold withdrawal_and_type. pose proof ascii_drop as Hd. remember sdrop as d eqn:Ed. clear Ed.
  intros H. repeat (case_match; try discriminate); injection H as <- _; [..|done].
  all: rewrite ascii_only_app; apply andb_true_iff; split; [done|]; apply Hd, hex_encode_ok.
Qed.
Lemma ascii_compatible c w : get_compatible_address_byte c = Some w → ascii_only w = true.
Proof.
  unfold get_compatible_address_byte, get_compatible_address. pose proof ascii_drop as Hd. remember sdrop as d eqn:Ed. clear Ed.
  intros H. repeat (case_match; try discriminate); injection H as <-.
  all: rewrite ascii_only_app; apply andb_true_iff; split; [done|]; apply Hd, hex_encode_ok.
Qed.

(** Everything is allowed, but new records are typed. *)
Definition typed_ctx (E : env) (net : string) : ctx :=
  Ctx E net (λ _ _, True) (λ _ _, True) (λ _, True)
    (λ i z a k, is_u64 i ∧ ascii_only a = true ∧ ascii_only k = true) amt_any.
Lemma typed_ctx_ok E net : wf_env E → ctx_ok (typed_ctx E net) (λ _, True).
Proof. intros W. by apply ctx_ok_free. Qed.

Lemma block_good E s pool fb b : typed_block fb → is_u64 (fb_duty_slot fb) → summarize E s pool fb = Ok b → good_block ascii_text b.
Proof.
  intros T Hslot H. unfold summarize in H.
  destruct (withdrawal_and_type (fb_validator fb)) as [[wa wt]|] eqn:Hw; [|discriminate]. cbn [rbind] in H.
  apply ascii_withdrawal in Hw. pose proof (ascii_hexutil (fb_duty_pubkey fb)). pose proof (ty_index _ T).
  destruct (fb_cblock fb).
  - inv_res. subst b. unfold good_block. cbn. pose proof (ty_number _ T _ Hb1). done.
  - injection H as <-. unfold good_block. cbn. done.
Qed.

Lemma process_typed E net fb b don s s' : wf_env E → typed_block fb → good_block ascii_text b →
  process_block E net fb b don s = Ok s' → trace (typed_ctx E net) s s'.
Proof.
  intros W T (_ & _ & Hi & Hk & Hwa) H. unfold process_block in H. inv_res.
  set (s0 := set_events _ _ _ _) in *. set (C := typed_ctx E net).
  assert (ctx_ok C (λ _, True)) as Ho by (by apply typed_ctx_ok).
  assert (trace C s s0) as T0 by (by apply trace_one, p_rec).
  assert (trace C s0 a) as T1.
  { eapply handle_subs_trace; [done| |done]. apply Forall_forall. intros [x v] Hx.
    apply elem_of_zip_l in Hx. do 3 (split; [done|]). intros v' w _ _ Hw. cbn.
    pose proof (ty_subs _ T) as Hs. rewrite Forall_forall in Hs. apply Hs in Hx as (_ & ? & _).
    split; [done|]. split; [by eapply ascii_compatible|apply ascii_hexutil]. }
  assert (trace C a a2) as T2.
  { destruct (sb_type b) eqn:Hbt; inv_res; subst.
    - apply trace_refl.
    - case_match; [|apply trace_refl]. by apply handle_missed_trace.
    - case_match; inv_res; [|subst; apply trace_refl]. by eapply (handle_ban_validator_trace C).
    - by eapply (handle_correct_trace C).
    - by eapply handle_bls_trace. }
  assert (trace C a2 a3) as T3.
  { eapply (handle_unsubs_trace C); [done|done| |done]. by apply Forall_forall. }
  assert (trace C a3 a4) as T4.
  { eapply (handle_donations_trace C); [|done]. by apply Forall_forall. }
  assert (trace C a4 a5) as T5.
  { eapply (handle_bans_trace C); [done|done| |done]. by apply Forall_forall. }
  assert (trace C a5 s') as T6.
  { eapply (handle_unbans_trace C); [|done]. by apply Forall_forall. }
  by repeat (eapply trace_trans; [done|]).
Qed.

Lemma advance_typed E fb o o' n : wf_env E → typed_env E → typed_block fb → is_u64 (st_next (or_st o)) →
  advance E fb o = Done o' n →
  ∃ o1 b s3, summarize E (or_st o1) (c_pool (or_cfg o1)) fb = Ok b ∧ good_block ascii_text b ∧
    o' = Oracle (or_cfg o1) (bump_slots b s3) ∧ st_vals (or_st o1) = st_vals (or_st o) ∧
    static s3 = static (set_events (st_subs (or_st o) ++ ev_subscribe (fb_events fb))
                          (st_unsubs (or_st o) ++ ev_unsubscribe (fb_events fb))
                          (st_ether (or_st o) ++ ev_ether_received (fb_events fb)) (or_st o1)) ∧
    (o1 = o ∨ ∃ k z, fee_schedule (c_network (or_cfg o)) !! k = Some z ∧ o1 = Oracle (cset_feepct z (or_cfg o)) (set_feepct z (or_st o))) ∧
    trace (typed_ctx E (c_network (or_cfg o))) (or_st o1) s3.
Proof.
  intros W Te Tb Hnext (o1 & b & don & s2 & s3 & _ & Hduty & Hv & Hs & _ & _ & Hp & Hc & -> & _)%advance_inv.
  assert (good_block ascii_text b) as Hb by (eapply block_good; [done|by rewrite Hduty|done]).
  exists o1, b, s3. do 3 (split; [done|]).
  pose proof (validate_config_frame _ _ _ _ Hv) as (Hnet & _ & _ & Hvals & _ & _ & _ & _ & Hn1 & Esub & Euns & Eeth & _).
  split; [done|].
  assert (st_next s2 = st_next (or_st o)) as Hn.
  { apply process_block_frame in Hp as (s0 & -> & Hst & _). apply static_set_feepct_parts in Hst as (_ & _ & _ & -> & _). done. }
  split.
  { apply cleanup_step_frame in Hc as [-> _]. apply process_block_frame in Hp as (s0 & -> & -> & _).
    by rewrite Esub, Euns, Eeth. }
  split.
  { apply validate_config_inv in Hv as [->|(fee & lg & l & _ & Hf & ->)]; [by left|right]. eauto. }
  rewrite <-Hnet. apply process_typed in Hp; [|done..]. rewrite Hn in Hc.
  destruct (st_next (or_st o) mod 1200 =? 0)%N; [|by injection Hc as <-].
  eapply trace_trans; [done|]. set (C := typed_ctx _ _) in *.
  assert (ctx_ok C (λ _, True)) as Ho by (by apply typed_ctx_ok).
  eapply (cleanup_trace C (λ _, True) (st_next (or_st o))); [done|done| | |].
  - done.
  - intros t r tv w (k & pcs & He & Hin) _ _ Hw. cbn. apply Te in He. rewrite Forall_forall in He.
    apply He in Hin as [_ Hin]. split; [done|]. split; [by eapply ascii_compatible|apply ascii_hexutil].
  - cbn. by rewrite Hc.
Qed.

Lemma schedule_int64 net k z : fee_schedule net !! k = Some z → is_int64 z.
Proof.
  unfold fee_schedule. intros H. repeat case_match; [..|done].
  all: apply lookup_singleton_Some in H as [_ <-]; unfold is_int64; lia.
Qed.

Lemma records_typed C s s' : wf_env (cx_env C) →
  (∀ i z a k, cx_new C i z a k → is_u64 i ∧ ascii_only a = true ∧ ascii_only k = true) → trace C s s' →
  (∀ k v, st_vals s !! k = Some v → is_u64 k ∧ good_vinfo ascii_text v) → ∀ k v, st_vals s' !! k = Some v → is_u64 k ∧ good_vinfo ascii_text v.
Proof.
  intros W Hn Ht. eapply (trace_record C s s' (λ k v, is_u64 k ∧ good_vinfo ascii_text v)); [done|done|].
  intros i ov v' Hst Hov. inversion Hst as [| | | | | | |? ? ? ? Hnew _]; subst; try (by apply (Hov _ eq_refl)).
  destruct (Hn _ _ _ _ Hnew) as (? & ? & ?). done.
Qed.

Lemma u64_is n : is_u64 (u64 n).
Proof. apply N.mod_lt. done. Qed.

Lemma saveable_advance E fb o o' n : wf_env E → typed_env E → typed_block fb → saveable (or_st o) →
  advance E fb o = Done o' n → saveable (or_st o').
Proof.
  intros W Te Tb Hs H. pose proof (advance_logs _ _ _ _ _ H) as (b0 & don & p & m & w & Hdon & L1 & L2 & L3 & L4 & L5 & L6 & L7 & Hb0s & Hb0i & Hpmw).
  pose proof (advance_slots _ _ _ _ _ H) as (-> & Hnn & _ & Hlat & Hnx).
  destruct Hs as ((A1 & A2 & A3 & A4) & (B1 & B2 & B3 & B4 & B5 & B6 & B7) & Hv & Hc & F1 & F2 & F3 & F4 & F5 & F6 & F7).
  pose proof H as H'. apply advance_inv in H' as (o1' & b' & don' & s2 & s3' & _ & Hduty & Hvc & Hsum & _ & Hd & Hp & Hcl & Ho' & _).
  assert (good_block ascii_text b') as Hb' by (eapply block_good; [done|by rewrite Hduty|done]).
  apply cleanup_step_frame in Hcl as [Hcs Hcr]. apply process_block_frame in Hp as (s0 & -> & Hps & p' & m' & w' & Hpr & Hcase).
  pose proof (validate_config_frame _ _ _ _ Hvc) as (_ & _ & _ & _ & _ & _ & _ & _ & _ & _ & _ & _ & Hrec).
  apply advance_typed in H as (o1 & b & s3 & Hsm & Hb & -> & Hvals & Hst & Ho1 & Ht); [|done..].
  cbn [or_st] in *. unfold static in Hst. cbn in Hst. injection Hst as E1 E2 E3 E4 E5 E6 E7 E8 E9 E10 E11 E12 E13 E14 E15 E16.
  apply (f_equal or_st) in Ho'. cbn [or_st] in Ho'.
  assert (st_proposed (bump_slots b s3) = st_proposed (or_st o) ++ p' ∧ st_missed (bump_slots b s3) = st_missed (or_st o) ++ m' ∧
          st_wrong (bump_slots b s3) = st_wrong (or_st o) ++ w') as (R1 & R2 & R3).
  { rewrite Ho'. unfold records in *. rewrite Hpr in Hcr. injection Hcr as ? Q1 Q2 Q3. injection Hrec as ? ? ? ?. cbn. rewrite Q1, Q2, Q3.
    split; [|split]; congruence. }
  assert (Forall (good_block ascii_text) (p' ++ m' ++ w')) as Hg.
  { destruct (sb_type b'); naive_solver. }
  apply Forall_app in Hg as [G1 [G2 G3]%Forall_app].
  assert (st_hash (or_st o1) = st_hash (or_st o) ∧ st_pool (or_st o1) = st_pool (or_st o) ∧ st_network (or_st o1) = st_network (or_st o) ∧
    st_fees_addr (or_st o1) = st_fees_addr (or_st o) ∧ st_latest_block (or_st o1) = st_latest_block (or_st o) ∧
    st_cp_size (or_st o1) = st_cp_size (or_st o) ∧ st_dep_block (or_st o1) = st_dep_block (or_st o) ∧ st_dep_slot (or_st o1) = st_dep_slot (or_st o) ∧
    st_committed (or_st o1) = st_committed (or_st o) ∧ is_int64 (st_feepct (or_st o1))) as (D1 & D2 & D3 & D4 & D5 & D6 & D7 & D8 & D9 & D10).
  { destruct Ho1 as [->|(k & z & Hz & ->)]; [done|]. apply schedule_int64 in Hz. cbn. done. }
  split; [|split; [|split; [|split]]].
  - cbn. rewrite E1, E10, E11, E12, D1, D2, D3, D4. done.
  - rewrite Hlat, Hnx. cbn. rewrite E3, E9, E13, E14, E15, D5, D6, D7, D8.
    split; [by rewrite Hnn|]. split.
    { destruct Hb as (_ & ? & _). by destruct (sb_type b). }
    split; [apply u64_is|]. done.
  - cbn [bump_slots set_slots st_vals]. eapply (records_typed (typed_ctx E (c_network (or_cfg o)))); [done|done|exact Ht|by rewrite Hvals].
  - cbn. rewrite E5, D9. done.
  - rewrite L1, L2, L3, L4, R1, R2, R3. destruct Tb as [_ _ T1 T2 T3]. 
    assert (Forall good_ether don) as Gd.
    { unfold get_donations in Hdon. destruct (fb_cblock fb); [|injection Hdon as <-; constructor]. inv_res.
      repeat (case_match; try discriminate); injection Hdon as <-; try done.
      all: apply Forall_forall; intros x [_ Hx]%elem_of_list_filter; rewrite Forall_forall in T3; by apply T3. }
    repeat split; by apply Forall_app.
Qed.

(** ** Checkpoints *)

Lemma ascii_hex_address a : is_hex_address a = true → ascii_only a = true.
Proof.
  assert (∀ s, sforall is_hex_char s = true → ascii_only s = true) as Hx.
  { induction s as [|c s IH]; [done|]. unfold ascii_only in *. cbn [sforall]. intros [Hc Hs]%andb_true_iff.
    apply andb_true_iff. split; [|by apply IH]. revert Hc. clear. destruct c as [[] [] [] [] [] [] [] []]; vm_compute; done. }
  unfold is_hex_address. intros H. destruct (has_prefix a "0x" || has_prefix a "0X") eqn:Hp.
  - apply andb_true_iff in H as [_ H]. destruct a as [|c [|d a]]; [done|..].
    + by destruct c as [[] [] [] [] [] [] [] []]; vm_compute in Hp.
    + cbn [sdrop] in H. apply Hx in H. unfold ascii_only in *. cbn [sforall]. rewrite H.
      apply orb_true_iff in Hp as [Hp|Hp]; destruct c as [[] [] [] [] [] [] [] []]; try discriminate Hp;
        destruct d as [[] [] [] [] [] [] [] []]; try discriminate Hp; done.
  - apply andb_true_iff in H as [_ H]. by apply Hx.
Qed.

Lemma freeze_loop_ascii H hashes l : ∀ proofs proofs', freeze_loop H hashes l proofs = Ok proofs' →
  Forall (λ x, ascii_only x.1 = true) l →
  (∀ k p, proofs !! k = Some p → ascii_only k = true ∧ Forall (λ p, ascii_only p = true) p) →
  ∀ k p, proofs' !! k = Some p → ascii_only k = true ∧ Forall (λ p, ascii_only p = true) p.
Proof.
  induction l as [|[a lf] l IH]; intros proofs proofs'; cbn [freeze_loop]; intros Hf Hl Hp; [by injection Hf as <-|].
  inversion Hl; subst. inv_res. eapply IH; [done|done|]. intros k p Hk.
  apply lookup_insert_Some in Hk as [[<- <-]|[_ Hk]]; [|by eapply Hp]. split; [done|].
  unfold freeze_one in Hb. inv_res. case_match; [discriminate|]. case_match; [|discriminate]. injection Hb as <-.
  apply Forall_fmap, Forall_forall. intros x _. cbn. rewrite ascii_only_app. apply andb_true_iff. split; [done|]. apply hex_encode_ok.
Qed.

Lemma snapshot_good H E s c : saveable s → snapshot H E s = Ok (Some c) → good_onchain ascii_text c ∧ is_u64 (oc_slot c).
Proof.
  intros (_ & (B1 & _) & Hv & _) Hs. unfold snapshot in Hs. inv_res. destruct a as [[raw hashes]|]; [|discriminate]. inv_res.
  subst c. unfold generate_tree in Hb. inv_res. destruct (length a0 <? 2)%nat; [discriminate|]. injection Hb as <- <-.
  apply aggregate_good in Hb1. unfold good_onchain. cbn.
  assert (∀ k v, raw_leaf_map a0 ∅ !! k = Some v → ascii_only k = true ∧ good_rawleaf ascii_text v) as Hraw.
  { intros k v Hk. apply raw_leaf_map_lookup in Hk as [[Hin <-]|[_ Hk]]; [|by rewrite lookup_empty in Hk].
    rewrite Forall_forall in Hb1. apply Hb1 in Hin as [Hin _]. apply ascii_hex_address in Hin. done. }
  split; [|done]. split; [done|]. split; [done|]. split; [apply ascii_hexutil|]. split; [done|]. split; [done|].
  eapply freeze_loop_ascii; [done| |by intros k p Hk; rewrite lookup_empty in Hk].
  apply Forall_forall. intros [k v] Hk. apply elem_of_map_to_list in Hk. by apply Hraw in Hk as [? _].
Qed.

Lemma saveable_freeze H E s s' b : saveable s → freeze H E s = Ok (s', b) → saveable s'.
Proof.
  intros Hs Hf. unfold freeze in Hf. inv_res. destruct a as [c|]; [|by injection Hf as <- <-]. injection Hf as <- <-.
  apply snapshot_good in Hb as [Hc Hslot]; [|done]. destruct Hs as (A & B & Hv & Hcm & F). split; [done|]. split; [done|].
  split; [done|]. split; [|done]. cbn. intros k x Hk. apply lookup_insert_Some in Hk as [[<- <-]|[_ Hk]]; [done|by apply Hcm].
Qed.

Lemma saveable_hash h s : ascii_only h = true → saveable s → saveable (set_hash h s).
Proof. intros Hh ((_ & ?) & ?). done. Qed.

Lemma saveable_new c : typed_config c → saveable (or_st (new_oracle c)).
Proof.
  intros ((? & ? & ?) & ? & ? & ? & ?). unfold saveable, shaped. cbn.
  split; [done|]. split. { split; [apply u64_is|done]. }
  split; [by intros k v Hk; rewrite lookup_empty in Hk|]. split; [by intros k v Hk; rewrite lookup_empty in Hk|].
  repeat split; constructor.
Qed.

Lemma saveable_evolve H o l o' : evolve H o l o' → Forall typed_operation l → saveable (or_st o) → saveable (or_st o').
Proof.
  intros Hev. induction Hev as [o|o E fb o1 n l o2 W Hd Ha _ IH|o E s1 b l o2 W Hf _ IH]; intros Ht Hs; [done|..];
    inversion Ht as [|? ? Hx Hl]; subst; apply IH; [done| |done|].
  - destruct Hx as [? ?]. by eapply saveable_advance.
  - by eapply saveable_freeze.
Qed.
