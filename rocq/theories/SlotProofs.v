(** What a slot does to the configuration, what errors leave behind, and slots that change nothing. *)
From Verif Require Export BlockProofs.

(** ** The fee schedule *)
Lemma schedule_spec net slot z : fee_schedule net !! slot = Some z ↔ (net, slot, z) ∈ schedule.
Proof.
  unfold fee_schedule, schedule, Mainnet, Hoodi. destruct (String.eqb_spec net "mainnet") as [->|H1].
  { rewrite lookup_singleton_Some, !elem_of_cons, elem_of_nil. split; [intros [<- <-]; by left|]. intros [[= -> ->]|[[=]|[]]]. done. }
  destruct (String.eqb_spec net "hoodi") as [->|H2].
  { rewrite lookup_singleton_Some, !elem_of_cons, elem_of_nil. split; [intros [<- <-]; right; by left|]. intros [[=]|[[= -> ->]|[]]]. done. }
  rewrite lookup_empty, !elem_of_cons, elem_of_nil. split; [done|]. intros [[= ? _ _]|[[= ? _ _]|[]]]; done.
Qed.
Lemma int64_of_big_small z : (0 ≤ z < 9223372036854775808)%Z → int64_of_big z = z.
Proof.
  intros H. unfold int64_of_big. destruct (Z.ltb_spec z 0); [lia|]. unfold u64. rewrite N.mod_small by (unfold two64; lia).
  rewrite int64_small by lia. lia.
Qed.
Lemma fee_changes E fb o o' n : advance E fb o = Done o' n →
  (∀ x, x ∈ ev_pool_fee (fb_events fb) → 0 ≤ x.1 < 9223372036854775808)%Z →
  (ev_pool_fee (fb_events fb) = [] ∧ st_feepct (or_st o') = st_feepct (or_st o) ∧ or_cfg o' = or_cfg o) ∨
  ∃ z l, ev_pool_fee (fb_events fb) = [(z, l)] ∧ (c_network (or_cfg o), n, z) ∈ schedule ∧
    st_feepct (or_st o') = z ∧ or_cfg o' = cset_feepct z (or_cfg o).
Proof.
  intros H Hb. apply advance_fee in H as [(H1 & H2 & H3)|(fee & lg & z & H1 & -> & H3 & H4 & H5)]; [by left|right].
  assert (int64_of_big fee = fee) as He.
  { apply int64_of_big_small. apply (Hb (fee, lg)). rewrite H1. by left. }
  rewrite He in *. exists fee, lg. split; [done|]. split; [by apply schedule_spec|]. done.
Qed.

(** ** Parameters *)

Lemma validate_params E fb o : (∃ f20, names f20 (c_fees_addr (or_cfg o))) →
  (∀ a l, (a, l) ∈ ev_fee_recipient (fb_events fb) → String.length a = 20%nat) →
  (announces (or_cfg o) (fb_events fb) → validate_config E fb o = validate_config E (without_params fb) o) ∧
  (¬ announces (or_cfg o) (fb_events fb) → ∃ o1 e, validate_config E fb o = Fail o1 e).
Proof.
  intros [f20 Hf] H20. unfold validate_config. cbn [without_params fb_events ev_pool_fee ev_fee_recipient ev_checkpoint_size ev_collateral fb_duty_slot].
  change (1 <? length (@nil (string * rawlog)))%nat with false. change (1 <? length (@nil (N * rawlog)))%nat with false.
  change (1 <? length (@nil (Z * rawlog)))%nat with false. rewrite !orb_false_r.
  destruct (1 <? length (ev_pool_fee (fb_events fb)))%nat eqn:L1; cbn [orb].
  { split; intros _; [done|by eauto]. }
  set (w := match ev_pool_fee (fb_events fb) with [] => _ | _ => _ end).
  assert (∀ o1, w = inl o1 → c_fees_addr (or_cfg o1) = c_fees_addr (or_cfg o) ∧ c_cp_size (or_cfg o1) = c_cp_size (or_cfg o) ∧ c_coll (or_cfg o1) = c_coll (or_cfg o)) as Hw.
  { intros o1. unfold w. destruct (ev_pool_fee _) as [|[fee lg] l]; [by intros [= <-]|].
    destruct (fee_schedule _ !! _); [|done]. destruct (_ =? _)%Z; [|done]. intros H. injection H as <-. done. }
  clearbody w.
  split.
  - intros [(A1 & A2 & A3) Ar As Ac].
    replace (1 <? length (ev_fee_recipient (fb_events fb)))%nat with false by (symmetry; apply Nat.ltb_ge; lia).
    replace (1 <? length (ev_checkpoint_size (fb_events fb)))%nat with false by (symmetry; apply Nat.ltb_ge; lia).
    replace (1 <? length (ev_collateral (fb_events fb)))%nat with false by (symmetry; apply Nat.ltb_ge; lia). cbn [orb].
    destruct w as [o1|e]; [|done]. destruct (Hw o1 eq_refl) as (-> & -> & ->).
    assert (match ev_fee_recipient (fb_events fb) with [] => Ok true | (a, _) :: _ => equals (c_fees_addr (or_cfg o)) (addr_string (e_mask E) a) end = Ok true) as ->.
    { destruct (ev_fee_recipient (fb_events fb)) as [|[a l] ?]; [done|]. destruct (Ar a l) as [Ha Hl]; [by left|].
      unfold equals. rewrite addr_string_length, Ha. rewrite (names_length a) by done. rewrite Nat.eqb_refl.
      rewrite to_lower_addr, Hl. by rewrite String.eqb_refl. }
    assert (match ev_checkpoint_size (fb_events fb) with [] => true | (n, _) :: _ => (c_cp_size (or_cfg o) =? n)%N end = true) as ->.
    { destruct (ev_checkpoint_size (fb_events fb)) as [|[a l] ?]; [done|]. rewrite (As a l) by (by left). apply N.eqb_refl. }
    assert (match ev_collateral (fb_events fb) with [] => true | (n, _) :: _ => (c_coll (or_cfg o) =? n)%Z end = true) as ->.
    { destruct (ev_collateral (fb_events fb)) as [|[a l] ?]; [done|]. rewrite (Ac a l) by (by left). apply Z.eqb_refl. }
    done.
  - intros Hna.
    destruct (_ || _) eqn:L2; [eauto|]. apply orb_false_iff in L2 as [L2 L4]. apply orb_false_iff in L2 as [L2 L3].
    apply Nat.ltb_ge in L2, L3, L4.
    destruct w as [o1|e]; [|eauto]. destruct (Hw o1 eq_refl) as (-> & -> & ->).
    assert (∃ b, match ev_fee_recipient (fb_events fb) with [] => Ok true | (a, _) :: _ => equals (c_fees_addr (or_cfg o)) (addr_string (e_mask E) a) end = Ok b ∧
      (b = true → ∀ a l, (a, l) ∈ ev_fee_recipient (fb_events fb) → names a (c_fees_addr (or_cfg o)))) as (b & -> & Hb).
    { destruct (ev_fee_recipient (fb_events fb)) as [|[a l] [|]] eqn:Hev; [exists true; split; [done|]; intros _ a l Hin; by apply elem_of_nil in Hin| |cbn in L2; lia].
      assert (String.length a = 20%nat) as Ha by (apply (H20 a l); by left).
      unfold equals. rewrite addr_string_length, Ha. rewrite (names_length f20) by done. rewrite Nat.eqb_refl. eexists. split; [done|].
      rewrite to_lower_addr. intros Heq%String.eqb_eq a' l' Hin. apply elem_of_list_singleton in Hin as [= -> ->]. split; [done|]. done. }
    destruct b; [|eauto]. specialize (Hb eq_refl).
    destruct (ev_checkpoint_size (fb_events fb)) as [|[n ln] [|]] eqn:Hsz; [|destruct (N.eqb_spec (c_cp_size (or_cfg o)) n); [|cbn [negb]; by eauto]|cbn in L3; lia]; cbn [negb].
    all: destruct (ev_collateral (fb_events fb)) as [|[z lz] [|]] eqn:Hcl; [|destruct (Z.eqb_spec (c_coll (or_cfg o)) z); [|cbn [negb]; by eauto]|cbn in L4; lia]; cbn [negb].
    all: destruct Hna; split; rewrite ?Hsz, ?Hcl; cbn; [lia|done|..]; intros ? ?; rewrite ?elem_of_nil, ?elem_of_list_singleton; try done; intros [= -> _]; done.
Qed.

Lemma params_ignored E fb o : (∃ f20, names f20 (c_fees_addr (or_cfg o))) →
  announces (or_cfg o) (fb_events fb) → advance E fb o = advance E (without_params fb) o.
Proof.
  intros Hf Ha. assert (∀ a l, (a, l) ∈ ev_fee_recipient (fb_events fb) → String.length a = 20%nat) as H20.
  { intros a l Hin. by destruct (an_recipient _ _ Ha a l Hin). }
  destruct (validate_params E fb o Hf H20) as [H _]. unfold advance. rewrite (H Ha). done.
Qed.
Lemma params_stop E fb o : (∃ f20, names f20 (c_fees_addr (or_cfg o))) →
  (∀ a l, (a, l) ∈ ev_fee_recipient (fb_events fb) → String.length a = 20%nat) →
  ¬ announces (or_cfg o) (fb_events fb) → ∃ o1 e, advance E fb o = Fail o1 e.
Proof.
  intros Hf H20 Ha. destruct (validate_params E fb o Hf H20) as [_ H]. destruct (H Ha) as (o1 & e & Hv).
  unfold advance. rewrite Hv. repeat (case_match; [by eauto|]). eauto.
Qed.

(** ** What an error leaves *)
Lemma validate_fail E fb o o1 e : validate_config E fb o = Fail o1 e →
  o1 = o ∨ ∃ z l t, ev_pool_fee (fb_events fb) = (z, l) :: t ∧ o1 = with_fee (int64_of_big z) o.
Proof.
  unfold validate_config. case_match; [intros H'; injection H' as <- _; by left|].
  destruct (ev_pool_fee (fb_events fb)) as [|[fee lg] l].
  - intros H'. left. repeat (case_match; try discriminate); by injection H' as <- _.
  - destruct (fee_schedule _ !! _) as [ex|]; [|intros H'; injection H' as <- _; by left].
    destruct (Z.eqb_spec ex (int64_of_big fee)) as [->|]; [|intros H'; injection H' as <- _; by left].
    intros H'. right. exists fee, lg, l. split; [done|]. repeat (case_match; try discriminate); by injection H' as <- _.
Qed.
Lemma process_next E net fb b don s s' : process_block E net fb b don s = Ok s' → st_next s' = st_next s.
Proof.
  intros Hp. apply process_block_frame in Hp as (s0 & -> & Hst0 & _).
  apply static_set_feepct_parts in Hst0 as (_ & _ & _ & Hn & _). done.
Qed.
Lemma advance_fail E fb o o' e : advance E fb o = Fail o' e →
  o' = o ∨ (∃ z l t, ev_pool_fee (fb_events fb) = (z, l) :: t ∧ o' = with_fee (int64_of_big z) o) ∨
  (fb_duty_slot fb mod 1200 = 0)%N.
Proof.
  unfold advance. intros H.
  destruct (N.eqb_spec (st_next (or_st o)) (u64_add (st_latest (or_st o)) 1)) as [H1|]; cbn [negb] in H; [|injection H as <- _; by left].
  destruct (N.eqb_spec (st_next (or_st o)) (fb_duty_slot fb)) as [H2|]; cbn [negb] in H; [|injection H as <- _; by left].
  destruct (validate_config E fb o) as [o1 []|o1 e1|?] eqn:Hv; [|injection H as <- _; apply validate_fail in Hv; naive_solver|discriminate].
  destruct (summarize _ _ _ _) as [b|] eqn:Hs; [|discriminate].
  assert (st_next (or_st o1) = st_next (or_st o)) as Hn by (apply validate_config_frame in Hv; naive_solver).
  pose proof (summarize_bits _ _ _ _ _ Hs) as [Hb _].
  destruct (N.eqb_spec (st_next (or_st o1)) (sb_slot b)) as [H3|H3]; cbn [negb] in H; [|congruence].
  destruct (get_donations _ _ _) as [don|] eqn:Hd; [|discriminate].
  destruct (process_block _ _ _ _ _ _) as [s2|] eqn:Hp; [|discriminate].
  apply process_next in Hp. destruct (N.eqb_spec (st_next s2 mod 1200) 0) as [Hm|]; [|discriminate].
  right; right. rewrite Hp, Hn, H2 in Hm. done.
Qed.
Lemma advance_fail_clean E fb o o' e : advance E fb o = Fail o' e →
  ev_pool_fee (fb_events fb) = [] → (fb_duty_slot fb mod 1200 ≠ 0)%N → o' = o.
Proof. intros H Hf Hm. apply advance_fail in H as [->|[(z & l & t & He & _)|Hz]]; [done| |done]. congruence. Qed.

(** ** Slots that change nothing *)
Lemma not_subscribed_status s i : status s i = NotSubscribed ∨ status s i = Banned → is_subscribed s i = false.
Proof. unfold status, is_subscribed. destruct (st_vals s !! i) as [v|]; cbn; [|done]. by intros [-> | ->]. Qed.
Lemma set_events_nil s : set_events (st_subs s ++ []) (st_unsubs s ++ []) (st_ether s ++ []) s = s.
Proof. unfold set_events. rewrite !app_nil_r. by destruct s. Qed.
Lemma quiet_slot E fb o o' n pool20 : names pool20 (c_pool (or_cfg o)) → addrs20 fb → ordinary fb → quiet fb →
  ¬ paid_pool pool20 fb → status (or_st o) (fb_duty_index fb) = NotSubscribed ∨ status (or_st o) (fb_duty_index fb) = Banned →
  (fb_duty_slot fb mod 1200 ≠ 0)%N → advance E fb o = Done o' n →
  o' = Oracle (or_cfg o) (set_slots n (shown_block fb (st_latest_block (or_st o))) (u64_add n 1) (or_st o)).
Proof.
  intros Hpool H20 Hord (Q1 & Q2 & Q3 & Q4 & Q5 & Q6) Hnp Hst Hm H.
  pose proof (advance_slots _ _ _ _ _ H) as (Hn1 & Hn2 & _).
  apply advance_inv in H as (o1 & b & don & s2 & s3 & H1 & H2 & Hv & Hs & H3 & Hd & Hp & Hc & -> & _).
  apply validate_config_inv in Hv as [->|(? & ? & ? & He & _)]; [|congruence].
  pose proof (classification _ _ _ _ _ _ Hpool H20 Hord Hs) as (Hmi & Hok & Hbl & Hwr & _).
  pose proof (summarize_bits _ _ _ _ _ Hs) as [_ Hbi].
  assert (don = []) as ->.
  { destruct don as [|x don]; [done|]. assert (x ∈ ev_ether_received (fb_events fb)) as Hx.
    { eapply donations_subset; [done|]. by left. } rewrite Q1 in Hx. by apply elem_of_nil in Hx. }
  assert (s2 = or_st o) as ->.
  { unfold process_block in Hp. rewrite Q1, Q2, Q3, Q5, Q6, set_events_nil in Hp.
    unfold handle_subs in Hp. cbn [same_block negb] in Hp. case_match; [discriminate|]. cbn [zip_with subs_loop rbind] in Hp.
    rewrite Hbi, not_subscribed_status in Hp by done.
    unfold handle_unsubs, handle_donations, handle_bans, handle_unbans in Hp. cbn [same_block negb] in Hp.
    destruct (sb_type b) eqn:Hty; cbn [rbind] in Hp.
    3: rewrite not_subscribed_status in Hp by done.
    1,2,3: destruct (negb (length [] =? length (fb_unsubs fb)))%nat; cbn in Hp; [discriminate|congruence].
    - exfalso. apply Hnp. by apply Hok.
    - exfalso. apply Hnp. by apply Hbl. }
  rewrite <-Hn2, Hn1 in Hc. rewrite (proj2 (N.eqb_neq _ _) Hm) in Hc. cbn in Hc.
  assert (s3 = or_st o) as -> by congruence.
  f_equal. unfold bump_slots. rewrite <-Hn2. f_equal. unfold shown_block. destruct (fb_cblock fb) as [c|] eqn:Hcb.
  - assert (sb_type b = WrongFeeRecipient) as -> by (apply Hwr; split; [done|done]).
    unfold summarize in Hs. inv_res. rewrite Hcb in Hs. inv_res. subst b. cbn.
    unfold get_number in *. inv_res. unfold get_payload, need_cblock in *. rewrite Hcb in *. cbn [rbind] in *. 
    destruct (cb_version c); try discriminate; inv_res; congruence.
  - by rewrite (proj2 Hmi).
Qed.

Lemma advance_block E fb o o' n : advance E fb o = Done o' n →
  st_latest_block (or_st o') = shown_block fb (st_latest_block (or_st o)).
Proof.
  intros (o1 & b & don & s2 & s3 & H1 & H2 & Hv & Hs & H3 & Hd & Hp & Hc & -> & ->)%advance_inv.
  assert (st_latest_block s3 = st_latest_block (or_st o)) as Hn.
  { apply cleanup_step_frame in Hc as [Hst _]. apply process_block_frame in Hp as (s0 & -> & Hst0 & _).
    rewrite Hst0 in Hst. unfold static in Hst. injection Hst as _ _ Hb _ _ _ _ _ _ _ _ _ _ _ _ _. cbn in Hb. rewrite Hb.
    apply validate_config_inv in Hv as [->|(z & raw & _ & _ & _ & ->)]; done. }
  unfold bump_slots. cbn. unfold shown_block. unfold summarize in Hs. inv_res.
  destruct (fb_cblock fb) as [c|] eqn:Hcb.
  - inv_res. subst b. cbn.
    match goal with H : get_number fb = Ok ?m |- _ => assert (p_number (cb_payload c) = m) as -> end.
    { unfold get_number in *. inv_res. unfold get_payload, need_cblock in *. rewrite Hcb in *. cbn [rbind] in *.
      destruct (cb_version c); try discriminate; inv_res; congruence. }
    by repeat case_match.
  - inv_res. subst b. cbn. done.
Qed.
Lemma run_block o l o' : run o l o' → st_latest_block (or_st o') = foldl (λ n x, shown_block x.2 n) (st_latest_block (or_st o)) l.
Proof. induction 1 as [|o E fb o1 n l o2 H _ IH]; [done|]. cbn. by rewrite IH, (advance_block _ _ _ _ _ H). Qed.

(** ** Withdrawal addresses queried for claims *)
Lemma lower_address_lower a : lower_address a → to_lower a = a ∧ String.length a = 42%nat.
Proof.
  intros (body & -> & Hl & Hb). split; [|rewrite string_length_app, Hl; done].
  change (to_lower ("0x" +:+ body)) with ("0x" +:+ to_lower body). by rewrite to_lower_lower.
Qed.
Lemma is_in_lower a l : lower_address a → Forall lower_address l → is_in a l = Ok (bool_decide (a ∈ l)).
Proof.
  intros Ha Hl. induction Hl as [|b l Hb Hl IH]; cbn [is_in]; [by rewrite bool_decide_eq_false_2 by apply not_elem_of_nil|].
  destruct (lower_address_lower _ Ha) as [Ea La], (lower_address_lower _ Hb) as [Eb Lb].
  unfold equals. rewrite La, Lb, Nat.eqb_refl, Ea, Eb. cbn [rbind]. destruct (String.eqb_spec a b) as [->|Hne].
  - by rewrite bool_decide_eq_true_2 by (by left).
  - rewrite IH. f_equal. apply bool_decide_ext. rewrite elem_of_cons. naive_solver.
Qed.
Lemma unique_loop_spec l acc : Forall (λ x, lower_address (v_addr x.2)) l → Forall lower_address acc → NoDup acc →
  ∃ u, unique_loop l acc = Ok u ∧ NoDup u ∧ ∀ a, a ∈ u ↔ a ∈ acc ∨ ∃ x, x ∈ l ∧ v_addr x.2 = a.
Proof.
  intros Hl. revert acc. induction Hl as [|[i v] l Hv Hl IH]; intros acc Ha Hn; cbn [unique_loop].
  - exists acc. split; [done|]. split; [done|]. intros a. split; [by left|]. intros [?|(x & Hx & _)]; [done|by apply elem_of_nil in Hx].
  - cbn in Hv. rewrite is_in_lower by done. cbn [rbind].
    destruct (bool_decide_reflect (v_addr v ∈ acc)) as [Hin|Hin].
    + destruct (IH acc Ha Hn) as (u & -> & Hu & Hs). exists u. split; [done|]. split; [done|]. intros a. rewrite Hs. split.
      * intros [?|(x & Hx & <-)]; [by left|right; exists x; split; [by right|done]].
      * intros [?|(x & [->|Hx]%elem_of_cons & <-)]; [by left|by left|right; by exists x].
    + destruct (IH (acc ++ [v_addr v])) as (u & -> & Hu & Hs).
      { apply Forall_app. split; [done|]. by constructor. }
      { apply NoDup_app. split; [done|]. split; [|apply NoDup_singleton]. intros a Ha' ->%elem_of_list_singleton. done. }
      exists u. split; [done|]. split; [done|]. intros a. rewrite Hs, elem_of_app, elem_of_list_singleton. split.
      * intros [[?| ->]|(x & Hx & <-)]; [by left|right; exists (i, v); split; [by left|done]|right; exists x; split; [by right|done]].
      * intros [?|(x & [->|Hx]%elem_of_cons & <-)]; [left; by left|left; by right|right; by exists x].
Qed.
Lemma unique_addresses E s : wf_env E → wf_records s →
  ∃ u, unique_withdrawal_addresses E s = Ok (u ++ [st_fees_addr s]) ∧ NoDup u ∧
    ∀ a, a ∈ u ↔ ∃ i v, st_vals s !! i = Some v ∧ v_addr v = a.
Proof.
  intros W Hr. unfold unique_withdrawal_addresses.
  destruct (unique_loop_spec (e_iter E (st_vals s)) []) as (u & -> & Hu & Hs); [|constructor|constructor|].
  { apply Forall_forall. intros [i v] Hin. rewrite (wf_iter _ W) in Hin. apply elem_of_map_to_list in Hin. by apply (Hr i v). }
  cbn [rbind]. exists u. split; [done|]. split; [done|]. intros a. rewrite Hs, elem_of_nil. split.
  - intros [[]|([i v] & Hx & <-)]. exists i, v. split; [|done]. rewrite (wf_iter _ W) in Hx. by apply elem_of_map_to_list in Hx.
  - intros (i & v & Hv & <-). right. exists (i, v). split; [|done]. rewrite (wf_iter _ W). by apply elem_of_map_to_list.
Qed.

(** ** Reconciliation with the contract *)
Lemma onchain_iff balance claimed s : onchain_reconciliation balance claimed s = true ↔
  owed s = (balance + foldr Z.add 0 claimed)%Z.
Proof. unfold onchain_reconciliation. rewrite Z.eqb_eq, liabilities_owed. lia. Qed.

Lemma honest_not_wrong E s pool pool20 fb b p :
  names pool20 pool → addrs20 fb → ordinary fb → summarize E s pool fb = Ok b →
  payload_of fb p → p_fee_recipient p = pool20 →
  (∀ l t a, p_txs p = l ++ [Some t] → tx_sender t = Some a → a ≠ pool20 ∧ ¬ builder (fb_chain fb) a) →
  sb_type b ≠ WrongFeeRecipient.
Proof.
  intros Hp H20 Ho Hs Hpay Hfr Hlast. apply (classification _ _ _ pool20) in Hs as (_ & _ & _ & Hw & _); [|done..].
  intros [_ Hn]%Hw. apply Hn. right. split; [|by exists p].
  intros r a (p' & t & l & snd & dst & Hp' & Htx & Hsn & _ & Hor & _).
  rewrite (payload_fun _ _ _ Hp' Hpay) in *. destruct (Hlast l t snd Htx Hsn) as [H1 H2]. destruct Hor as [->|?]; [|done]. by rewrite Hfr in H1.
Qed.

(** ** Block records *)
Lemma subs_other E l vs s s' i : wf_env E → handle_subs E l vs s = Ok s' → (∀ x, x ∈ l → sub_id x ≠ i) →
  status s' i = status s i.
Proof.
  intros W H Hi.
  set (C := Ctx E "" (λ j e, ∃ x, x ∈ l ∧ sub_id x = j) (λ _ _, True) (λ _, True) (λ _ _ _ _, True) amt_any).
  assert (ctx_ok C (λ _, True)) as Ho by (by apply ctx_ok_free).
  assert (trace C s s') as Ht.
  { eapply (handle_subs_trace C _ E l vs); [exact Ho| |done]. apply Forall_forall. intros [x v] Hx. apply elem_of_zip_l in Hx.
    split; [done|]. split; [by exists x|]. done. }
  apply (trace_status _ _ _ i) in Ht; [|done]. symmetry.
  remember (status s i) as a eqn:Ha. remember (status s' i) as b eqn:Hb. clear Ha Hb.
  induction Ht as [|a b c (e & (x & Hx & Hxi) & _) _ _]; [done|]. by destruct (Hi x).
Qed.
Lemma subscribed_status s i : known_statuses s → subscribed s i ↔
  status s i = Active ∨ status s i = YellowCard ∨ status s i = RedCard.
Proof.
  intros Hk. unfold subscribed, status. split.
  - intros (v & -> & Hv). done.
  - destruct (st_vals s !! i) as [v|] eqn:Hv; cbn; [|naive_solver]. eauto.
Qed.
Lemma advance_block_record E fb o o' n :
  wf_env E → known_statuses (or_st o) →
  (∀ x, x ∈ ev_subscribe (fb_events fb) → sub_id x ≠ fb_duty_index fb) →
  advance E fb o = Done o' n →
  ∃ b, sb_slot b = n ∧ sb_index b = fb_duty_index fb ∧
  (st_proposed (or_st o'), st_missed (or_st o'), st_wrong (or_st o')) =
  (st_proposed (or_st o) ++ (if bool_decide (sb_type b = OkPoolProposal ∨ sb_type b = OkPoolProposalBlsKeys) then [b] else []),
   st_missed (or_st o) ++ (if bool_decide (sb_type b = MissedProposal) && is_subscribed (or_st o) (fb_duty_index fb) then [b] else []),
   st_wrong (or_st o) ++ (if bool_decide (sb_type b = WrongFeeRecipient) && is_subscribed (or_st o) (fb_duty_index fb) then [b] else [])) ∧
  summarize E (or_st o) (c_pool (or_cfg o)) fb = Ok b.
Proof.
  intros W Hk Hns H.
  pose proof (advance_slots _ _ _ _ _ H) as (Hn & Hn2 & _).
  apply advance_inv in H as (o1 & b & don & s2 & s3 & H1 & H2 & Hv & Hs & H3 & Hd & Hp & Hc & -> & _).
  apply cleanup_step_frame in Hc as [Hst Hr].
  apply validate_config_frame in Hv as (_ & Hpool' & _ & Hvals & _ & _ & _ & _ & Hnext & _ & _ & _ & Hrec).
  pose proof (summarize_bits _ _ _ _ _ Hs) as [_ Hbi].
  assert (is_subscribed (or_st o1) (fb_duty_index fb) = is_subscribed (or_st o) (fb_duty_index fb)) as Hsub1
    by (unfold is_subscribed; by rewrite Hvals).
  exists b. split; [congruence|]. split; [done|].
  assert (summarize E (or_st o) (c_pool (or_cfg o)) fb = Ok b) as Hs'.
  { rewrite <-Hpool'. rewrite <-Hs. unfold summarize. destruct (withdrawal_and_type _); [|done]. cbn [rbind]. destruct a.
    destruct (fb_cblock fb); [|done]. destruct (get_proposer fb); [|done]. cbn [rbind].
    replace (is_subscribed (or_st o1) a) with (is_subscribed (or_st o) a); [done|]. unfold is_subscribed. by rewrite Hvals. }
  split; [|done].
  unfold process_block in Hp. inv_res. set (s0 := set_events _ _ _ _) in *.
  assert (is_subscribed a (fb_duty_index fb) = is_subscribed (or_st o) (fb_duty_index fb)) as Hsub.
  { pose proof (subs_other _ _ _ _ _ _ W Hb Hns) as Hso.
    assert (known_statuses a) as Hka.
    { set (C := Ctx E "" (λ j e, True) (λ _ _, True) (λ _, True) (λ _ _ _ _, True) amt_any).
      eapply (trace_known C s0); [done| |by intros i v; cbn; rewrite Hvals; apply Hk].
      eapply (handle_subs_trace C (λ _, True)); [by apply ctx_ok_free| |done]. apply Forall_forall. intros [x v] Hx. done. }
    apply eq_true_iff_eq. rewrite !is_subscribed_spec by done. rewrite !subscribed_status by done. rewrite Hso.
    change (status s0 (fb_duty_index fb)) with (status (or_st o1) (fb_duty_index fb)). unfold status. by rewrite Hvals. }
  apply handle_subs_frame in Hb as [Hs1 Hr1].
  apply handle_unsubs_frame in Hb3 as [Hs3 Hr3].
  apply handle_donations_frame in Hb4 as [Hs4 Hr4].
  apply handle_bans_frame in Hb5 as [Hs5 Hr5].
  apply handle_unbans_frame in Hp as [Hs6 Hr6].
  assert (records a = records (or_st o)) as Hra by (rewrite Hr1; exact Hrec).
  rewrite Hr6, Hr5, Hr4 in Hr. unfold records in Hr. injection Hr as R1 R2 R3 R4.
  unfold records in Hr3, Hra. injection Hr3 as Q1 Q2 Q3 Q4. injection Hra as P1 P2 P3 P4.
  change (st_proposed (or_st (Oracle (or_cfg o1) (bump_slots b s3)))) with (st_proposed s3).
  change (st_missed (or_st (Oracle (or_cfg o1) (bump_slots b s3)))) with (st_missed s3).
  change (st_wrong (or_st (Oracle (or_cfg o1) (bump_slots b s3)))) with (st_wrong s3).
  rewrite R2, R3, R4, Q2, Q3, Q4, <-P2, <-P3, <-P4. rewrite <-Hsub, <-Hbi.
  clear -Hb0 Hb1 Hb2.
  destruct (sb_type b) eqn:Hbt; inv_res; subst.
  - rewrite !bool_decide_eq_false_2 by naive_solver. cbn. by rewrite !app_nil_r.
  - rewrite (bool_decide_eq_true_2 (MissedProposal = MissedProposal)) by done. rewrite !bool_decide_eq_false_2 by naive_solver. cbn [andb].
    match goal with |- context [is_subscribed ?x _] => destruct (is_subscribed x (sb_index b)) end; inv_res; subst; rewrite !app_nil_r; [|done].
    destruct (handle_missed_frame b a) as [_ Hr]. exact (f_equal (λ r, (r.1.1.2, r.1.2, r.2)) Hr).
  - rewrite (bool_decide_eq_true_2 (WrongFeeRecipient = WrongFeeRecipient)) by done. rewrite !bool_decide_eq_false_2 by naive_solver. cbn [andb].
    match goal with |- context [is_subscribed ?x _] => destruct (is_subscribed x (sb_index b)) end; inv_res; subst; rewrite !app_nil_r; [|done].
    apply handle_ban_validator_frame in Hb2 as [_ Hr]. unfold records in Hr. by injection Hr as _ -> -> ->.
  - rewrite (bool_decide_eq_true_2 (_ ∨ _)) by auto. rewrite !bool_decide_eq_false_2 by naive_solver. cbn [andb].
    apply handle_correct_frame in Hb1 as [_ Hr]. unfold records in Hr. injection Hr as _ -> -> ->. by rewrite !app_nil_r.
  - rewrite (bool_decide_eq_true_2 (_ ∨ _)) by auto. rewrite !bool_decide_eq_false_2 by naive_solver. cbn [andb].
    apply handle_bls_frame in Hb0 as [_ Hr]. unfold records in Hr. injection Hr as _ -> -> ->. by rewrite !app_nil_r.
Qed.

Lemma summarize_known_type E s pool fb b : summarize E s pool fb = Ok b → sb_type b ≠ UnknownBlockType.
Proof.
  unfold summarize. intros Hs. inv_res. destruct (fb_cblock fb); inv_res; subst b; [|done].
  cbn. by repeat case_match.
Qed.
Lemma advance_filed E fb o o' n pool20 :
  wf_env E → known_statuses (or_st o) → names pool20 (c_pool (or_cfg o)) → addrs20 fb → ordinary fb →
  (∀ x, x ∈ ev_subscribe (fb_events fb) → sub_id x ≠ fb_duty_index fb) →
  advance E fb o = Done o' n →
  ∃ b p m w, sb_slot b = n ∧ sb_index b = fb_duty_index fb ∧ filed pool20 fb (or_st o) b p m w ∧
    st_proposed (or_st o') = st_proposed (or_st o) ++ p ∧
    st_missed (or_st o') = st_missed (or_st o) ++ m ∧
    st_wrong (or_st o') = st_wrong (or_st o) ++ w.
Proof.
  intros W Hk Hpool H20 Hord Hns H.
  destruct (advance_block_record _ _ _ _ _ W Hk Hns H) as (b & Hn & Hi & Hrec & Hs).
  injection Hrec as R1 R2 R3. rewrite R1, R2, R3. clear R1 R2 R3.
  destruct (classification _ _ _ _ _ _ Hpool H20 Hord Hs) as (Cm & Co & Cb & Cw & _).
  pose proof (is_subscribed_spec (or_st o) (fb_duty_index fb) Hk) as Hsub.
  pose proof (summarize_known_type _ _ _ _ _ Hs) as Hkt.
  eexists b, _, _, _. split; [done|]. split; [done|]. split; [|done]. clear -Cm Co Cb Cw Hsub Hkt.
  destruct Cm as [Cm _], Co as [Co _], Cb as [Cb _], Cw as [Cw _].
  destruct (sb_type b); [done|..].
  - specialize (Cm eq_refl). rewrite (bool_decide_eq_true_2 (MissedProposal = MissedProposal)) by done.
    rewrite !bool_decide_eq_false_2 by (done || by intros []). cbn [andb].
    destruct (is_subscribed _ _); [apply filed_missed; [done|by apply Hsub]|]. apply filed_nowhere; [by left|].
    intros Hx. by apply Hsub in Hx.
  - destruct (Cw eq_refl) as [H1 H2]. rewrite (bool_decide_eq_true_2 (WrongFeeRecipient = WrongFeeRecipient)) by done.
    rewrite !bool_decide_eq_false_2 by (done || by intros []). cbn [andb].
    destruct (is_subscribed _ _); [apply filed_wrong; [done|done|by apply Hsub]|]. apply filed_nowhere; [by right|].
    intros Hx. by apply Hsub in Hx.
  - destruct (Co eq_refl) as (H1 & H2 & _). rewrite bool_decide_eq_true_2 by (by left). rewrite !bool_decide_eq_false_2 by done.
    by apply filed_paid.
  - destruct (Cb eq_refl) as (H1 & H2 & _). rewrite bool_decide_eq_true_2 by (by right). rewrite !bool_decide_eq_false_2 by done.
    by apply filed_paid.
Qed.

(** ** Unscheduled fees *)
Lemma fee_stop E fb o : (∀ x, x ∈ ev_pool_fee (fb_events fb) → 0 ≤ x.1 < 9223372036854775808)%Z →
  ev_pool_fee (fb_events fb) ≠ [] →
  (∀ z l, ev_pool_fee (fb_events fb) = [(z, l)] → (c_network (or_cfg o), fb_duty_slot fb, z) ∉ schedule) →
  ∃ e, advance E fb o = Fail o e.
Proof.
  intros Hb Hne Hns.
  assert (∃ e, validate_config E fb o = Fail o e) as [e He].
  { unfold validate_config. destruct (ev_pool_fee (fb_events fb)) as [|[z l] [|]]; [done| |by eexists].
    destruct (_ || _); [by eexists|]. rewrite int64_of_big_small by (apply (Hb (z, l)); by left).
    destruct (fee_schedule _ !! _) as [z'|] eqn:Hf; [|by eexists]. apply schedule_spec in Hf.
    destruct (Z.eqb_spec z' z) as [->|]; [|by eexists]. by destruct (Hns z l eq_refl). }
  unfold advance. rewrite He. repeat (case_match; [by eauto|]). eauto.
Qed.

(** ** Order of slots *)
Lemma u64_small n : (n < two64)%N → u64 n = n.
Proof. apply N.mod_small. Qed.
Lemma run_order o l o' : run o l o' → (st_next (or_st o) + N.of_nat (length l) < two64)%N →
  st_next (or_st o') = (st_next (or_st o) + N.of_nat (length l))%N ∧
  (l ≠ [] → st_next (or_st o') = (st_latest (or_st o') + 1)%N) ∧
  ∀ k E fb, l !! k = Some (E, fb) → fb_duty_slot fb = (st_next (or_st o) + N.of_nat k)%N.
Proof.
  intros H. induction H as [o|o E fb o1 n l o2 Hstep Hrun IH]; intros Hb.
  { split; [cbn; lia|]. split; [done|]. intros k E fb. by rewrite lookup_nil. }
  cbn [length] in Hb. apply advance_slots in Hstep as (H1 & H2 & _ & H3 & H4).
  assert (st_next (or_st o1) = (st_next (or_st o) + 1)%N) as H5.
  { rewrite H4, H2. apply u64_small. lia. }
  destruct IH as (I1 & I2 & I3); [lia|]. split; [rewrite I1; cbn [length]; lia|]. split.
  - intros _. destruct l as [|x l]; [|by apply I2]. inversion Hrun; subst. lia.
  - intros [|k] E' fb'; cbn; [intros [= <- <-]; lia|]. intros Hk. rewrite (I3 _ _ _ Hk). lia.
Qed.

(** ** Logs *)
Lemma advance_all_logs E fb o o' n pool20 : names pool20 (c_pool (or_cfg o)) → addrs20 fb → ordinary fb →
  advance E fb o = Done o' n →
  st_subs (or_st o') = st_subs (or_st o) ++ ev_subscribe (fb_events fb) ∧
  st_unsubs (or_st o') = st_unsubs (or_st o) ++ ev_unsubscribe (fb_events fb) ∧
  st_ether (or_st o') = st_ether (or_st o) ++ ev_ether_received (fb_events fb) ∧
  ∃ don, st_donations (or_st o') = st_donations (or_st o) ++ don ∧
    (fb_cblock fb = None → don = []) ∧
    (∀ r, mev_payment fb r pool20 → don = filter (λ e, er_amount e ≠ r) (ev_ether_received (fb_events fb))) ∧
    (fb_cblock fb ≠ None → (∀ r, ¬ mev_payment fb r pool20) → don = ev_ether_received (fb_events fb)).
Proof.
  intros Hp H20 Ho H. apply advance_logs in H as (b & don & p & m & w & Hd & H1 & H2 & H3 & H4 & _).
  do 3 (split; [done|]). exists don. split; [done|].
  destruct (donations_spec _ _ _ _ _ Hp H20 Ho Hd) as (D1 & D2 & D3). split; [done|]. split; [|done].
  intros r Hr. by apply D2 in Hr as [-> _].
Qed.
Lemma advance_logs_grow E fb o o' n : advance E fb o = Done o' n →
  ∃ b don p m w,
    st_subs (or_st o') = st_subs (or_st o) ++ ev_subscribe (fb_events fb) ∧
    st_unsubs (or_st o') = st_unsubs (or_st o) ++ ev_unsubscribe (fb_events fb) ∧
    st_ether (or_st o') = st_ether (or_st o) ++ ev_ether_received (fb_events fb) ∧
    st_donations (or_st o') = st_donations (or_st o) ++ don ∧
    st_proposed (or_st o') = st_proposed (or_st o) ++ p ∧
    st_missed (or_st o') = st_missed (or_st o) ++ m ∧
    st_wrong (or_st o') = st_wrong (or_st o) ++ w ∧
    sb_slot b = n ∧ sb_index b = fb_duty_index fb ∧
    (p ++ m ++ w = [] ∨ p ++ m ++ w = [b]).
Proof. intros H. apply advance_logs in H as (b & don & p & m & w & _ & H). by exists b, don, p, m, w. Qed.
