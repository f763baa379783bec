(** One processed slot, and histories: accounting and logs. *)
From Verif Require Export OwedProofs.

(** ** Decomposition of a successful step *)

Lemma validate_config_inv E fb o o1 : validate_config E fb o = Done o1 tt →
  o1 = o ∨ ∃ fee lg l,
    ev_pool_fee (fb_events fb) = (fee, lg) :: l ∧
    fee_schedule (c_network (or_cfg o)) !! fb_duty_slot fb = Some (int64_of_big fee) ∧
    o1 = Oracle (cset_feepct (int64_of_big fee) (or_cfg o)) (set_feepct (int64_of_big fee) (or_st o)).
Proof.
  unfold validate_config. intros H. case_match; [discriminate|].
  destruct (ev_pool_fee (fb_events fb)) as [|[fee lg] l].
  - repeat (case_match; try discriminate); simplify_eq; by left.
  - destruct (fee_schedule _ !! _) as [ex|] eqn:Hs; [|discriminate].
    destruct (Z.eqb_spec ex (int64_of_big fee)) as [->|]; [|discriminate].
    right. exists fee, lg, l. repeat (case_match; try discriminate); simplify_eq; done.
Qed.

Lemma validate_config_frame E fb o o1 : validate_config E fb o = Done o1 tt →
  c_network (or_cfg o1) = c_network (or_cfg o) ∧ c_pool (or_cfg o1) = c_pool (or_cfg o) ∧
  c_cp_size (or_cfg o1) = c_cp_size (or_cfg o) ∧
  st_vals (or_st o1) = st_vals (or_st o) ∧ st_fees (or_st o1) = st_fees (or_st o) ∧
  st_committed (or_st o1) = st_committed (or_st o) ∧
  st_latest (or_st o1) = st_latest (or_st o) ∧ st_latest_block (or_st o1) = st_latest_block (or_st o) ∧
  st_next (or_st o1) = st_next (or_st o) ∧
  st_subs (or_st o1) = st_subs (or_st o) ∧ st_unsubs (or_st o1) = st_unsubs (or_st o) ∧
  st_ether (or_st o1) = st_ether (or_st o) ∧ records (or_st o1) = records (or_st o).
Proof. intros [->|(fee & lg & l & _ & _ & ->)]%validate_config_inv; done. Qed.

Lemma advance_inv E fb o o' n : advance E fb o = Done o' n →
  ∃ o1 b don s2 s3,
    st_next (or_st o) = u64_add (st_latest (or_st o)) 1 ∧
    fb_duty_slot fb = st_next (or_st o) ∧
    validate_config E fb o = Done o1 tt ∧
    summarize E (or_st o1) (c_pool (or_cfg o1)) fb = Ok b ∧
    sb_slot b = st_next (or_st o1) ∧
    get_donations E (c_pool (or_cfg o1)) fb = Ok don ∧
    process_block E (c_network (or_cfg o1)) fb b don (or_st o1) = Ok s2 ∧
    (if (st_next s2 mod 1200 =? 0)%N then cleanup E (c_network (or_cfg o1)) (st_next s2) s2 else Done s2 tt) = Done s3 tt ∧
    o' = Oracle (or_cfg o1) (bump_slots b s3) ∧ n = st_next s3.
Proof.
  unfold advance. intros H.
  destruct (N.eqb_spec (st_next (or_st o)) (u64_add (st_latest (or_st o)) 1)) as [H1|]; [|discriminate].
  cbn [negb] in H.
  destruct (N.eqb_spec (st_next (or_st o)) (fb_duty_slot fb)) as [H2|]; [|discriminate]. cbn [negb] in H.
  destruct (validate_config E fb o) as [o1 []|?|?] eqn:Hv; try discriminate.
  destruct (summarize _ _ _ _) as [b|] eqn:Hs; [|discriminate].
  destruct (N.eqb_spec (st_next (or_st o1)) (sb_slot b)) as [H3|]; [|discriminate]. cbn [negb] in H.
  destruct (get_donations _ _ _) as [don|] eqn:Hd; [|discriminate].
  destruct (process_block _ _ _ _ _ _) as [s2|] eqn:Hp; [|discriminate].
  match type of H with context [match ?x with Done _ _ => _ | _ => _ end] => destruct x as [s3 []|?|?] eqn:Hc end; try discriminate.
  injection H as <- <-. exists o1, b, don, s2, s3. repeat split; auto.
Qed.

(** ** The handlers in sequence *)

Lemma process_block_frame E net fb b don s s' : process_block E net fb b don s = Ok s' →
  ∃ s0, s0 = set_events (st_subs s ++ ev_subscribe (fb_events fb)) (st_unsubs s ++ ev_unsubscribe (fb_events fb))
              (st_ether s ++ ev_ether_received (fb_events fb)) s ∧
  static s' = static s0 ∧
  ∃ p m w, records s' = (st_donations s ++ don, st_proposed s ++ p, st_missed s ++ m, st_wrong s ++ w) ∧
    match sb_type b with
    | OkPoolProposal | OkPoolProposalBlsKeys => p = [b] ∧ m = [] ∧ w = []
    | MissedProposal => p = [] ∧ (m = [] ∨ m = [b]) ∧ w = []
    | WrongFeeRecipient => p = [] ∧ m = [] ∧ (w = [] ∨ w = [b])
    | UnknownBlockType => p = [] ∧ m = [] ∧ w = []
    end.
Proof.
  unfold process_block. intros H. eexists. split; [done|].
  set (s0 := set_events _ _ _ _) in *.
  assert (records s0 = records s) as Hr0 by done.
  inv_res.
  apply handle_subs_frame in Hb as [Hs1 Hr1].
  apply handle_unsubs_frame in Hb3 as [Hs3 Hr3].
  apply handle_donations_frame in Hb4 as [Hs4 Hr4].
  apply handle_bans_frame in Hb5 as [Hs5 Hr5].
  apply handle_unbans_frame in H as [Hs6 Hr6].
  assert (static a2 = static s0 ∧ ∃ p m w, records a2 = (st_donations s, st_proposed s ++ p, st_missed s ++ m, st_wrong s ++ w) ∧
     match sb_type b with
    | OkPoolProposal | OkPoolProposalBlsKeys => p = [b] ∧ m = [] ∧ w = []
    | MissedProposal => p = [] ∧ (m = [] ∨ m = [b]) ∧ w = []
    | WrongFeeRecipient => p = [] ∧ m = [] ∧ (w = [] ∨ w = [b])
    | UnknownBlockType => p = [] ∧ m = [] ∧ w = []
    end) as (Hst & p & m & w & Hrec & Hcase).
  { assert (records a = records s) as Hra by congruence.
    assert (records a = (st_donations s, st_proposed s, st_missed s, st_wrong s)) as Hra' by done.
    unfold records in Hra'. injection Hra' as E1 E2 E3 E4.
    destruct (sb_type b) eqn:Hbt; inv_res; subst.
    - split; [congruence|]. exists [], [], []. rewrite !app_nil_r. split; [done|auto].
    - case_match; inv_res; subst.
      + destruct (handle_missed_frame b a) as [-> ->]. split; [done|].
        exists [], [b], []. rewrite !app_nil_r, E1, E2, E3, E4. split; [done|auto].
      + split; [done|]. exists [], [], []. rewrite !app_nil_r. split; [done|auto].
    - case_match; inv_res; subst.
      + apply handle_ban_validator_frame in Hb2 as [-> ->]. split; [done|].
        exists [], [], [b]. rewrite !app_nil_r, E1, E2, E3, E4. split; [done|auto].
      + split; [done|]. exists [], [], []. rewrite !app_nil_r. split; [done|auto].
    - apply handle_correct_frame in Hb1 as [-> ->]. split; [done|].
      exists [b], [], []. rewrite !app_nil_r, E1, E2, E3, E4. split; [done|auto].
    - apply handle_bls_frame in Hb0 as [-> ->]. split; [done|].
      exists [b], [], []. rewrite !app_nil_r, E1, E2, E3, E4. split; [done|auto]. }
  split; [congruence|]. exists p, m, w. split; [|done].
  rewrite Hr6, Hr5, Hr4. assert (records a3 = records a2) as Hra by congruence.
  rewrite Hrec in Hra. unfold records in Hra. injection Hra as -> -> -> ->. done.
Qed.

Definition paid (b : sblock) : Z :=
  match sb_type b with OkPoolProposal | OkPoolProposalBlsKeys => default 0%Z (sb_reward b) | _ => 0%Z end.

Lemma process_block_owed E net fb b don s s' : wf_env E → process_block E net fb b don s = Ok s' →
  owed s' = (owed s + sum_z sub_coll (ev_subscribe (fb_events fb)) + paid b + sum_z er_amount don)%Z.
Proof.
  intros W. unfold process_block. intros H. inv_res.
  apply handle_unbans_owed in H as ->. apply handle_bans_owed in Hb5 as ->; [|done].
  apply handle_donations_owed in Hb4 as ->; [|done]. apply handle_unsubs_owed in Hb3 as ->; [|done].
  apply handle_subs_owed in Hb. rewrite owed_set_events in Hb.
  unfold paid. destruct (sb_type b) eqn:Hbt; inv_res; subst.
  - lia.
  - case_match; rewrite ?handle_missed_owed; lia.
  - case_match; inv_res; subst; [|lia]. apply handle_ban_validator_owed in Hb2 as ->; [|done]. lia.
  - apply handle_correct_owed in Hb1 as (r & -> & ->); [|done]. cbn. lia.
  - apply handle_bls_owed in Hb0 as (r & -> & ->). cbn. lia.
Qed.

(** ** Received *)

Lemma received_eq s : received s =
  (sum_z er_amount (st_ether s) + sum_z sub_coll (st_subs s)
   + sum_z (λ b, default 0%Z (sb_reward b)) (filter (λ b, sb_reward_type b = VanilaBlock) (st_proposed s)))%Z.
Proof. done. Qed.

Lemma sum_z_filter_split {A} (f : A → Z) (P : A → Prop) `{∀ x, Decision (P x)} l :
  sum_z f l = (sum_z f (filter P l) + sum_z f (filter (λ x, ¬ P x) l))%Z.
Proof.
  induction l as [|x l IH]; [done|]. rewrite sum_z_cons, !filter_cons.
  destruct (decide (P x)), (decide (¬ P x)); try done; rewrite sum_z_cons; lia.
Qed.

Lemma sum_z_const {A} (f : A → Z) c l : Forall (λ x, f x = c) l → sum_z f l = (c * Z.of_nat (length l))%Z.
Proof.
  induction 1 as [|x l Hx _ IH]; [unfold sum_z; cbn; lia|]. rewrite sum_z_cons, IH, Hx. cbn [length]. lia.
Qed.

(** The block is sane: what the chain guarantees about it. *)
Definition vanilla_paid (b : sblock) : Z :=
  match sb_type b with
  | OkPoolProposal | OkPoolProposalBlsKeys =>
      match sb_reward_type b with VanilaBlock => default 0%Z (sb_reward b) | _ => 0%Z end
  | _ => 0%Z
  end.

Lemma summarize_donations E s pool fb b don :
  wf_block E pool fb →
  summarize E s pool fb = Ok b → get_donations E pool fb = Ok don →
  (paid b + sum_z er_amount don = vanilla_paid b + sum_z er_amount (ev_ether_received (fb_events fb)))%Z.
Proof.
  intros Wb. unfold summarize, get_donations. intros Hs Hd.
  destruct (withdrawal_and_type (fb_validator fb)) as [[wa wt]|]; [|discriminate]. cbn [rbind] in Hs.
  destruct (fb_cblock fb) as [c|] eqn:Hc.
  2:{ injection Hs as <-. injection Hd as <-. unfold paid, vanilla_paid. cbn. by rewrite (wb_missed _ _ _ Wb Hc). }
  destruct (get_proposer fb) as [pr|]; [|discriminate]. cbn [rbind] in Hs.
  destruct (sent_reward _ _ _ _) as [[[rew ok] rt]|] eqn:Hsr; [|discriminate]. cbn [rbind] in Hs.
  destruct (get_number fb) as [nm|]; [|discriminate]. cbn [rbind] in Hs.
  injection Hs as <-. unfold paid, vanilla_paid. cbn [sb_type sb_reward sb_reward_type].
  unfold sent_reward in Hsr.
  destruct (mev_reward E fb) as [[[rw is_mev] rcp]|] eqn:Hm; [|discriminate]. cbn [rbind] in *.
  destruct is_mev.
  - destruct (equals rcp pool) as [e|] eqn:He; [|discriminate]. cbn [rbind] in *.
    injection Hsr as <- <- <-. destruct e; cbn [negb] in Hd.
    + case_match; [|discriminate]. injection Hd as <-.
      pose proof (wb_mev _ _ _ Wb rw rcp Hm He) as H1.
      rewrite (sum_z_filter_split er_amount (λ e, er_amount e = rw) (ev_ether_received _)).
      rewrite (sum_z_const er_amount rw (filter (λ e, er_amount e = rw) _)).
      2:{ apply Forall_forall. intros x Hx. by apply elem_of_list_filter in Hx as [? _]. }
      assert (length (filter (λ e, er_amount e = rw) (ev_ether_received (fb_events fb))) = 1%nat) as ->.
      { apply existsb_exists in H as (x & Hx & Hxr). apply Z.eqb_eq in Hxr.
        assert (x ∈ filter (λ e, er_amount e = rw) (ev_ether_received (fb_events fb))) as Hin.
        { apply elem_of_list_filter. split; [done|]. by apply elem_of_list_In. }
        destruct (filter _ _) as [|y [|]]; [by apply elem_of_nil in Hin|done|cbn in H1; lia]. }
      destruct wt; cbn; lia.
    + injection Hd as <-. destruct wt; lia.
  - injection Hd as <-. cbn [negb] in *.
    destruct (get_fee_recipient E fb) as [fr|]; [|discriminate]. cbn [rbind] in Hsr.
    destruct (equals fr pool) as [e|]; [|discriminate]. cbn [rbind] in Hsr.
    destruct e; cbn [orb] in Hsr.
    + destruct (proposer_tip fb) as [[z| |]|]; cbn [rbind] in Hsr; try discriminate; injection Hsr as <- <- <-; destruct wt; cbn; lia.
    + destruct (is_subscribed s pr); [|injection Hsr as <- <- <-; destruct wt; cbn; lia].
      destruct (proposer_tip fb) as [[z| |]|]; cbn [rbind] in Hsr; try discriminate; injection Hsr as <- <- <-; destruct wt; cbn; lia.
Qed.

(** ** One step *)

Lemma advance_cfg E fb o o' n : advance E fb o = Done o' n →
  c_network (or_cfg o') = c_network (or_cfg o) ∧ c_pool (or_cfg o') = c_pool (or_cfg o) ∧ c_cp_size (or_cfg o') = c_cp_size (or_cfg o).
Proof.
  intros (o1 & b & don & s2 & s3 & _ & _ & Hv & _ & _ & _ & _ & _ & -> & _)%advance_inv.
  apply validate_config_frame in Hv. cbn. naive_solver.
Qed.

Lemma cleanup_step_frame (c : bool) E net slot s s' :
  (if c then cleanup E net slot s else Done s tt) = Done s' tt → static s' = static s ∧ records s' = records s.
Proof.
  intros H. destruct c; [|by injection H as <-]. eapply cleanup_frame. by rewrite H.
Qed.

Lemma static_set_feepct_parts s0 s : static s = static s0 →
  st_subs s = st_subs s0 ∧ st_unsubs s = st_unsubs s0 ∧ st_ether s = st_ether s0 ∧ st_next s = st_next s0
  ∧ st_latest s = st_latest s0 ∧ st_latest_block s = st_latest_block s0 ∧ st_committed s = st_committed s0 ∧ st_feepct s = st_feepct s0.
Proof.
  unfold static. intros H.
  pose proof (f_equal (λ x, x.1.1.1.1.1.2) H) as H1. pose proof (f_equal (λ x, x.1.1.1.1.2) H) as H2.
  pose proof (f_equal (λ x, x.1.1.1.2) H) as H3. pose proof (f_equal (λ x, x.1.1.2) H) as H4.
  pose proof (f_equal (λ x, x.1.2) H) as H5. pose proof (f_equal (λ x, x.2.1.1.1.1.1.1.1) H) as H6.
  cbn in *. injection H5 as H7 H8 H9. done.
Qed.

Lemma advance_accounting E fb o o' n : wf_env E → wf_block E (c_pool (or_cfg o)) fb →
  advance E fb o = Done o' n →
  (owed (or_st o') - owed (or_st o) = received (or_st o') - received (or_st o))%Z.
Proof.
  intros W Wb (o1 & b & don & s2 & s3 & _ & _ & Hv & Hs & _ & Hd & Hp & Hc & -> & _)%advance_inv.
  apply validate_config_frame in Hv as (Hnet & Hpool & _ & Hvals & Hfees & _ & _ & _ & _ & Hsubs & _ & Heth & Hrec).
  rewrite Hpool in Hs, Hd.
  pose proof (summarize_donations _ _ _ _ _ _ Wb Hs Hd) as Hsum.
  pose proof (process_block_owed _ _ _ _ _ _ _ W Hp) as Ho.
  assert (owed s3 = owed s2) as Ho3.
  { destruct (st_next s2 mod 1200 =? 0)%N; [|by injection Hc as <-].
    eapply cleanup_owed in Hc; [done..|]. intros l i. apply (wb_cons _ _ _ Wb). }
  assert (owed (or_st o1) = owed (or_st o)) as Ho1 by (unfold owed; congruence).
  apply process_block_frame in Hp as (s0 & -> & Hst & p & m & w & Hr & Hcase).
  apply cleanup_step_frame in Hc as [Hst3 Hr3].
  rewrite Hst in Hst3. apply static_set_feepct_parts in Hst3 as (Es & _ & Ee & _). cbn in Es, Ee.
  rewrite Hr in Hr3. unfold records in Hr3, Hrec. injection Hr3 as _ Ep _ _. injection Hrec as _ Ep0 _ _.
  rewrite !received_eq. cbn [or_st bump_slots set_slots st_ether st_subs st_proposed].
  rewrite Es, Ee, Ep, Ep0, Hsubs, Heth, filter_app, !sum_z_app.
  assert (owed (bump_slots b s3) = owed s3) as -> by done.
  assert (sum_z (λ b, default 0%Z (sb_reward b)) (filter (λ b, sb_reward_type b = VanilaBlock) p) = vanilla_paid b) as ->.
  { unfold vanilla_paid. destruct (sb_type b); destruct Hcase as (-> & _); try done;
      destruct (sb_reward_type b) eqn:Hrt; rewrite filter_cons, filter_nil; destruct (decide _); try congruence;
      unfold sum_z; cbn; lia. }
  lia.
Qed.

Lemma run_accounting o l o' : wf_envs l → wf_blocks (c_pool (or_cfg o)) l → run o l o' →
  (owed (or_st o') - owed (or_st o) = received (or_st o') - received (or_st o))%Z.
Proof.
  intros We Wb H. induction H as [o|o E fb o1 n l o2 Hstep Hrun IH]; [lia|].
  inversion We as [|? ? We1 We2]. inversion Wb as [|? ? Wb1 Wb2]. subst. cbn in *.
  pose proof (advance_accounting _ _ _ _ _ We1 Wb1 Hstep).
  apply advance_cfg in Hstep as (_ & Hp & _). rewrite Hp in IH. specialize (IH We2 Wb2). lia.
Qed.

Lemma assets_received s : assets s = received s.
Proof.
  unfold assets, received. f_equal; [f_equal|].
  - induction (st_ether s) as [|x l IH]; [done|]. cbn. by rewrite IH.
  - induction (st_subs s) as [|x l IH]; [done|]. cbn. by rewrite IH.
  - induction (st_proposed s) as [|x l IH]; [done|]. cbn [foldr]. rewrite filter_cons.
    destruct (sb_reward_type x) eqn:Hx; destruct (decide _); try congruence; cbn; rewrite IH; done.
Qed.

Lemma fresh_owed c : owed (or_st (new_oracle c)) = 0%Z ∧ received (or_st (new_oracle c)) = 0%Z.
Proof. split; [|done]. unfold owed. cbn. by rewrite !vsum_empty. Qed.

Lemma conservation c l o : wf_envs l → wf_blocks (c_pool c) l → run (new_oracle c) l o →
  owed (or_st o) = received (or_st o) ∧ offchain_reconciliation (or_st o) = true.
Proof.
  intros We Wb H. pose proof (run_accounting (new_oracle c) l o We Wb H) as Ha. destruct (fresh_owed c) as [H1 H2].
  assert (owed (or_st o) = received (or_st o)) as Heq by lia. split; [done|].
  unfold offchain_reconciliation. rewrite liabilities_owed, assets_received, Heq. apply Z.eqb_refl.
Qed.
