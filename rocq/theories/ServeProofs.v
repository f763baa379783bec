(** The endpoints as they are served, in reachable states. *)
From Verif Require Import ApiProofs.
From Verif Require Export OverlayProofs.

Lemma answered {A B} (f : A → B) (x : res (reply A)) b : (let! y := x in Ok (reply_map f y)) = Ok (Answer b) →
  ∃ a, x = Ok (Answer a) ∧ f a = b.
Proof. destruct x as [[a|c' m']|]; cbn; [|discriminate..]. intros [= <-]. by exists a. Qed.

(** C47 *)
Lemma serve_proof H sha cfg l o E a w p : evolve H (new_oracle cfg) l o → wf_env E →
  serve sha E (GetProof a) w o = Ok (Answer (BProof p)) →
  hex_text 40 a ∧ w_onchain w = Some (pf_root p, pf_slot p) ∧ pf_addr p = to_lower a ∧
  w_claimed w (to_lower a) = Some (pf_claimed p) ∧ pf_claimable p = (pf_balance p - pf_claimed p)%Z ∧
  ∃ l1 E1 l2 o1, l = l1 ++ Freeze E1 :: l2 ∧ evolve H (new_oracle cfg) l1 o1 ∧ st_latest (or_st o1) = pf_slot p ∧
    (∀ i, i ∈ pf_validators p ↔ ∃ v, st_vals (or_st o1) !! i = Some v ∧ to_lower (v_addr v) = to_lower a) ∧
    pf_pending p = vsum v_pend (filter (λ kv, to_lower (v_addr kv.2) = to_lower a) (st_vals (or_st o1))) ∧
    ∃ a20, spells a20 (to_lower a) ∧ entitled (or_st o1) a20 (pf_balance p) ∧
      (uint256 (pf_balance p) → ∃ pre root sibs, claim a20 (pf_balance p) pre ∧ pf_root p = "0x" +:+ hex_encode root ∧
        pf_proof p = (λ b, "0x" +:+ hex_encode b) <$> sibs ∧ proves H root sibs pre).
Proof. cbn [serve]. intros He W (x & Hx & [= ->])%answered. by eapply served_proof. Qed.

(** C48 *)
Lemma serve_withdrawal sha H cfg l0 o l o' n bs w a addr E vs pool20 :
  evolve H (new_oracle cfg) l0 o → wf_envs l → run o l o' → wf_env E →
  names pool20 (c_pool cfg) → names a addr →
  w_beacon w = Some bs → up_to_date bs (or_st o) →
  Forall (λ x, only_requests pool20 bs x.2) l → outsiders (or_st o) l → rising n l →
  w_subs w (u64_add (st_latest_block (or_st o)) 1) = Some (all_subs l) →
  w_unsubs w (u64_add (st_latest_block (or_st o)) 1) = Some (all_unsubs l) →
  serve sha E (GetByWithdrawal addr) w o = Ok (Answer (BViews vs)) →
  by_rising_index vs ∧
  (∀ i, (∃ x, x ∈ vs ∧ v_index (vw_info x) = i) ↔ withdrawing bs a i) ∧
  ∀ x, x ∈ vs → v_status (vw_info x) = shown (or_st o') (v_index (vw_info x)) ∧ v_addr (vw_info x) = "0x" +:+ hex_encode a ∧
    bs !! v_index (vw_info x) = Some (vw_beacon x).
Proof.
  cbn [serve]. intros He We Hr W Hp Ha Hb Hu Hq Ho Hri Hs Hus (x & Hx & [= ->])%answered.
  destruct (by_withdrawal_spec H cfg l0 o l o' n bs w a addr E vs pool20) as (H1 & H2 & H3); [done..|].
  split; [done|]. split; [done|]. intros y Hy. by destruct (H3 y Hy) as (? & ? & ? & _).
Qed.

(** C86 *)
Lemma serve_amounts sha H cfg l0 o l o' n bs w a addr E vs pool20 :
  evolve H (new_oracle cfg) l0 o → wf_envs l → run o l o' → wf_env E →
  names pool20 (c_pool cfg) → names a addr →
  w_beacon w = Some bs → up_to_date bs (or_st o) →
  Forall (λ x, only_requests pool20 bs x.2) l → outsiders (or_st o) l → rising n l →
  w_subs w (u64_add (st_latest_block (or_st o)) 1) = Some (all_subs l) →
  w_unsubs w (u64_add (st_latest_block (or_st o)) 1) = Some (all_unsubs l) →
  serve sha E (GetByWithdrawal addr) w o = Ok (Answer (BViews vs)) →
  ∀ x, x ∈ vs → v_acc (vw_info x) = default 0%Z (v_acc <$> st_vals (or_st o) !! v_index (vw_info x)) ∧
    (¬ subscribed (or_st o') (v_index (vw_info x)) ∨ all_unsubs l = [] ∧ st_donations (or_st o') = st_donations (or_st o) →
      v_pend (vw_info x) = pending_at (or_st o') (v_index (vw_info x))).
Proof.
  cbn [serve]. intros He We Hr W Hp Ha Hb Hu Hq Ho Hri Hs Hus (x & Hx & [= ->])%answered.
  destruct (by_withdrawal_spec H cfg l0 o l o' n bs w a addr E vs pool20) as (_ & _ & H3); [done..|].
  intros y Hy. by destruct (H3 y Hy) as (_ & _ & _ & ?).
Qed.

(** C87 *)
Lemma serve_reads sha E r w o x : plain_read r → serve sha E r w o = Ok x ↔ ∃ b, x = Answer b ∧ reads sha o r b.
Proof.
  intros Hr. unfold plain_read in Hr. rewrite !elem_of_cons in Hr.
  assert (∀ r b0, serve sha E r w o = Ok (Answer b0) → reads sha o r b0 → (∀ b, reads sha o r b → b = b0) →
    serve sha E r w o = Ok x ↔ ∃ b, x = Answer b ∧ reads sha o r b) as G.
  { intros r0 b0 H1 H2 H3. rewrite H1. split; [intros [= <-]; by exists b0|]. intros (b & -> & Hb). by rewrite (H3 b Hb). }
  destruct Hr as [->|[->|[->|[->|[->|[->|[->|[->|Hn]]]]]]]]; [..|by apply elem_of_nil in Hn].
  1-7: eapply G; [reflexivity|constructor|]; intros b Hb; inversion Hb; reflexivity.
  eapply G; [reflexivity|constructor; [reflexivity|]|].
  - destruct (or_st o); reflexivity.
  - intros b Hb. inversion Hb as [| | | | | | |s Hs Hc]. f_equal. unfold hash_state, hash_text, hexutil_encode. rewrite <- Hs.
    clear Hs Hb. destruct s, (or_st o). unfold set_hash in *. cbn in *. injection Hc. intros. subst. reflexivity.
Qed.

(** C49 *)
Lemma serve_survives H sha cfg l o E r w pool20 m : evolve H (new_oracle cfg) l o → wf_env E → wf_wire w → names pool20 (c_pool cfg) →
  serve sha E r w o ≠ Die (Fatal m).
Proof.
  intros He W Ww Hp Hd. destruct (reached_service _ _ _ _ He) as (_ & Hr & Hk & Hpo & _). rewrite <- Hpo in Hp.
  pose proof (serve_safe sha E r w o pool20 W Ww Hr Hk Hp) as Hs. rewrite Hd in Hs. exact Hs.
Qed.
Lemma serve_answers H sha cfg l o E r w pool20 : evolve H (new_oracle cfg) l o → wf_env E → wf_wire w → names pool20 (c_pool cfg) →
  ¬ trouble r w o → ∃ x, serve sha E r w o = Ok x.
Proof.
  intros He W Ww Hp Hd. destruct (reached_service _ _ _ _ He) as (_ & Hr & Hk & Hpo & _). rewrite <- Hpo in Hp.
  eapply safe_ok; [by eapply serve_safe|done].
Qed.

(** C64 *)
Lemma request_keeps H sha cfg l o r w : evolve H (new_oracle cfg) l o →
  ∃ h, after_request sha r w o = Oracle (or_cfg o) (set_hash h (or_st o)) ∧ (r ≠ GetState → h = st_hash (or_st o)).
Proof. intros He. destruct (reached_service _ _ _ _ He) as (_ & Hr & _). by apply after_request_hash. Qed.

(** C66 *)
Lemma serve_statistics sha E w o b : wf_env E → serve sha E GetStatistics w o = Ok (Answer (BStats b)) →
  let s := or_st o in
  let month_slot := Some (st_latest s - 216000)%N in let month_block := Some (st_latest_block s - 216000)%N in
  (ss_active b = with_status Active s ∧ ss_yellow b = with_status YellowCard s ∧ ss_red b = with_status RedCard s ∧
   ss_banned b = with_status Banned s ∧ ss_unsubscribed b = with_status NotSubscribed s ∧
   ss_subscribed b = (ss_active b + ss_yellow b + ss_red b)%N) ∧
  (ss_accumulated b = vsum v_acc (st_vals s) ∧ ss_pending b = vsum v_pend (st_vals s)) ∧
  (ss_donations b = sum_of (donated_after None s) ∧
   ss_sent b = (sum_of (rewards_of (pool_blocks None s)) + ss_donations b)%Z ∧
   ss_sent30 b = (sum_of (rewards_of (pool_blocks month_slot s)) + sum_of (donated_after month_block s))%Z) ∧
  (ss_proposed b = N.of_nat (length (st_proposed s)) ∧ ss_missed b = N.of_nat (length (st_missed s)) ∧ ss_wrong b = N.of_nat (length (st_wrong s))) ∧
  ss_per_validator b = (if decide (ss_subscribed b = 0%N) then 0 else ss_sent30 b / Z.of_N (ss_active b + ss_yellow b))%Z ∧
  ss_avg_block b = (if decide (pool_blocks None s = []) then 0 else ss_sent b / Z.of_nat (length (pool_blocks None s)))%Z ∧
  ss_latest_checkpoint b = st_latest s ∧ ss_next_checkpoint b = u64_add (st_latest s) (c_cp_size (or_cfg o)).
Proof. cbn [serve]. intros W (x & Hx & [= ->])%answered. exact (statistics_spec _ _ _ _ W Hx). Qed.
Lemma serve_balances sha E w cfg l o b : wf_env E → wf_envs l → wf_blocks (c_pool cfg) l → run (new_oracle cfg) l o →
  serve sha E GetStatistics w o = Ok (Answer (BStats b)) →
  (ss_accumulated b + ss_pending b + st_fees (or_st o) = received (or_st o))%Z.
Proof.
  intros W We Hb Hr Hs. apply serve_statistics in Hs as (_ & [Ha Hp] & _); [|done]. rewrite Ha, Hp.
  apply conservation in Hr as [Hc _]; [|done..]. exact Hc.
Qed.
Lemma balance_loop_spec bs vs acc : (acc < two64)%N →
  Z.of_N (balance_loop bs vs acc) = ((Z.of_N acc + total_of (effective bs) vs) mod 2 ^ 64)%Z.
Proof.
  assert (2 ^ 64 = Z.of_N two64)%Z as -> by reflexivity. assert (0 < two64)%N as Ht by reflexivity.
  revert acc. induction vs as [|v vs IH]; intros acc Ha; cbn [balance_loop total_of foldr].
  { rewrite Z.add_0_r, Z.mod_small by lia. done. }
  fold (total_of (effective bs) vs).
  assert (effective bs v = 0%Z → Z.of_N (balance_loop bs vs acc) = ((Z.of_N acc + (effective bs v + total_of (effective bs) vs)) mod Z.of_N two64)%Z) as Hz.
  { intros ->. by apply IH. }
  assert (∀ b, effective bs v = Z.of_N (b_effbal b) →
    Z.of_N (balance_loop bs vs (u64_add acc (b_effbal b))) = ((Z.of_N acc + (effective bs v + total_of (effective bs) vs)) mod Z.of_N two64)%Z) as Hs.
  { intros b ->. unfold u64_add, u64. rewrite IH by (apply N.mod_lt; lia). rewrite N2Z.inj_mod, N2Z.inj_add, Zplus_mod_idemp_l. f_equal. lia. }
  assert (effective bs v = match v_status v with Active | YellowCard | RedCard => default 0%Z ((λ b, Z.of_N (b_effbal b)) <$> bs !! v_index v) | _ => 0%Z end) as He by done.
  destruct (v_status v); try (apply Hz; done); destruct (bs !! v_index v) as [b|]; (apply Hz; done) || (apply (Hs b); done).
Qed.
Lemma serve_effective sha E w o b : wf_env E → serve sha E GetStatistics w o = Ok (Answer (BStats b)) →
  Z.of_N (ss_balance b) = (vsum (effective (beacon w)) (st_vals (or_st o)) mod 2 ^ 64)%Z ∧
  ss_avg_balance b = (if decide (ss_subscribed b = 0) then 0 else ss_balance b / ss_subscribed b)%N.
Proof.
  intros W. cbn [serve]. intros (x & Hx & [= ->])%answered. revert Hx. unfold statistics, if_ready.
  case_match; [|done]. case_match; [done|]. case_match; [done|].
  destruct (sent_loop _ _ _) as [[[sent recent] nok]|]; [|done]. cbn [rbind].
  destruct (donated_loop _ _ _) as [[don sent'] recent']. destruct (if (_ =? 0)%N then _ else _) as [per|]; [|done]. cbn [rbind].
  intros [= <-]. cbn. split.
  - rewrite balance_loop_spec by reflexivity. rewrite total_iter by done. done.
  - match goal with |- context [(?x =? 0)%N] => destruct (N.eqb_spec x 0) as [He|He] end; [by rewrite decide_True by exact He|by rewrite decide_False by exact He].
Qed.

(** C67 *)
Lemma serve_by_index H sha E cfg l o v w found missing : evolve H (new_oracle cfg) l o →
  serve sha E (GetByIndex v) w o = Ok (Answer (BFound found missing)) ↔
  ∃ is, asks v is ∧ (length is ≤ 100)%nat ∧ missing = filter (λ i, st_vals (or_st o) !! i = None) is ∧
    Forall2 (tracked_view (beacon w) (or_st o)) (filter (λ i, is_Some (st_vals (or_st o) !! i) ∧ is_Some (beacon w !! i)) is) found.
Proof.
  intros He. destruct (reached_service _ _ _ _ He) as (_ & Hr & _). rewrite <- by_index_spec by done. cbn [serve].
  destruct (validators_by_index v w o) as [[f m]|c m]; cbn; [|done]. split; [by intros [= -> ->]|by intros [= -> ->]].
Qed.
(** C68 *)
Lemma serve_validators H sha E cfg l o w vs : evolve H (new_oracle cfg) l o → wf_env E →
  serve sha E GetValidators w o = Ok (Answer (BViews vs)) →
  by_rising_index vs ∧ ∀ x, x ∈ vs ↔ tracked_view (beacon w) (or_st o) (v_index (vw_info x)) x.
Proof.
  intros He W. cbn [serve]. intros (x & Hx & [= ->])%answered. unfold all_validators, if_ready in Hx.
  destruct (oracle_ready 64 w (or_st o)); [|discriminate]. injection Hx as <-.
  destruct (reached_service _ _ _ _ He) as (_ & Hr & _). apply listing; [done|]. intros i v Hv. by apply (Hr i v).
Qed.
Lemma serve_validator sha E v w o x : serve sha E (GetValidator v) w o = Ok (Answer (BInfo x)) →
  ∃ i y, dec_text v ∧ dec_value v = i ∧ (i < 2 ^ 64)%N ∧ st_vals (or_st o) !! i = Some y ∧ x = set_index i y.
Proof.
  cbn [serve]. intros (y & Hy & [= ->])%answered. unfold one_validator, if_ready in Hy.
  destruct (oracle_ready 64 w (or_st o)); [|discriminate]. destruct (is_valid_index v) as [i|] eqn:Hv; [|discriminate].
  apply valid_index_spec in Hv as (H1 & H2 & H3). destruct (st_vals (or_st o) !! i) as [y|] eqn:Hi; [|discriminate]. injection Hy as <-.
  by exists i, y.
Qed.
Lemma serve_validator_exact H sha E cfg l o v w x : evolve H (new_oracle cfg) l o →
  serve sha E (GetValidator v) w o = Ok (Answer (BInfo x)) →
  dec_text v ∧ st_vals (or_st o) !! dec_value v = Some x.
Proof.
  intros He (i & y & Hd & <- & _ & Hy & ->)%serve_validator. split; [done|].
  destruct (reached_service _ _ _ _ He) as (_ & Hr & _). rewrite Hy. apply Hr in Hy as [Hi _]. rewrite <- Hi. by destruct y.
Qed.

(** C69 *)
Lemma serve_relays H sha cfg l o E key w pool20 b : evolve H (new_oracle cfg) l o → wf_wire w → names pool20 (c_pool cfg) →
  serve sha E (GetRelays key) w o = Ok (Answer (BRelays b)) →
  (∀ name, (name, RelayError) ∉ w_relays w) ∧
  (rl_ok b = true ↔ (∃ name, (name, RelayFee pool20) ∈ w_relays w) ∧ ∀ name f, (name, RelayFee f) ∈ w_relays w → f = pool20) ∧
  (∀ name, name ∈ rl_unknown b ↔ (name, RelayUnknown) ∈ w_relays w) ∧
  (∀ name, name ∈ (rl_correct b).*1 ↔ (name, RelayFee pool20) ∈ w_relays w) ∧
  (∀ name, name ∈ (rl_wrong b).*1 ↔ ∃ f, (name, RelayFee f) ∈ w_relays w ∧ f ≠ pool20).
Proof.
  intros He Ww Hp. destruct (reached_service _ _ _ _ He) as (_ & _ & _ & Hpo & _). rewrite <- Hpo in Hp.
  cbn [serve]. intros (x & Hx & [= ->])%answered. by eapply relays_spec.
Qed.

(** C70 *)
Lemma serve_status sha E w o b : serve sha E GetStatus w o = Ok (Answer (BStatus b)) →
  let s := or_st o in
  ∃ dist f root slot, w_sync w = SyncAt dist ∧ w_final w = Some f ∧ w_onchain w = Some (root, slot) ∧
    sy_finalized b = f ∧ sy_latest b = st_latest s ∧ sy_previous b = slot ∧ (sy_consensus b = true ↔ (dist ≤ 1)%N) ∧
    ((f < 2 ^ 64)%N → (st_latest s < 2 ^ 64)%N → (sy_oracle b = true ↔ st_latest s = f)) ∧
    ((f < 2 ^ 64)%N → (st_latest s ≤ f)%N → (st_latest s + sy_distance b = f)%N) ∧
    ((f < 2 ^ 60)%N → (slot ≤ f)%N → (c_cp_size (or_cfg o) < 2 ^ 60)%N →
      sy_next b = (slot + c_cp_size (or_cfg o))%N ∧ sy_age b = ((f - slot) * 12)%N ∧ sy_remaining b = ((sy_next b - f) * 12)%N).
Proof. cbn [serve]. intros (x & Hx & [= ->])%answered. by apply status_spec. Qed.

(** C67: every validator that was asked for is reported, if the beacon chain's list has the tracked ones. *)
Lemma asks_fun v is is' : asks v is → asks v is' → is = is'.
Proof.
  assert (∀ is, asks v is → mapM is_valid_index (split_at "," v) = Some is) as Hall.
  { intros l (Hn & ts & -> & Hf).
    assert (Forall (sep_free ","%char) ts) as Hfree.
    { clear Hn. induction Hf as [|t i ts is0 (Ht & _) Hf IH]; [constructor|]. apply Forall_cons. split; [by apply dec_text_free|done]. }
    assert (ts ≠ []) as Hts by (intros ->; by inversion Hf; subst).
    assert (split_at "," (String.concat "," ts) = ts) as Hsp by (by apply (split_concat ","%char)).
    rewrite Hsp. by apply mapM_index. }
  intros H1%Hall H2%Hall. congruence.
Qed.
Lemma serve_by_index_all H sha E cfg l o v w found missing is i : evolve H (new_oracle cfg) l o →
  (∀ i, is_Some (st_vals (or_st o) !! i) → is_Some (beacon w !! i)) →
  serve sha E (GetByIndex v) w o = Ok (Answer (BFound found missing)) → asks v is → i ∈ is →
  (st_vals (or_st o) !! i = None ∧ i ∈ missing) ∨ ∃ x, x ∈ found ∧ tracked_view (beacon w) (or_st o) i x.
Proof.
  intros He Hb Hs Ha Hi. apply (serve_by_index H sha E cfg l) in Hs as (is' & Ha' & _ & -> & Hf); [|done].
  rewrite (asks_fun v is' is) in * by done. clear Ha'.
  destruct (st_vals (or_st o) !! i) as [x|] eqn:Hx; [right|left; split; [done|]; by apply elem_of_list_filter].
  assert (i ∈ filter (λ i, is_Some (st_vals (or_st o) !! i) ∧ is_Some (beacon w !! i)) is) as Hin.
  { apply elem_of_list_filter. split; [|done]. split; [by eexists|]. apply Hb. by eexists. }
  apply elem_of_list_lookup in Hin as [k Hk]. apply (Forall2_lookup_l _ _ _ _ _ Hf) in Hk as (y & Hy & Ht).
  exists y. split; [by eapply elem_of_list_lookup_2|done].
Qed.

(** ** The rest of the status *)
Lemma status_rest sha E w o b : serve sha E GetStatus w o = Ok (Answer (BStatus b)) →
  sy_latest_block b = st_latest_block (or_st o) ∧ (sy_epoch b * 32 ≤ sy_finalized b < sy_epoch b * 32 + 32)%N ∧
  w_exec w = Some (sy_execution b) ∧ w_chain w = Some (sy_exec_chain b) ∧ w_deposit w = Some (sy_cons_chain b, sy_deposit b).
Proof.
  cbn [serve]. intros (x & Hx & [= ->])%answered. unfold handle_status in Hx.
  destruct (w_chain w) as [ch|]; [|done]. destruct (w_deposit w) as [[dc da]|]; [|done]. destruct (w_exec w) as [ex|]; [|done].
  destruct (w_sync w) as [| | |dist]; try done. destruct (w_final w) as [f|]; [|done]. destruct (w_onchain w) as [[root slot]|]; [|done].
  injection Hx as <-. cbn [sy_latest_block sy_epoch sy_finalized sy_execution sy_exec_chain sy_cons_chain sy_deposit]. split; [done|]. split; [|done].
  pose proof (N.div_mod f 32 ltac:(done)). pose proof (N.mod_lt f 32 ltac:(done)).
  revert H H0. generalize (f / 32)%N (f mod 32)%N. lia.
Qed.
Lemma status_answered sha E w o : (∃ b, serve sha E GetStatus w o = Ok (Answer (BStatus b))) ↔
  is_Some (w_chain w) ∧ is_Some (w_deposit w) ∧ is_Some (w_exec w) ∧ (∃ dist, w_sync w = SyncAt dist) ∧ is_Some (w_final w) ∧ is_Some (w_onchain w).
Proof.
  split.
  - intros [b Hb]. cbn [serve] in Hb. apply answered in Hb as (x & Hx & _). unfold handle_status in Hx.
    destruct (w_chain w) as [ch|]; [|done]. destruct (w_deposit w) as [[dc da]|]; [|done]. destruct (w_exec w) as [ex|]; [|done].
    destruct (w_sync w) as [| | |dist]; try done. destruct (w_final w) as [f|]; [|done]. destruct (w_onchain w) as [[root slot]|]; [|done]. eauto 10.
  - intros ([ch Hc] & [[dc da] Hd] & [ex He] & [dist Hs] & [f Hf] & [[root slot] Ho]). cbn [serve]. unfold handle_status.
    rewrite Hc, Hd, He, Hs, Hf, Ho. cbn [rbind reply_map]. by eexists.
Qed.
