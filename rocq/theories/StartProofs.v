(** Proofs about the beginning of the process and the requests to the beacon node. *)
From Verif Require Export StartSpec LoopProofs SyncProofs.

(** ** The command line *)
Lemma joined_cons x y l : joined (x :: y :: l) = x +:+ String "," (joined (y :: l)).
Proof. done. Qed.
Lemma split_nonempty sep s : split_at sep s ≠ [].
Proof. destruct s as [|c s]; [done|]. cbn. destruct (Ascii.eqb c sep); [done|]. by destruct (split_at sep s). Qed.
Lemma split_joined s : joined (split_at "," s) = s ∧ Forall comma_free (split_at "," s).
Proof.
  induction s as [|c s [IH1 IH2]]; [by split; [|apply Forall_cons]|]. cbn [split_at]. pose proof (split_nonempty "," s) as Hne.
  destruct (Ascii.eqb c ",") eqn:Hc.
  - apply Ascii.eqb_eq in Hc as ->. split; [|by apply Forall_cons]. destruct (split_at "," s) as [|w l]; [done|]. rewrite joined_cons. by rewrite IH1.
  - apply Ascii.eqb_neq in Hc. destruct (split_at "," s) as [|w l]; [done|]. apply Forall_cons in IH2 as [H1 H2]. split; [|by apply Forall_cons].
    destruct l as [|w' l]; [by rewrite <-IH1|]. rewrite joined_cons in IH1 |- *. by rewrite <-IH1.
Qed.
Lemma split_free e : comma_free e → split_at "," e = [e].
Proof.
  induction e as [|c e IH]; [done|]. intros [Hc He]. cbn [split_at]. rewrite (IH He). by apply Ascii.eqb_neq in Hc as ->.
Qed.
Lemma split_cons e s : comma_free e → split_at "," (e +:+ String "," s) = e :: split_at "," s.
Proof.
  induction e as [|c e IH]; [done|]. intros [Hc He]. rewrite scons_app. cbn [split_at]. rewrite (IH He). by apply Ascii.eqb_neq in Hc as ->.
Qed.
Lemma split_of_joined l : l ≠ [] → Forall comma_free l → split_at "," (joined l) = l.
Proof.
  induction l as [|x [|y l] IH]; [done| |]; intros _ [Hx Hl]%Forall_cons.
  - by apply split_free.
  - rewrite joined_cons, split_cons by done. f_equal. by apply IH.
Qed.
Lemma bad_none parses e : comma_free e → bad_endpoint parses e = None ↔ secure_url parses e.
Proof.
  intros Hc. unfold bad_endpoint, secure_url. split.
  - destruct (String.eqb e ""); [done|]. destruct (has_prefix e "https://") eqn:Hp; [|done]. destruct (parses e) eqn:Hs; [|done]. intros _.
    split; [done|]. split; [done|]. by apply has_prefix_app in Hp.
  - intros (Hs & _ & [rest He]). assert (has_prefix e "https://" = true) as -> by (apply has_prefix_app; eauto). rewrite Hs. by rewrite He.
Qed.
Lemma first_bad_none parses l : Forall comma_free l → first_bad parses l = None ↔ Forall (secure_url parses) l.
Proof.
  induction l as [|e l IH]; [done|]. intros [He Hl]%Forall_cons. cbn [first_bad]. rewrite Forall_cons, <-(IH Hl), <-(bad_none parses e He).
  destruct (bad_endpoint parses e); naive_solver.
Qed.
Lemma in_hex_iff d : ((String.length d =? 40)%nat && sforall is_hex_char d = true) ↔ ∃ a, in_hex a d.
Proof.
  split.
  - intros [Hl%Nat.eqb_eq Hx]%andb_prop. exists (hex2bytes d). by apply (hex2bytes_in_hex 20).
  - intros (a & Hl & Hd). rewrite <-(lower_length d), <-(lower_hex d), Hd, hex_encode_length, Hl. by rewrite (proj1 (hex_encode_ok a)).
Qed.
Lemma no_x d : sforall is_hex_char d = true → has_prefix d "0x" = false ∧ has_prefix d "0X" = false.
Proof.
  intros Hx. split; destruct (has_prefix d _) eqn:Hp; try done; apply has_prefix_app in Hp as [k ->]; discriminate Hx.
Qed.
Lemma hex_address_iff f : is_hex_address (f_pool f) = true ↔ addressed f.
Proof.
  unfold is_hex_address, addressed. cbv zeta. split.
  - intros H. destruct (has_prefix (f_pool f) "0x") eqn:H1; cbn [orb] in H.
    { apply in_hex_iff in H as [a Ha]. apply has_prefix_app in H1 as [k Hk]. rewrite Hk in Ha. exists a, k. split; [exact Ha|]. tauto. }
    destruct (has_prefix (f_pool f) "0X") eqn:H2.
    { apply in_hex_iff in H as [a Ha]. apply has_prefix_app in H2 as [k Hk]. rewrite Hk in Ha. exists a, k. split; [exact Ha|]. tauto. }
    apply in_hex_iff in H as [a Ha]. exists a, (f_pool f). tauto.
  - intros (a & d & Ha & Hd). assert (∃ a, in_hex a d) as Hs by eauto. apply in_hex_iff in Hs. destruct Hd as [->|[->| ->]].
    + apply andb_prop in Hs as [H1 H2]. destruct (no_x _ H2) as [-> ->]. cbn [orb]. by rewrite H1, H2.
    + assert (has_prefix ("0x" +:+ d) "0x" = true) as -> by (apply has_prefix_app; eauto). exact Hs.
    + assert (has_prefix ("0X" +:+ d) "0X" = true) as -> by (apply has_prefix_app; eauto). rewrite orb_true_r. exact Hs.
Qed.
Lemma keyed_iff f :
  keyed f ↔ (negb (f_dry f) && String.eqb (f_key_file f) "" = false ∧ negb (f_dry f) && String.eqb (f_key_pass f) "" = false ∧
    f_dry f && negb (String.eqb (f_key_file f) "") = false ∧ f_dry f && negb (String.eqb (f_key_pass f) "") = false).
Proof.
  unfold keyed. destruct (f_dry f); cbn [negb andb]; destruct (String.eqb_spec (f_key_file f) ""), (String.eqb_spec (f_key_pass f) ""); cbn [negb]; intuition congruence.
Qed.
Definition configured (f : flags) (l : list string) : cli :=
  Cli (f_dry f) (f_key_file f) (f_key_pass f) (f_retries f) (f_consensus f) (f_execution f) (f_pool f) (f_log_level f) (f_api_port f)
    (f_metrics_port f) (f_sync_url f) l.
Lemma cli_accepts parses f k : f_version f = false → new_cli_config parses f = Accepted k ↔
  keyed f ∧ addressed f ∧ ∃ l, relayed parses f l ∧ k = configured f l.
Proof.
  intros Hv. rewrite keyed_iff, <-hex_address_iff. unfold new_cli_config. rewrite Hv. cbv zeta.
  destruct (negb (f_dry f) && String.eqb (f_key_file f) ""); [split; [done|naive_solver]|].
  destruct (negb (f_dry f) && String.eqb (f_key_pass f) ""); [split; [done|naive_solver]|].
  destruct (f_dry f && negb (String.eqb (f_key_file f) "")); [split; [done|naive_solver]|].
  destruct (f_dry f && negb (String.eqb (f_key_pass f) "")); [split; [done|naive_solver]|].
  destruct (is_hex_address (f_pool f)); cbn [negb]; [|split; [done|intros (_ & [=] & _)]].
  destruct (split_joined (f_relayers f)) as [HJ HF]. pose proof (split_nonempty "," (f_relayers f)) as Hne. split.
  - intros H. do 2 (split; [done|]). exists (split_at "," (f_relayers f)).
    destruct (match split_at "," (f_relayers f) with [] => true | [e] => String.eqb e "" | _ => false end); [done|].
    destruct (first_bad parses (split_at "," (f_relayers f))) eqn:Hb; [done|]. injection H as <-. split; [|done].
    split; [done|]. split; [done|]. by apply first_bad_none.
  - intros (_ & _ & l & (Hn & Hj & Hs) & ->).
    assert (Forall comma_free l) as Hfree by (eapply Forall_impl; [exact Hs|]; intros e (_ & H & _); exact H).
    assert (split_at "," (f_relayers f) = l) as -> by (rewrite Hj; by apply split_of_joined).
    assert (match l with [] => true | [e] => String.eqb e "" | _ => false end = false) as ->.
    { destruct l as [|e [|]]; [done| |done]. apply Forall_cons in Hs as [(_ & _ & rest & ->) _]. done. }
    by rewrite (proj2 (first_bad_none parses l Hfree) Hs).
Qed.
Lemma cli_iff parses f : f_version f = false → (∃ k, new_cli_config parses f = Accepted k) ↔ consistent parses f.
Proof.
  intros Hv. unfold consistent. split.
  - intros [k (H1 & H2 & l & H3 & _)%(cli_accepts _ _ _ Hv)]. eauto.
  - intros (H1 & H2 & l & H3). exists (configured f l). apply cli_accepts; [done|]. eauto.
Qed.

(** ** Addresses *)
Lemma pool_names f : addressed f → String.length (f_pool f) = 42%nat → names (hex_to_address (f_pool f)) (f_pool f).
Proof.
  intros (a & d & Hs & Hd) Hl. assert (∃ a, in_hex a d) as Hex by eauto.
  apply in_hex_iff, andb_prop in Hex as [Hn%Nat.eqb_eq Hx]. destruct (hex2bytes_in_hex 20 d Hn Hx) as [H1 H2].
  unfold names, hex_to_address. destruct Hd as [Hd|[Hd|Hd]]; rewrite Hd in Hl |- *.
  - lia.
  - assert (has_prefix ("0x" +:+ d) "0x" = true) as -> by (apply has_prefix_app; eauto). split; [exact H1|].
    change (to_lower ("0x" +:+ d)) with ("0x" +:+ to_lower d). by rewrite H2.
  - assert (has_prefix ("0X" +:+ d) "0X" = true) as -> by (apply has_prefix_app; eauto). rewrite orb_true_r. split; [exact H1|].
    change (to_lower ("0X" +:+ d)) with ("0x" +:+ to_lower d). by rewrite H2.
Qed.
Lemma odd_pool nd E pool all slot s ca c r : nd_block nd slot = Some (Some c) → String.length (p_fee_recipient (cb_payload c)) = 20%nat →
  String.length pool ≠ 42%nat → fetch_full_block nd E pool all slot s ca ≠ Ok r.
Proof.
  intros Hb Hc Hl Hf. unfold fetch_full_block in Hf.
  apply rbind_ok in Hf as ([d ca1] & _ & Hf). apply rbind_ok in Hf as (d' & _ & Hf). destruct (negb _); [done|].
  apply rbind_ok in Hf as (v & _ & Hf). apply rbind_ok in Hf as (fb & _ & Hf). rewrite Hb in Hf. cbn [must rbind] in Hf.
  apply rbind_ok in Hf as (fb' & Hf & _). unfold fetch_proposed in Hf.
  apply rbind_ok in Hf as (fb1 & H1 & Hf). apply rbind_ok in Hf as (sl & _ & Hf). destruct (negb _); [done|].
  apply rbind_ok in Hf as (n & _ & Hf). apply rbind_ok in Hf as (ev & _ & Hf). apply rbind_ok in Hf as (fb2 & H2 & Hf).
  apply rbind_ok in Hf as (subs & _ & Hf). apply rbind_ok in Hf as (unsubs & _ & Hf). cbv zeta in Hf.
  apply rbind_ok in Hf as (prop & _ & Hf). apply rbind_ok in Hf as (rw & Hw & _). unfold is_address_rewarded in Hw.
  apply rbind_ok in Hw as (fr & Hfr & Hw). apply rbind_ok in Hw as (e & He & _).
  unfold get_fee_recipient in Hfr. apply rbind_ok in Hfr as (p & Hp & Hfr). injection Hfr as <-.
  assert (p = cb_payload c) as ->.
  { assert (fb_cblock fb1 = Some c) as E1. { unfold set_consensus_block in H1. destruct (negb _); [done|]. destruct (cb_version c); try discriminate H1; (destruct (negb _); [done|]); by injection H1 as <-. }
    assert (fb_cblock fb2 = Some c) as E2. { unfold set_block_events in H2. cbv zeta in H2. apply rbind_ok in H2 as (ok & _ & H2). destruct (negb ok); [done|].
      destruct (_ =? _)%N; [apply rbind_ok in H2 as (s0 & _ & H2); destruct (_ =? _)%N|]. all: by injection H2 as <-. }
    unfold get_payload in Hp. cbn [set_request_validators fb_cblock] in Hp. unfold need_cblock in Hp. cbn [set_request_validators fb_cblock] in Hp.
    rewrite E2 in Hp. cbn [rbind] in Hp. destruct (cb_version c); congruence. }
  unfold equals in He. rewrite addr_string_length, Hc in He. destruct (Nat.eqb_spec (2 + 2 * 20) (String.length pool)) as [Hq|]; [by rewrite <-Hq in Hl|discriminate He].
Qed.

(** ** Permission *)
Lemma connected_chain A : connect A = (true, None) →
  ∃ z n, co_chain A = Some z ∧ co_deposit A = Some n ∧ n = u64 (Z.to_N (int64_of_big z mod 18446744073709551616)).
Proof.
  unfold connect. destruct (co_dial A); [done|]. destruct (co_chain A) as [z|]; [|done]. destruct (co_client A); [done|].
  destruct (co_deposit A) as [n|]; [|done]. unfold new_onchain.
  destruct (N.eqb_spec n (u64 (Z.to_N (int64_of_big z mod 18446744073709551616)))) as [Hn|]; cbn [negb]; [|done]. eauto.
Qed.
Lemma permitted A k : may_report A k = Ok tt → connect (bo_connect A) = (true, None) ∧ (k_dry k = false → licensed A).
Proof.
  unfold may_report. intros H. apply rbind_ok in H as (who & Hw & H). destruct (connect (bo_connect A)) as [[] [e|]] eqn:Hc; [done| |done..].
  cbn [negb] in H. split; [done|]. intros Hd. rewrite Hd in Hw, H. apply must_ok in Hw.
  apply rbind_ok in H as (listed & Hl & H). apply must_ok in Hl. destruct listed; [|done]. cbn [negb] in H.
  apply rbind_ok in H as (z & Hz & H). apply must_ok in Hz. destruct (Z.eqb_spec z 0) as [|Hne]; [done|].
  unfold is_whitelisted in Hl. destruct (bo_members A) as [members|] eqn:Hm; [|done]. injection Hl as Hl.
  apply existsb_exists in Hl as (x & Hx & E%String.eqb_eq). subst x. exists who, members, z. split; [done|]. split; [done|].
  split; [by apply elem_of_list_In|]. done.
Qed.
Lemma permitted_iff A k : connect (bo_connect A) = (true, None) → (k_dry k = false → licensed A) → may_report A k = Ok tt.
Proof.
  intros Hc He. unfold may_report. rewrite Hc. destruct (k_dry k); [done|]. destruct (He eq_refl) as (who & members & z & -> & Hm & Hin & -> & Hz).
  cbn [must rbind negb]. rewrite Hm. cbn [is_whitelisted]. cbn [must rbind]. assert (existsb (String.eqb who) members = true) as ->.
  { apply existsb_exists. exists who. split; [by apply elem_of_list_In|]. apply String.eqb_refl. }
  cbn [negb]. by destruct (Z.eqb_spec z 0).
Qed.
Definition dry (o : oracle) : bool := c_dry_run (or_cfg o).
Lemma dry_bytes sha H E raw o : match load_bytes sha H E raw o with Done o' _ | Fail o' _ => dry o' = dry o | Dead _ => True end.
Proof.
  unfold dry. destruct (load_bytes sha H E raw o) as [o' b|o' e|] eqn:Hl; [| |done].
  - apply load_inv in Hl as (s & _ & _ & _ & _ & Hc & _). apply checks_inv in Hc as (_ & _ & -> & _). by destruct (or_cfg o).
  - apply load_fail in Hl as [_ ->]. by destruct (or_cfg o).
Qed.
Lemma dry_path sha H E fs p o : match load_path sha H E fs p o with Done o' _ | Fail o' _ => dry o' = dry o | Dead _ => True end.
Proof. unfold load_path. destruct (fs !! p) as [raw|]; [apply dry_bytes|done]. Qed.
Lemma dry_given sha H E fs slot o : match load_given sha H E fs slot o with Done o' _ | Fail o' _ => dry o' = dry o | Dead _ => True end.
Proof.
  unfold load_given. cbv zeta. pose proof (dry_path sha H E fs (slot_path slot) o) as D1.
  destruct (load_path sha H E fs (slot_path slot) o) as [o1 []|o1 e|] eqn:E1; [done| |done|done].
  pose proof (path_untouched sha H E fs (slot_path slot) o) as U1. rewrite E1 in U1. subst o1.
  pose proof (dry_path sha H E fs (slot_path (try_slot (or_cfg o) slot 1)) o) as D2.
  destruct (load_path sha H E fs (slot_path (try_slot (or_cfg o) slot 1)) o) as [o2 []|o2 e|] eqn:E2; [done| | |done].
  - rewrite <-D2. apply dry_path.
  - rewrite <-D2. apply dry_path.
Qed.
Lemma dry_startup sha H E sync onchain fs c o : startup sha H E sync onchain fs c = Ok o → dry o = c_dry_run c.
Proof.
  unfold startup, load_json. set (L := match sync with Some raw => _ | None => _ end).
  assert (match L with Done o' _ | Fail o' _ => dry o' = dry (new_oracle c) | Dead _ => True end) as HL.
  { subst L. destruct sync; [apply dry_bytes|apply dry_path]. }
  destruct L as [o1 b|o1 e|d]; [|done..]. destruct onchain as [slot|]; [|done]. destruct (negb _ && _).
  - pose proof (dry_given sha H E fs slot o1) as Hg. destruct (load_given sha H E fs slot o1) as [o2 []|o2 e|]; [|done..]. intros [= <-].
    by rewrite Hg, HL.
  - by intros [= <-].
Qed.
Lemma dry_config E args sel p20 A pool b c : get_config E args sel p20 A pool b = Ok c → c_dry_run c = b ∧ c_pool c = pool.
Proof. intros H. unfold get_config in H. inv_res. case_match; [done|]. inv_res. case_match; [done|]. inv_res. by subst c. Qed.
Lemma boot_inv sha H E args sel A k fs o : boot sha H E args sel A k fs = Ok o →
  may_report A k = Ok tt ∧ dry o = k_dry k.
Proof.
  unfold boot. destruct (bo_folder A); [done|]. destruct (negb _); [done|]. intros Hb. apply rbind_ok in Hb as ([] & Hm & Hb).
  split; [done|]. apply rbind_ok in Hb as (c & Hc & Hb). apply dry_config in Hc as [<- _]. destruct (String.eqb _ _).
  - by eapply dry_startup.
  - unfold sync_startup in Hb. destruct (bo_sync A) as [|status body]; [done|]. destruct (negb _); [done|]. destruct body as [raw|]; [|done].
    by eapply dry_startup.
Qed.
Lemma dry_advance E fb o o' n : advance E fb o = Done o' n → dry o' = dry o.
Proof.
  unfold dry. intros [(_ & -> & _)|(fee & lg & z & _ & _ & _ & _ & ->)]%advance_fee; [done|]. by destruct (or_cfg o).
Qed.
Lemma dry_step sha H a m x m' : step sha H a m = (x, Ok m') → dry (m_or m') = dry (m_or m).
Proof.
  unfold step, stay. intros Hs. destruct (m_pc m) as [| | |c|c|c|c|].
  - injection Hs as _ Hs. unfold step_top in Hs. cbv zeta in Hs. destruct (are_nodes_in_sync _ _) as [[]|]; [|by injection Hs as <-|done].
    destruct (an_final a) as [f|]; [|by injection Hs as <-]. destruct (_ <=? _)%N.
    + apply rbind_ok in Hs as ([fb ca] & _ & Hs). destruct (advance _ _ _) as [o1 n1| |] eqn:Ha; [|done..]. injection Hs as <-. by eapply dry_advance.
    + destruct (an_due a); [|by injection Hs as <-]. apply rbind_ok in Hs as (? & _ & Hs). apply rbind_ok in Hs as (cl & _ & Hs).
      destruct (an_balance a), cl; try (by injection Hs as <-). destruct (onchain_reconciliation _ _ _); [by injection Hs as <-|done].
  - injection Hs as _ Hs. unfold step_processed in Hs. cbv zeta in Hs. destruct (_ && _); [done|].
    apply rbind_ok in Hs as ([[]|] & _ & Hs); [|by injection Hs as <-|done]. destruct (offchain_reconciliation _); [by injection Hs as <-|done].
  - injection Hs as _ Hs. unfold step_freezing in Hs. cbv zeta in Hs. apply rbind_ok in Hs as ([s' []] & _ & Hs); [|by injection Hs as <-].
    destruct (latest_committed_state _ _); [by injection Hs as <-|done].
  - injection Hs as _ Hs. unfold step_polling in Hs. repeat (case_match; try done); by injection Hs as <-.
  - injection Hs as _ Hs. unfold step_resting in Hs. repeat (case_match; try done); by injection Hs as <-.
  - unfold step_deciding, fatal in Hs. cbv zeta in Hs. destruct (an_onchain a) as [[root os]|]; [|done].
    destruct (negb _ && _); [|by injection Hs as _ <-]. destruct (update_root _ _ _) as [sent [e|]]; [|by injection Hs as _ <-].
    destruct (contains _ _); [by injection Hs as _ <-|done].
  - injection Hs as _ Hs. unfold step_waiting in Hs. repeat (case_match; try done); by injection Hs as <-.
  - injection Hs as _ <-. done.
Qed.
Definition dry_life (b : bool) (L : life) : Prop := match L with Down _ => True | Up m => dry (m_or m) = b end.
Lemma dry_live sha H c0 e L b : no_start e → dry_life b L → dry_life b (live sha H c0 e L).2 ∧ (is_Some (live sha H c0 e L).1 → b = false).
Proof.
  intros Hn Hd. split.
  - destruct L as [fs|m]; [by destruct e|]. destruct e as [E sync onchain|a| |d|d]; cbn [live]; [done| |done..].
    destruct (step sha H a m) as [x [m'|]] eqn:Hs; [|done]. cbn. by rewrite (dry_step _ _ _ _ _ _ Hs).
  - intros [[slot bytes] Hs]. destruct (live sha H c0 e L) as [x L'] eqn:Hl. cbn in Hs. subst x.
    apply live_sends in Hl as (a & m & c & root & os & -> & _ & _ & _ & Hd' & _). by rewrite <-Hd.
Qed.
Lemma dry_lifetime sha H c0 l L b : Forall no_start l → dry_life b L → (lifetime sha H c0 l L).1 ≠ [] → b = false.
Proof.
  revert L. induction l as [|e l IH]; intros L Hn Hd; [done|]. apply Forall_cons in Hn as [Hn Hl]. cbn [lifetime].
  destruct (dry_live sha H c0 e L b Hn Hd) as [D1 D2]. destruct (live sha H c0 e L) as [x L1]. cbn in D1, D2.
  specialize (IH L1 Hl D1). destruct (lifetime sha H c0 l L1) as [xs L2]. cbn in IH. destruct x as [x|]; [eauto|]. exact IH.
Qed.
Lemma reports_entitled sha H E args sel A k fs o c0 l : boot sha H E args sel A k fs = Ok o → Forall no_start l →
  (lifetime sha H c0 l (Up (Machine Begin o empty_cache fs))).1 ≠ [] → k_dry k = false ∧ licensed A.
Proof.
  intros [Hm Hd]%boot_inv Hn Hs. assert (k_dry k = false) as Hk by (eapply (dry_lifetime sha H c0 l); [exact Hn| |exact Hs]; exact Hd). split; [done|]. by apply (permitted A k Hm).
Qed.
Lemma boot_chain sha H E args sel A k fs o z : boot sha H E args sel A k fs = Ok o → co_chain (bo_connect A) = Some z →
  (0 ≤ z < 9223372036854775808)%Z → same_chain_id A.
Proof.
  intros [Hm _]%boot_inv Hzc Hz. apply (permitted A k) in Hm as [Hc _]. apply connected_chain in Hc as (z' & n & Hzc' & Hn & Hu).
  assert (z' = z) as -> by congruence. exists z, n. split; [done|]. split; [done|].
  rewrite Hu, int64_of_big_small by done. rewrite Z.mod_small by lia. unfold u64, two64. rewrite N.mod_small by lia. lia.
Qed.

(** ** The validators *)
Definition later (m : N) (kv : N * bval) : N :=
  if negb (b_activation kv.2 =? two64 - 1)%N && (m <? b_activation kv.2)%N then b_activation kv.2 else m.
Lemma later_spec l : ∀ m, let r := foldl later m l in
  (m ≤ r)%N ∧ (r = m ∨ ∃ kv, kv ∈ l ∧ b_activation kv.2 = r ∧ r ≠ (two64 - 1)%N) ∧
  (∀ kv, kv ∈ l → b_activation kv.2 ≠ (two64 - 1)%N → (b_activation kv.2 ≤ r)%N).
Proof.
  induction l as [|x l IH]; intros m; cbv zeta; cbn [foldl].
  { split; [lia|]. split; [by left|]. by intros kv ?%elem_of_nil. }
  destruct (IH (later m x)) as (H1 & H2 & H3).
  assert ((m ≤ later m x)%N ∧ (later m x = m ∨ b_activation x.2 = later m x ∧ later m x ≠ (two64 - 1)%N) ∧
    (b_activation x.2 ≠ (two64 - 1)%N → (b_activation x.2 ≤ later m x)%N)) as (L1 & L2 & L3).
  { unfold later. destruct (N.eqb_spec (b_activation x.2) (two64 - 1)) as [E|E]; cbn [negb andb].
    - split; [lia|]. split; [by left|]. intros Hn. contradiction.
    - destruct (N.ltb_spec m (b_activation x.2)); (split; [lia|]); (split; [|intros _; lia]); [right; by split|by left]. }
  split; [lia|]. split.
  - destruct H2 as [->|(kv & Hin & Hk & Hne)]; [|right; exists kv; split; [by right|done]]. destruct L2 as [->|[L2 L4]]; [by left|].
    right. exists x. split; [by left|done].
  - intros kv [->|Hin]%elem_of_cons Hne; [|by apply H3]. specialize (L3 Hne). lia.
Qed.
Lemma at_index_elem (l : list (N * bval)) i v : NoDup l.*1 → at_index i l = Some v ↔ (i, v) ∈ l.
Proof.
  intros Hn. unfold at_index. induction l as [|[k x] l IH]; [split; [done|by intros ?%elem_of_nil]|]. cbn in Hn. apply NoDup_cons in Hn as [Hk Hn].
  cbn [List.find fst]. destruct (N.eqb_spec k i) as [->|Hne].
  - cbn. rewrite elem_of_cons. split; [intros [= ->]; by left|]. intros [[= ->]|Hin]; [done|]. exfalso. apply Hk. apply elem_of_list_fmap. by exists (i, v).
  - rewrite IH by done. rewrite elem_of_cons. split; [by right|]. intros [[= -> ->]|Hin]; [done|done].
Qed.
Lemma refreshed vals vals' i slot : indexed vals → refresh_validators (Some vals) = Ok (vals', i, slot) →
  vals' = vals ∧ i = (N.of_nat (length vals) - 1)%N ∧ (∃ v, (i, v) ∈ vals) ∧
  ∃ k v, (k, v) ∈ vals ∧ activated v ∧ slot = ((32 * b_activation v) mod two64)%N ∧
    ∀ k' v', (k', v') ∈ vals → activated v' → (b_activation v' ≤ b_activation v)%N.
Proof.
  intros [Hn Hi] H. unfold refresh_validators in H. cbn [must rbind] in H. destruct vals as [|x l]; [done|]. set (vals := x :: l) in *.
  destruct (at_index (N.of_nat (length vals) - 1) vals) as [v|] eqn:He; [|done]. apply at_index_elem in He; [|done].
  apply rbind_ok in H as (slot' & Ha & H). injection H as <- <- <-. split; [done|].
  assert (b_index v = (N.of_nat (length vals) - 1)%N) as ->. { rewrite Forall_forall in Hi. by apply (Hi (_, v)). }
  split; [done|]. split; [by exists v|]. unfold activation_slot in Ha.
  change (let latest := foldl later 0%N vals in (if (latest =? 0)%N then Die (Fatal "latestEpoch is 0") else Ok (u64_mul latest 32)) = Ok slot') in Ha.
  cbv zeta in Ha. destruct (later_spec vals 0) as (_ & H2 & H3). destruct (N.eqb_spec (foldl later 0%N vals) 0) as [|Hne]; [done|]. injection Ha as <-.
  destruct H2 as [|([k w] & Hin & Hk & Hf)]; [done|]. cbn in Hk. exists k, w. split; [done|].
  split; [unfold activated; rewrite Hk; by split|]. split; [unfold u64_mul, u64; by rewrite Hk, N.mul_comm|].
  intros k' v' Hin' [_ Hl]. rewrite Hk. by apply (H3 (k', v') Hin').
Qed.
Lemma refresh_ok vals : indexed vals → (∃ v, ((N.of_nat (length vals) - 1)%N, v) ∈ vals) → (∃ k v, (k, v) ∈ vals ∧ activated v) →
  ∃ i slot, refresh_validators (Some vals) = Ok (vals, i, slot).
Proof.
  intros [Hn Hi] [v Hv] (k & w & Hw & Ha). unfold refresh_validators. cbn [must rbind]. destruct vals as [|x l]; [by apply elem_of_nil in Hv|].
  set (vals := x :: l) in *. rewrite (proj2 (at_index_elem vals _ v Hn) Hv). exists (b_index v), (u64_mul (foldl later 0%N vals) 32).
  assert (activation_slot vals = Ok (u64_mul (foldl later 0%N vals) 32)) as ->; [|done].
  change ((if (foldl later 0%N vals =? 0)%N then Die (Fatal "latestEpoch is 0") else Ok (u64_mul (foldl later 0%N vals) 32)) = Ok (u64_mul (foldl later 0%N vals) 32)).
  destruct (later_spec vals 0) as (_ & _ & H3). destruct Ha as [Ha1 Ha2]. specialize (H3 (k, w) Hw Ha2). cbn in H3.
  destruct (N.eqb_spec (foldl later 0%N vals) 0) as [E0|]; [|done]. exfalso. apply Ha1, N.le_0_r. rewrite <-E0. exact H3.
Qed.
Lemma refresh_iff vals : indexed vals → (∃ r, refresh_validators (Some vals) = Ok r) ↔
  (∃ v, ((N.of_nat (length vals) - 1)%N, v) ∈ vals) ∧ (∃ k v, (k, v) ∈ vals ∧ activated v).
Proof.
  intros Hi. split.
  - intros [[[vals' i] slot] H]. apply refreshed in H as (_ & -> & H1 & k & v & H2 & H3 & _); [|done]. eauto.
  - intros [H1 H2]. destruct (refresh_ok vals Hi H1 H2) as (i & slot & H). eauto.
Qed.

(** ** The pending consolidations *)
Lemma codec_index : fits_codec (λ n, (n < two64)%N) (λ n, JStr (print_N n)) dec_index.
Proof. intros n Hn. split; [by apply read_u64_print|done]. Qed.
Lemma codec_pair : fits_codec (λ x : N * N, (x.1 < two64)%N ∧ (x.2 < two64)%N) enc_pair dec_consolidation.
Proof.
  intros [a b] [Ha Hb]. cbn [fst snd] in *. split; [|done]. unfold enc_pair, dec_consolidation. cbn [fst snd].
  set (L := [_; _]). assert (keys_apart L) as HL by (unfold L; apart).
  rewrite (may_enum_ok _ _ _ _ "source_index" L a HL codec_index) by first [unfold L; solve [member]|exact Ha]. cbn [mbind option_bind].
  rewrite (may_enum_ok _ _ _ _ "target_index" L b HL codec_index) by first [unfold L; solve [member]|exact Hb]. done.
Qed.
Lemma answer_ok version o f l : uint64s l → dec_consolidations (beacon_answer version o f l) = Some l ∧ wf_json (beacon_answer version o f l).
Proof.
  intros Hl. destruct (codec_list _ _ _ codec_pair l Hl) as [Hd Hw]. unfold enc_list in Hd, Hw. split.
  - unfold beacon_answer, dec_consolidations. set (L := [_; _; _; _]). assert (keys_apart L) as HL by (unfold L; apart).
    unfold may. rewrite (field_present "version" (JStr version) L HL) by (unfold L; member). cbn [dec_str mbind option_bind].
    rewrite (field_present "execution_optimistic" (JBool o) L HL) by (unfold L; member). cbn [dec_bool mbind option_bind].
    rewrite (field_present "finalized" (JBool f) L HL) by (unfold L; member). cbn [dec_bool mbind option_bind].
    rewrite (field_present "data" (JArr (enc_pair <$> l)) L HL) by (unfold L; member). exact Hd.
  - unfold beacon_answer. apply wf_obj. do 3 (apply Forall_cons; split; [done|]). apply Forall_cons; split; [exact Hw|done].
Qed.
Lemma consolidations_read version o f l rest : uint64s l →
  consolidations_of (Received 200 (compact (beacon_answer version o f l) +:+ rest)) = Some l.
Proof.
  intros Hl. destruct (answer_ok version o f l Hl) as [Hd Hw]. unfold consolidations_of. cbn [N.eqb Pos.eqb negb].
  pose proof (value_compact _ Hw (S (String.length (compact (beacon_answer version o f l)))) "" ltac:(lia) I) as Hv. rewrite sapp_nil_r in Hv.
  rewrite (value_ext _ _ _ _ rest (S (String.length (compact (beacon_answer version o f l) +:+ rest))) Hv); [exact Hd| |by right].
  rewrite string_length_app. lia.
Qed.
Lemma value_cut l p x : wf_json (JObj l) → compact (JObj l) = p +:+ x → x ≠ "" → value (S (String.length p)) p = None.
Proof.
  intros Hw Hp Hx. destruct (value (S (String.length p)) p) as [[j r]|] eqn:E; [|done]. exfalso.
  assert (∀ lit, j ≠ JNum lit) as Hj.
  { intros lit ->. destruct p as [|c p]; [done|].
    assert (c = "{"%char) as -> by (cbn [compact] in Hp; rewrite !scons_app in Hp; injection Hp as <- _; done).
    cbn [value] in E. rewrite skip_char in E by done. change ((N_of_ascii "{" =? 123)%N) with true in E. cbv iota in E.
    destruct (skip p) as [|c' r']; [done|]. destruct (_ =? _)%N; [done|]. destruct (object_items _ _ _) as [[]|]; done. }
  pose proof (value_compact (JObj l) Hw (S (String.length (compact (JObj l)))) "" ltac:(lia) I) as Hfull.
  rewrite sapp_nil_r in Hfull.
  pose proof (value_ext _ _ _ _ x (S (String.length (compact (JObj l)))) E) as He.
  rewrite Hp, string_length_app in He. specialize (He ltac:(lia) (or_intror Hj)).
  rewrite Hp, string_length_app, He in Hfull. injection Hfull as _ Hnil.
  destruct r; [by destruct x|done].
Qed.
Lemma consolidations_cut version o f l p x status : uint64s l → compact (beacon_answer version o f l) = p +:+ x → x ≠ "" →
  consolidations_of (Received status p) = None.
Proof.
  intros Hl Hp Hx. destruct (answer_ok version o f l Hl) as [_ Hw]. unfold consolidations_of. destruct (negb _); [done|].
  by rewrite (value_cut _ p x Hw Hp Hx).
Qed.
(** ** Trying again *)
Lemma unlimited {A} (l : list (option A)) : attempts None l ≠ GaveUp ∧
  (∀ a, attempts None l = Got a ↔ ∃ fails more, l = fails ++ Some a :: more ∧ Forall (λ x, x = None) fails).
Proof.
  induction l as [|[b|] l [IH1 IH2]]; (split; [done|]); intros a.
  - split; [done|]. by intros ([] & more & ? & _).
  - cbn. split.
    + intros [= ->]. exists [], l. done.
    + intros ([|x fails] & more & E & Hf); [by injection E as -> _|]. injection E as <- _. by apply Forall_cons in Hf as [? _].
  - cbn. rewrite IH2. split.
    + intros (fails & more & -> & Hf). exists (None :: fails), more. split; [done|]. by apply Forall_cons.
    + intros ([|x fails] & more & E & Hf); [done|]. injection E as <- ->. apply Forall_cons in Hf as [_ Hf]. eauto.
Qed.
Lemma limited {A} n (l : list (option A)) : (n ≤ length l)%nat →
  (attempts (Some n) l = GaveUp ↔ Forall (λ x, x = None) (take n l)) ∧
  (∀ a, attempts (Some n) l = Got a ↔ ∃ fails more, l = fails ++ Some a :: more ∧ (length fails < n)%nat ∧ Forall (λ x, x = None) fails).
Proof.
  revert l. induction n as [|n IH]; intros l Hn.
  { assert (attempts (Some 0) l = GaveUp) as -> by (by destruct l). split; [split; [intros _; apply Forall_nil_2|done]|]. intros a. split; [done|]. intros (fails & more & _ & Hf & _). lia. }
  destruct l as [|[b|] l]; [cbn in Hn; lia|..]; cbn [length] in Hn.
  - cbn. split; [split; [done|by intros [? _]%Forall_cons]|]. intros a. split.
    + intros [= ->]. exists [], l. split; [done|]. split; [cbn; lia|done].
    + intros ([|x fails] & more & E & _ & Hf); [by injection E as -> _|]. injection E as <- _. by apply Forall_cons in Hf as [? _].
  - destruct (IH l ltac:(lia)) as [H1 H2]. cbn. split; [rewrite H1, Forall_cons; tauto|]. intros a. rewrite H2. split.
    + intros (fails & more & -> & Hl & Hf). exists (None :: fails), more. split; [done|]. split; [cbn; lia|]. by apply Forall_cons.
    + intros ([|x fails] & more & E & Hl & Hf); [done|]. injection E as <- ->. apply Forall_cons in Hf as [_ Hf]. exists fails, more. cbn in Hl. split; [done|]. split; [lia|done].
Qed.

(** ** As stated *)
Lemma cli_is parses f k : f_version f = false → new_cli_config parses f = Accepted k →
  k_dry k = f_dry f ∧ k_key_file k = f_key_file f ∧ k_key_pass k = f_key_pass f ∧ k_retries k = f_retries f ∧
  k_consensus k = f_consensus f ∧ k_execution k = f_execution f ∧ k_pool k = f_pool f ∧ k_log_level k = f_log_level f ∧
  k_api_port k = f_api_port f ∧ k_metrics_port k = f_metrics_port f ∧ k_sync_url k = f_sync_url f ∧ relayed parses f (k_relayers k).
Proof. intros Hv (_ & _ & l & Hl & ->)%(cli_accepts _ _ _ Hv). do 11 (split; [done|]). exact Hl. Qed.
Lemma accepted_names parses f k : f_version f = false → new_cli_config parses f = Accepted k →
  String.length (k_pool k) = 42%nat → names (hex_to_address (k_pool k)) (k_pool k).
Proof. intros Hv (_ & Ha & l & _ & ->)%(cli_accepts _ _ _ Hv) Hl. by apply pool_names. Qed.
Lemma permitted_both A k : may_report A k = Ok tt ↔ connect (bo_connect A) = (true, None) ∧ (k_dry k = false → licensed A).
Proof. split; [apply permitted|]. intros [H1 H2]. by apply permitted_iff. Qed.

Definition small_chain (A : connect_answers) : Prop := ∀ z, co_chain A = Some z → (0 ≤ z < 9223372036854775808)%Z.
Lemma one_number_spec z n : (0 ≤ z < 9223372036854775808)%Z → n = u64 (Z.to_N (int64_of_big z mod 18446744073709551616)) ↔ z = Z.of_N n.
Proof.
  intros Hz. rewrite int64_of_big_small by done. rewrite Z.mod_small by lia. unfold u64, two64. rewrite N.mod_small by lia. lia.
Qed.
Lemma connect_spec A : small_chain A →
  ((∃ e, connect A = (true, e)) ↔ asked_well A ∧ one_number A ∧ checked_well A) ∧ (∀ e, connect A = (true, e) → e = None) ∧
  (connect A = (false, None) ↔ asked_well A ∧ ¬ one_number A).
Proof.
  intros Hs. unfold connect, asked_well, one_number, checked_well.
  destruct (co_dial A) as [e|]; [split; [split; [intros [? ?]; done|intros ((? & _) & _); done]|split; [done|split; [done|intros ((? & _) & _); done]]]|].
  destruct (co_chain A) as [z|] eqn:Hz; [|split; [split; [intros [? ?]; done|intros ((_ & [? ?] & _) & _); done]|split; [done|split; [done|intros ((_ & [? ?] & _) & _); done]]]].
  specialize (Hs z Hz).
  destruct (co_client A) as [e|]; [split; [split; [intros [? ?]; done|intros ((_ & _ & ? & _) & _); done]|split; [done|split; [done|intros ((_ & _ & ? & _) & _); done]]]|].
  destruct (co_deposit A) as [n|]; [|split; [split; [intros [? ?]; done|intros ((_ & _ & _ & [? ?]) & _); done]|split; [done|split; [done|intros ((_ & _ & _ & [? ?]) & _); done]]]].
  assert ((∃ z0 n0, Some z = Some z0 ∧ Some n = Some n0 ∧ z0 = Z.of_N n0) ↔ z = Z.of_N n) as Ho by (split; [intros (? & ? & [= <-] & [= <-] & ?); done|eauto]).
  rewrite Ho. clear Ho.
  unfold new_onchain. destruct (N.eqb_spec n (u64 (Z.to_N (int64_of_big z mod 18446744073709551616)))) as [Hn|Hn]; rewrite (one_number_spec z n Hs) in Hn; cbn [negb wrap].
  - assert (None = (None : option string) ∧ (∃ z0, Some z = Some z0) ∧ None = (None : option string) ∧ ∃ n0, Some n = Some n0) as Hr by eauto 10.
    split; [|split].
    + split.
      * intros [e He]. split; [done|]. split; [done|]. destruct (co_progress A) as [[]|]; [| |done]; cbn in He.
        -- destruct (co_syncing A); [done|]. destruct (co_contract A); [done|]. split; [by left|done].
        -- destruct (co_header A); [done|]. destruct (co_syncing A); [done|]. destruct (co_contract A); [done|]. split; [by right|done].
      * intros (_ & _ & [->|[-> ->]] & -> & ->); by exists None.
    + intros e. destruct (co_progress A) as [b|]; [|done]. destruct (if b then None else co_header A); [done|].
      destruct (co_syncing A); [done|]. destruct (co_contract A); [done|]. by intros [= <-].
    + split; [|intros [_ ?]; done]. destruct (co_progress A) as [b|]; [|done]. destruct (if b then None else co_header A); [done|].
      destruct (co_syncing A); [done|]. by destruct (co_contract A).
  - split; [|split].
    + split; [intros [? ?]; done|intros (_ & ? & _); done].
    + done.
    + split; [|done]. intros _. eauto 10.
Qed.
Lemma level_spec s : parse_level s = true ↔ level_name s.
Proof.
  unfold parse_level, level_name, log_levels. cbn [existsb]. rewrite !orb_true_iff, !String.eqb_eq. split; [intros H; intuition discriminate|tauto].
Qed.
Lemma boot_level sha H E args sel A k fs o : boot sha H E args sel A k fs = Ok o → bo_folder A = None ∧ level_name (k_log_level k).
Proof.
  unfold boot. destruct (bo_folder A); [done|]. destruct (parse_level (k_log_level k)) eqn:Hp; [|done]. intros _. split; [done|]. by apply level_spec.
Qed.
Lemma boot_unlevelled sha H E args sel A k fs : ¬ level_name (k_log_level k) → ∃ m, boot sha H E args sel A k fs = Die (Fatal m).
Proof.
  rewrite <-level_spec. unfold boot. intros Hn. destruct (bo_folder A); [eauto|]. destruct (parse_level (k_log_level k)); [done|]. cbn [negb]. eauto.
Qed.
