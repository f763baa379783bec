(** Proofs about the gauges. *)
From Verif Require Export GaugesSpec GuardProofs.

(** ** float64 *)
Lemma float_exact n : (n < 2 ^ 53)%N → float64 n = n.
Proof. intros H. unfold float64. by apply N.ltb_lt in H as ->. Qed.
Lemma float_near n : near (float64 n) n.
Proof.
  unfold near. destruct (N.ltb_spec n (2 ^ 53)) as [H|H]; [rewrite float_exact by done; lia|].
  unfold float64. rewrite (proj2 (N.ltb_ge _ _) H). cbv zeta.
  assert (0 < n)%N as Hn by (eapply N.lt_le_trans; [|exact H]; done).
  destruct (N.log2_spec n Hn) as [Hlo _].
  assert (53 ≤ N.log2 n)%N as H53 by (apply N.log2_le_pow2; done).
  set (k := (N.log2 n - 52)%N). assert (N.log2 n = k + 52)%N as Ek by lia. rewrite Ek, N.pow_add_r in Hlo.
  assert (0 < 2 ^ k)%N as Hp by (apply N.neq_0_lt_0, N.pow_nonzero; done).
  pose proof (N.div_mod' n (2 ^ k)) as D. pose proof (N.mod_lt n (2 ^ k) ltac:(lia)) as M.
  clearbody k. clear H H53 Ek. revert D M Hlo Hp. generalize (n / 2 ^ k)%N (n mod 2 ^ k)%N. generalize (2 ^ k)%N. intros P q r D M Hlo Hp.
  change (2 ^ 52)%N with 4503599627370496%N in Hlo. change (2 ^ 53)%Z with 9007199254740992%Z.
  destruct (N.ltb_spec (2 * r) P) as [H1|H1]; cbn [orb]; [nia|].
  destruct (N.eqb_spec (2 * r) P) as [H2|H2]; cbn [andb]; [destruct (N.even q)|]; nia.
Qed.

(** ** The life with gauges is the life *)
Lemma lifetime_snd sha H c0 l l' L : (lifetime sha H c0 (l ++ l') L).2 = (lifetime sha H c0 l' (lifetime sha H c0 l L).2).2.
Proof. destruct (lifetime sha H c0 l L) as [s1 L1] eqn:E. by rewrite (lifetime_app _ _ _ _ _ _ _ _ E). Qed.
Lemma lifetime_one sha H c0 e L : (lifetime sha H c0 [e] L).2 = (live sha H c0 e L).2.
Proof. cbn [lifetime]. by destruct (live sha H c0 e L) as [[x|] L']. Qed.
Lemma gauged_app sha H c0 l e x : gauged sha H c0 (l ++ [e]) x = live_gauges sha H c0 (gauged sha H c0 l x) e.
Proof. unfold gauged. by rewrite fold_left_app. Qed.
Lemma gauged_life sha H c0 l x : (gauged sha H c0 l x).1 = (lifetime sha H c0 l x.1).2.
Proof.
  induction l as [|e l IH] using rev_ind; [done|]. rewrite gauged_app, lifetime_snd, lifetime_one, <-IH. done.
Qed.

Lemma up_snoc sha H c0 m l e m1 m2 : stays_up sha H c0 m l → leads sha H c0 (Up m) l (Up m1) → leads sha H c0 (Up m1) [e] (Up m2) → stays_up sha H c0 m (l ++ [e]).
Proof.
  unfold leads. intros Hu H1 H2 l1 l2 fs Hl. destruct l2 as [|x l2 _] using rev_ind.
  - rewrite app_nil_r in Hl. subst l1. unfold leads. rewrite lifetime_snd, H1, H2. done.
  - rewrite app_assoc in Hl. apply app_inj_tail in Hl as [-> _]. by eapply Hu.
Qed.
Lemma leads_app sha H c0 L l1 L1 l2 L2 : leads sha H c0 L l1 L1 → leads sha H c0 L1 l2 L2 → leads sha H c0 L (l1 ++ l2) L2.
Proof. unfold leads. intros H1 H2. by rewrite lifetime_snd, H1. Qed.
Lemma leads_split sha H c0 L l1 l2 L1 L2 : leads sha H c0 L (l1 ++ l2) L2 → leads sha H c0 L l1 L1 → leads sha H c0 L1 l2 L2.
Proof. unfold leads. rewrite lifetime_snd. intros H2 H1. by rewrite H1 in H2. Qed.

Lemma started_snoc sha H c0 L l e m0 m1 m2 : started_as sha H c0 L l m0 → leads sha H c0 L l (Up m1) → leads sha H c0 (Up m1) [e] (Up m2) →
  started_as sha H c0 L (l ++ [e]) m0.
Proof.
  intros (l1 & s & l2 & fs & -> & A & B & U) Hl He. exists l1, s, (l2 ++ [e]), fs. rewrite <-app_assoc. do 3 (split; [done|]).
  eapply up_snoc; [done| |done]. eapply leads_split; [|exact B]. eapply leads_split; [|exact A]. exact Hl.
Qed.
Lemma processed_snoc sha H c0 L l e m0 f m1 m2 : processed_at sha H c0 L l m0 f → leads sha H c0 L l (Up m1) → leads sha H c0 (Up m1) [e] (Up m2) →
  processed_at sha H c0 L (l ++ [e]) m0 f.
Proof.
  intros (l1 & a & l2 & m & -> & A & B & F & N & P & U) Hl He. exists l1, a, (l2 ++ [e]), m. rewrite <-app_assoc. do 6 (split; [done|]).
  eapply up_snoc; [done| |done]. eapply leads_split; [|exact B]. eapply leads_split; [|exact A]. exact Hl.
Qed.
Lemma up_nil sha H c0 m : stays_up sha H c0 m [].
Proof. intros l1 l2 fs Hl. symmetry in Hl. apply app_eq_nil in Hl as [-> ->]. by unfold leads. Qed.

(** What an event does to books and gauges while the process stays up. *)
Lemma gauges_event sha H c0 e m m' g : (live sha H c0 e (Up m)).2 = Up m' →
  let g' := (live_gauges sha H c0 (Up m, g) e).2 in
  (books (or_st (m_or m')) = books (or_st (m_or m)) ∧ g_distance g' = g_distance g ∧ g_slot g' = g_slot g ∧ g_block g' = g_block g) ∨
  ∃ a f, e = Tick a ∧ an_final a = Some f ∧ st_latest (or_st (m_or m')) = st_next (or_st (m_or m)) ∧ m_pc m' = Processed ∧
    (st_latest (or_st (m_or m')) ≤ f)%N ∧ g_distance g' = float64 (u64_sub f (st_latest (or_st (m_or m')))) ∧
    g_slot g' = float64 (st_latest (or_st (m_or m'))) ∧ g_block g' = float64 (st_latest_block (or_st (m_or m'))).
Proof.
  intros Hl. cbv zeta. unfold live_gauges. cbn [fst snd]. rewrite Hl.
  destruct e as [E sync onchain|a| |d|d]; cbn [live snd] in Hl; [left; by injection Hl as <-| |left; by injection Hl as <-|left; by injection Hl as <-|done].
  destruct (step sha H a m) as [x [m1|]] eqn:Hs; [|done]. cbn [snd] in Hl. injection Hl as ->. unfold set_gauges. cbv zeta.
  assert (m_pc m = Begin ∨ m_pc m ≠ Begin) as [Hpc|Hpc] by (destruct (m_pc m); [by left|by right..]).
  - rewrite Hpc. apply step_begin in Hs as [->|(f & d & fb & _ & _ & _ & H4 & H5 & H6 & H7)]; [left; by rewrite Hpc| |done].
    right. exists a, f. rewrite H7, H4. cbn [g_distance g_slot g_block]. pose proof (advance_slots _ _ _ _ _ H6) as (_ & _ & _ & Hla & _).
    do 4 (split; [done|]). by rewrite Hla.
  - apply step_other in Hs as [Hb _]; [|done]. left. split; [done|]. destruct (m_pc m); try done. by destruct (m_pc m').
Qed.
Lemma gauges_last sha H c0 fs l m g : gauged sha H c0 l (Down fs, no_gauges) = (Up m, g) →
  (∃ m0, started_as sha H c0 (Down fs) l m0 ∧ books (or_st (m_or m0)) = books (or_st (m_or m)) ∧ g_distance g = 0%N ∧ g_slot g = 0%N ∧ g_block g = 0%N) ∨
  (∃ m1 f, processed_at sha H c0 (Down fs) l m1 f ∧ books (or_st (m_or m1)) = books (or_st (m_or m)) ∧ (st_latest (or_st (m_or m)) ≤ f)%N ∧
    ((f < two64)%N → g_distance g = float64 (f - st_latest (or_st (m_or m)))) ∧
    g_slot g = float64 (st_latest (or_st (m_or m))) ∧ g_block g = float64 (st_latest_block (or_st (m_or m)))).
Proof.
  revert m g. induction l as [|e l IH] using rev_ind; intros m g; [done|]. rewrite gauged_app.
  destruct (gauged sha H c0 l (Down fs, no_gauges)) as [L1 g1] eqn:E1. intros E2.
  assert (leads sha H c0 (Down fs) l L1) as Hl by (pose proof (gauged_life sha H c0 l (Down fs, no_gauges)) as X; by rewrite E1 in X).
  assert ((live sha H c0 e L1).2 = Up m) as Hv by (unfold live_gauges in E2; by injection E2).
  assert (leads sha H c0 L1 [e] (Up m)) as He by (unfold leads; by rewrite lifetime_one).
  destruct L1 as [fs1|m1].
  - left. exists m. split; [|unfold live_gauges in E2; cbn [fst snd] in E2; by injection E2 as _ <-].
    exists l, e, [], fs1. do 3 (split; [done|]). apply up_nil.
  - assert (g = (live_gauges sha H c0 (Up m1, g1) e).2) as Hg by (by rewrite E2).
    destruct (gauges_event sha H c0 e m1 m g1 Hv) as [(Hb & D & S & B)|(a & f & -> & Hf & Hn & Hp & Hle & D & S & B)]; rewrite <-Hg in D, S, B.
    + destruct (IH m1 g1 eq_refl) as [(m0 & Hs & Hb0 & D0 & S0 & B0)|(m0 & f & Hs & Hb0 & Hle & D0 & S0 & B0)].
      * left. exists m0. split; [by eapply started_snoc|]. rewrite Hb, Hb0, D, S, B. done.
      * right. exists m0, f. split; [by eapply processed_snoc|]. rewrite Hb, Hb0, D, S, B.
        assert (st_latest (or_st (m_or m)) = st_latest (or_st (m_or m1)) ∧ st_latest_block (or_st (m_or m)) = st_latest_block (or_st (m_or m1))) as [-> ->] by (unfold books in Hb; split; congruence).
        done.
    + right. exists m, f. split; [|split; [done|split; [done|split; [|done]]]].
      * exists l, a, [], m1. do 6 (split; [done|]). apply up_nil.
      * intros H64. by rewrite D, u64_sub_exact.
Qed.

(** ** The roots *)
Lemma label_elem x l y : y ∈ label x l ↔ y ∈ l ∨ y = x.
Proof. unfold label. destruct (decide (x ∈ l)); [|rewrite elem_of_app, elem_of_list_singleton; tauto]. split; [by left|]. by intros [?| ->]. Qed.
Lemma label_nodup x l : NoDup l → NoDup (label x l).
Proof.
  unfold label. destruct (decide (x ∈ l)); [done|]. intros H. apply NoDup_app. split; [done|]. split; [|apply NoDup_singleton].
  intros y Hy ->%elem_of_list_singleton. done.
Qed.
Lemma good_sound H c0 n o : good H c0 n o → (st_latest (or_st o) < two64)%N ∧ ∀ k c, st_committed (or_st o) !! k = Some c → (k ≤ st_latest (or_st o))%N ∧ oc_slot c = k.
Proof.
  intros G. pose proof G as (ops & (q & Hev & _ & Hs) & H64 & _). split; [lia|]. intros k c Hk.
  destruct (good_frozen _ _ _ _ _ _ G Hk) as (_ & _ & _ & _ & _ & _ & _ & _ & _ & _ & _ & Hkc). split; [|done].
  pose proof (same_latest _ _ Hs) as (S1 & _ & S3). rewrite <-S3 in Hk. destruct (evolve_sound H _ _ _ Hev (sound_new H c0)) as [[_ Hall] _].
  destruct (Hall _ _ Hk) as [Hle _]. by rewrite <-S1.
Qed.
Lemma good_checkpoints H c0 n o : good H c0 n o → sound_checkpoints H (or_st o).
Proof.
  intros (ops & (q & Hev & _ & Hs) & _). destruct (evolve_sound H _ _ _ Hev (sound_new H c0)) as [Hq _]. rewrite (same_rehash _ _ Hs). exact Hq.
Qed.
(** A step of the loop: no checkpoint is frozen and no label set, or one, and this one. *)
Lemma known_step sha H c0 a m sent m' g : good_machine sha H c0 false m → typed_answers a → step sha H a m = (sent, Ok m') →
  (st_committed (or_st (m_or m')) = st_committed (or_st (m_or m)) ∧ g_known (set_gauges a m m' g) = g_known g) ∨
  ∃ c, st_committed (or_st (m_or m')) = <[oc_slot c := c]> (st_committed (or_st (m_or m))) ∧
    (∀ k c', st_committed (or_st (m_or m)) !! k = Some c' → st_committed (or_st (m_or m')) !! k = Some c') ∧
    g_known (set_gauges a m m' g) = label (oc_slot c, oc_root c) (g_known g).
Proof.
  intros [G _ _ _] [W _ _ _] Hs. destruct (m_pc m) as [| | |c|c|c|c|] eqn:Hpc.
  - left. apply step_begin in Hs as [->|(f & d & fb & _ & _ & _ & H4 & _ & Ha & H7)]; [|unfold set_gauges; rewrite Hpc, H7, H4; split; [by apply advance_committed in Ha|done]|done].
    unfold set_gauges. by rewrite Hpc.
  - left. unfold step, stay in Hs. rewrite Hpc in Hs. injection Hs as _ Hs. unfold step_processed in Hs. cbv zeta in Hs. destruct (_ && _); [done|].
    unfold set_gauges. rewrite Hpc.
    apply rbind_ok in Hs as ([[]|] & _ & Hs); [destruct (offchain_reconciliation _); [|done]| |done]; by injection Hs as <-.
  - unfold step, stay in Hs. rewrite Hpc in Hs. injection Hs as _ Hs. unfold step_freezing in Hs. cbv zeta in Hs.
    apply rbind_ok in Hs as ([s' b] & Hf & Hs). pose proof (sound_freeze _ _ _ _ _ (good_checkpoints _ _ _ _ G) W Hf) as [Snd Keep].
    pose proof (freeze_inv _ _ _ _ _ Hf) as [(-> & -> & _)|(-> & c & _ & Hc & Hs')].
    + injection Hs as <-. left. unfold set_gauges. by rewrite Hpc.
    + right. destruct (latest_committed_state (committed_keys s') s') as [c'|] eqn:Hl; [|done]. injection Hs as <-.
      cbn [goto m_or or_st]. exists c. assert (st_committed s' = <[oc_slot c := c]> (st_committed (or_st (m_or m)))) as Hi by (by rewrite Hs', Hc).
      split; [done|]. split; [done|]. unfold set_gauges. rewrite Hpc. cbn [goto m_pc g_known].
      destruct (latest_state_spec _ _ Hl) as (k & Hk & Hmax). assert (st_committed s' !! oc_slot c = Some c) as Hx by (by rewrite Hi, lookup_insert).
      assert (oc_slot c = k) as Hkk.
      { apply N.le_antisymm; [apply Hmax; by rewrite Hx|]. rewrite Hc. destruct Snd as [_ Hall]. destruct (Hall _ _ Hk) as [Hle _].
        by rewrite Hs' in Hle. }
      rewrite Hkk in Hx. assert (c' = c) as -> by congruence. done.
  - left. unfold step, stay in Hs. rewrite Hpc in Hs. injection Hs as _ Hs. unfold step_polling in Hs. destruct (an_report a); [|done]. destruct (an_quorum a); [|done].
    unfold set_gauges. rewrite Hpc. destruct (latest_committed_slot (committed_keys (or_st (m_or m)))); [case_match|]; by injection Hs as <-.
  - left. unfold step, stay in Hs. rewrite Hpc in Hs. injection Hs as _ Hs. unfold step_resting in Hs. unfold set_gauges. rewrite Hpc.
    destruct (c_dry_run _); [|destruct (an_onchain a); [|done]]; by injection Hs as <-.
  - left. unfold step, step_deciding, fatal in Hs. rewrite Hpc in Hs. unfold set_gauges. rewrite Hpc. destruct (an_onchain a) as [[r os]|]; [|done]. destruct (negb _ && _).
    + destruct (update_root _ _ _) as [x [e|]]; [destruct (contains _ _); [|done]|]; by injection Hs as _ <-.
    + by injection Hs as _ <-.
  - left. unfold step, stay in Hs. rewrite Hpc in Hs. injection Hs as _ Hs. unfold step_waiting in Hs. unfold set_gauges. rewrite Hpc.
    destruct (an_onchain a) as [[r os]|]; [|done]. destruct (_ && _); by injection Hs as <-.
  - left. unfold step, stay in Hs. rewrite Hpc in Hs. injection Hs as _ <-. unfold set_gauges. by rewrite Hpc.
Qed.
Lemma known_roots sha H c0 l m g : typed_config c0 → (0 < c_dep_slot c0)%N → Forall typed_event l → gauged sha H c0 l (Down ∅, no_gauges) = (Up m, g) →
  (∀ k r, (k, r) ∈ g_known g → ∃ c, st_committed (or_st (m_or m)) !! k = Some c ∧ oc_slot c = k ∧ oc_root c = r) ∧ NoDup (g_known g) ∧
  ∃ m0, started_as sha H c0 (Down ∅) l m0 ∧
    ∀ k c, st_committed (or_st (m_or m)) !! k = Some c → st_committed (or_st (m_or m0)) !! k = Some c ∨ (k, oc_root c) ∈ g_known g.
Proof.
  intros Tc Hd. revert m g. induction l as [|e l IH] using rev_ind; intros m g; [done|]. intros [Tl [Te _]%Forall_cons]%Forall_app. rewrite gauged_app.
  destruct (gauged sha H c0 l (Down ∅, no_gauges)) as [L1 g1] eqn:E1. intros E2.
  assert (leads sha H c0 (Down ∅) l L1) as Hl by (pose proof (gauged_life sha H c0 l (Down ∅, no_gauges)) as X; by rewrite E1 in X).
  assert ((live sha H c0 e L1).2 = Up m) as Hv by (unfold live_gauges in E2; by injection E2).
  assert (leads sha H c0 L1 [e] (Up m)) as He by (unfold leads; by rewrite lifetime_one).
  destruct L1 as [fs1|m1].
  { unfold live_gauges in E2. cbn [fst snd] in E2. injection E2 as _ <-. split; [by intros k r ?%elem_of_nil|]. split; [by apply NoDup_nil|].
    exists m. split; [|by left]. exists l, e, [], fs1. do 3 (split; [done|]). apply up_nil. }
  destruct (IH m1 g1 Tl eq_refl) as (Hk & Hn & m0 & Hst & Hall).
  assert (g = (live_gauges sha H c0 (Up m1, g1) e).2) as Hg by (by rewrite E2). clear E2. unfold live_gauges in Hg. cbn [fst snd] in Hg. rewrite Hv in Hg.
  pose proof (started_snoc _ _ _ _ _ _ _ _ _ Hst Hl He) as Hst'.
  assert (st_committed (or_st (m_or m)) = st_committed (or_st (m_or m1)) ∧ g_known g = g_known g1 →
    (∀ k r, (k, r) ∈ g_known g → ∃ c, st_committed (or_st (m_or m)) !! k = Some c ∧ oc_slot c = k ∧ oc_root c = r) ∧ NoDup (g_known g) ∧
    ∃ m0, started_as sha H c0 (Down ∅) (l ++ [e]) m0 ∧
      ∀ k c, st_committed (or_st (m_or m)) !! k = Some c → st_committed (or_st (m_or m0)) !! k = Some c ∨ (k, oc_root c) ∈ g_known g) as Hsame.
  { intros [-> ->]. split; [done|]. split; [done|]. by exists m0. }
  destruct e as [E sync onchain|a| |d|d]; cbn [live snd] in Hv;
    [apply Hsame; injection Hv as <-; by rewrite Hg| |apply Hsame; injection Hv as <-; by rewrite Hg|apply Hsame; injection Hv as <-; by rewrite Hg|done].
  destruct (step sha H a m1) as [x [m2|]] eqn:Hs; [|done]. cbn [snd] in Hv. injection Hv as ->.
  assert (good_life sha H c0 false (Up m1)) as G.
  { destruct (lifetime sha H c0 l (Down ∅)) as [s1 L] eqn:EL. unfold leads in Hl. rewrite EL in Hl. cbn in Hl. subst L. eapply good_from_nothing; [done|done|exact Tl|by left|exact EL]. }
  destruct (known_step sha H c0 a m1 x m g1 G Te Hs) as [[Hc Hgk]|(c & Hc & Keep & Hgk)]; rewrite <-Hg in Hgk; [by apply Hsame|]. clear Hsame.
  split; [|split].
  - intros k r. rewrite Hgk, label_elem. intros [Hin|[= -> ->]]; [|exists c; by rewrite Hc, lookup_insert].
    destruct (Hk _ _ Hin) as (c' & Hc' & Hsl & Hr). exists c'. by split; [apply Keep|].
  - rewrite Hgk. by apply label_nodup.
  - exists m0. split; [done|]. intros k c'. rewrite Hc, Hgk, label_elem. destruct (decide (oc_slot c = k)) as [<-|Hne].
    + rewrite lookup_insert. intros [= <-]. right. by right.
    + rewrite lookup_insert_ne by done. intros Hx. destruct (Hall _ _ Hx) as [?|?]; [by left|right; by left].
Qed.

(** ** While the loop waits *)
Lemma waiting_gauges sha H c0 m c l g : m_pc m = Waiting c → Forall (never_consolidates (oc_root c) (oc_slot c)) l →
  ∃ m', gauged sha H c0 l (Up m, g) = (Up m', g) ∧ m_pc m' = Waiting c ∧ same_oracle (m_or m) (m_or m').
Proof.
  intros Hpc Hl. induction l as [|e l IH] using rev_ind; [by exists m|]. apply Forall_app in Hl as [Hl He]. destruct (IH Hl) as (m1 & Hg & Hp & Hs).
  rewrite gauged_app, Hg. destruct (waits_forever sha H c0 m1 c [e] Hp He) as (m2 & H2 & Hp2 & Hs2).
  pose proof (lifetime_one sha H c0 e (Up m1)) as Ho. rewrite H2 in Ho. cbn [snd] in Ho. exists m2. split; [|split; [done|by eapply same_trans]].
  unfold live_gauges. cbn [fst snd]. rewrite <-Ho. destruct e; try done. unfold set_gauges. by rewrite Hp.
Qed.
(** While the nodes are not in sync. *)
Lemma unsynced_gauges sha H c0 m a g : m_pc m = Begin → are_nodes_in_sync (an_exec a) (an_dist a) = Some false →
  gauged sha H c0 [Tick a] (Up m, g) = (Up m, g).
Proof.
  intros Hpc Hn. unfold gauged. cbn [fold_left]. unfold live_gauges. cbn [fst snd live]. unfold step, stay. rewrite Hpc. unfold step_top. cbv zeta. rewrite Hn. cbn [snd].
  unfold set_gauges. by rewrite Hpc.
Qed.
