(** Proofs of C93 and C94. *)
From Verif Require Export StopSpec GuardProofs.
From Verif Require Import StringProofs.

(** ** C94 *)
Lemma contains_spec s sub : contains s sub = true ↔ ∃ x y, s = x +:+ sub +:+ y.
Proof.
  induction s as [|c s IH]; cbn [contains]; rewrite orb_true_iff.
  - split.
    + intros [Hp|]; [|done]. apply has_prefix_app in Hp as [y ->]. by exists "", y.
    + intros (x & y & E). left. destruct x; [|done]. change (("" : string) +:+ sub +:+ y) with (sub +:+ y) in E. destruct sub; [by destruct y|done].
  - split.
    + intros [Hp|Hc]; [apply has_prefix_app in Hp as [y ->]; by exists "", y|]. apply IH in Hc as (x & y & ->). by exists (String c x), y.
    + intros ([|d x] & y & E).
      * left. change (("" : string) +:+ sub +:+ y) with (sub +:+ y) in E. rewrite E. apply has_prefix_app. by exists y.
      * right. apply IH. injection E as _ ->. by exists x, y.
Qed.
Section life.
Context (sha H : string → string) (c0 : config).

Lemma good_bounds n o : typed_config c0 → (0 < c_dep_slot c0)%N → good H c0 n o → (c_dep_slot c0 ≤ st_latest (or_st o) + 1)%N.
Proof.
  intros (_ & Hdep & _) Hd (ops & (p & He & _ & Hs) & _). apply evolve_latest in He as [Hle _].
  - apply same_latest in Hs as (<- & _). cbn in Hle. unfold is_u64 in Hdep. rewrite u64_sub_exact in Hle by lia. lia.
  - cbn. unfold is_u64 in Hdep. rewrite u64_sub_exact by lia. lia.
Qed.
Lemma good_records n o : good H c0 n o → wf_records (or_st o).
Proof.
  intros (ops & (p & He & _ & Hs) & _). apply same_latest in Hs as (_ & E & _). apply evolve_records in He; [|apply fresh_records].
  unfold wf_records in *. by rewrite <-E.
Qed.

(** After a slot the latest one is not before the deployment. *)
Definition begun (L : life) : Prop :=
  match L with Down _ => True | Up m => m_pc m = Processed → (c_dep_slot c0 ≤ st_latest (or_st (m_or m)))%N ∧ (0 < st_latest (or_st (m_or m)))%N end.
Lemma begun_step full a m sent m' : typed_config c0 → (0 < c_dep_slot c0)%N → typed_answers a → good_machine sha H c0 full m →
  step sha H a m = (sent, Ok m') → begun (Up m) → begun (Up m').
Proof.
  intros Tc Hd Ta G Hs Hb Hp. destruct (m_pc m) as [| | |c|c|c|c|] eqn:Hpc.
  - apply step_begin in Hs as [->|(f & d & fb & _ & _ & _ & Hf & Hle & Ha & _)]; [congruence| |done].
    apply advance_slots in Ha as (_ & _ & Hn & Hl & _). rewrite Hl.
    pose proof (good_bounds _ _ Tc Hd (gm_good _ _ _ _ _ G)) as Hb1.
    destruct (gm_good _ _ _ _ _ G) as (ops & _ & Hlt & _).
    rewrite Hn. unfold u64_add, u64. rewrite N.mod_small by (unfold two64 in *; lia). lia.
  - exfalso. unfold step, stay in Hs. rewrite Hpc in Hs. injection Hs as _ Hs. unfold step_processed in Hs. cbv zeta in Hs. destruct (_ && _); [done|].
    apply rbind_ok in Hs as ([[]|] & _ & Hs); [destruct (offchain_reconciliation _); [|done]| |done]; by injection Hs as <-.
  - exfalso. unfold step, stay in Hs. rewrite Hpc in Hs. injection Hs as _ Hs. unfold step_freezing in Hs. cbv zeta in Hs. apply rbind_ok in Hs as ([s' b] & _ & Hs).
    destruct b; [destruct (latest_committed_state (committed_keys s') s'); [|done]|]; by injection Hs as <-.
  - exfalso. unfold step, stay in Hs. rewrite Hpc in Hs. injection Hs as _ Hs. unfold step_polling in Hs. destruct (an_report a); [|done]. destruct (an_quorum a); [|done].
    destruct (latest_committed_slot (committed_keys (or_st (m_or m)))); [case_match|]; injection Hs as <-; cbn in Hp; congruence.
  - exfalso. unfold step, stay in Hs. rewrite Hpc in Hs. injection Hs as _ Hs. unfold step_resting in Hs. destruct (c_dry_run _); [|destruct (an_onchain a); [|done]]; by injection Hs as <-.
  - exfalso. unfold step in Hs. rewrite Hpc in Hs. unfold step_deciding, fatal in Hs. destruct (an_onchain a) as [[r os]|]; [|done]. destruct (negb _ && _).
    + destruct (update_root _ _ _) as [x [e|]]; [destruct (contains _ _); [|done]|]; by injection Hs as _ <-.
    + by injection Hs as _ <-.
  - exfalso. unfold step, stay in Hs. rewrite Hpc in Hs. injection Hs as _ Hs. unfold step_waiting in Hs. destruct (an_onchain a) as [[r os]|]; [|done].
    destruct (_ && _); injection Hs as <-; cbn in Hp; congruence.
  - exfalso. unfold step, stay in Hs. rewrite Hpc in Hs. by injection Hs as _ <-.
Qed.
Lemma begun_live e L sent L' : typed_config c0 → (0 < c_dep_slot c0)%N → typed_event e → good_life sha H c0 false L →
  live sha H c0 e L = (sent, L') → begun L → begun L'.
Proof.
  intros Tc Hd Te G Hl Hb. destruct L as [fs|m], e as [E sync onchain|a| |d|d]; cbn [live] in Hl; try by injection Hl as _ <-.
  - destruct (startup _ _ _ _ _ _ _); by injection Hl as _ <-.
  - destruct (step sha H a m) as [x [m1|]] eqn:Hs; injection Hl as _ <-; [|done]. by eapply begun_step.
Qed.
Lemma begun_lifetime l L sent L' : typed_config c0 → (0 < c_dep_slot c0)%N → Forall typed_event l → good_life sha H c0 false L →
  lifetime sha H c0 l L = (sent, L') → begun L → good_life sha H c0 false L' ∧ begun L'.
Proof.
  intros Tc Hd. revert L sent. induction l as [|e l IH]; intros L sent Te G Hl Hb; cbn [lifetime] in Hl; [injection Hl as _ <-; done|].
  apply Forall_cons in Te as [Te Tl]. destruct (live sha H c0 e L) as [x L1] eqn:H1. destruct (lifetime sha H c0 l L1) as [y L2] eqn:H2.
  injection Hl as _ <-. eapply (IH L1); [done| |done|].
  - eapply good_live; [done|done|done| |done|done]. by left.
  - by eapply begun_live.
Qed.

Lemma sync_spec exec dist : are_nodes_in_sync exec dist = Some true ↔ exec = Some false ∧ ∃ d, dist = Some d ∧ (d ≤ 5)%N.
Proof.
  unfold are_nodes_in_sync. destruct exec as [[]|], dist as [d|]; try (split; [done|by intros (? & ? & ? & ?)]).
  destruct (N.ltb_spec 5 d); cbn [negb]; split.
  - done.
  - intros (_ & d' & [= <-] & ?). lia.
  - intros _. split; [done|]. by exists d.
  - done.
Qed.
Lemma good_snapshot n o E f20 : good H c0 n o → wf_env E → names f20 (c_fees_addr c0) → pool_apart (or_st o) →
  ∃ s b, freeze H E (or_st o) = Ok (s, b).
Proof.
  intros G W Hn Hp. destruct G as (ops & (p & He & _ & Hs) & _). pose proof (same_rehash _ _ Hs) as Ho.
  revert Ho Hp. generalize (st_hash (or_st o)). intros h -> Hp. destruct (proj2 (freezes_iff H c0 ops p E f20 He W Hn)) as (s & b & Hf); [exact Hp|].
  eexists _, _. apply freeze_rehash. exact Hf.
Qed.
(** ** What the contract has paid out *)
Lemma lower_names str : lower_address str → ∃ a20, names a20 str ∧ str = "0x" +:+ hex_encode a20.
Proof.
  intros (b & -> & Hl & Hf). pose proof (lower_body_hex b Hl Hf) as Hh. unfold is_hex_address in Hh.
  assert (has_prefix ("0x" +:+ b) "0x" = true) as Hp by (apply has_prefix_app; eauto). rewrite Hp in Hh. cbn [orb] in Hh. change (sdrop 2 ("0x" +:+ b)) with b in Hh.
  apply andb_prop in Hh as [_ Hh]. destruct (hex2bytes_in_hex 20 b Hl Hh) as [H1 H2]. rewrite (to_lower_lower b Hf) in H2.
  exists (hex2bytes b). split; [|by rewrite <-H2]. split; [done|]. change (to_lower ("0x" +:+ b)) with ("0x" +:+ to_lower b). by rewrite (to_lower_lower b Hf), <-H2.
Qed.
Lemma claimed_last cl x : ∀ u acc, Forall (λ a, is_hex_address a = true) (u ++ [x]) → NoDup (acc.*1 ++ u) →
  claimed_loop cl (u ++ [x]) acc =
  match mapM (λ a, cl (hex_to_address a)) u with
  | None => Ok None
  | Some zs => match cl (hex_to_address x) with
    | None => Ok None
    | Some z => if bool_decide (x ∈ acc.*1 ++ u) then Die (Fatal "Duplicate deposit address found") else Ok (Some (acc ++ zip u zs ++ [(x, z)])) end
  end.
Proof.
  induction u as [|a u IH]; intros acc Hh Hn.
  - cbn [app claimed_loop mapM mret option_ret]. unfold claimed_balance. apply Forall_singleton in Hh as ->. cbn [negb rbind].
    destruct (cl (hex_to_address x)) as [z|]; [|done]. by rewrite app_nil_r.
  - rewrite <-app_comm_cons in Hh |- *. apply Forall_cons in Hh as [Ha Hh]. cbn [claimed_loop]. unfold claimed_balance at 1. rewrite Ha. cbn [negb rbind].
    cbn [mapM]. destruct (cl (hex_to_address a)) as [z|]; cbn [mbind option_bind]; [|done].
    assert (a ∉ acc.*1) as Hna. { apply NoDup_app in Hn as (_ & Hn & _). intros Hin. apply (Hn a Hin). by left. }
    rewrite bool_decide_false by done. rewrite IH; [|done|by rewrite fmap_app, <-app_assoc].
    destruct (mapM _ u) as [zs|]; cbn [mbind option_bind mret option_ret]; [|done]. destruct (cl (hex_to_address x)) as [zf|]; [|done].
    rewrite fmap_app, <-app_assoc. cbn [fmap list_fmap fst app]. destruct (bool_decide _); [done|]. cbn [zip zip_with app]. by rewrite <-app_assoc.
Qed.
Lemma paid_perm cl l l' z : l ≡ₚ l' → paid_to cl l z → paid_to cl l' z.
Proof.
  intros Hp. revert z. induction Hp as [|x l l' _ IH|x y l|l1 l2 l3 _ IH1 _ IH2]; intros z (zs & Hf & ->).
  - apply Forall2_nil_inv_l in Hf as ->. exists []. split; [by constructor|done].
  - apply Forall2_cons_inv_l in Hf as (y & ys & Hx & Hf & ->). destruct (IH _ (ex_intro _ ys (conj Hf eq_refl))) as (zs' & Hf' & E).
    exists (y :: zs'). split; [by constructor|]. cbn. by rewrite E.
  - apply Forall2_cons_inv_l in Hf as (y1 & ys & Hx & Hf & ->). apply Forall2_cons_inv_l in Hf as (y2 & ys2 & Hy & Hf & ->).
    exists (y2 :: y1 :: ys2). split; [by repeat constructor|]. cbn. lia.
  - apply IH2, IH1. by exists zs.
Qed.
Lemma paid_mapM cl (u : list string) z : paid_to cl (hex_to_address <$> u) z ↔ ∃ zs, mapM (λ a, cl (hex_to_address a)) u = Some zs ∧ z = foldr Z.add 0%Z zs.
Proof.
  unfold paid_to. split; intros (zs & Hf & ->); exists zs; (split; [|done]).
  - apply mapM_Some. by rewrite Forall2_fmap_l in Hf.
  - rewrite Forall2_fmap_l. by apply mapM_Some in Hf.
Qed.
Lemma unique_list s u : wf_records s → NoDup u → (∀ a, a ∈ u ↔ ∃ i v, st_vals s !! i = Some v ∧ v_addr v = a) →
  withdrawal_list s (hex_to_address <$> u) ∧ Forall (λ a, is_hex_address a = true) u.
Proof.
  intros Hr Hn Hu. assert (∀ a, a ∈ u → ∃ a20, names a20 a ∧ a = "0x" +:+ hex_encode a20) as Hx.
  { intros a (i & v & Hi & <-)%Hu. apply lower_names. by apply (Hr i v). }
  split; [split|].
  - apply NoDup_fmap_2_strong; [|done]. intros a b Ha Hb E. destruct (Hx a Ha) as (a20 & Na & ->). destruct (Hx b Hb) as (b20 & Nb & ->).
    apply names_address in Na as [_ Na], Nb as [_ Nb]. congruence.
  - intros a20. rewrite elem_of_list_fmap. split.
    + intros (a & -> & Ha). destruct (Hx a Ha) as (b20 & Nb & Eb). apply Hu in Ha as (i & v & Hi & <-). exists i, v. split; [done|].
      by rewrite (proj2 (names_address _ _ Nb)).
    + intros (i & v & Hi & Hnm). exists (v_addr v). split; [symmetry; by apply names_address|]. apply Hu. eauto.
  - apply Forall_forall. intros a Ha. destruct (Hx a Ha) as (a20 & Na & _). by apply names_address in Na as [-> _].
Qed.
Lemma withdrawal_perm s l l' : withdrawal_list s l → withdrawal_list s l' → l ≡ₚ l'.
Proof. intros [N1 H1] [N2 H2]. apply NoDup_Permutation; [done|done|]. intros a. by rewrite H1, H2. Qed.
(** The claims of a state, asked one by one. *)
Lemma claimed_spec cl s u f20 l : wf_records s → NoDup u → (∀ a, a ∈ u ↔ ∃ i v, st_vals s !! i = Some v ∧ v_addr v = a) →
  names f20 (st_fees_addr s) → withdrawal_list s l →
  (∀ z zf, paid_to cl l z → cl f20 = Some zf → (∀ i v, st_vals s !! i = Some v → v_addr v ≠ st_fees_addr s) →
    ∃ r, claimed_per_address cl (u ++ [st_fees_addr s]) = Ok (Some r) ∧ foldr Z.add 0%Z r.*2 = (z + zf)%Z) ∧
  (∀ z i v, paid_to cl l z → st_vals s !! i = Some v → v_addr v = st_fees_addr s → ∃ d, claimed_per_address cl (u ++ [st_fees_addr s]) = Die d) ∧
  ((∀ z, ¬ paid_to cl l z) ∨ cl f20 = None → claimed_per_address cl (u ++ [st_fees_addr s]) = Ok None).
Proof.
  intros Hr Hn Hu Hf Hl. destruct (unique_list s u Hr Hn Hu) as [Hw Hh]. pose proof (withdrawal_perm _ _ _ Hl Hw) as Hp.
  assert (∀ z, paid_to cl l z ↔ ∃ zs, mapM (λ a, cl (hex_to_address a)) u = Some zs ∧ z = foldr Z.add 0%Z zs) as Hz.
  { intros z. rewrite <-paid_mapM. split; apply paid_perm; [done|by symmetry]. }
  destruct (names_address _ _ Hf) as [Hfh Hfa].
  unfold claimed_per_address. rewrite claimed_last; [|apply Forall_app; split; [done|by apply Forall_singleton]|done]. rewrite Hfa. cbn [fmap list_fmap app]. split; [|split].
  - intros z zf (zs & E & ->)%Hz Hzf Ha. rewrite E, Hzf. rewrite bool_decide_false.
    2:{ intros (i & v & Hi & Hv)%Hu. by apply (Ha i v). }
    eexists. split; [done|]. rewrite fmap_app, snd_zip; [cbn; rewrite foldr_app; cbn|apply mapM_Some, Forall2_length in E; lia].
    clear. induction zs as [|y zs IH]; cbn; lia.
  - intros z i v (zs & E & _)%Hz Hi Hv. rewrite E. assert (st_fees_addr s ∈ u) as Hin by (apply Hu; eauto).
    assert (is_Some (cl f20)) as [zf ->].
    { apply mapM_Some in E. rewrite <-Hfa. revert E. clear -Hin. induction 1 as [|a y u zs Ha _ IH]; [by apply elem_of_nil in Hin|].
      apply elem_of_cons in Hin as [->|Hin]; [by rewrite Ha|by apply IH]. }
    rewrite bool_decide_true by done. eauto.
  - intros [Hno|Hno].
    + destruct (mapM _ u) as [zs|] eqn:E; [|done]. exfalso. apply (Hno (foldr Z.add 0%Z zs)). apply Hz. eauto.
    + rewrite Hno. by destruct (mapM _ u).
Qed.
Lemma withdrawal_exists E s : wf_env E → wf_records s → ∃ l, withdrawal_list s l.
Proof. intros W Hr. destruct (unique_addresses E s W Hr) as (u & _ & Hn & Hu). exists (hex_to_address <$> u). by apply unique_list. Qed.
Lemma same_fees E s : wf_env E → wf_records s → (∃ i v, st_vals s !! i = Some v ∧ v_addr v = st_fees_addr s) ∨ (∀ i v, st_vals s !! i = Some v → v_addr v ≠ st_fees_addr s).
Proof.
  intros W Hr. destruct (unique_addresses E s W Hr) as (u & _ & _ & Hu). destruct (decide (st_fees_addr s ∈ u)) as [Hin|Hin].
  - left. by apply Hu in Hin.
  - right. intros i v Hi Hv. apply Hin, Hu. eauto.
Qed.
Lemma paid_dec cl l : (∃ z, paid_to cl l z) ∨ ∀ z, ¬ paid_to cl l z.
Proof.
  destruct (mapM cl l) as [zs|] eqn:E.
  - left. exists (foldr Z.add 0%Z zs), zs. split; [by apply mapM_Some|done].
  - right. intros z (zs & Hf & _). apply mapM_Some in Hf. congruence.
Qed.
Lemma paid_fun cl l z z' : paid_to cl l z → paid_to cl l z' → z = z'.
Proof. intros (zs & Hf & ->) (zs' & Hf' & ->). apply mapM_Some in Hf, Hf'. congruence. Qed.
(** How a comparison with the contract ends. *)
Lemma compare_spec a m f20 : compares a m → wf_env (an_env a) → wf_records (or_st (m_or m)) → names f20 (st_fees_addr (or_st (m_or m))) →
  (∃ d, step_top a m = Die d) ↔
  (∃ l z, withdrawal_list (or_st (m_or m)) l ∧ paid_to (an_claimed a) l z ∧
    ((∃ i v, st_vals (or_st (m_or m)) !! i = Some v ∧ v_addr v = st_fees_addr (or_st (m_or m))) ∨
     ∃ b zf, an_balance a = Some b ∧ an_claimed a f20 = Some zf ∧ owed (or_st (m_or m)) ≠ (b + z + zf)%Z)).
Proof.
  intros (Hpc & Hy & (f & Hf & Hlt) & Hdue) W Hr Hn. unfold step_top. cbv zeta. set (s := or_st (m_or m)) in *.
  assert (are_nodes_in_sync (an_exec a) (an_dist a) = Some true) as ->.
  { destruct Hy as (-> & d & -> & Hd). cbn. by destruct (N.ltb_spec 5 d); [lia|]. }
  rewrite Hf. destruct (N.leb_spec (st_next s) f); [lia|]. rewrite Hdue.
  destruct (unique_addresses (an_env a) s W Hr) as (u & -> & Hnd & Hu). cbn [rbind].
  destruct (withdrawal_exists (an_env a) s W Hr) as (l & Hl).
  destruct (claimed_spec (an_claimed a) s u f20 l Hr Hnd Hu Hn Hl) as (H1 & H2 & H3).
  split.
  - intros (d & Hs). exists l. destruct (paid_dec (an_claimed a) l) as [[z Hz]|Hz]; [|by rewrite H3 in Hs by (by left); cbn [rbind] in Hs; destruct (an_balance a)].
    exists z. split; [done|]. split; [done|]. destruct (same_fees (an_env a) s W Hr) as [?|Hne]; [by left|]. right.
    destruct (an_claimed a f20) as [zf|] eqn:Hzf; [|by rewrite H3 in Hs by (by right); cbn [rbind] in Hs; destruct (an_balance a)].
    destruct (H1 z zf Hz eq_refl Hne) as (r & E & Hsum). rewrite E in Hs. cbn [rbind] in Hs. destruct (an_balance a) as [b|]; [|done].
    exists b, zf. do 2 (split; [done|]). intros Ho. destruct (onchain_reconciliation b r.*2 s) eqn:Hrec; [done|].
    assert (onchain_reconciliation b r.*2 s = true); [|congruence]. apply onchain_iff. rewrite Hsum. lia.
  - intros (l' & z & Hl' & Hz & Hor). assert (paid_to (an_claimed a) l z) as Hz' by (eapply paid_perm; [by apply (withdrawal_perm s)|done]).
    destruct (same_fees (an_env a) s W Hr) as [(i & v & Hi & Hv)|Hne].
    { destruct (H2 z i v Hz' Hi Hv) as (d & ->). cbn [rbind]. eauto. }
    destruct Hor as [(i & v & Hi & Hv)|(b & zf & Hb & Hzf & Ho)]; [by destruct (Hne i v)|].
    destruct (H1 z zf Hz' Hzf Hne) as (r & -> & Hsum). cbn [rbind]. rewrite Hb. destruct (onchain_reconciliation b r.*2 s) eqn:Hrec; [|eauto].
    apply onchain_iff in Hrec. rewrite Hsum in Hrec. lia.
Qed.
Lemma ends_iff l sent m a f20 : typed_config c0 → (0 < c_dep_slot c0)%N → (0 < c_cp_size c0)%N → names f20 (c_fees_addr c0) →
  Forall typed_event l → lifetime sha H c0 l (Down ∅) = (sent, Up m) → typed_answers a →
  (∃ x fs, live sha H c0 (Tick a) (Up m) = (x, Down fs)) ↔ ends_for a m.
Proof.
  intros Tc Hd Hz Hn Tl Hl Ta. destruct (begun_lifetime l (Down ∅) sent (Up m) Tc Hd Tl (good_files_empty sha H c0 false) Hl I) as [G Hb].
  cbn [good_life] in G. set (s := or_st (m_or m)) in *. pose proof (gm_good _ _ _ _ _ G) as Hg. pose proof (good_records _ _ Hg) as Hr.
  assert (names f20 (st_fees_addr s)) as Hfn by (unfold s; by rewrite (sp_fees_addr _ _ (dp_params _ _ (good_deployed _ _ _ _ Hg)))).
  assert (∀ x fs, live sha H c0 (Tick a) (Up m) = (x, Down fs) ↔ fs = m_files m ∧ ∃ d, step sha H a m = (x, Die d)) as Hlive.
  { intros x fs. cbn [live]. destruct (step sha H a m) as [y [m1|d]]; split.
    - done.
    - by intros (_ & d & ?).
    - intros E. split; [congruence|]. exists d. congruence.
    - intros (-> & d' & E). congruence. }
  assert ((∃ x fs, live sha H c0 (Tick a) (Up m) = (x, Down fs)) ↔ ∃ x d, step sha H a m = (x, Die d)) as ->.
  { split; [intros (x & fs & (-> & d & E)%Hlive); eauto|]. intros (x & d & E). exists x, (m_files m). apply Hlive. eauto. }
  clear Hlive. unfold step, stay. destruct (m_pc m) as [| | |c|c|c|c|] eqn:Hpc.
  - (* the top *)
    assert ((∃ x d, (None, step_top a m) = (x, Die d) :> option (N * string) * res machine) ↔ ∃ d, step_top a m = Die d) as -> by (split; [intros (? & d & [= _ ?])|intros (d & ->)]; eauto).
    unfold step_top. cbv zeta. fold s. split.
    + intros (d & Hs). destruct (are_nodes_in_sync (an_exec a) (an_dist a)) as [[]|] eqn:Hy.
      * apply sync_spec in Hy. destruct (an_final a) as [f|] eqn:Hf; [|done]. destruct (N.leb_spec (st_next s) f) as [Hle|Hgt].
        -- eapply for_slot; [done|done|done|done|]. intros fb ca o' n E1 E2. fold s in E1. rewrite E1 in Hs. cbn [rbind] in Hs. by rewrite E2 in Hs.
        -- destruct (an_due a) eqn:Hdue; [|done].
           assert (compares a m) as Hcm by (split; [done|]; split; [done|]; split; [by exists f|done]).
           destruct (proj1 (compare_spec a m f20 Hcm (ta_env _ Ta) Hr Hfn)) as (l1 & z & Hl1 & Hz1 & [(i & v & Hi & Hv)|(b & zf & Hb1 & Hzf & Ho)]).
           { exists d. rewrite <-Hs. unfold step_top. cbv zeta. fold s. apply sync_spec in Hy as ->. rewrite Hf, Hdue. by destruct (N.leb_spec (st_next s) f); [lia|]. }
           ++ by eapply for_twice.
           ++ by eapply for_assets.
      * done.
      * eapply for_status; [done|]. unfold are_nodes_in_sync in Hy. destruct (an_exec a), (an_dist a); [done|by right|by left|by left].
    + intros E. destruct E as [_ E|f _ Y Hf Hle Hx|b l1 z g20 zf Hcm E1 E2 E3 E4 E5 Hx|l1 z i v Hcm E2 E3 E4 E5|E|E|E|c E|c [[E _]|[E|E]]|c ? ? ? E]; try congruence.
      * assert (are_nodes_in_sync (an_exec a) (an_dist a) = None) as -> by (unfold are_nodes_in_sync; destruct E as [->| ->]; [|destruct (an_exec a)]; done). eauto.
      * apply sync_spec in Y as ->. rewrite Hf. fold s in Hle, Hx. destruct (N.leb_spec (st_next s) f); [|lia].
        destruct (fetch_full_block _ _ _ _ _ _ _) as [[fb ca]|d] eqn:Hfe; cbn [rbind]; [|eauto]. destruct (advance (an_env a) fb (m_or m)) eqn:Ha; [|eauto|eauto].
        exfalso. by eapply Hx.
      * apply (compare_spec a m g20 Hcm (ta_env _ Ta) Hr E4). exists l1, z. do 2 (split; [done|]). right. by exists b, zf.
      * apply (compare_spec a m f20 Hcm (ta_env _ Ta) Hr Hfn). exists l1, z. do 2 (split; [done|]). left. by exists i, v.
  - (* after a slot *)
    assert ((∃ x d, (None, step_processed a m) = (x, Die d) :> option (N * string) * res machine) ↔ ∃ d, step_processed a m = Die d) as -> by (split; [intros (? & d & [= _ ?])|intros (d & ->)]; eauto).
    destruct (Hb Hpc) as [Hb1 Hb2]. fold s in Hb1, Hb2.
    destruct (lived_cfg _ _ _ _ _ G) as [z Hc].
    assert (is_checkpoint (m_or m) = Ok (Some ((u64_sub (st_latest s) (c_dep_slot c0) mod c_cp_size c0 =? 0)%N))) as Hic.
    { unfold is_checkpoint. cbv zeta. fold s. rewrite Hc. change (c_dep_slot (cset_feepct z c0)) with (c_dep_slot c0). change (c_cp_size (cset_feepct z c0)) with (c_cp_size c0).
      destruct (N.eqb_spec (st_latest s) 0); [lia|]. destruct (N.ltb_spec (st_latest s) (c_dep_slot c0)); [lia|]. destruct (N.eqb_spec (c_cp_size c0) 0); [lia|]. done. }
    pose proof (good_latest _ _ _ _ Hg) as Hlt. fold s in Hlt.
    pose proof (is_checkpoint_inv _ _ Hic Hlt) as Hiff. fold s in Hiff.
    assert (∀ cp, is_checkpoint (m_or m) = Ok (Some cp) → cp = true ↔ ∃ j, st_latest s = (c_dep_slot (or_cfg (m_or m)) + j * c_cp_size (or_cfg (m_or m)))%N) as Hcp.
    { intros cp E. rewrite Hic in E. injection E as <-. exact Hiff. }
    unfold step_processed. cbv zeta. fold s. destruct (is_checkpoint (m_or m)) as [[cp|]|]; [|done|done]. specialize (Hcp cp eq_refl). cbn [rbind]. clear Hic Hiff.
    unfold update_interval. split.
    + intros (d & Hs). destruct (N.eqb_spec (st_latest s mod 1200) 0) as [Hm|Hm].
      * destruct (an_refresh a) eqn:Hre; [|by eapply for_validators]. cbn [negb andb] in Hs. destruct cp; [|done].
        destruct (offchain_reconciliation s) eqn:Ho; [done|]. eapply for_books; [done|done|by apply Hcp|].
        intros E. unfold offchain_reconciliation in Ho. rewrite liabilities_owed, assets_received in Ho. apply Z.eqb_neq in Ho. done.
      * cbn [negb andb] in Hs. destruct cp; [|done].
        destruct (offchain_reconciliation s) eqn:Ho; [done|]. eapply for_books; [done|done|by apply Hcp|].
        intros E. unfold offchain_reconciliation in Ho. rewrite liabilities_owed, assets_received in Ho. apply Z.eqb_neq in Ho. done.
    + intros E. destruct E as [E|? E|? ? ? ? ? [E _]|? ? ? ? [E _]|_ Hm Hre|_ Hre Hj Hx|E|c E|c [[E _]|[E|E]]|c ? ? ? E]; try congruence.
      * fold s in Hm. rewrite Hm, Hre. cbn. eauto.
      * fold s in Hre, Hj, Hx. assert ((st_latest s mod 1200 =? 0)%N && negb (an_refresh a) = false) as ->.
        { destruct (N.eqb_spec (st_latest s mod 1200) 0) as [Hm|]; [|done]. by rewrite (Hre Hm). }
        apply Hcp in Hj as ->. destruct (offchain_reconciliation s) eqn:Ho; [|eauto].
        unfold offchain_reconciliation in Ho. rewrite liabilities_owed, assets_received in Ho. by apply Z.eqb_eq in Ho.
  - (* freezing *)
    assert ((∃ x d, (None, step_freezing H a m) = (x, Die d) :> option (N * string) * res machine) ↔ ∃ d, step_freezing H a m = Die d) as -> by (split; [intros (? & d & [= _ ?])|intros (d & ->)]; eauto).
    unfold step_freezing. cbv zeta. fold s. split.
    + intros (d & Hs). eapply for_owner; [done|]. apply withdraws_dec. intros Hp.
      destruct (good_snapshot _ _ (an_env a) f20 Hg (ta_env _ Ta) Hn Hp) as (s' & b & Hf). fold s in Hf. rewrite Hf in Hs. cbn [rbind] in Hs.
      destruct b; [|done]. destruct (latest_committed_state (committed_keys s') s') eqn:Hls; [done|].
      pose proof (CheckpointProofs.latest_state_spec s' (committed_keys s') (reflexivity _)) as Hsp. rewrite Hls in Hsp.
      apply freeze_inv in Hf as [[? _]|(_ & c & _ & _ & ->)]; [done|]. exact (insert_non_empty _ _ _ Hsp).
    + intros E. destruct E as [E|? E|? ? ? ? ? [E _]|? ? ? ? [E _]|E|E|_ Hw|c E|c [[E _]|[E|E]]|c ? ? ? E]; try congruence.
      fold s in Hw. destruct (pool_owner_freeze H (an_env a) s (ta_env _ Ta) Hw) as [d ->]. cbn. eauto.
  - (* polling *)
    unfold step_polling. split.
    + intros (x & d & Hs). eapply for_vote; [done|]. destruct (an_report a); [|by left]. destruct (an_quorum a); [|by right]. exfalso.
      destruct (latest_committed_slot _); [destruct (_ =? _)%N|]; done.
    + intros E. destruct E as [E|? E|? ? ? ? ? [E _]|? ? ? ? [E _]|E|E|E|c' _ Hx|c' [[E _]|[E|E]]|c' ? ? ? E]; try congruence.
      destruct Hx as [-> | ->]; [|destruct (an_report a)]; eauto.
  - (* resting *)
    unfold step_resting. split.
    + intros (x & d & Hs). destruct (c_dry_run (or_cfg (m_or m))) eqn:Hdry; [done|]. destruct (an_onchain a) eqn:Ho; [done|]. eapply (for_onchain _ _ c); [by left|done].
    + intros E. destruct E as [E|? E|? ? ? ? ? [E _]|? ? ? ? [E _]|E|E|E|c' E|c' [[E Hdry]|[E|E]] Ho|c' ? ? ? E]; try congruence. rewrite Hdry, Ho. eauto.
  - (* deciding *)
    unfold step_deciding, fatal. split.
    + intros (x & d & Hs). destruct (an_onchain a) as [[root os]|] eqn:Ho; [|by eapply (for_onchain _ _ c); [right; left|]].
      destruct (c_dry_run (or_cfg (m_or m))) eqn:Hdry; cbn [negb andb] in Hs; [done|].
      destruct (N.eqb_spec (oc_slot c) (u64_add os (c_cp_size (or_cfg (m_or m))))) as [Hs1|]; [|done].
      destruct (update_root _ _ _) as [x' [e|]] eqn:Hu; [|done]. destruct (contains e expected_error) eqn:Hco; [done|].
      eapply (for_report _ _ c root os e); [done|done|done|done|by rewrite Hu|]. intros y y' Ey. assert (contains e expected_error = true); [|congruence].
      apply contains_spec. by exists y, y'.
    + intros E. destruct E as [E|? E|? ? ? ? ? [E _]|? ? ? ? [E _]|E|E|E|c' E|c' [[E _]|[E|E]] Ho|c' root os e E Hdry Ho Hs1 Hu Hx]; try congruence.
      * rewrite Ho. eauto.
      * assert (c' = c) as -> by congruence. rewrite Ho, Hdry, <-Hs1, N.eqb_refl. cbn [negb andb]. destruct (update_root _ _ _) as [x' er]. cbn in Hu. subst er.
        destruct (contains e expected_error) eqn:Hco; [|eauto]. apply contains_spec in Hco as (y & y' & Ey). by destruct (Hx y y').
  - (* waiting *)
    unfold step_waiting. split.
    + intros (x & d & Hs). destruct (an_onchain a) as [[r os]|] eqn:Ho; [destruct (_ && _); done|]. eapply (for_onchain _ _ c); [by right; right|done].
    + intros E. destruct E as [E|? E|? ? ? ? ? [E _]|? ? ? ? [E _]|E|E|E|c' E|c' [[E _]|[E|E]] Ho|c' ? ? ? E]; try congruence. rewrite Ho. eauto.
  - split; [by intros (? & ? & ?)|]. intros E. destruct E as [E|? E|? ? ? ? ? [E _]|? ? ? ? [E _]|E|E|E|c' E|c' [[E _]|[E|E]]|c' ? ? ? E]; congruence.
Qed.

(** ** C98 *)
Lemma claimants_list s l f20 : names f20 (st_fees_addr s) → claimants s l → (∃ l', withdrawal_list s l') →
  (fees_apart s → ∃ l', withdrawal_list s l' ∧ l ≡ₚ f20 :: l') ∧ (withdraws_to s (to_lower (st_fees_addr s)) → withdrawal_list s l).
Proof.
  intros Hn [Nd Hc] (l' & Nd' & Hw). split.
  - intros Ha. exists l'. split; [done|]. apply NoDup_Permutation; [done| |].
    + apply NoDup_cons. split; [|done]. intros (i & v & Hi & [_ E])%Hw. apply Ha. exists i, v. split; [done|]. by rewrite E, (proj2 Hn).
    + intros a. rewrite Hc, elem_of_cons, Hw. split; (intros [E|?]; [left|by right]); [|by subst].
      apply (hex_encode_inj a f20). destruct E as [_ E], Hn as [_ Hn]. rewrite E in Hn. by injection Hn.
  - intros (i & v & Hi & Hv). split; [done|]. intros a. rewrite Hc. split; [|by right]. intros [[Hl E]|?]; [|done].
    exists i, v. split; [done|]. split; [done|]. by rewrite Hv, E.
Qed.
Lemma compare_ends l sent m a f20 : typed_config c0 → (0 < c_dep_slot c0)%N → names f20 (c_fees_addr c0) →
  Forall typed_event l → lifetime sha H c0 l (Down ∅) = (sent, Up m) → typed_answers a → compares a m →
  names f20 (st_fees_addr (or_st (m_or m))) ∧ (∃ l, withdrawal_list (or_st (m_or m)) l) ∧
  ((∃ x fs, live sha H c0 (Tick a) (Up m) = (x, Down fs)) ↔
  (∃ l z, withdrawal_list (or_st (m_or m)) l ∧ paid_to (an_claimed a) l z ∧
    ((∃ i v, st_vals (or_st (m_or m)) !! i = Some v ∧ v_addr v = st_fees_addr (or_st (m_or m))) ∨
     ∃ b zf, an_balance a = Some b ∧ an_claimed a f20 = Some zf ∧ owed (or_st (m_or m)) ≠ (b + z + zf)%Z))).
Proof.
  intros Tc Hd Hn Tl Hl Ta Hcm. destruct (begun_lifetime l (Down ∅) sent (Up m) Tc Hd Tl (good_files_empty sha H c0 false) Hl I) as [G _].
  cbn [good_life] in G. pose proof (gm_good _ _ _ _ _ G) as Hg. pose proof (good_records _ _ Hg) as Hr.
  assert (names f20 (st_fees_addr (or_st (m_or m)))) as Hfn by by rewrite (sp_fees_addr _ _ (dp_params _ _ (good_deployed _ _ _ _ Hg))).
  split; [done|]. split; [by eapply withdrawal_exists, Hr; apply Ta|].
  rewrite <-(compare_spec a m f20 Hcm (ta_env _ Ta) Hr Hfn). cbn [live]. unfold step. rewrite (proj1 Hcm). destruct (step_top a m); split.
  - by intros (? & ? & ?).
  - by intros (? & ?).
  - eauto.
  - eauto.
Qed.
Lemma compare_apart l sent m a f20 L b z : typed_config c0 → (0 < c_dep_slot c0)%N → names f20 (c_fees_addr c0) →
  Forall typed_event l → lifetime sha H c0 l (Down ∅) = (sent, Up m) → typed_answers a → compares a m →
  fees_apart (or_st (m_or m)) → an_balance a = Some b → claimants (or_st (m_or m)) L → paid_to (an_claimed a) L z →
  (∃ x fs, live sha H c0 (Tick a) (Up m) = (x, Down fs)) ↔ owed (or_st (m_or m)) ≠ (b + z)%Z.
Proof.
  intros Tc Hd Hn Tl Hl Ta Hcm Ha Hb HL Hz. destruct (compare_ends l sent m a f20 Tc Hd Hn Tl Hl Ta Hcm) as (Hfn & Hex & ->).
  destruct (proj1 (claimants_list _ _ _ Hfn HL Hex) Ha) as (l' & Hl' & Hp). apply (paid_perm _ _ _ _ Hp) in Hz as (zs & Hf & ->).
  apply Forall2_cons_inv_l in Hf as (zf & ys & Hzf & Hf & ->). cbn [foldr]. split.
  - intros (l1 & z & Hl1 & Hz & [(i & v & Hi & Hv)|(b' & zf' & Hb' & Hzf' & Ho)]).
    + destruct Ha. exists i, v. split; [done|]. by rewrite Hv.
    + assert (z = foldr Z.add 0%Z ys) as ->. { eapply paid_fun; [|by exists ys]. eapply paid_perm; [|exact Hz]. by eapply withdrawal_perm. }
      rewrite Hb in Hb'. rewrite Hzf in Hzf'. injection Hb' as <-. injection Hzf' as <-. lia.
  - intros Ho. exists l', (foldr Z.add 0%Z ys). split; [done|]. split; [by exists ys|]. right. exists b, zf. do 2 (split; [done|]). lia.
Qed.
Lemma compare_shared l sent m a f20 L b z zf : typed_config c0 → (0 < c_dep_slot c0)%N → names f20 (c_fees_addr c0) →
  Forall typed_event l → lifetime sha H c0 l (Down ∅) = (sent, Up m) → typed_answers a → compares a m →
  withdraws_to (or_st (m_or m)) (to_lower (c_fees_addr c0)) → an_balance a = Some b → claimants (or_st (m_or m)) L → paid_to (an_claimed a) L z →
  an_claimed a f20 = Some zf →
  (∃ x fs, live sha H c0 (Tick a) (Up m) = (x, Down fs)) ↔ to_lower (c_fees_addr c0) = c_fees_addr c0 ∨ owed (or_st (m_or m)) ≠ (b + z + zf)%Z.
Proof.
  intros Tc Hd Hn Tl Hl Ta Hcm Ha Hb HL Hz Hzf. destruct (compare_ends l sent m a f20 Tc Hd Hn Tl Hl Ta Hcm) as (Hfn & Hex & ->).
  destruct (begun_lifetime l (Down ∅) sent (Up m) Tc Hd Tl (good_files_empty sha H c0 false) Hl I) as [G _].
  cbn [good_life] in G. pose proof (gm_good _ _ _ _ _ G) as Hg. pose proof (good_records _ _ Hg) as Hr.
  pose proof (sp_fees_addr _ _ (dp_params _ _ (good_deployed _ _ _ _ Hg))) as Ef. rewrite <-Ef in Ha |- *.
  pose proof (proj2 (claimants_list _ _ _ Hfn HL Hex) Ha) as Hw. 
  assert (∀ i v, st_vals (or_st (m_or m)) !! i = Some v → to_lower (v_addr v) = v_addr v) as Hlow.
  { intros i v Hi. destruct (Hr i v Hi) as [_ (body & -> & _ & Hfa)]. change (to_lower ("0x" +:+ body)) with ("0x" +:+ to_lower body). by rewrite (to_lower_lower body Hfa). }
  split.
  - intros (l1 & z1 & Hl1 & Hz1 & [(i & v & Hi & Hv)|(b' & zf' & Hb' & Hzf' & Ho)]).
    + left. rewrite <-Hv. by eapply Hlow.
    + right. assert (z1 = z) as ->. { eapply paid_fun; [|exact Hz]. eapply paid_perm; [|exact Hz1]. by eapply withdrawal_perm. }
      rewrite Hb in Hb'. rewrite Hzf in Hzf'. injection Hb' as <-. by injection Hzf' as <-.
  - intros Ho. exists L, z. do 2 (split; [done|]). destruct Ho as [Ho|Ho]; [left|right; by exists b, zf].
    destruct Ha as (i & v & Hi & Hv). exists i, v. split; [done|]. rewrite (Hlow i v Hi) in Hv. by rewrite Hv, Ho.
Qed.

(** ** C93 *)
Lemma stop_start l sent m E slot torn f20 : typed_config c0 → (0 < c_dep_slot c0)%N → names f20 (c_fees_addr c0) →
  Forall typed_event l → lifetime sha H c0 l (Down ∅) = (sent, Up m) → m_pc m ≠ Saving →
  wf_env E → pool_apart (or_st (m_or m)) →
  c_dry_run c0 = true ∨ (∀ k, is_Some (st_committed (or_st (m_or m)) !! k) → (k ≤ slot)%N) →
  ∃ m', lifetime sha H c0 [Signal Written; End torn; Start E None (Some slot)] (Up m) = ([], Up m') ∧
    m_pc m' = Begin ∧ same_oracle (m_or m) (m_or m').
Proof.
  intros Tc Hd Hn Tl Hl Hpc W Hp Hk.
  destruct (begun_lifetime l (Down ∅) sent (Up m) Tc Hd Tl (good_files_empty sha H c0 false) Hl I) as [G _]. cbn [good_life] in G.
  pose proof (gm_good _ _ _ _ _ G) as Hg. pose proof (good_deployed _ _ _ _ Hg) as D.
  exists (Machine Begin (rehash "" (m_or m)) empty_cache (save sha false (m_or m) (m_files m)).2).
  split; [|split; [done|by destruct (m_or m) as [? []]]].
  assert (startup sha H E None (Some slot) (save sha false (m_or m) (m_files m)).2 c0 = Ok (rehash "" (m_or m))) as Hst.
  { apply (startup_saved _ _ _ _ _ _ _ _ f20); try done; [by eapply good_range|by eapply good_records|].
    by rewrite (sp_fees_addr _ _ (dp_params _ _ D)). }
  cbn [lifetime live save_now disk_after m_pc m_files]. destruct (m_pc m); try done; cbn [live]; by rewrite Hst.
Qed.
Lemma write_other ws k cut fs p : (∀ q d, (q, d) ∈ ws → q ≠ p) → write_some ws k cut fs !! p = fs !! p.
Proof.
  revert k fs. induction ws as [|[q d] ws IH]; intros k fs Hw; [done|]. assert (q ≠ p) by (apply (Hw q d); by left).
  destruct k; cbn [write_some]; [by apply lookup_insert_ne|]. rewrite IH; [by apply lookup_insert_ne|]. intros q' d' Hin. apply (Hw q' d'). by right.
Qed.
Lemma writes_names b s q d : (q, d) ∈ save_writes b s → q = state_path ∨ (b = true ∧ q = slot_path (st_latest s)).
Proof.
  unfold save_writes. intros Hin. apply elem_of_cons in Hin as [[= -> _]|Hin]; [by left|]. destruct b; [|by apply elem_of_nil in Hin].
  apply elem_of_list_singleton in Hin. injection Hin as -> _. by right.
Qed.
Lemma disk_other b o d fs p : p ≠ state_path → (b = true → p ≠ slot_path (st_latest (or_st o))) → disk_after sha b o d fs !! p = fs !! p.
Proof.
  intros H1 H2. assert (∀ q x, (q, x) ∈ save_writes b (hash_state sha (or_st o)) → q ≠ p) as Hw.
  { intros q x [->|[Hb ->]]%writes_names; [congruence|]. intros <-. by apply (H2 Hb). }
  destruct d as [|k cut|k]; cbn [disk_after]; [apply write_other; exact Hw|by apply write_other|].
  apply write_other. intros q x Hin. apply (Hw q x). rewrite <-(take_drop k (save_writes _ _)). apply elem_of_app. by left.
Qed.
Lemma step_files a m sent m' : step sha H a m = (sent, Ok m') → m_pc m ≠ Saving → m_files m' = m_files m.
Proof.
  intros Hs Hpc. unfold step, stay in Hs. destruct (m_pc m) as [| | |c|c|c|c|] eqn:E; [..|done].
  - injection Hs as _ Hs. unfold step_top in Hs. cbv zeta in Hs. destruct (are_nodes_in_sync _ _) as [[]|]; [|by injection Hs as <-|done].
    destruct (an_final a); [|by injection Hs as <-]. destruct (_ <=? _)%N.
    + apply rbind_ok in Hs as ([fb ca] & _ & Hs). destruct (advance _ _ _); [by injection Hs as <-|done|done].
    + destruct (an_due a); [|by injection Hs as <-]. apply rbind_ok in Hs as (u & _ & Hs). apply rbind_ok in Hs as (cl & _ & Hs). destruct (an_balance a); [|by injection Hs as <-].
      destruct cl; [|by injection Hs as <-]. destruct (onchain_reconciliation _ _ _); [by injection Hs as <-|done].
  - injection Hs as _ Hs. unfold step_processed in Hs. cbv zeta in Hs. destruct (_ && _); [done|].
    apply rbind_ok in Hs as ([[]|] & _ & Hs); [destruct (offchain_reconciliation _); [|done]| |done]; by injection Hs as <-.
  - injection Hs as _ Hs. unfold step_freezing in Hs. cbv zeta in Hs. apply rbind_ok in Hs as ([s' b] & _ & Hs).
    destruct b; [destruct (latest_committed_state (committed_keys s') s'); [|done]|]; by injection Hs as <-.
  - injection Hs as _ Hs. unfold step_polling in Hs. destruct (an_report a); [|done]. destruct (an_quorum a); [|done].
    destruct (latest_committed_slot (committed_keys (or_st (m_or m)))); [case_match|]; by injection Hs as <-.
  - injection Hs as _ Hs. unfold step_resting in Hs. destruct (c_dry_run _); [|destruct (an_onchain a); [|done]]; by injection Hs as <-.
  - unfold step_deciding, fatal in Hs. destruct (an_onchain a) as [[r os]|]; [|done]. destruct (negb _ && _).
    + destruct (update_root _ _ _) as [x [e|]]; [destruct (contains _ _); [|done]|]; by injection Hs as _ <-.
    + by injection Hs as _ <-.
  - injection Hs as _ Hs. unfold step_waiting in Hs. destruct (an_onchain a) as [[r os]|]; [|done].
    destruct (_ && _); by injection Hs as <-.
Qed.
Lemma event_files e m sent L p : live sha H c0 e (Up m) = (sent, L) → left_files L !! p ≠ m_files m !! p →
  (p = state_path ∧ ((∃ d, e = Signal d) ∨ m_pc m = Saving)) ∨ (p = slot_path (st_latest (or_st (m_or m))) ∧ m_pc m = Saving).
Proof.
  intros Hl Hne. destruct e as [E sync onchain|a| |d|d]; cbn [live] in Hl.
  - injection Hl as _ <-. done.
  - destruct (step sha H a m) as [x [m1|]] eqn:Hs; injection Hl as _ <-; cbn [left_files] in Hne; [|done].
    assert (m_pc m = Saving ∨ m_pc m ≠ Saving) as [E|E] by (destruct (m_pc m); [by right..|by left]); [|by rewrite (step_files _ _ _ _ Hs E) in Hne].
    unfold step, stay in Hs. rewrite E in Hs. injection Hs as _ <-. cbn [goto save_now m_files] in Hne.
    destruct (decide (p = state_path)) as [->|N1]; [left; by split; [|right]|]. destruct (decide (p = slot_path (st_latest (or_st (m_or m))))) as [->|N2]; [by right|].
    by rewrite disk_other in Hne.
  - injection Hl as _ <-. done.
  - injection Hl as _ <-. cbn [left_files save_now m_files] in Hne. destruct (decide (p = state_path)) as [->|N1]; [left; split; [done|left; by exists d]|].
    by rewrite disk_other in Hne.
  - injection Hl as _ <-. cbn [left_files] in Hne.
    assert (m_pc m = Saving ∨ m_pc m ≠ Saving) as [E|E] by (destruct (m_pc m); [by right..|by left]); [|by destruct (m_pc m)].
    rewrite E in Hne. destruct (decide (p = state_path)) as [->|N1]; [left; by split; [|right]|].
    destruct (decide (p = slot_path (st_latest (or_st (m_or m))))) as [->|N2]; [by right|]. by rewrite disk_other in Hne.
Qed.

(** The copy of a slot is not written again. *)
Definition beyond (k : N) (L : life) : Prop :=
  match L with Down _ => True | Up m => (k ≤ st_latest (or_st (m_or m)))%N ∧ (m_pc m = Begin ∨ (k < st_latest (or_st (m_or m)))%N) end.
Lemma beyond_live k e L sent L' : typed_config c0 → (0 < c_dep_slot c0)%N → typed_event e → no_start e → good_life sha H c0 false L →
  live sha H c0 e L = (sent, L') → beyond k L → beyond k L' ∧ left_files L' !! slot_path k = left_files L !! slot_path k.
Proof.
  intros Tc Hd Te Ns G Hl Hb. destruct L as [fs|m].
  { destruct e; cbn [live no_start] in Hl, Ns; [done|..]; by injection Hl as _ <-. }
  split.
  - destruct e as [E sync onchain|a| |d|d]; cbn [live] in Hl; [done| |by injection Hl as _ <-..].
    destruct (step sha H a m) as [x [m1|]] eqn:Hs; injection Hl as _ <-; [|done]. destruct Hb as [Hb1 Hb2].
    assert (m_pc m = Begin ∨ m_pc m ≠ Begin) as [E|E] by (destruct (m_pc m); [by left|by right..]).
    + apply step_begin in Hs as [->|(f & d & fb & _ & _ & _ & Hf & Hle & Ha & _)]; [done| |done].
      apply advance_slots in Ha as (_ & _ & Hn & Hlt & _). destruct (gm_good _ _ _ _ _ G) as (ops & _ & Hb3 & _).
      assert (st_latest (or_st (m_or m1)) = st_latest (or_st (m_or m)) + 1)%N as Hx.
      { rewrite Hlt, Hn. unfold u64_add, u64. rewrite N.mod_small by (unfold two64 in *; lia). done. }
      cbn [beyond]. rewrite Hx. split; [lia|right; lia].
    + apply step_other in Hs as [Hbk _]; [|done]. assert (st_latest (or_st (m_or m1)) = st_latest (or_st (m_or m))) as Hx.
      { pose proof (f_equal (λ b, b.1.1.2.1.1) Hbk) as Hx. exact Hx. }
      cbn [beyond]. rewrite Hx. split; [done|]. right. destruct Hb2; [done|lia].
  - destruct (decide (left_files L' !! slot_path k = m_files m !! slot_path k)) as [Heq|Hne]; [done|]. exfalso.
    destruct (event_files _ _ _ _ _ Hl Hne) as [[E _]|[E Hpc]]; [by eapply slot_state_apart|].
    pose proof (good_latest _ _ _ _ (gm_good _ _ _ _ _ G)) as Hlt. destruct Hb as [Hb1 Hb]. apply slot_path_inj in E; [|lia|done]. destruct Hb as [Hb|Hb]; [congruence|lia].
Qed.
Lemma beyond_lifetime k l L sent L' : typed_config c0 → (0 < c_dep_slot c0)%N → Forall typed_event l → Forall no_start l → good_life sha H c0 false L →
  lifetime sha H c0 l L = (sent, L') → beyond k L → left_files L' !! slot_path k = left_files L !! slot_path k.
Proof.
  intros Tc Hd. revert L sent. induction l as [|e l IH]; intros L sent Te Ns G Hl Hb; cbn [lifetime] in Hl; [injection Hl as _ <-; done|].
  apply Forall_cons in Te as [Te Tl]. apply Forall_cons in Ns as [Ne Nl]. destruct (live sha H c0 e L) as [x L1] eqn:H1. destruct (lifetime sha H c0 l L1) as [y L2] eqn:H2.
  injection Hl as _ <-. destruct (beyond_live k _ _ _ _ Tc Hd Te Ne G H1 Hb) as [Hb1 Hf]. rewrite <-Hf. eapply IH; [done|done| |done|done].
  eapply good_live; [done|done|done| |done|done]. by left.
Qed.
Lemma copy_kept l sent m a l2 sent' L E f20 : typed_config c0 → (0 < c_dep_slot c0)%N → names f20 (c_fees_addr c0) →
  Forall typed_event l → lifetime sha H c0 l (Down ∅) = (sent, Up m) → m_pc m = Saving → an_disk a = Written → typed_answers a →
  Forall typed_event l2 → Forall no_start l2 → lifetime sha H c0 (Tick a :: l2) (Up m) = (sent', L) →
  wf_env E → pool_apart (or_st (m_or m)) →
  ∃ o', load_path sha H E (left_files L) (slot_path (st_latest (or_st (m_or m)))) (new_oracle c0) = Done o' true ∧ same_oracle (m_or m) o'.
Proof.
  intros Tc Hd Hn Tl Hl Hpc Hdk Ta T2 N2 Hl2 W Hp.
  destruct (begun_lifetime l (Down ∅) sent (Up m) Tc Hd Tl (good_files_empty sha H c0 false) Hl I) as [G _].
  cbn [lifetime] in Hl2. destruct (live sha H c0 (Tick a) (Up m)) as [x L1] eqn:H1. destruct (lifetime sha H c0 l2 L1) as [y L2] eqn:H2. injection Hl2 as _ <-.
  assert (good_life sha H c0 false L1) as G1 by (eapply (good_live sha H c0 false (Tick a)); [done|done|done|by left|exact G|done]).
  cbn [live] in H1. unfold step, stay in H1. rewrite Hpc in H1. injection H1 as _ <-. cbn [good_life] in G.
  pose proof (gm_good _ _ _ _ _ G) as Hg. pose proof (good_deployed _ _ _ _ Hg) as D.
  exists (rehash "" (m_or m)). split; [|by destruct (m_or m) as [? []]].
  unfold load_path. rewrite (beyond_lifetime (st_latest (or_st (m_or m))) _ _ _ _ Tc Hd T2 N2 G1 H2).
  - cbn [left_files goto save_now m_files]. rewrite Hdk. cbn [disk_after]. rewrite save_slot_file.
    apply (load_deployed _ _ _ _ _ f20); try done; [by eapply good_range|by eapply good_records|].
    by rewrite (sp_fees_addr _ _ (dp_params _ _ D)).
  - cbn. split; [done|by left].
Qed.
Lemma stop_saving l sent m E slot cut : typed_config c0 → (0 < c_dep_slot c0)%N →
  Forall typed_event l → lifetime sha H c0 l (Down ∅) = (sent, Up m) → m_pc m = Saving →
  (cut < String.length (marshal (hash_state sha (or_st (m_or m)))))%nat →
  ∃ fs, lifetime sha H c0 [Signal Written; End (Stopped 0 cut); Start E None slot] (Up m) = ([], Down fs).
Proof.
  intros Tc Hd Tl Hl Hpc Hc.
  destruct (begun_lifetime l (Down ∅) sent (Up m) Tc Hd Tl (good_files_empty sha H c0 false) Hl I) as [G _]. cbn [good_life] in G.
  pose proof (gm_good _ _ _ _ _ G) as Hg. apply good_range in Hg; [|done].
  cbn [lifetime live save_now m_pc m_files m_or]. rewrite Hpc. cbn [disk_after].
  set (o1 := (save sha false (m_or m) (m_files m)).1). set (fs := (save sha false (m_or m) (m_files m)).2).
  destruct (torn_startup sha H E true o1 cut fs slot c0) as [e ->]; [|exact Hc|by eexists].
  by apply range_hash.
Qed.
End life.
