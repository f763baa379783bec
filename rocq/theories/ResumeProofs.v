(** Restarts: a deployment that is stopped and resumed does the same as one that is not; and interrupted writes.
    oracle.go:495-706, main.go:128-189. *)
From Verif Require Export PersistProofs.
From Verif Require Import StepProofs.

(** ** The recorded hash plays no part *)
Definition rehash (h : string) (o : oracle) : oracle := Oracle (or_cfg o) (set_hash h (or_st o)).
Lemma rehash_dress h o : rehash h o = dress_oracle h (st_committed (or_st o)) o.
Proof. by destruct o as [? []]. Qed.
Lemma rehash_id o : rehash (st_hash (or_st o)) o = o.
Proof. by destruct o as [? []]. Qed.
Lemma same_rehash a b : same_oracle a b → b = rehash (st_hash (or_st b)) a.
Proof. destruct a as [c []], b as [c' []]. intros [Hc Hs]. cbn in *. unfold same_content in Hs. cbn in Hs. unfold rehash. cbn. subst c'. f_equal. by injection Hs as -> -> -> -> -> -> -> -> -> -> -> -> -> -> -> -> -> -> -> -> ->. Qed.
Lemma advance_rehash h E fb o o1 n : advance E fb o = Done o1 n → advance E fb (rehash h o) = Done (rehash h o1) n.
Proof.
  intros Ha. rewrite rehash_dress, dress_advance, Ha. cbn [omap']. f_equal.
  rewrite <-(advance_committed _ _ _ _ _ Ha). symmetry. apply rehash_dress.
Qed.
Lemma freeze_rehash H h E s s1 b : freeze H E s = Ok (s1, b) → freeze H E (set_hash h s) = Ok (set_hash h s1, b).
Proof.
  intros [(-> & -> & Hs)|(-> & c & Hs & Hc & ->)]%freeze_inv; unfold freeze.
  - change (snapshot H E (set_hash h s)) with (snapshot H E s). by rewrite Hs.
  - change (snapshot H E (set_hash h s)) with (snapshot H E s). rewrite Hs. cbn [rbind]. by rewrite Hc.
Qed.
Lemma evolve_rehash H h o l o' : evolve H o l o' → evolve H (rehash h o) l (rehash h o').
Proof.
  induction 1 as [o|o E fb o1 n l o2 W Hd Ha _ IH|o E s1 b l o2 W Hf _ IH]; [constructor|..].
  - eapply evolve_process; [done|done|by apply advance_rehash|done].
  - eapply (evolve_freeze _ (rehash h o)); [done|by apply freeze_rehash|done].
Qed.
Lemma evolve_app H o l1 o1 l2 o2 : evolve H o l1 o1 → evolve H o1 l2 o2 → evolve H o (l1 ++ l2) o2.
Proof.
  induction 1 as [o|o E fb o1 n l o2' W Hd Ha _ IH|o E s1 b l o2' W Hf _ IH]; intros H2; [done|..]; cbn.
  - eapply evolve_process; eauto.
  - eapply evolve_freeze; eauto.
Qed.

(** ** What a deployment keeps *)
Record deployed (c0 : config) (o : oracle) : Prop := Deployed {
  dp_cfg : or_cfg o = cset_feepct (st_feepct (or_st o)) c0;
  dp_params : same_params (or_st o) c0;
  dp_fee : st_feepct (or_st o) = c_feepct c0 ∨
    ∃ k, (k ≤ st_latest (or_st o))%N ∧ fee_schedule (c_network c0) !! k = Some (st_feepct (or_st o));
  dp_slot : (st_latest (or_st o) < two64)%N }.
Lemma deployed_new c0 : deployed c0 (new_oracle c0).
Proof.
  split; [by destruct c0|done|by left|]. cbn. unfold u64_sub, u64. by apply N.mod_lt.
Qed.
Lemma deployed_rehash c0 h o : deployed c0 o → deployed c0 (rehash h o).
Proof. intros [H1 [? ? ? ? ? ? ?] H3 H4]. done. Qed.

Lemma advance_params E fb o o' n : advance E fb o = Done o' n →
  st_network (or_st o') = st_network (or_st o) ∧ st_pool (or_st o') = st_pool (or_st o) ∧
  st_fees_addr (or_st o') = st_fees_addr (or_st o) ∧ st_coll (or_st o') = st_coll (or_st o) ∧
  st_cp_size (or_st o') = st_cp_size (or_st o) ∧ st_dep_block (or_st o') = st_dep_block (or_st o) ∧
  st_dep_slot (or_st o') = st_dep_slot (or_st o).
Proof.
  intros (o1 & b & don & s2 & s3 & H1 & H2 & Hv & Hs & H3 & Hd & Hp & Hc & -> & _)%advance_inv.
  apply cleanup_step_frame in Hc as [Hst _]. apply process_block_frame in Hp as (s0 & -> & Hst0 & _).
  rewrite Hst0 in Hst. unfold static in Hst. cbn in Hst.
  injection Hst as E1 E2 E3 E4 E5 E6 E7 E8 E9 E10 E11 E12 E13 E14 E15 E16. cbn.
  rewrite E10, E11, E12, E13, E14, E15, E16.
  apply validate_config_inv in Hv as [->|(fee & lg & l & _ & _ & ->)]; done.
Qed.
Lemma deployed_advance c0 E fb o o' n : deployed c0 o → fb_duty_slot fb ≠ 0%N → advance E fb o = Done o' n → deployed c0 o'.
Proof.
  intros [D1 [P1 P2 P3 P4 P5 P6 P7] D3 D4] Hnz Ha. pose proof (advance_slots _ _ _ _ _ Ha) as (Hn & _ & Hn' & Hl & _).
  pose proof (advance_params _ _ _ _ _ Ha) as (Q1 & Q2 & Q3 & Q4 & Q5 & Q6 & Q7).
  assert (st_latest (or_st o') = st_latest (or_st o) + 1 ∧ st_latest (or_st o') < two64)%N as [Hle Hlt].
  { rewrite Hl. unfold u64_add, u64 in Hn'. rewrite <-Hn in Hnz. split.
    - destruct (N.lt_ge_cases (st_latest (or_st o) + 1) two64) as [Hx|Hx]; [by rewrite N.mod_small in Hn'|].
      assert (st_latest (or_st o) + 1 = two64)%N as Hy by lia. rewrite Hy, N.mod_same in Hn' by done. done.
    - rewrite Hn'. by apply N.mod_lt. }
  assert (same_params (or_st o') c0) as Hp by (split; congruence).
  apply advance_fee in Ha as [(Hf & Hc & _)|(fee & lg & z & _ & _ & Hz & Hf & Hc)].
  - split; [congruence|done| |done]. rewrite Hf, Hle. destruct D3 as [D3|(k & Hk & D3)]; [by left|]. right.
    exists k. split; [lia|done].
  - split; [rewrite Hc, D1, Hf; done|done| |done]. right. exists n. rewrite Hl, Hf. split; [done|].
    rewrite D1 in Hz. exact Hz.
Qed.
Lemma deployed_evolve c0 H o l o' : evolve H o l o' → deployed c0 o → deployed c0 o'.
Proof.
  induction 1 as [o|o E fb o1 n l o2 W Hd Ha _ IH|o E s1 b l o2 W Hf _ IH]; intros D; [done|..]; apply IH.
  - by eapply deployed_advance.
  - apply freeze_inv in Hf as [(_ & -> & _)|(_ & c & _ & _ & ->)]; [by destruct o|].
    destruct D as [H1 [? ? ? ? ? ? ?] H3 H4]. done.
Qed.
Lemma deployed_checks c0 o : deployed c0 o → load_checks (or_st o) c0 = (or_cfg o, None).
Proof.
  intros [D1 D2 D3 _]. rewrite D1. apply checks_ok; [done|]. destruct D3 as [?|(k & Hle & Hk)]; [by left|]. right. right.
  exists k. split; [done|]. split; [done|]. intros k' z Hk' _. destruct (schedule_single _ _ _ _ _ Hk Hk') as [<- _]. done.
Qed.
Lemma evolve_records H o l o' : evolve H o l o' → wf_records (or_st o) → wf_records (or_st o').
Proof.
  induction 1 as [o|o E fb o1 n l o2 W Hd Ha _ IH|o E s1 b l o2 W Hf _ IH]; intros Hr; [done|..]; apply IH.
  - by eapply advance_records.
  - apply freeze_inv in Hf as [(_ & -> & _)|(_ & c & _ & _ & ->)]; done.
Qed.

(** ** Starting from the files of a save *)
Lemma committed_keys_ok s : checkpoint_keys s (committed_keys s).
Proof. unfold checkpoint_keys, committed_keys. reflexivity. Qed.
Lemma no_rollback s slot : (∀ k, is_Some (st_committed s !! k) → (k ≤ slot)%N) →
  (slot <? default 0 (latest_committed_slot (committed_keys s)))%N = false.
Proof.
  intros Hk. apply N.ltb_ge. destruct (committed_keys s) as [|x l] eqn:E; [cbn; lia|].
  destruct (latest_slot_spec (x :: l)) as (r & -> & Hin & _); [done|]. cbn. apply Hk.
  apply (keys_elem s (committed_keys s)); [apply committed_keys_ok|]. by rewrite E.
Qed.
Lemma rollback_needed s slot k : is_Some (st_committed s !! k) → (slot < k)%N →
  (slot <? default 0 (latest_committed_slot (committed_keys s)))%N = true.
Proof.
  intros Hk Hlt. apply N.ltb_lt. apply (keys_elem s (committed_keys s)) in Hk; [|apply committed_keys_ok].
  destruct (latest_slot_spec (committed_keys s)) as (r & -> & _ & Hmax); [intros Hn; rewrite Hn in Hk; by apply elem_of_nil in Hk|].
  cbn. specialize (Hmax _ Hk). lia.
Qed.
Lemma startup_saved_inv sha H E b o slot fs c0 o1 : deployed c0 o → in_range (or_st o) →
  (∀ k, is_Some (st_committed (or_st o) !! k) → (k ≤ slot)%N) →
  startup sha H E None (Some slot) (save sha b o fs).2 c0 = Ok o1 → o1 = rehash "" o.
Proof.
  intros D Hr Hk. unfold startup, load_json, load_path. rewrite save_state_file.
  destruct (load_bytes sha H E (marshal (hash_state sha (or_st o))) (new_oracle c0)) as [o2 x|o2 e|d] eqn:Hl; [|done|done].
  apply load_inv in Hl as (s & Hu & _ & _ & -> & Hc & Hs). rewrite unmarshal_marshal in Hu by (by apply range_hash).
  injection Hu as <-. change (load_checks (hash_state sha (or_st o)) ?c) with (load_checks (or_st o) c) in Hc.
  change (or_cfg (new_oracle c0)) with c0 in Hc. rewrite (deployed_checks _ _ D) in Hc. injection Hc as Hc.
  change (set_hash "" (hash_state sha (or_st o))) with (set_hash "" (or_st o)) in Hs.
  assert (o2 = rehash "" o) as -> by (destruct o2; cbn in *; unfold rehash; congruence).
  change (committed_keys (or_st (rehash "" o))) with (committed_keys (or_st o)). rewrite (no_rollback _ _ Hk), andb_false_r.
  by intros [= <-].
Qed.
Lemma load_deployed sha H E c0 o f20 : deployed c0 o → in_range (or_st o) → wf_env E →
  wf_records (or_st o) → pool_apart (or_st o) → names f20 (st_fees_addr (or_st o)) →
  load_bytes sha H E (marshal (hash_state sha (or_st o))) (new_oracle c0) = Done (rehash "" o) true.
Proof.
  intros D Hr W Hw Hp Hn. destruct (tree_total H E _ f20 W Hw Hp Hn) as [g Hg]. unfold rehash.
  apply load_saved; [done|done|by exists g|]. by apply deployed_checks.
Qed.
Lemma startup_saved sha H E b o slot fs c0 f20 : deployed c0 o → in_range (or_st o) → wf_env E →
  wf_records (or_st o) → pool_apart (or_st o) → names f20 (st_fees_addr (or_st o)) →
  c_dry_run c0 = true ∨ (∀ k, is_Some (st_committed (or_st o) !! k) → (k ≤ slot)%N) →
  startup sha H E None (Some slot) (save sha b o fs).2 c0 = Ok (rehash "" o).
Proof.
  intros D Hr W Hw Hp Hn Hk. unfold startup, load_json, load_path. rewrite save_state_file.
  rewrite (load_deployed _ _ _ _ _ f20) by done.
  change (committed_keys (or_st (rehash "" o))) with (committed_keys (or_st o)).
  assert (negb (c_dry_run (or_cfg (rehash "" o))) && (slot <? default 0 (latest_committed_slot (committed_keys (or_st o))))%N = false) as ->; [|done].
  destruct Hk as [Hk|Hk]; [|by rewrite (no_rollback _ _ Hk), andb_false_r].
  destruct D as [D1 _ _ _]. change (or_cfg (rehash "" o)) with (or_cfg o). rewrite D1. destruct c0; cbn in *. by rewrite Hk.
Qed.

(** ** C33 *)
Lemma lives_evolve sha H c0 o l o' : lives sha H c0 o l o' → deployed c0 o → saveable (or_st o) →
  Forall typed_operation (work l) → ∃ p', evolve H o (work l) p' ∧ same_oracle p' o'.
Proof.
  induction 1 as [o|o x o1 l o2 Hx _ IH|o l o2 _ IH|o E b slot fs o1 l o2 W Hk Hs _ IH]; intros D S T.
  - exists o. split; [constructor|done].
  - cbn in T. inversion T as [|? ? Tx Tl]; subst. destruct IH as (p & Hp & Hsame); [by eapply deployed_evolve| |done|].
    { eapply saveable_evolve; [done| |done]. by constructor. }
    exists p. split; [|done]. change (work (Step x :: l)) with ([x] ++ work l). by eapply evolve_app.
  - destruct IH as (p & Hp & [Hs1 Hs2]); [by apply (deployed_rehash c0 _ o)| |done|].
    { apply saveable_hash; [apply ascii_hexutil|done]. }
    exists (rehash (st_hash (or_st o)) p). split; [|done]. change (work (Rehash :: l)) with (work l).
    rewrite <-(rehash_id o) at 1.
    exact (evolve_rehash H (st_hash (or_st o)) _ _ _ Hp).
  - apply (startup_saved_inv _ _ _ _ _ _ _ _ _ D (saveable_range _ S) Hk) in Hs. subst o1.
    destruct IH as (p & Hp & [Hs1 Hs2]); [by apply deployed_rehash|by apply saveable_hash|done|].
    exists (rehash (st_hash (or_st o)) p). split; [|done]. change (work (Restart E b slot fs :: l)) with (work l).
    rewrite <-(rehash_id o) at 1. exact (evolve_rehash H (st_hash (or_st o)) _ _ _ Hp).
Qed.
Lemma lives_reach sha H c0 l o : typed_config c0 → lives sha H c0 (new_oracle c0) l o → Forall typed_operation (work l) →
  ∃ p, evolve H (new_oracle c0) (work l) p ∧ same_oracle p o ∧ deployed c0 o ∧ in_range (or_st o) ∧ wf_records (or_st o).
Proof.
  intros Tc Hl T. destruct (lives_evolve _ _ _ _ _ _ Hl) as (p & Hp & Hsame); [apply deployed_new|by apply saveable_new|done|].
  exists p. split; [done|]. split; [done|]. rewrite (same_rehash _ _ Hsame).
  split; [by apply deployed_rehash; eapply deployed_evolve; [|apply deployed_new]|].
  split.
  - apply range_hash, saveable_range. eapply saveable_evolve; [done|done|by apply saveable_new].
  - change (wf_records (or_st p)). eapply evolve_records; [done|]. apply fresh_records.
Qed.

(** ** C34 *)
Lemma substring_prefix n d : substring 0 n d = d ∨ ∃ x, d = substring 0 n d +:+ x ∧ x ≠ "".
Proof.
  revert d. induction n as [|n IH]; intros [|c d]; [by left|right; by exists (String c d)|by left|]. cbn [substring].
  destruct (IH d) as [E|(x & E & Hx)]; [left; by f_equal|]. right. exists x. rewrite scons_app. split; [by f_equal|done].
Qed.
Lemma substring_short n d : (n < String.length d)%nat → ∃ x, d = substring 0 n d +:+ x ∧ x ≠ "".
Proof.
  revert d. induction n as [|n IH]; intros [|c d] Hl; cbn in Hl; [lia|by exists (String c d)|lia|].
  destruct (IH d) as (x & E & Hx); [lia|]. exists x. cbn [substring]. rewrite scons_app. split; [by f_equal|done].
Qed.
Lemma crash_lookup sha b o k cut fs p :
  save_crash sha b o k cut fs !! p = fs !! p ∨
  ∃ n, save_crash sha b o k cut fs !! p = Some (substring 0 n (marshal (hash_state sha (or_st o)))).
Proof.
  unfold save_crash, save_writes. set (d := marshal (hash_state sha (or_st o))).
  change (st_latest (hash_state sha (or_st o))) with (st_latest (or_st o)).
  assert (∃ n, d = substring 0 n d) as [nd Hnd].
  { exists (String.length d). clear. induction d as [|c d IH]; [done|]. cbn. by rewrite <-IH. }
  assert (∀ q v (m : files), (∃ n, v = substring 0 n d) →
    (m !! p = fs !! p ∨ ∃ n, m !! p = Some (substring 0 n d)) →
    (<[q := v]> m !! p = fs !! p ∨ ∃ n, <[q := v]> m !! p = Some (substring 0 n d))) as Hins.
  { intros q v m [n ->] Hm. destruct (decide (q = p)) as [->|Hne]; [right; exists n; apply lookup_insert|].
    by rewrite lookup_insert_ne. }
  destruct b; destruct k as [|[|k]]; cbn [write_some]; repeat (apply Hins; [eauto|]); by left.
Qed.
Lemma crash_load sha H E b o k cut fs p o0 o' x : in_range (or_st o) →
  load_path sha H E (save_crash sha b o k cut fs) p o0 = Done o' x → x = true →
  load_path sha H E fs p o0 = Done o' true ∨ or_st o' = set_hash "" (or_st o).
Proof.
  intros Hr Hl ->. unfold load_path in Hl |- *. destruct (crash_lookup sha b o k cut fs p) as [E1|[n E1]]; rewrite E1 in Hl; [by left|].
  destruct (substring_prefix n (marshal (hash_state sha (or_st o)))) as [E2|(y & E2 & Hy)].
  - right. rewrite E2 in Hl. apply load_inv in Hl as (s & Hu & _ & _ & _ & _ & Hs).
    rewrite unmarshal_marshal in Hu by (by apply range_hash). injection Hu as <-. exact Hs.
  - unfold load_bytes in Hl. rewrite (unmarshal_cut (hash_state sha (or_st o)) _ y) in Hl; [done|by apply range_hash|done|done].
Qed.
Lemma crash_state_file sha b o k cut fs : ∃ n, save_crash sha b o k cut fs !! state_path =
  Some (substring 0 n (marshal (hash_state sha (or_st o)))).
Proof.
  unfold save_crash, save_writes. set (d := marshal (hash_state sha (or_st o))).
  assert (∃ n, d = substring 0 n d) as [nd Hnd].
  { exists (String.length d). clear. induction d as [|c d IH]; [done|]. cbn. by rewrite <-IH. }
  destruct b; destruct k as [|[|k]]; cbn [write_some]; rewrite ?lookup_insert_ne by apply slot_state_apart; rewrite ?lookup_insert; eauto.
  all: exists nd; by rewrite <-Hnd.
Qed.
(** The content of some complete file. *)
Lemma path_content sha H E fs p o0 o' : load_path sha H E fs p o0 = Done o' true →
  ∃ raw s, fs !! p = Some raw ∧ unmarshal raw = Some s ∧ same_content (or_st o') s.
Proof.
  unfold load_path. destruct (fs !! p) as [raw|] eqn:E1; [|done]. intros Hl. apply load_inv in Hl as (s & Hu & _ & _ & _ & _ & Hs).
  exists raw, s. unfold same_content. by rewrite Hs.
Qed.
Lemma crash_path sha H E b o k cut fs p o0 o' : in_range (or_st o) →
  load_path sha H E (save_crash sha b o k cut fs) p o0 = Done o' true →
  same_content (or_st o') (or_st o) ∨ ∃ p raw s, fs !! p = Some raw ∧ unmarshal raw = Some s ∧ same_content (or_st o') s.
Proof.
  intros Hr Hl. destruct (crash_load _ _ _ _ _ _ _ _ _ _ _ _ Hr Hl eq_refl) as [Hf|Hf].
  - right. exists p. by eapply path_content.
  - left. unfold same_content. by rewrite Hf.
Qed.
Lemma crash_given sha H E b o k cut fs n o0 o' : in_range (or_st o) →
  load_given sha H E (save_crash sha b o k cut fs) n o0 = Done o' true →
  same_content (or_st o') (or_st o) ∨ ∃ p raw s, fs !! p = Some raw ∧ unmarshal raw = Some s ∧ same_content (or_st o') s.
Proof.
  intros Hr. unfold load_given. cbv zeta. set (cf := save_crash sha b o k cut fs).
  destruct (load_path sha H E cf (slot_path n) o0) as [o1 []|o1 e|] eqn:E1; [intros [= <-]; by eapply crash_path| |done|done].
  destruct (load_path sha H E cf (slot_path (try_slot (or_cfg o1) n 1)) o1) as [o2 []|o2 e|] eqn:E2.
  - intros [= <-]. by eapply crash_path.
  - intros Hl. by eapply crash_path.
  - intros Hl. by eapply crash_path.
  - done.
Qed.
Lemma crash_startup sha H E b o k cut fs onchain c o' : in_range (or_st o) →
  startup sha H E None onchain (save_crash sha b o k cut fs) c = Ok o' →
  same_content (or_st o') (or_st o) ∨ ∃ p raw s, fs !! p = Some raw ∧ unmarshal raw = Some s ∧ same_content (or_st o') s.
Proof.
  intros Hr. unfold startup, load_json. set (cf := save_crash sha b o k cut fs).
  destruct (load_path sha H E cf state_path (new_oracle c)) as [o1 x|o1 e|] eqn:E1; [|done|done].
  assert (x = true) as ->.
  { unfold load_path in E1. destruct (crash_state_file sha b o k cut fs) as [n Hn]. unfold cf in E1. rewrite Hn in E1.
    apply load_inv in E1 as (? & _ & _ & _ & -> & _). done. }
  destruct onchain as [slot|]; [|done]. destruct (negb _ && _).
  - destruct (load_given sha H E cf slot o1) as [o2 []|o2 e|] eqn:E2; [|done|done|done]. intros [= <-]. by eapply crash_given.
  - intros [= <-]. by eapply crash_path.
Qed.
Lemma torn_startup sha H E b o cut fs onchain c : in_range (or_st o) →
  (cut < String.length (marshal (hash_state sha (or_st o))))%nat →
  ∃ e, startup sha H E None onchain (save_crash sha b o 0 cut fs) c = Die (Fatal e).
Proof.
  intros Hr Hc. apply substring_short in Hc as (x & Hx & Hne). unfold startup, load_json, load_path, save_crash, save_writes.
  cbn [write_some]. rewrite lookup_insert. unfold load_bytes.
  rewrite (unmarshal_cut (hash_state sha (or_st o)) _ x); [eauto|by apply range_hash|done|done].
Qed.

(** ** Names of the copies *)
Lemma suffix_inj a b c : a +:+ c = b +:+ c → a = b.
Proof.
  intros E. apply (f_equal list_ascii_of_string) in E. rewrite !list_ascii_app in E. apply app_inv_tail in E.
  by rewrite <-(string_of_list_ascii_of_string a), E, string_of_list_ascii_of_string.
Qed.
Lemma slot_path_inj m n : (m < two64)%N → (n < two64)%N → slot_path m = slot_path n → m = n.
Proof.
  intros Hm Hn E. unfold slot_path in E. apply app_prefix_inj, suffix_inj in E.
  apply read_u64_print in Hm. apply read_u64_print in Hn. congruence.
Qed.

(** ** C36: going back to an older copy *)
Lemma rollback_ok sha H E c0 o1 o2 fs f20 k b : deployed c0 o1 → deployed c0 o2 → wf_env E →
  in_range (or_st o1) → in_range (or_st o2) → wf_records (or_st o1) → wf_records (or_st o2) →
  pool_apart (or_st o1) → pool_apart (or_st o2) → names f20 (c_fees_addr c0) → c_dry_run c0 = false →
  st_feepct (or_st o1) = st_feepct (or_st o2) → st_latest (or_st o1) ≠ st_latest (or_st o2) →
  fs !! slot_path (st_latest (or_st o1)) = Some (marshal (hash_state sha (or_st o1))) →
  is_Some (st_committed (or_st o2) !! k) → (st_latest (or_st o1) < k)%N →
  startup sha H E None (Some (st_latest (or_st o1))) (save sha b o2 fs).2 c0 = Ok (rehash "" o1).
Proof.
  intros D1 D2 W R1 R2 W1 W2 P1 P2 Hn Hdry Hfee Hlat Hfs Hk Hlt. unfold startup, load_json.
  unfold load_path at 1. rewrite save_state_file.
  pose proof (dp_params _ _ D1) as [_ _ F1 _ _ _ _]. pose proof (dp_params _ _ D2) as [_ _ F2 _ _ _ _].
  rewrite (load_deployed _ _ _ _ _ f20) by (done || by rewrite F2).
  change (committed_keys (or_st (rehash "" o2))) with (committed_keys (or_st o2)). rewrite (rollback_needed _ _ _ Hk Hlt).
  assert (c_dry_run (or_cfg (rehash "" o2)) = false) as ->.
  { change (or_cfg (rehash "" o2)) with (or_cfg o2). rewrite (dp_cfg _ _ D2). by destruct c0. }
  cbn [negb andb]. unfold load_given. cbv zeta. unfold load_path.
  assert ((save sha b o2 fs).2 !! slot_path (st_latest (or_st o1)) = Some (marshal (hash_state sha (or_st o1)))) as ->.
  { rewrite save_other_file; [done|apply slot_state_apart|]. intros Heq. apply Hlat.
    apply slot_path_inj in Heq; [done|exact (dp_slot _ _ D1)|exact (dp_slot _ _ D2)]. }
  destruct (tree_total H E (or_st o1) f20) as [g Hg]; [done|done|done|by rewrite F1|].
  rewrite (load_saved sha H E (or_st o1) (rehash "" o2)) with (c := or_cfg o1); [done|done|done|by exists g|].
  change (or_cfg (rehash "" o2)) with (or_cfg o2). rewrite (dp_cfg _ _ D2), <-Hfee.
  pose proof (dp_params _ _ D1) as [? ? ? ? ? ? ?]. rewrite checks_ok; [|done|by left].
  rewrite (dp_cfg _ _ D1). by destruct c0.
Qed.
Lemma rollback_stops sha H E c0 o1 o2 fs f20 k b : deployed c0 o1 → deployed c0 o2 → wf_env E →
  in_range (or_st o1) → in_range (or_st o2) → wf_records (or_st o2) → pool_apart (or_st o2) →
  names f20 (c_fees_addr c0) → c_dry_run c0 = false →
  st_feepct (or_st o1) = c_feepct c0 → st_feepct (or_st o2) ≠ c_feepct c0 → st_latest (or_st o1) ≠ st_latest (or_st o2) →
  fs !! slot_path (st_latest (or_st o1)) = Some (marshal (hash_state sha (or_st o1))) →
  is_Some (st_committed (or_st o2) !! k) → (st_latest (or_st o1) < k)%N →
  ∃ e, startup sha H E None (Some (st_latest (or_st o1))) (save sha b o2 fs).2 c0 = Die (Fatal e).
Proof.
  intros D1 D2 W R1 R2 W2 P2 Hn Hdry Hf1 Hf2 Hlat Hfs Hk Hlt. unfold startup, load_json.
  unfold load_path at 1. rewrite save_state_file.
  pose proof (dp_params _ _ D2) as [_ _ F2 _ _ _ _].
  rewrite (load_deployed _ _ _ _ _ f20) by (done || by rewrite F2).
  change (committed_keys (or_st (rehash "" o2))) with (committed_keys (or_st o2)). rewrite (rollback_needed _ _ _ Hk Hlt).
  assert (c_dry_run (or_cfg (rehash "" o2)) = false) as ->.
  { change (or_cfg (rehash "" o2)) with (or_cfg o2). rewrite (dp_cfg _ _ D2). by destruct c0. }
  cbn [negb andb]. unfold load_given. cbv zeta. unfold load_path.
  assert ((save sha b o2 fs).2 !! slot_path (st_latest (or_st o1)) = Some (marshal (hash_state sha (or_st o1)))) as ->.
  { rewrite save_other_file; [done|apply slot_state_apart|]. intros Heq. apply Hlat.
    apply slot_path_inj in Heq; [done|exact (dp_slot _ _ D1)|exact (dp_slot _ _ D2)]. }
  destruct (load_checks (or_st o1) (or_cfg (rehash "" o2))) as [c [e|]] eqn:Hc.
  - rewrite (load_saved_bad sha H E (or_st o1) _ c e); [eauto|done|exact Hc].
  - exfalso. apply checks_inv in Hc as (_ & _ & _ & Hc). change (or_cfg (rehash "" o2)) with (or_cfg o2) in Hc.
    rewrite (dp_cfg _ _ D2), Hf1 in Hc. cbn in Hc. destruct Hc as [Hc|[[Hc _]|(k1 & Hk1 & _)]]; [by rewrite Hc in Hf2..|].
    destruct (dp_fee _ _ D2) as [?|(k2 & _ & Hk2)]; [done|]. destruct (schedule_single _ _ _ _ _ Hk1 Hk2). congruence.
Qed.

(** ** C59: a validator that withdraws to the pool *)
Lemma aggregate_apart E s ls : wf_env E → aggregate E s = Ok ls → pool_apart s.
Proof.
  intros W Ha Hw. destruct (aggregate_spec E s ls W Ha) as (rest & Heq & _ & Hiff & _).
  apply Hiff in Hw. apply aggregate_inv in Ha as (l0 & _ & _ & Hout & _ & Hp). rewrite Hout in Heq. injection Heq as <-.
  apply elem_of_list_fmap in Hw as (l & Hl & Hin). apply (Hp l); [|done]. by rewrite sort_perm in Hin.
Qed.
Lemma pool_owner_tree H E s : wf_env E → withdraws_to s (to_lower (st_pool s)) → ∃ d, generate_tree H E s = Die d.
Proof.
  intros W Hw. unfold generate_tree. destruct (aggregate E s) as [ls|d] eqn:Ha; [|by exists d].
  by destruct (aggregate_apart E s ls W Ha).
Qed.
Lemma pool_owner_freeze H E s : wf_env E → withdraws_to s (to_lower (st_pool s)) → ∃ d, freeze H E s = Die d.
Proof.
  intros W Hw. destruct (pool_owner_tree H E s W Hw) as [d Hd]. exists d. unfold freeze, snapshot. by rewrite Hd.
Qed.
Lemma pool_owner_stays H o l o' : evolve H o l o' → withdraws_to (or_st o) (to_lower (st_pool (or_st o))) →
  withdraws_to (or_st o') (to_lower (st_pool (or_st o'))).
Proof.
  induction 1 as [o|o E fb o1 n l o2 W Hd Ha _ IH|o E s1 b l o2 W Hf _ IH]; intros Hw; [done|..]; apply IH.
  - pose proof (advance_params _ _ _ _ _ Ha) as (_ & -> & _). destruct Hw as (i & v & Hi & Hv).
    destruct (proj2 (advance_records _ _ _ _ _ W Ha) i v Hi) as (v' & Hi' & _ & Hva & _). exists i, v'. split; [done|].
    by rewrite Hva.
  - apply freeze_inv in Hf as [(_ & -> & _)|(_ & c & _ & _ & ->)]; [by destruct o|]. exact Hw.
Qed.
Lemma pool_owner_load sha H E b o o0 fs : wf_env E → in_range (or_st o) → withdraws_to (or_st o) (to_lower (st_pool (or_st o))) →
  (∃ c, load_checks (or_st o) (or_cfg o0) = (c, None)) → ∃ d, load_json sha H E (save sha b o fs).2 o0 = Dead d.
Proof.
  intros W Hr Hw [c Hc]. destruct (pool_owner_tree H E (set_hash "" (or_st o)) W) as [d Hd]; [done|]. exists d.
  unfold load_json, load_path. rewrite save_state_file. unfold load_bytes. rewrite unmarshal_marshal by (by apply range_hash).
  change (hash_text sha (hash_state sha (or_st o))) with (hash_text sha (or_st o)).
  change (st_hash (hash_state sha (or_st o))) with (hash_text sha (or_st o)). rewrite equals_same.
  change (load_checks (hash_state sha (or_st o)) (or_cfg o0)) with (load_checks (or_st o) (or_cfg o0)). rewrite Hc.
  change (set_hash "" (hash_state sha (or_st o))) with (set_hash "" (or_st o)). by rewrite Hd.
Qed.
(** From then on the deployment neither freezes nor starts. *)
Lemma pool_owner_stops sha H c0 o l o' : deployed c0 o → saveable (or_st o) → Forall typed_operation l →
  withdraws_to (or_st o) (to_lower (st_pool (or_st o))) → evolve H o l o' →
  ∀ E b onchain fs, wf_env E → (∃ d, freeze H E (or_st o') = Die d) ∧
    (∃ d, startup sha H E None onchain (save sha b o' fs).2 c0 = Die d).
Proof.
  intros D S T Hw Hev E b onchain fs W. pose proof (pool_owner_stays _ _ _ _ Hev Hw) as Hw'. split; [by apply pool_owner_freeze|].
  destruct (pool_owner_load sha H E b o' (new_oracle c0) fs W) as [d Hd].
  - apply saveable_range. by eapply saveable_evolve.
  - done.
  - eexists. apply deployed_checks. by eapply deployed_evolve.
  - exists d. unfold startup. by rewrite Hd.
Qed.
Lemma print_head d x y l : (10 < String.length (print d (JObj (("state_hash", x) :: y :: l))))%nat.
Proof.
  cbn [print]. rewrite !fmap_cons. cbn [commas fst]. rewrite !string_length_app.
  assert (String.length (quote "state_hash") = 12)%nat as -> by done. cbn. lia.
Qed.
Lemma marshal_length s : (10 < String.length (marshal s))%nat.
Proof. apply print_head. Qed.

(** ** For reachable states *)
Lemma reach_ready H c0 l o : typed_config c0 → Forall typed_operation l → evolve H (new_oracle c0) l o →
  deployed c0 o ∧ in_range (or_st o) ∧ wf_records (or_st o).
Proof.
  intros Tc T He. split; [by eapply deployed_evolve; [|apply deployed_new]|].
  split; [by eapply saveable_range, saveable_evolve; [| |apply saveable_new]|].
  by eapply evolve_records; [|apply fresh_records].
Qed.
Lemma reach_load sha H H' E c0 l o b fs f20 : typed_config c0 → Forall typed_operation l → evolve H (new_oracle c0) l o →
  wf_env E → pool_apart (or_st o) → names f20 (c_fees_addr c0) →
  load_json sha H' E (save sha b o fs).2 (new_oracle c0) = Done (Oracle (or_cfg o) (set_hash "" (or_st o))) true.
Proof.
  intros Tc T He W Hp Hn. destruct (reach_ready _ _ _ _ Tc T He) as (D & R & Hw). unfold load_json, load_path.
  rewrite save_state_file. apply (load_deployed _ _ _ _ _ f20); try done. by rewrite (sp_fees_addr _ _ (dp_params _ _ D)).
Qed.
Lemma reach_startup sha H c0 l o : typed_config c0 → Forall typed_operation (work l) → lives sha H c0 (new_oracle c0) l o →
  ∀ E b slot fs f20, wf_env E → pool_apart (or_st o) → names f20 (c_fees_addr c0) →
  c_dry_run c0 = true ∨ (∀ k, is_Some (st_committed (or_st o) !! k) → (k ≤ slot)%N) →
  ∃ o', startup sha H E None (Some slot) (save sha b o fs).2 c0 = Ok o' ∧ same_oracle o' o.
Proof.
  intros Tc T Hl E b slot fs f20 W Hp Hn Hk. destruct (lives_reach _ _ _ _ _ Tc Hl T) as (p & _ & _ & D & R & Hw).
  exists (rehash "" o). split; [|done]. apply (startup_saved _ _ _ _ _ _ _ _ f20); try done.
  by rewrite (sp_fees_addr _ _ (dp_params _ _ D)).
Qed.
Lemma resume sha H c0 l1 o1 l2 o2 : typed_config c0 → Forall typed_operation l1 →
  evolve H (new_oracle c0) l1 o1 → evolve H o1 l2 o2 →
  ∀ E b slot fs f20, wf_env E → pool_apart (or_st o1) → names f20 (c_fees_addr c0) →
  c_dry_run c0 = true ∨ (∀ k, is_Some (st_committed (or_st o1) !! k) → (k ≤ slot)%N) →
  ∃ o1' o2', startup sha H E None (Some slot) (save sha b o1 fs).2 c0 = Ok o1' ∧ evolve H o1' l2 o2' ∧ same_oracle o2' o2.
Proof.
  intros Tc T H1 H2 E b slot fs f20 W Hp Hn Hk. destruct (reach_ready _ _ _ _ Tc T H1) as (D & R & Hw).
  exists (rehash "" o1), (rehash "" o2). split; [|split; [by apply evolve_rehash|done]].
  apply (startup_saved _ _ _ _ _ _ _ _ f20); try done. by rewrite (sp_fees_addr _ _ (dp_params _ _ D)).
Qed.
Lemma reach_rollback sha H E c0 l1 l2 o1 o2 fs f20 k b : typed_config c0 →
  Forall typed_operation l1 → evolve H (new_oracle c0) l1 o1 → Forall typed_operation l2 → evolve H (new_oracle c0) l2 o2 →
  wf_env E → pool_apart (or_st o1) → pool_apart (or_st o2) → names f20 (c_fees_addr c0) → c_dry_run c0 = false →
  st_feepct (or_st o1) = st_feepct (or_st o2) → st_latest (or_st o1) ≠ st_latest (or_st o2) →
  is_Some (st_committed (or_st o2) !! k) → (st_latest (or_st o1) < k)%N →
  ∃ o', startup sha H E None (Some (st_latest (or_st o1))) (save sha b o2 (save sha true o1 fs).2).2 c0 = Ok o' ∧ same_oracle o' o1.
Proof.
  intros Tc T1 H1 T2 H2 W P1 P2 Hn Hd Hf Hne Hk Hlt.
  destruct (reach_ready _ _ _ _ Tc T1 H1) as (D1 & R1 & W1). destruct (reach_ready _ _ _ _ Tc T2 H2) as (D2 & R2 & W2).
  exists (rehash "" o1). split; [|done]. eapply (rollback_ok _ _ _ _ _ _ _ f20 k); try done. apply save_slot_file.
Qed.

(** ** C30: refused with an error *)
Lemma hash_text_length sha s : digest sha → String.length (hash_text sha s) = 66%nat.
Proof.
  intros Hd. unfold hash_text, hexutil_encode. rewrite string_length_app.
  assert (∀ x, String.length (hex_encode x) = 2 * String.length x)%nat as Hx.
  { induction x as [|c x IH]; [done|]. cbn. rewrite IH. lia. }
  rewrite Hx, Hd. done.
Qed.
Lemma tamper_refused sha s raw H E o s1 : digest sha → in_range s → unmarshal raw = Some s1 → st_hash s1 = hash_text sha s →
  ¬ same_content s1 s → ¬ collision sha [marshal (set_hash "" s1)] [marshal (set_hash "" s)] →
  load_bytes sha H E raw o = Fail o "hash mismatch".
Proof.
  intros Hd Hr Hu Hh Hs Hc. unfold load_bytes. rewrite Hu. unfold equals. rewrite Hh, !hash_text_length by done.
  rewrite Nat.eqb_refl. rewrite !hash_text_lower. destruct (String.eqb_spec (hash_text sha s) (hash_text sha s1)) as [Heq|]; [|done].
  exfalso. unfold hash_text, hexutil_encode in Heq. apply app_prefix_inj, hex_encode_inj in Heq.
  destruct (decide (marshal (set_hash "" s1) = marshal (set_hash "" s))) as [He|Hne].
  - apply Hs. apply marshal_inj; [apply range_hash; by eapply unmarshal_range|by apply range_hash|done].
  - apply Hc. exists (marshal (set_hash "" s1)), (marshal (set_hash "" s)). do 2 (split; [by left|]). by split.
Qed.
(** C31 *)
Lemma load_params sha H E raw o o' b : load_bytes sha H E raw o = Done o' b →
  same_params (or_st o') (or_cfg o) ∧ or_cfg o' = cset_feepct (st_feepct (or_st o')) (or_cfg o) ∧
  (st_feepct (or_st o') = c_feepct (or_cfg o) ∨
   fee_in_force (c_network (or_cfg o)) (c_feepct (or_cfg o)) (st_latest (or_st o')) (st_feepct (or_st o'))).
Proof.
  intros (s & _ & _ & _ & _ & Hc & ->)%load_inv. apply checks_inv in Hc as ([? ? ? ? ? ? ?] & _ & Hc & Hf). done.
Qed.
(** C30 *)
Lemma load_authentic sha H E raw o o' b : load_bytes sha H E raw o = Done o' b →
  ∃ s, unmarshal raw = Some s ∧ same_content (or_st o') s ∧
    to_lower (st_hash s) = "0x" +:+ hex_encode (sha (marshal (or_st o'))).
Proof.
  intros (s & Hu & _ & He & _ & _ & Hs)%load_inv. exists s. split; [done|]. unfold same_content. rewrite Hs. by split.
Qed.

Lemma lives_uninterrupted sha H c0 l o : typed_config c0 → lives sha H c0 (new_oracle c0) l o →
  Forall typed_operation (work l) → ∃ p, evolve H (new_oracle c0) (work l) p ∧ same_oracle p o.
Proof. intros Tc Hl T. destruct (lives_reach _ _ _ _ _ Tc Hl T) as (p & ? & ? & _). eauto. Qed.
Lemma freezes_iff H c0 l o E f20 : evolve H (new_oracle c0) l o →
  wf_env E → names f20 (c_fees_addr c0) → (∃ s b, freeze H E (or_st o) = Ok (s, b)) ↔ pool_apart (or_st o).
Proof.
  intros He W Hn. assert (deployed c0 o) as D by (by eapply deployed_evolve; [|apply deployed_new]).
  assert (wf_records (or_st o)) as Hr by (by eapply evolve_records; [|apply fresh_records]). split.
  - intros (s & b & Hf) Hw. destruct (pool_owner_freeze H E (or_st o) W Hw) as [d Hd]. congruence.
  - intros Hp. destruct (freeze_total H E (or_st o) f20 W Hr Hp) as [s Hs]; [by rewrite (sp_fees_addr _ _ (dp_params _ _ D))|]. eauto.
Qed.
Lemma withdraws_dec s a : ¬ ¬ withdraws_to s a → withdraws_to s a.
Proof.
  intros Hn. destruct (decide (Exists (λ v, to_lower (v_addr v) = a) (map_to_list (st_vals s)).*2)) as [Hx|Hx].
  - apply Exists_exists in Hx as (v & Hin & Hv). apply elem_of_list_fmap in Hin as ((i & v') & -> & Hin).
    apply elem_of_map_to_list in Hin. by exists i, v'.
  - destruct Hn. intros (i & v & Hi & Hv). apply Hx, Exists_exists. exists v. split; [|done].
    apply elem_of_list_fmap. exists (i, v). split; [done|]. by apply elem_of_map_to_list.
Qed.
Lemma never_again sha H c0 l o l' o' : typed_config c0 → Forall typed_operation l → evolve H (new_oracle c0) l o →
  ¬ pool_apart (or_st o) → Forall typed_operation l' → evolve H o l' o' →
  ∀ E b onchain fs, wf_env E → (∃ d, freeze H E (or_st o') = Die d) ∧
    (∃ d, startup sha H E None onchain (save sha b o' fs).2 c0 = Die d).
Proof.
  intros Tc T He Hp T' He'. eapply pool_owner_stops; [by eapply deployed_evolve; [|apply deployed_new]| |done| |done].
  - by eapply saveable_evolve; [| |apply saveable_new].
  - by apply withdraws_dec.
Qed.
