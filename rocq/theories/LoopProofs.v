(** Proofs about the main loop and the life of the process. *)
From Verif Require Export LoopSpec OnchainProofs ResumeProofs.

(** ** Histories *)
Lemma evolve_det H o l a b : evolve H o l a → evolve H o l b → a = b.
Proof.
  intros Ha. revert b. induction Ha as [o|o E fb o1 n l o2 W Hd Had _ IH|o E s1 x l o2 W Hf _ IH]; intros b Hb;
    inversion Hb; subst; [done|apply IH..].
  - match goal with H : advance _ _ _ = Done ?x _, K : evolve _ ?x _ _ |- _ => rewrite Had in H; injection H as <- <-; exact K end.
  - match goal with H : freeze _ _ _ = Ok (?x, _), K : evolve _ _ _ _ |- _ => rewrite Hf in H; injection H as <- <-; exact K end.
Qed.
Lemma evolve_split H o l1 l2 p q : evolve H o (l1 ++ l2) q → evolve H o l1 p → evolve H p l2 q.
Proof.
  revert o. induction l1 as [|x l1 IH]; intros o He H1; cbn in He; [inversion H1; by subst|].
  inversion He; subst; inversion H1; subst.
  - match goal with A : advance ?E ?f ?o = Done ?x _, B : advance ?E ?f ?o = Done ?y _ |- _ => rewrite A in B; injection B as <- <- end. eauto.
  - match goal with A : freeze _ ?E ?o = Ok (?x, _), B : freeze _ ?E ?o = Ok (?y, _) |- _ => rewrite A in B; injection B as <- <- end. eauto.
Qed.
Lemma snapshot_vals H E s c : wf_env E → snapshot H E s = Ok c → (c = None ↔ st_vals s = ∅).
Proof.
  intros W Hs. assert (∃ ls, aggregate E s = Ok ls) as [ls Ha].
  { unfold snapshot, generate_tree in Hs. destruct (aggregate E s) as [ls|]; [eauto|done]. }
  destruct (aggregate_spec E s ls W Ha) as (rest & -> & _ & Hiff & _).
  assert (st_vals s = ∅ ↔ rest = []) as Hne.
  { split.
    - intros He. destruct rest as [|l rest]; [done|]. exfalso.
      assert (leaf_addr l ∈ leaf_addr <$> l :: rest) as Hin by (by left).
      apply Hiff in Hin as (i & v & Hi & _). rewrite He in Hi. by rewrite lookup_empty in Hi.
    - intros ->. apply map_empty. intros i. apply eq_None_not_Some. intros [v Hv].
      assert (to_lower (v_addr v) ∈ leaf_addr <$> []) as []%elem_of_nil. apply Hiff. by exists i, v. }
  rewrite Hne. destruct (snapshot_spec H E s _ Ha) as [[Hl Hs']|(Hl & c' & Hs' & _)]; rewrite Hs in Hs'; injection Hs' as ->.
  - split; [|done]. intros _. destruct rest; [done|]. cbn in Hl. lia.
  - split; [done|]. intros ->. cbn in Hl. lia.
Qed.
Lemma evolve_vals H o l o' : evolve H o l o' → st_vals (or_st o) ≠ ∅ → st_vals (or_st o') ≠ ∅.
Proof.
  induction 1 as [o|o E fb o1 n l o2 W Hd Ha _ IH|o E s1 b l o2 W Hf _ IH]; intros Hv; [done|..]; apply IH.
  - apply map_choose in Hv as (i & v & Hi). destruct (proj2 (advance_records _ _ _ _ _ W Ha) i v Hi) as (v' & Hi' & _).
    intros He. rewrite He in Hi'. by rewrite lookup_empty in Hi'.
  - by apply freeze_inv in Hf as [(_ & -> & _)|(_ & c & _ & _ & ->)].
Qed.
Lemma advance_latest E fb o o' n : (st_latest (or_st o) < two64)%N → fb_duty_slot fb ≠ 0%N → advance E fb o = Done o' n →
  st_latest (or_st o') = (st_latest (or_st o) + 1)%N.
Proof.
  intros Hlt Hnz Ha. pose proof (advance_slots _ _ _ _ _ Ha) as (H1 & _ & H2 & H3 & _). rewrite H3, H2. unfold u64_add, u64 in *.
  destruct (N.lt_ge_cases (st_latest (or_st o) + 1) two64) as [Hx|Hx]; [by apply N.mod_small|].
  assert (st_latest (or_st o) + 1 = two64)%N as Hy by lia. rewrite Hy, N.mod_same in H2 by done. congruence.
Qed.
Lemma freeze_latest H E s s' b : freeze H E s = Ok (s', b) → st_latest s' = st_latest s ∧ st_vals s' = st_vals s.
Proof. by intros [(_ & -> & _)|(_ & c & _ & _ & ->)]%freeze_inv. Qed.
Lemma evolve_latest H o l o' : evolve H o l o' → (st_latest (or_st o) < two64)%N → (st_latest (or_st o) ≤ st_latest (or_st o') < two64)%N.
Proof.
  induction 1 as [o|o E fb o1 n l o2 W Hd Ha _ IH|o E s1 b l o2 W Hf _ IH]; intros Hlt; [done|..].
  - pose proof (advance_latest _ _ _ _ _ Hlt Hd Ha) as Hl. assert (st_latest (or_st o1) < two64)%N as Hlt1.
    { pose proof (advance_slots _ _ _ _ _ Ha) as (_ & _ & H2 & H3 & _). rewrite H3, H2. unfold u64_add, u64. by apply N.mod_lt. }
    specialize (IH Hlt1). lia.
  - destruct (freeze_latest _ _ _ _ _ Hf) as [Hl _]. cbn [or_st] in IH. rewrite Hl in IH. auto.
Qed.
(** Every slot in between was the latest one at some time. *)
Lemma evolve_between H o l o' k : evolve H o l o' → (st_latest (or_st o) < two64)%N →
  (st_latest (or_st o) ≤ k ≤ st_latest (or_st o'))%N →
  ∃ l1 l2 p, l = l1 ++ l2 ∧ evolve H o l1 p ∧ evolve H p l2 o' ∧ st_latest (or_st p) = k.
Proof.
  intros He. revert k. induction He as [o|o E fb o1 n l o2 W Hd Ha He IH|o E s1 b l o2 W Hf He IH]; intros k Hlt Hk.
  - exists [], [], o. split; [done|]. split; [constructor|]. split; [constructor|]. lia.
  - destruct (N.eq_dec k (st_latest (or_st o))) as [->|Hne].
    { exists [], (Process E fb :: l), o. split; [done|]. split; [constructor|]. split; [by eapply evolve_process|done]. }
    pose proof (advance_latest _ _ _ _ _ Hlt Hd Ha) as Hl. destruct (IH k) as (l1 & l2 & p & -> & H1 & H2 & Hp).
    { pose proof (advance_slots _ _ _ _ _ Ha) as (_ & _ & H2 & H3 & _). rewrite H3, H2. unfold u64_add, u64. by apply N.mod_lt. }
    { lia. }
    exists (Process E fb :: l1), l2, p. split; [done|]. split; [by eapply evolve_process|]. done.
  - destruct (freeze_latest _ _ _ _ _ Hf) as [Hl _]. destruct (IH k) as (l1 & l2 & p & -> & H1 & H2 & Hp); [cbn [or_st]; by rewrite Hl..|].
    exists (Freeze E :: l1), l2, p. split; [done|]. split; [by eapply evolve_freeze|]. done.
Qed.
(** What is frozen was the tree of that slot. *)
Lemma evolve_frozen H o l o' k c : evolve H o l o' → st_committed (or_st o') !! k = Some c →
  st_committed (or_st o) !! k = Some c ∨
  ∃ l1 l2 p E, l = l1 ++ l2 ∧ evolve H o l1 p ∧ evolve H p l2 o' ∧ st_latest (or_st p) = k ∧ wf_env E ∧ snapshot H E (or_st p) = Ok (Some c).
Proof.
  induction 1 as [o|o E fb o1 n l o2 W Hd Ha He IH|o E s1 b l o2 W Hf He IH]; intros Hc; [by left|..].
  - destruct (IH Hc) as [Hk|(l1 & l2 & p & E' & -> & H1 & H2 & Hr)].
    + left. by rewrite <-(advance_committed _ _ _ _ _ Ha).
    + right. exists (Process E fb :: l1), l2, p, E'. split; [done|]. split; [by eapply evolve_process|]. done.
  - destruct (IH Hc) as [Hk|(l1 & l2 & p & E' & -> & H1 & H2 & Hr)].
    + cbn [or_st] in Hk. destruct (freeze_inv _ _ _ _ _ Hf) as [(_ & -> & _)|(-> & c' & Hs & Hsl & ->)]; [by left|].
      cbn in Hk. apply lookup_insert_Some in Hk as [[<- <-]|[_ Hk]]; [|by left].
      right. exists [], (Freeze E :: l), o, E. split; [done|]. split; [constructor|]. split; [by eapply evolve_freeze|]. done.
    + right. exists (Freeze E :: l1), l2, p, E'. split; [done|]. split; [by eapply evolve_freeze|]. done.
Qed.
Lemma same_latest a b : same_oracle a b → st_latest (or_st a) = st_latest (or_st b) ∧ st_vals (or_st a) = st_vals (or_st b) ∧
  st_committed (or_st a) = st_committed (or_st b).
Proof. intros ->%same_rehash. done. Qed.
Lemma same_trans a b c : same_oracle a b → same_oracle b c → same_oracle a c.
Proof. intros [H1 H2] [H3 H4]. split; [congruence|]. unfold same_content in *. congruence. Qed.
Lemma same_hashed h o : same_oracle o (Oracle (or_cfg o) (set_hash h (or_st o))).
Proof. by destruct o as [? []]. Qed.

(** ** Blocks within Go's types *)
Definition typed_cache (ca : cache) : Prop := Forall (λ d, is_u64 (d_index d)) (ca_duties ca).
Lemma duty_typed nd slot ca d ca' : typed_node nd → typed_cache ca → get_proposal_duty nd slot ca = Ok (Some d, ca') →
  is_u64 (d_index d) ∧ typed_cache ca'.
Proof.
  intros Tn Tc. unfold get_proposal_duty. cbv zeta. case_match.
  - destruct (ca_duties ca !! _) as [x|] eqn:Hx; [|done]. case_match; [done|]. intros [= -> ->]. split; [|done].
    by apply (Forall_lookup_1 _ _ _ _ Tc Hx).
  - destruct (nd_duties nd _) as [l|] eqn:Hl; [|done]. destruct (l !! _) as [x|] eqn:Hx; [|done]. intros [= -> <-].
    pose proof (tn_duties _ Tn _ _ Hl) as Tl. split; [|done]. by apply (Forall_lookup_1 _ _ _ _ Tl Hx).
Qed.
Lemma rbind_ok {A B} (x : res A) (f : A → res B) b : rbind x f = Ok b → ∃ a, x = Ok a ∧ f a = Ok b.
Proof. destruct x; [eauto|done]. Qed.
Lemma events_typed nd n ev : typed_node nd → fetch_events nd n = Ok ev →
  Forall good_ether (ev_ether_received ev) ∧ Forall good_sub (ev_subscribe ev) ∧ Forall good_unsub (ev_unsubscribe ev).
Proof.
  intros Tn. unfold fetch_events. destruct (nd_ether nd n) eqn:H1; [|done]. destruct (nd_subs nd n) eqn:H2; [|done].
  destruct (nd_unsubs nd n) eqn:H3; [|done]. cbn [must rbind]. intros H. inv_res. subst. cbn.
  split; [by eapply tn_ether|]. split; [by eapply tn_subs|by eapply tn_unsubs].
Qed.
Lemma exception_good : good_ether exception_event.
Proof. by vm_compute. Qed.
Lemma set_events_typed ev fb fb' : set_block_events ev fb = Ok fb' → Forall good_ether (ev_ether_received ev) →
  Forall good_ether (ev_ether_received (fb_events fb')).
Proof.
  unfold set_block_events. cbv zeta. intros H Hg. apply rbind_ok in H as (ok & _ & H). destruct ok; cbn [negb] in H; [|done].
  destruct (fb_chain fb =? MainnetChainId)%N; [|by injection H as <-]. apply rbind_ok in H as (s & _ & H).
  destruct (s =? exception_slot)%N; injection H as <-; cbn; [|done]. apply Forall_app. split; [done|].
  apply Forall_cons. split; [apply exception_good|by apply Forall_nil].
Qed.
Lemma fetch_typed nd E pool all slot s ca fb ca' : typed_node nd → typed_cache ca →
  fetch_full_block nd E pool all slot s ca = Ok (fb, ca') → typed_block fb ∧ typed_cache ca'.
Proof.
  intros Tn Tc (d & v & b & Hd & Hs & Hv & Hi & Hb & Hf)%fetch_split. cbv zeta in Hf.
  destruct (duty_typed _ _ _ _ _ Tn Tc Hd) as [Td Tc']. split; [|done]. destruct b as [c|].
  2:{ subst fb. split; cbn; [done|by intros n [=]|by apply Forall_nil..]. }
  apply fetch_proposed_split in Hf as (fb1 & n & ev & fb2 & subs & unsubs & prop & rew & H1 & H2 & H3 & H4 & H5 & H6 & H7 & H8 & H9 & H10).
  pose proof (events_typed _ _ _ Tn H4) as (T1 & T2 & T3). pose proof (set_events_typed _ _ _ H5 T1) as T1'.
  apply set_consensus_spec in H1 as (Hcs & Hcp & Hcv & ->).
  destruct (set_events_spec _ _ _ _ H3 H5) as (_ & ev' & -> & Hes & Heu & _). cbn [with_events fb_events] in T1'.
  assert (get_number (set_request_validators subs unsubs (with_events (FullBlock slot (d_index d) (d_key d) v (Some c) None None no_events [] [] (nd_chain nd)) ev')) = Ok n) as Hn by exact H3.
  assert (∃ h rs, fb = FullBlock slot (d_index d) (d_key d) v (Some c) h rs ev' subs unsubs (nd_chain nd)) as (h & rs & ->).
  { destruct (all || _).
    - destruct H10 as (txs & h & rs & _ & _ & Hset). apply (set_header_spec _ _ _ _ n) in Hset as [Hh ->]; [|done]. eauto.
    - subst fb. by exists None, None. }
  assert (is_u64 n) as Hnu.
  { assert (n = p_number (cb_payload c)) as ->; [|by eapply tn_block].
    unfold get_number, get_payload in H3. cbn in H3. destruct (cb_version c); try done; by injection H3 as <-. }
  split; cbn [fb_duty_index fb_events]; [done| |congruence|congruence|done].
  intros n' Hn'. change (get_number (FullBlock slot (d_index d) (d_key d) v (Some c) None None no_events [] [] (nd_chain nd)) = Ok n') in Hn'.
  assert (Ok n = Ok n') as Hx by exact (eq_trans (eq_sym H3) Hn'). by injection Hx as <-.
Qed.

(** ** Checkpoint slots *)
Lemma is_checkpoint_inv o b : is_checkpoint o = Ok (Some b) → (st_latest (or_st o) < two64)%N →
  (b = true ↔ checkpoint_slot (or_cfg o) (st_latest (or_st o))).
Proof.
  unfold is_checkpoint. intros H Hlt.
  destruct (N.eqb_spec (st_latest (or_st o)) 0) as [?|H0]; [done|].
  destruct (N.ltb_spec (st_latest (or_st o)) (c_dep_slot (or_cfg o))) as [?|H1]; [done|].
  destruct (N.eqb_spec (c_cp_size (or_cfg o)) 0) as [?|H2]; [done|]. injection H as <-.
  rewrite u64_sub_exact by done. rewrite N.eqb_eq, N.mod_divide by lia. unfold checkpoint_slot. split.
  - intros [j Hj]. exists j. lia.
  - intros [j Hj]. exists j. lia.
Qed.

(** ** What is known of an oracle: it comes from a history of the deployment that froze every checkpoint it passed
    before [n] *)
Section life.
Context (sha H : string → string) (c0 : config).
Definition good (n : N) (o : oracle) : Prop :=
  ∃ ops, lived H c0 ops o ∧ (st_latest (or_st o) + 1 < two64)%N ∧
    (∀ k, is_Some (st_committed (or_st o) !! k) → checkpoint_slot c0 k) ∧
    (∀ k, (k < n)%N → passes H c0 ops k → is_Some (st_committed (or_st o) !! k)).

Lemma good_same n o o' : good n o → same_oracle o o' → good n o'.
Proof.
  intros (ops & (p & He & Ht & Hs) & Hl & Hc & Hp) Hsame. pose proof (same_latest _ _ Hsame) as (E1 & _ & E3).
  exists ops. split; [exists p; do 2 (split; [done|]); by eapply same_trans|]. rewrite <-E1, <-E3. done.
Qed.
Lemma good_less n n' o : good n o → (n' ≤ n)%N → good n' o.
Proof. intros (ops & ? & ? & ? & Hp) Hle. exists ops. do 3 (split; [done|]). intros k Hk. apply Hp. lia. Qed.
Lemma good_deployed n o : good n o → deployed c0 o.
Proof.
  intros (ops & (p & He & Ht & Hs) & _). rewrite (same_rehash _ _ Hs). apply deployed_rehash. eapply deployed_evolve; [done|apply deployed_new].
Qed.
Lemma good_range n o : typed_config c0 → good n o → in_range (or_st o).
Proof.
  intros Tc (ops & (p & He & Ht & Hs) & _). rewrite (same_rehash _ _ Hs). apply range_hash, saveable_range.
  eapply saveable_evolve; [done|done|by apply saveable_new].
Qed.
Lemma good_new : typed_config c0 → (0 < c_dep_slot c0)%N → good (c_dep_slot c0) (new_oracle c0).
Proof.
  intros Tc Hd. exists []. split; [exists (new_oracle c0); split; [constructor|]; split; [by apply Forall_nil|done]|].
  destruct Tc as (_ & Hdep & _). unfold is_u64 in Hdep. cbn. rewrite u64_sub_exact by lia. split; [lia|].
  split; [intros k [c Hc]; by rewrite lookup_empty in Hc|]. intros k Hk [[j Hj] _]. lia.
Qed.
Lemma passes_app ops x k p' : evolve H (new_oracle c0) (ops ++ [x]) p' → passes H c0 (ops ++ [x]) k →
  passes H c0 ops k ∨ (checkpoint_slot c0 k ∧ st_latest (or_st p') = k ∧ st_vals (or_st p') ≠ ∅).
Proof.
  intros He (Hc & l1 & l2 & p & Heq & H1 & Hl & Hv). destruct l2 as [|y l2 _] using rev_ind.
  - right. rewrite app_nil_r in Heq. subst l1. rewrite (evolve_det _ _ _ _ _ He H1). done.
  - left. rewrite app_assoc in Heq. apply app_inj_tail in Heq as [-> _]. split; [done|]. by exists l1, l2, p.
Qed.
Lemma good_advance n E fb o o' m : good (st_latest (or_st o) + 1) o ∨ n = 0%N → good 0 o → n = 0%N ∨ n = st_latest (or_st o') →
  wf_env E → typed_env E → typed_block fb → (fb_duty_slot fb + 1 < two64)%N → advance E fb o = Done o' m → good n o'.
Proof.
  intros Hg Hg0 Hn W Te Tb Hf Ha.
  assert (∃ n0, good n0 o ∧ (n = 0%N ∨ (n0 = st_latest (or_st o) + 1 ∧ n = st_latest (or_st o')))%N) as (n0 & Hgn & Hnn).
  { destruct Hn as [->| ->]; [exists 0%N; split; [done|by left]|]. destruct Hg as [Hg|Hz].
    - eexists. split; [exact Hg|]. by right.
    - exists 0%N. split; [done|by left]. }
  destruct Hgn as (ops & (p & He & Ht & Hs) & Hl & Hc & Hp).
  pose proof (advance_slots _ _ _ _ _ Ha) as (G1 & _ & G2 & G3 & _).
  assert (fb_duty_slot fb ≠ 0%N) as Hnz.
  { rewrite <-G1, G2. unfold u64_add, u64. rewrite N.mod_small by lia. lia. }
  assert (st_latest (or_st o') = st_latest (or_st o) + 1)%N as Hl' by (apply (advance_latest E fb o o' m); [lia|done|done]).
  assert (Hr := same_rehash _ _ Hs). set (h := st_hash (or_st o)) in *.
  (* the same step of the uninterrupted deployment *)
  assert (∃ p', advance E fb p = Done p' m ∧ same_oracle p' o') as (p' & Hap & Hsp).
  { assert (p = rehash (st_hash (or_st p)) o) as Hpo.
    { rewrite Hr. destruct p as [? []]. done. }
    pose proof (advance_rehash (st_hash (or_st p)) _ _ _ _ _ Ha) as Hq. rewrite <-Hpo in Hq. eexists. split; [exact Hq|].
    by destruct o' as [? []]. }
  assert (evolve H (new_oracle c0) (ops ++ [Process E fb]) p') as He'.
  { eapply evolve_app; [done|]. eapply evolve_process; [done|done|done|constructor]. }
  pose proof (same_latest _ _ Hsp) as (S1 & S2 & S3).
  exists (ops ++ [Process E fb]). split; [exists p'; split; [done|]; split; [|done]; apply Forall_app; split; [done|]; apply Forall_cons; split; [done|by apply Forall_nil]|].
  split; [congruence|]. rewrite (advance_committed _ _ _ _ _ Ha). split; [done|].
  intros k Hk Hpass. destruct (passes_app _ _ _ _ He' Hpass) as [Hps|(_ & Hx & _)].
  - destruct Hnn as [Hz|[Hz1 Hz2]]; [lia|]. apply Hp; [lia|done].
  - destruct Hnn as [Hz|[Hz1 Hz2]]; [lia|]. rewrite S1 in Hx. lia.
Qed.
Lemma good_freeze n E o s' b : good n o → checkpoint_slot c0 (st_latest (or_st o)) → wf_env E → freeze H E (or_st o) = Ok (s', b) →
  good n (Oracle (or_cfg o) s') ∧ (n = st_latest (or_st o) → good (n + 1) (Oracle (or_cfg o) s')).
Proof.
  intros (ops & (p & He & Ht & Hs) & Hl & Hc & Hp) Hcp W Hf.
  assert (Hr := same_rehash _ _ Hs).
  assert (∃ s1, freeze H E (or_st p) = Ok (s1, b) ∧ same_oracle (Oracle (or_cfg p) s1) (Oracle (or_cfg o) s')) as (s1 & Hfp & Hsp).
  { assert (or_st p = set_hash (st_hash (or_st p)) (or_st o)) as Hpo.
    { rewrite Hr. destruct p as [? []]. done. }
    pose proof (freeze_rehash H (st_hash (or_st p)) _ _ _ _ Hf) as Hq. rewrite <-Hpo in Hq. eexists. split; [exact Hq|].
    split; [apply Hs|]. by destruct s'. }
  assert (evolve H (new_oracle c0) (ops ++ [Freeze E]) (Oracle (or_cfg p) s1)) as He'.
  { eapply evolve_app; [done|]. eapply evolve_freeze; [done|done|constructor]. }
  destruct (freeze_latest _ _ _ _ _ Hf) as [L1 V1].
  assert (∀ k, is_Some (st_committed (or_st o) !! k) → is_Some (st_committed s' !! k)) as Hmono.
  { intros k Hk. destruct (freeze_inv _ _ _ _ _ Hf) as [(_ & -> & _)|(_ & c & _ & _ & ->)]; [done|]. cbn.
    destruct (N.eq_dec (st_latest (or_st o)) k) as [->|]; [rewrite lookup_insert; eauto|by rewrite lookup_insert_ne]. }
  assert (lived H c0 (ops ++ [Freeze E]) (Oracle (or_cfg o) s')) as Hlv.
  { exists (Oracle (or_cfg p) s1). split; [done|]. split; [|done]. apply Forall_app. split; [done|]. apply Forall_cons. split; [done|by apply Forall_nil]. }
  assert (∀ k, is_Some (st_committed s' !! k) → checkpoint_slot c0 k) as Hck.
  { intros k Hk. destruct (freeze_inv _ _ _ _ _ Hf) as [(_ & -> & _)|(_ & c & _ & _ & ->)]; [by apply Hc|]. cbn in Hk.
    destruct (N.eq_dec (st_latest (or_st o)) k) as [<-|]; [done|]. rewrite lookup_insert_ne in Hk by done. by apply Hc. }
  pose proof (same_latest _ _ Hsp) as (S1 & S2 & S3). cbn [or_st] in *.
  assert (∀ k, passes H c0 (ops ++ [Freeze E]) k → k = st_latest (or_st o) → is_Some (st_committed s' !! k)) as Hlast.
  { intros k Hps ->. destruct (freeze_inv _ _ _ _ _ Hf) as [(_ & -> & Hn)|(_ & c & _ & _ & ->)].
    - exfalso. apply (snapshot_vals _ _ _ _ W) in Hn. assert (st_vals (or_st p) ≠ ∅) as Hv.
      { destruct Hps as (_ & l1 & l2 & q & Heq & H1 & Hlq & Hvq).
        assert (st_vals s1 ≠ ∅); [|destruct (freeze_latest _ _ _ _ _ Hfp) as [_ <-]; done].
        rewrite Heq in He'. pose proof (evolve_split _ _ _ _ _ _ He' H1) as Hq'.
        by apply (evolve_vals _ _ _ _ Hq'). }
      apply Hv. rewrite (proj1 (proj2 (same_latest _ _ Hs))). by apply Hn.
    - cbn. rewrite lookup_insert. eauto. }
  assert (∀ k, (k < n)%N → passes H c0 (ops ++ [Freeze E]) k → is_Some (st_committed s' !! k)) as Hbelow.
  { intros k Hk Hps. destruct (passes_app _ _ _ _ He' Hps) as [Hq|(_ & Hx & _)]; [apply Hmono, Hp; done|]. apply Hlast; [done|]. cbn in Hx. congruence. }
  split.
  - exists (ops ++ [Freeze E]). split; [done|]. cbn [or_st]. split; [congruence|]. split; [done|done].
  - intros ->. exists (ops ++ [Freeze E]). split; [done|]. cbn [or_st]. split; [congruence|]. split; [done|].
    intros k Hk Hps. destruct (N.eq_dec k (st_latest (or_st o))) as [->|]; [by apply Hlast|]. apply Hbelow; [lia|done].
Qed.

(** ** Files *)
Definition lvl (full : bool) (n : N) : N := if full then n else 0%N.
Definition good_files (full : bool) (fs : files) : Prop := ∀ path raw, fs !! path = Some raw →
  ∃ o x, good (lvl full (st_latest (or_st o) + 1)) o ∧ raw = substring 0 x (marshal (hash_state sha (or_st o))).

Lemma substring_all d : substring 0 (String.length d) d = d.
Proof. induction d as [|c d IH]; [done|]. cbn. by rewrite IH. Qed.
Lemma write_lookup ws k cut fs p : write_some ws k cut fs !! p = fs !! p ∨
  ∃ q d x, (q, d) ∈ ws ∧ write_some ws k cut fs !! p = Some (substring 0 x d).
Proof.
  revert k fs. induction ws as [|[q d] ws IH]; intros k fs; [by left|]. destruct k as [|k]; cbn [write_some].
  - destruct (decide (q = p)) as [->|Hne].
    + right. rewrite lookup_insert. exists p, d, cut. split; [by left|done].
    + left. by rewrite lookup_insert_ne.
  - destruct (IH k (<[q:=d]> fs)) as [E|(q' & d' & x & Hin & E)]; rewrite E.
    + destruct (decide (q = p)) as [->|Hne].
      * right. rewrite lookup_insert. exists p, d, (String.length d). split; [by left|by rewrite substring_all].
      * left. by rewrite lookup_insert_ne.
    + right. exists q', d', x. split; [by right|done].
Qed.
Lemma writes_content b s q d : (q, d) ∈ save_writes b s → d = marshal s.
Proof.
  unfold save_writes. intros [[= _ ->]|Hin]%elem_of_cons; [done|]. destruct b; [|by apply elem_of_nil in Hin].
  by apply elem_of_list_singleton in Hin as [= _ ->].
Qed.
Lemma disk_lookup b o d fs p : disk_after sha b o d fs !! p = fs !! p ∨
  ∃ x, disk_after sha b o d fs !! p = Some (substring 0 x (marshal (hash_state sha (or_st o)))).
Proof.
  set (s := hash_state sha (or_st o)).
  assert (∃ ws k cut, disk_after sha b o d fs = write_some ws k cut fs ∧ ∀ q d, (q, d) ∈ ws → d = marshal s) as (ws & k & cut & -> & Hws).
  { destruct d as [|k cut|k].
    - exists (save_writes b s), 2%nat, 0%nat. split; [done|]. apply writes_content.
    - exists (save_writes b s), k, cut. split; [done|]. apply writes_content.
    - exists (take k (save_writes b s)), k, 0%nat. split; [done|]. intros q x Hin. apply (writes_content b s q).
      rewrite <-(take_drop k (save_writes b s)). apply elem_of_app. by left. }
  destruct (write_lookup ws k cut fs p) as [E|(q & x & n & Hin & E)]; [by left|]. right. exists n. by rewrite E, (Hws _ _ Hin).
Qed.
Lemma good_files_save full b o d fs : good_files full fs → good (lvl full (st_latest (or_st o) + 1)) o → good_files full (disk_after sha b o d fs).
Proof.
  intros Hfs Hg p raw Hp. destruct (disk_lookup b o d fs p) as [E|[x E]]; rewrite E in Hp; [by apply (Hfs p)|].
  injection Hp as <-. by exists o, x.
Qed.
Lemma good_files_empty full : good_files full ∅.
Proof. intros p raw Hp. by rewrite lookup_empty in Hp. Qed.

Definition fee_only (c : config) : Prop := ∃ z, c = cset_feepct z c0.
Lemma good_load full E fs path o o' : typed_config c0 → good_files full fs → fee_only (or_cfg o) →
  load_path sha H E fs path o = Done o' true → good (lvl full (st_latest (or_st o') + 1)) o'.
Proof.
  intros Tc Hfs [z Hz]. unfold load_path. destruct (fs !! path) as [raw|] eqn:Hp; [|done]. intros Hl.
  destruct (Hfs _ _ Hp) as (q & x & Hg & ->). pose proof (good_range _ _ Tc Hg) as Hr.
  apply load_inv in Hl as (s & Hu & _ & _ & _ & Hc & Hs).
  destruct (substring_prefix x (marshal (hash_state sha (or_st q)))) as [E2|(y & E2 & Hy)].
  2:{ rewrite (unmarshal_cut (hash_state sha (or_st q)) _ y) in Hu; [done|by apply range_hash|done|done]. }
  rewrite E2, unmarshal_marshal in Hu by (by apply range_hash). injection Hu as <-.
  apply checks_inv in Hc as (_ & _ & Hc & _).
  assert (same_oracle q o') as Hsame.
  { split; [|unfold same_content; by rewrite Hs]. rewrite (dp_cfg _ _ (good_deployed _ _ Hg)), Hc, Hz. by destruct c0. }
  rewrite <-(proj1 (same_latest _ _ Hsame)). by eapply good_same.
Qed.
Lemma fee_only_path E fs path o : fee_only (or_cfg o) →
  match load_path sha H E fs path o with Done o' false => o' = o | Fail o' _ => fee_only (or_cfg o') | _ => True end.
Proof.
  intros [z Hz]. pose proof (path_untouched sha H E fs path o) as Hu. destruct (load_path sha H E fs path o) as [? []|o' e|]; try done.
  destruct Hu as [_ ->]. rewrite Hz. eexists. by destruct c0.
Qed.
Lemma good_given full E fs slot o o' : typed_config c0 → good_files full fs → fee_only (or_cfg o) →
  load_given sha H E fs slot o = Done o' true → good (lvl full (st_latest (or_st o') + 1)) o'.
Proof.
  intros Tc Hfs Hf. unfold load_given. cbv zeta. pose proof (fee_only_path E fs (slot_path slot) o Hf) as F1.
  destruct (load_path sha H E fs (slot_path slot) o) as [o1 []|o1 e|] eqn:E1; [intros [= <-]; by eapply good_load| |done|done]. subst o1.
  pose proof (fee_only_path E fs (slot_path (try_slot (or_cfg o) slot 1)) o Hf) as F2.
  destruct (load_path sha H E fs (slot_path (try_slot (or_cfg o) slot 1)) o) as [o2 []|o2 e|] eqn:E2.
  - intros [= <-]. by eapply good_load.
  - subst o2. by apply good_load.
  - by apply good_load.
  - done.
Qed.
Lemma good_startup full E onchain fs o : typed_config c0 → (0 < c_dep_slot c0)%N → good_files full fs →
  startup sha H E None onchain fs c0 = Ok o → good (lvl full (st_latest (or_st o) + 1)) o.
Proof.
  intros Tc Hd Hfs. unfold startup, load_json. assert (fee_only (or_cfg (new_oracle c0))) as Hf0 by (exists (c_feepct c0); by destruct c0).
  pose proof (fee_only_path E fs state_path (new_oracle c0) Hf0) as F1.
  destruct (load_path sha H E fs state_path (new_oracle c0)) as [o1 x|o1 e|] eqn:E1; [|done|done].
  assert (good (lvl full (st_latest (or_st o1) + 1)) o1) as Hg1.
  { destruct x; [by eapply good_load|]. subst o1. eapply good_less; [by apply good_new|]. unfold lvl. destruct full; [|lia].
    cbn. destruct Tc as (_ & Hdep & _). unfold is_u64 in Hdep. rewrite u64_sub_exact by lia. lia. }
  destruct onchain as [slot|]; [|done].
  destruct (negb _ && _); [|by intros [= <-]].
  destruct (load_given sha H E fs slot o1) as [o2 []|o2 e|] eqn:E2; [|done..]. intros [= <-].
  eapply good_given; [done|done| |done]. rewrite (dp_cfg _ _ (good_deployed _ _ Hg1)). by eexists.
Qed.

(** ** The invariant *)
Definition held (p : pc) : option onchain_state :=
  match p with Polling c | Resting c | Deciding c | Waiting c => Some c | _ => None end.
Definition frontier (p : pc) (s : ost) : N := match p with Processed | Freezing => st_latest s | _ => (st_latest s + 1)%N end.
Record good_machine (full : bool) (m : machine) : Prop := GoodMachine {
  gm_good : good (lvl full (frontier (m_pc m) (or_st (m_or m)))) (m_or m);
  gm_cache : typed_cache (m_cache m);
  gm_files : good_files full (m_files m);
  gm_freezing : m_pc m = Freezing → checkpoint_slot c0 (st_latest (or_st (m_or m))) }.
Definition good_life (full : bool) (L : life) : Prop :=
  match L with Down fs => good_files full fs | Up m => good_machine full m end.
(** Independent of the files: the state being submitted is the latest one frozen. *)
Definition holds_latest (L : life) : Prop :=
  match L with
  | Down _ => True
  | Up m => ∀ c, held (m_pc m) = Some c → latest_committed_state (committed_keys (or_st (m_or m))) (or_st (m_or m)) = Some c
  end.

Lemma good_lvl full n n' o : good (lvl full n) o → (n' ≤ n)%N → good (lvl full n') o.
Proof. intros Hg Hle. eapply good_less; [done|]. destruct full; cbn; lia. Qed.
Lemma lived_cfg full m : good_machine full m → ∃ z, or_cfg (m_or m) = cset_feepct z c0.
Proof. intros [Hg _ _ _]. eexists. exact (dp_cfg _ _ (good_deployed _ _ Hg)). Qed.
Lemma checkpoint_cfg z k : checkpoint_slot (cset_feepct z c0) k ↔ checkpoint_slot c0 k.
Proof. by destruct c0. Qed.
(** A slot that is not a checkpoint slot needs no freezing. *)
Lemma good_past full o : good (lvl full (st_latest (or_st o))) o → full = false ∨ ¬ checkpoint_slot c0 (st_latest (or_st o)) →
  good (lvl full (st_latest (or_st o) + 1)) o.
Proof.
  intros (ops & Hl & Hlt & Hc & Hp) [->|Hn]; [by exists ops|]. exists ops. do 3 (split; [done|]). intros k Hk Hps.
  apply Hp; [|done]. destruct full; cbn in *; [|lia]. assert (k ≠ st_latest (or_st o)); [|lia]. intros ->. by destruct Hps.
Qed.

Lemma good_top full a m m' : typed_answers a → m_pc m = Begin → good_machine full m → step_top a m = Ok m' → good_machine full m'.
Proof.
  intros [W Te Tn Tf] Hpc G. unfold step_top. cbv zeta. destruct (are_nodes_in_sync _ _) as [[]|]; [|by intros [= <-]|done].
  destruct (an_final a) as [f|]; [|by intros [= <-]]. destruct (N.leb_spec (st_next (or_st (m_or m))) f) as [Hle|Hgt].
  - intros Hs. apply rbind_ok in Hs as ([fb ca] & Hf & Hs). destruct G as [Hg Hca Hfs _]. rewrite Hpc in Hg. cbn [frontier] in Hg.
    destruct (fetch_typed _ _ _ _ _ _ _ _ _ Tn Hca Hf) as [Tb Tca]. apply fetch_coherent in Hf as [Hslot _ _ _ _ _ _ _ _].
    destruct (advance (an_env a) fb (m_or m)) as [o' n|o' e|d] eqn:Ha; [|done|done]. injection Hs as <-.
    assert (good (lvl full (st_latest (or_st o'))) o') as Hg'.
    { eapply (good_advance _ (an_env a) fb (m_or m) o' n); try done.
      - destruct full; cbn in *; [by left|by right].
      - eapply good_less; [done|lia].
      - destruct full; cbn; [by right|by left].
      - specialize (Tf _ eq_refl). lia. }
    split; cbn [m_pc m_or m_cache m_files frontier]; [done|done|done|done].
  - destruct (an_due a); [|by intros [= <-]]. intros Hs. apply rbind_ok in Hs as (u & _ & Hs). apply rbind_ok in Hs as (cl & _ & Hs).
    destruct (an_balance a); [|by injection Hs as <-]. destruct cl; [|by injection Hs as <-].
    destruct (onchain_reconciliation _ _ _); [by injection Hs as <-|done].
Qed.
Lemma good_latest n o : good n o → (st_latest (or_st o) < two64)%N.
Proof. intros (ops & _ & Hl & _). lia. Qed.
Lemma good_processed full a m m' : m_pc m = Processed → good_machine full m → step_processed a m = Ok m' → good_machine full m'.
Proof.
  intros Hpc G. unfold step_processed. cbv zeta. destruct (_ && _); [done|]. intros Hs. apply rbind_ok in Hs as ([b|] & Hc & Hs); [|done].
  destruct (lived_cfg _ _ G) as [z Hz]. destruct G as [Hg Hca Hfs _]. rewrite Hpc in Hg. cbn [frontier] in Hg.
  apply is_checkpoint_inv in Hc as Hiff; [|by eapply good_latest]. rewrite Hz, checkpoint_cfg in Hiff. destruct b.
  - destruct (offchain_reconciliation _); [|done]. injection Hs as <-. split; cbn [goto m_pc m_or m_cache m_files frontier]; [done|done|done|].
    intros _. by apply Hiff.
  - injection Hs as <-. split; cbn [goto m_pc m_or m_cache m_files frontier]; [|done|done|done]. apply good_past; [done|]. right. intros Hk. by apply Hiff in Hk.
Qed.
Lemma good_freezing full a m m' : typed_answers a → m_pc m = Freezing → good_machine full m → step_freezing H a m = Ok m' → good_machine full m'.
Proof.
  intros [W _ _ _] Hpc [Hg Hca Hfs Hcp]. specialize (Hcp Hpc). rewrite Hpc in Hg. cbn [frontier] in Hg. unfold step_freezing. cbv zeta. intros Hs.
  apply rbind_ok in Hs as ([s' enough] & Hf & Hs). destruct (good_freeze _ _ _ _ _ Hg Hcp W Hf) as [G0 G1].
  destruct (freeze_latest _ _ _ _ _ Hf) as [Hl _].
  assert (good (lvl full (st_latest s' + 1)) (Oracle (or_cfg (m_or m)) s')) as G2.
  { rewrite Hl. destruct full; cbn in *; [by apply G1|done]. }
  destruct enough.
  - destruct (latest_committed_state _ _) as [c|]; [|done]. injection Hs as <-. by split; cbn.
  - injection Hs as <-. by split; cbn.
Qed.
Lemma good_goto full p m : good_machine full m → m_pc m ≠ Processed → m_pc m ≠ Freezing → p ≠ Freezing → good_machine full (goto p m).
Proof.
  intros [Hg Hca Hfs Hcp] H1 H2 H3. split; cbn [goto m_pc m_or m_cache m_files]; [|done|done|done].
  assert (frontier (m_pc m) (or_st (m_or m)) = st_latest (or_st (m_or m)) + 1)%N as Hfr by by destruct (m_pc m). rewrite Hfr in Hg.
  destruct p; cbn [frontier]; try done. eapply good_lvl; [done|lia].
Qed.
Lemma good_save full b d m : good_machine full m → full = false ∨ ¬ in_window c0 m → good_machine full (save_now sha b d m).
Proof.
  intros [Hg Hca Hfs Hcp] Hw. assert (good (lvl full (st_latest (or_st (m_or m)) + 1)) (m_or m)) as Hg1.
  { destruct (m_pc m) eqn:Hpc; cbn [frontier] in Hg; try done; (apply good_past; [done|]); (destruct Hw as [?|Hw]; [by left|right]); intros Hk; apply Hw;
      (split; [rewrite Hpc; auto|done]). }
  split; cbn [save_now m_pc m_or m_cache m_files].
  - eapply good_same; [exact Hg|]. apply same_hashed.
  - done.
  - by apply good_files_save.
  - exact Hcp.
Qed.
Lemma good_step full a m sent m' : typed_answers a → good_machine full m → step sha H a m = (sent, Ok m') → good_machine full m'.
Proof.
  intros Ta G. unfold step, stay. destruct (m_pc m) eqn:Hpc; intros Hs.
  - injection Hs as _ Hs. by eapply good_top.
  - injection Hs as _ Hs. by eapply good_processed.
  - injection Hs as _ Hs. by eapply good_freezing.
  - injection Hs as _ Hs. unfold step_polling in Hs. repeat case_match; simplify_eq; try done; (apply good_goto; [done|by rewrite Hpc..|done]).
  - injection Hs as _ Hs. unfold step_resting in Hs. repeat case_match; simplify_eq; (apply good_goto; [done|by rewrite Hpc..|done]).
  - unfold step_deciding, fatal in Hs. destruct (an_onchain a) as [[r os]|]; [|done]. destruct (negb _ && _).
    + destruct (update_root _ _ _) as [x [e|]]; [destruct (contains _ _); [|done]|]; injection Hs as _ <-; (apply good_goto; [done|by rewrite Hpc..|done]).
    + injection Hs as _ <-. apply good_goto; [done|by rewrite Hpc..|done].
  - injection Hs as _ Hs. unfold step_waiting in Hs. destruct (an_onchain a) as [[r os]|]; [|done]. destruct (_ && _); injection Hs as <-; [|done].
    apply good_goto; [done|by rewrite Hpc..|done].
  - injection Hs as _ <-. apply good_goto; [|by cbn; rewrite Hpc..|done]. apply good_save; [done|]. right. intros [[Hx|Hx] _]; congruence.
Qed.
Lemma good_live full e L sent L' : typed_config c0 → (0 < c_dep_slot c0)%N → typed_event e →
  (∀ m d, L = Up m → e = Signal d → full = false ∨ ¬ in_window c0 m) → good_life full L → live sha H c0 e L = (sent, L') → good_life full L'.
Proof.
  intros Tc Hd Te Hw G. destruct L as [fs|m]; cbn [live good_life] in *.
  - destruct e as [E sync onchain|a| |d|d]; try (by intros [= <- <-]). cbn in Te. subst sync.
    destruct (startup sha H E None onchain fs c0) as [o|] eqn:Hs; [|by intros [= <- <-]]. intros [= <- <-].
    split; cbn; [by eapply good_startup|by apply Forall_nil|done|done].
  - destruct e as [E sync onchain|a| |d|d].
    + by intros [= <- <-].
    + destruct (step sha H a m) as [x [m'|]] eqn:Hs; intros [= <- <-]; [by eapply good_step|]. apply G.
    + intros [= <- <-]. destruct G as [Hg Hca Hfs Hcp]. split; cbn [m_pc m_or m_cache m_files]; [|done|done|done].
      eapply good_same; [exact Hg|]. apply same_hashed.
    + intros [= <- <-]. apply good_save; [done|]. by eapply Hw.
    + intros [= <- <-]. cbn. destruct G as [Hg Hca Hfs Hcp]. destruct (m_pc m); try done. by apply good_files_save.
Qed.
Lemma good_lifetime full l L sent L' : typed_config c0 → (0 < c_dep_slot c0)%N → Forall typed_event l →
  (full = false ∨ no_signal_in_window sha H c0 l L) → good_life full L → lifetime sha H c0 l L = (sent, L') → good_life full L'.
Proof.
  intros Tc Hd. revert L sent. induction l as [|e l IH]; intros L sent Te Hw G Hl; cbn [lifetime] in Hl; [by injection Hl as _ <-|].
  inversion Te as [|? ? Te1 Te2]; subst. destruct (live sha H c0 e L) as [s1 L1] eqn:H1. destruct (lifetime sha H c0 l L1) as [s2 L2] eqn:H2.
  injection Hl as _ <-. eapply (IH L1 s2); [done| | |done].
  - destruct Hw as [?|Hw]; [by left|right]. intros l1 d l2 x m -> Hx. destruct (live sha H c0 e L) as [y L1'] eqn:Hy. injection H1 as -> ->.
    eapply (Hw (e :: l1) d l2); [done|]. cbn [lifetime]. rewrite Hy, Hx. done.
  - eapply good_live; [done|done|done| |done|done]. intros m d -> ->. destruct Hw as [?|Hw]; [by left|right]. by eapply (Hw [] d l).
Qed.
End life.

Lemma good_from_nothing sha H c0 full l sent L : typed_config c0 → (0 < c_dep_slot c0)%N → Forall typed_event l →
  (full = false ∨ no_signal_in_window sha H c0 l (Down ∅)) → lifetime sha H c0 l (Down ∅) = (sent, L) → good_life sha H c0 full L.
Proof. intros Tc Hd Te Hw Hl. eapply (good_lifetime sha H c0 full l (Down ∅)); [done|done|done|done| |done]. apply good_files_empty. Qed.

(** ** C40 *)
Lemma update_sends A slot root slot' bytes e : update_root A slot root = (Some (slot', bytes), e) →
  slot' = slot ∧ String.length bytes = 32%nat ∧ (root = "0x" +:+ hex_encode bytes ∨ root = hex_encode bytes).
Proof.
  unfold update_root. cbv zeta. set (r := if has_prefix root "0x" then sdrop 2 root else root).
  destruct (Nat.eqb_spec (String.length (hex2bytes r)) 32) as [Hl|]; cbn [negb]; [|done].
  destruct (String.eqb_spec (hex_encode (hex2bytes r)) r) as [He|]; cbn [negb]; [|done]. intros Hs.
  assert (slot' = slot ∧ bytes = hex2bytes r) as [-> ->] by (repeat case_match; simplify_eq; done).
  split; [done|]. split; [done|]. rewrite He. unfold r. destruct (has_prefix root "0x") eqn:Hp; [left|by right].
  apply has_prefix_app in Hp as [t ->]. by rewrite (sdrop_app "0x").
Qed.
Lemma holds_step sha H a m sent m' : holds_latest (Up m) → step sha H a m = (sent, Ok m') → holds_latest (Up m').
Proof.
  intros Hh Hs. unfold step, stay, holds_latest in *.
  destruct (m_pc m) as [| | |c|c|c|c|] eqn:Hpc; cbn [held] in Hh.
  - injection Hs as _ Hs. unfold step_top in Hs. cbv zeta in Hs.
    destruct (are_nodes_in_sync _ _) as [[]|]; [|injection Hs as <-; by rewrite Hpc|done].
    destruct (an_final a) as [f|]; [|injection Hs as <-; by rewrite Hpc]. destruct (_ <=? f)%N.
    + apply rbind_ok in Hs as ([fb ca] & _ & Hs). destruct (advance _ _ _); [|done|done]. by injection Hs as <-.
    + destruct (an_due a); [|injection Hs as <-; by rewrite Hpc]. apply rbind_ok in Hs as (u & _ & Hs). apply rbind_ok in Hs as (cl & _ & Hs).
      destruct (an_balance a); [|injection Hs as <-; by rewrite Hpc]. destruct cl; [|injection Hs as <-; by rewrite Hpc].
      destruct (onchain_reconciliation _ _ _); [|done]. injection Hs as <-. by rewrite Hpc.
  - injection Hs as _ Hs. unfold step_processed in Hs. cbv zeta in Hs. destruct (_ && _); [done|]. apply rbind_ok in Hs as ([[]|] & _ & Hs); [| |done].
    + destruct (offchain_reconciliation _); [|done]. by injection Hs as <-.
    + by injection Hs as <-.
  - injection Hs as _ Hs. unfold step_freezing in Hs. cbv zeta in Hs. apply rbind_ok in Hs as ([s' []] & _ & Hs).
    + destruct (latest_committed_state (committed_keys s') s') as [c|] eqn:Hc; [|done]. injection Hs as <-. cbn [goto m_pc m_or or_st held]. by intros c' [= <-].
    + by injection Hs as <-.
  - injection Hs as _ Hs. unfold step_polling in Hs. destruct (an_report a); [|done]. destruct (an_quorum a); [|done].
    destruct (latest_committed_slot (committed_keys (or_st (m_or m)))); [case_match|]; injection Hs as <-; [by rewrite Hpc|exact Hh|exact Hh].
  - injection Hs as _ Hs. unfold step_resting in Hs. destruct (c_dry_run _); [|destruct (an_onchain a); [|done]]; injection Hs as <-; exact Hh.
  - unfold step_deciding, fatal in Hs. destruct (an_onchain a) as [[r os]|]; [|done]. destruct (negb _ && _).
    + destruct (update_root _ _ _) as [x [e|]]; [destruct (contains _ _); [|done]|]; injection Hs as _ <-; exact Hh.
    + by injection Hs as _ <-.
  - injection Hs as _ Hs. unfold step_waiting in Hs. destruct (an_onchain a) as [[r os]|]; [|done]. destruct (_ && _); injection Hs as <-; [done|by rewrite Hpc].
  - by injection Hs as _ <-.
Qed.
Lemma holds_live sha H c0 e L sent L' : holds_latest L → live sha H c0 e L = (sent, L') → holds_latest L'.
Proof.
  intros Hh. destruct L as [fs|m].
  - destruct e; cbn [live]; try (by intros [= <- <-]). destruct (startup _ _ _ _ _ _ _); by intros [= <- <-].
  - destruct e as [E sync onchain|a| |d|d]; cbn [live]; try (by intros [= <- <-]).
    destruct (step sha H a m) as [x [m'|]] eqn:Hs; intros [= <- <-]; [|done]. by eapply holds_step.
Qed.
Lemma holds_lifetime sha H c0 l L sent L' : holds_latest L → lifetime sha H c0 l L = (sent, L') → holds_latest L'.
Proof.
  revert L sent. induction l as [|e l IH]; intros L sent Hh Hl; cbn [lifetime] in Hl; [by injection Hl as _ <-|].
  destruct (live sha H c0 e L) as [s1 L1] eqn:H1. destruct (lifetime sha H c0 l L1) as [s2 L2] eqn:H2. injection Hl as _ <-.
  eapply (IH L1 s2); [|done]. by eapply holds_live.
Qed.
Lemma live_sends sha H c0 e L slot bytes L' : live sha H c0 e L = (Some (slot, bytes), L') →
  ∃ a m c root os, L = Up m ∧ e = Tick a ∧ m_pc m = Deciding c ∧ an_onchain a = Some (root, os) ∧ c_dry_run (or_cfg (m_or m)) = false ∧
    slot = oc_slot c ∧ slot = u64_add os (c_cp_size (or_cfg (m_or m))) ∧
    String.length bytes = 32%nat ∧ (oc_root c = "0x" +:+ hex_encode bytes ∨ oc_root c = hex_encode bytes).
Proof.
  destruct L as [fs|m]; [destruct e; cbn; repeat case_match; done|]. destruct e as [E sync onchain|a| |d|d]; cbn [live]; try done.
  intros Hl. assert ((step sha H a m).1 = Some (slot, bytes)) as Hs. { destruct (step sha H a m) as [x []]; by injection Hl as -> _. }
  unfold step, stay in Hs. destruct (m_pc m) as [| | |c|c|c|c|] eqn:Hpc; try done. unfold step_deciding, fatal in Hs.
  destruct (an_onchain a) as [[root os]|] eqn:Ho; [|done].
  destruct (c_dry_run (or_cfg (m_or m))) eqn:Hd; cbn [negb andb] in Hs; [done|].
  destruct (N.eqb_spec (oc_slot c) (u64_add os (c_cp_size (or_cfg (m_or m))))) as [Heq|]; [|done].
  destruct (update_root (an_submit a) (oc_slot c) (oc_root c)) as [x e] eqn:Hu.
  assert (x = Some (slot, bytes)) as ->. { destruct e as [e|]; [destruct (contains _ _)|]; done. }
  apply update_sends in Hu as (-> & Hb & Hr). exists a, m, c, root, os. by repeat (split; [done|]).
Qed.
Lemma snapshot_root H E s c : snapshot H E s = Ok (Some c) → ∃ r, oc_root c = "0x" +:+ hex_encode r.
Proof.
  intros Hs. destruct (snapshot_inv H E s c Hs) as [ls Ha].
  destruct (snapshot_spec H E s ls Ha) as [[_ Hn]|(_ & c' & Hs' & _ & _ & Hr & _)]; [congruence|]. assert (c' = c) as -> by congruence. eauto.
Qed.
Lemma merkle_root_length H l r ins : (∀ x, String.length (H x) = 32%nat) → merkle H l r ins → (∀ x, x ∈ l → String.length x = 32%nat) → String.length r = 32%nat.
Proof.
  intros HH. induction 1 as [x|l root ins Hl Hm IH]; intros Hx; [apply Hx; by left|]. apply IH. by intros x (y & -> & _)%elem_of_list_fmap.
Qed.
Lemma root_length H ls : (∀ x, String.length (H x) = 32%nat) → (2 ≤ length ls)%nat → String.length (tree_root H (leaf_hash H <$> ls)) = 32%nat.
Proof.
  intros HH Hl. destruct (tree_merkle H (leaf_hash H <$> ls)) as [ins Hm]; [by rewrite fmap_length|].
  eapply merkle_root_length; [done|exact Hm|]. intros x (y & -> & _)%elem_of_list_fmap. apply HH.
Qed.
(** The hexadecimal text of a root cannot be mistaken for one with prefix. *)
Lemma root_bytes r b : "0x" +:+ hex_encode r = hex_encode b → False.
Proof.
  destruct b as [|x b]; [done|]. intros Hx. apply (f_equal (String.get 1)) in Hx. revert Hx.
  destruct x as [[] [] [] [] [] [] [] []]; done.
Qed.
Lemma latest_state_spec s c : latest_committed_state (committed_keys s) s = Some c →
  ∃ k, st_committed s !! k = Some c ∧ ∀ k', is_Some (st_committed s !! k') → (k' ≤ k)%N.
Proof.
  unfold latest_committed_state. destruct (committed_keys s) as [|x l] eqn:Ek; [done|].
  destruct (latest_slot_spec (x :: l)) as (r & -> & Hin & Hmax); [done|]. intros Hc. exists r. split; [done|]. intros k' Hk'.
  apply Hmax. rewrite <-Ek. apply (keys_elem s); [apply committed_keys_ok|done].
Qed.
Lemma submission_now sha H c0 m e slot bytes L' : holds_latest (Up m) → live sha H c0 e (Up m) = (Some (slot, bytes), L') →
  ∃ a root os k c, e = Tick a ∧ an_onchain a = Some (root, os) ∧ c_dry_run (or_cfg (m_or m)) = false ∧
    slot = u64_add os (c_cp_size (or_cfg (m_or m))) ∧
    st_committed (or_st (m_or m)) !! k = Some c ∧ (∀ k', is_Some (st_committed (or_st (m_or m)) !! k') → (k' ≤ k)%N) ∧
    oc_slot c = slot ∧ (oc_root c = "0x" +:+ hex_encode bytes ∨ oc_root c = hex_encode bytes).
Proof.
  intros Hh (a & m' & c & root & os & [= <-] & -> & Hpc & Ho & Hd & Hs & Hu & _ & Hr)%live_sends. unfold holds_latest in Hh. rewrite Hpc in Hh.
  destruct (latest_state_spec _ _ (Hh c eq_refl)) as (k & Hk & Hmax). exists a, root, os, k, c. by repeat (split; [done|]).
Qed.
Lemma submission_any sha H c0 fs l sent m e slot bytes L' : lifetime sha H c0 l (Down fs) = (sent, Up m) →
  live sha H c0 e (Up m) = (Some (slot, bytes), L') →
  ∃ a root os k c, e = Tick a ∧ an_onchain a = Some (root, os) ∧ c_dry_run (or_cfg (m_or m)) = false ∧
    slot = u64_add os (c_cp_size (or_cfg (m_or m))) ∧
    st_committed (or_st (m_or m)) !! k = Some c ∧ (∀ k', is_Some (st_committed (or_st (m_or m)) !! k') → (k' ≤ k)%N) ∧
    oc_slot c = slot ∧ (oc_root c = "0x" +:+ hex_encode bytes ∨ oc_root c = hex_encode bytes).
Proof. intros Hl. apply submission_now. by eapply holds_lifetime; [|exact Hl]. Qed.
Lemma good_frozen H c0 n o k c : good H c0 n o → st_committed (or_st o) !! k = Some c →
  ∃ ops1 ops2 p q E, evolve H (new_oracle c0) ops1 p ∧ evolve H p ops2 q ∧ same_oracle q o ∧ st_latest (or_st p) = k ∧ wf_env E ∧
    snapshot H E (or_st p) = Ok (Some c) ∧ oc_slot c = k.
Proof.
  intros (ops & (q & He & _ & Hs) & _) Hk. rewrite <-(proj2 (proj2 (same_latest _ _ Hs))) in Hk.
  destruct (evolve_frozen _ _ _ _ _ _ He Hk) as [Hn|(l1 & l2 & p & E & -> & H1 & H2 & Hl & W & Hsn)]; [cbn in Hn; by rewrite lookup_empty in Hn|].
  exists l1, l2, p, q, E. do 6 (split; [done|]). destruct (snapshot_inv H E _ c Hsn) as [ls Ha].
  destruct (snapshot_spec H E _ ls Ha) as [[_ Hn]|(_ & c' & Hs' & Hsl & _)]; congruence.
Qed.
Lemma submission_good sha H c0 m e slot bytes L' : good_life sha H c0 false (Up m) → holds_latest (Up m) →
  live sha H c0 e (Up m) = (Some (slot, bytes), L') →
  c_dry_run c0 = false ∧ (∃ a root os, e = Tick a ∧ an_onchain a = Some (root, os) ∧ slot = u64_add os (c_cp_size c0)) ∧
  checkpoint_slot c0 slot ∧
  ∃ ops p E c, evolve H (new_oracle c0) ops p ∧ st_latest (or_st p) = slot ∧ wf_env E ∧ snapshot H E (or_st p) = Ok (Some c) ∧
    oc_root c = "0x" +:+ hex_encode bytes.
Proof.
  intros G Hh Hs.
  destruct (lived_cfg _ _ _ _ _ G) as [z Hz]. destruct G as [Hg _ _ _].
  destruct (submission_now _ _ _ _ _ _ _ _ Hh Hs) as (a & root & os & k & c & -> & Ho & Hdry & Hslot & Hk & _ & Hoc & Hr).
  destruct (good_frozen _ _ _ _ _ _ Hg Hk) as (l1 & l2 & p & q & E & H1 & _ & _ & Hp & W & Hsn & Hkc).
  assert (k = slot) as -> by congruence. rewrite Hz in Hdry, Hslot. split; [by destruct c0|]. split; [exists a, root, os; split; [done|]; split; [done|]; by destruct c0|].
  split. { destruct Hg as (ops & _ & _ & Hc & _). eauto. }
  exists l1, p, E, c. do 4 (split; [done|]). destruct Hr as [Hr|Hr]; [done|]. exfalso. destruct (snapshot_root _ _ _ _ Hsn) as [r Hr']. rewrite Hr' in Hr.
  by apply root_bytes in Hr.
Qed.
Lemma submission_own sha H c0 l sent m e slot bytes L' : typed_config c0 → (0 < c_dep_slot c0)%N → Forall typed_event l →
  lifetime sha H c0 l (Down ∅) = (sent, Up m) → live sha H c0 e (Up m) = (Some (slot, bytes), L') →
  c_dry_run c0 = false ∧ (∃ a root os, e = Tick a ∧ an_onchain a = Some (root, os) ∧ slot = u64_add os (c_cp_size c0)) ∧
  checkpoint_slot c0 slot ∧
  ∃ ops p E c, evolve H (new_oracle c0) ops p ∧ st_latest (or_st p) = slot ∧ wf_env E ∧ snapshot H E (or_st p) = Ok (Some c) ∧
    oc_root c = "0x" +:+ hex_encode bytes.
Proof.
  intros Tc Hd Te Hl. eapply submission_good; [by eapply good_from_nothing; [done|done|done|by left|done]|]. by eapply holds_lifetime; [|exact Hl].
Qed.

(** ** C41 *)
Lemma good_all sha H c0 m : good_life sha H c0 true (Up m) →
  ∃ ops, lived H c0 ops (m_or m) ∧ ∀ k, passes H c0 ops k → (in_window c0 m → k ≠ st_latest (or_st (m_or m))) →
    is_Some (st_committed (or_st (m_or m)) !! k).
Proof.
  intros [(ops & Hlv & Hlt & Hc & Hp) _ _ _]. exists ops. split; [done|]. intros k Hps Hk. apply Hp; [|done].
  (* slots passed are not after the latest one *)
  assert (k ≤ st_latest (or_st (m_or m)))%N as Hle.
  { destruct Hps as (_ & l1 & l2 & p & -> & H1 & <- & _). destruct Hlv as (q & He & _ & Hs). rewrite <-(proj1 (same_latest _ _ Hs)).
    pose proof (evolve_split _ _ _ _ _ _ He H1) as Hq. eapply evolve_latest; [exact Hq|].
    eapply evolve_latest; [exact H1|]. cbn. unfold u64_sub, u64. by apply N.mod_lt. }
  unfold lvl, frontier. destruct (m_pc m) eqn:Hpc; try lia.
  all: assert (k ≠ st_latest (or_st (m_or m))); [|lia]; intros ->; apply Hk; [|done]; split; [rewrite Hpc; auto|apply Hps].
Qed.
Lemma every_checkpoint sha H c0 l sent m : typed_config c0 → (0 < c_dep_slot c0)%N → Forall typed_event l →
  no_signal_in_window sha H c0 l (Down ∅) → lifetime sha H c0 l (Down ∅) = (sent, Up m) →
  ∃ ops, lived H c0 ops (m_or m) ∧ ∀ k, passes H c0 ops k → (in_window c0 m → k ≠ st_latest (or_st (m_or m))) →
    is_Some (st_committed (or_st (m_or m)) !! k).
Proof.
  intros Tc Hd Te Hw Hl. apply (good_all sha). eapply good_from_nothing; [done|done|done|by right|done].
Qed.

(** ** C60 *)
(** With the previous checkpoint on chain, the new one is the one after it. *)
Lemma next_checkpoint sha H c0 l sent m c os : typed_config c0 → (0 < c_dep_slot c0)%N → (0 < c_cp_size c0)%N → Forall typed_event l →
  no_signal_in_window sha H c0 l (Down ∅) → lifetime sha H c0 l (Down ∅) = (sent, Up m) → m_pc m = Deciding c →
  is_Some (st_committed (or_st (m_or m)) !! os) → (os < oc_slot c)%N →
  (∀ k, is_Some (st_committed (or_st (m_or m)) !! k) → (k ≤ os ∨ oc_slot c ≤ k)%N) →
  oc_slot c = u64_add os (c_cp_size c0) ∧ ∃ r, oc_root c = "0x" +:+ hex_encode r.
Proof.
  intros Tc Hd Hsz Te Hw Hl Hpc Hos Hlt Hbetween. assert (good_life sha H c0 true (Up m)) as G.
  { eapply good_from_nothing; [done|done|done|by right|done]. }
  assert (holds_latest (Up m)) as Hh by (by eapply holds_lifetime; [|exact Hl]). unfold holds_latest in Hh. rewrite Hpc in Hh.
  destruct (latest_state_spec _ _ (Hh c eq_refl)) as (k & Hk & Hmax). destruct G as [Hg _ _ _]. rewrite Hpc in Hg. cbn [frontier lvl] in Hg.
  destruct (good_frozen _ _ _ _ _ _ Hg Hk) as (_ & _ & p0 & _ & E & _ & _ & _ & _ & _ & Hsn & Hkc). split; [|by eapply snapshot_root].
  destruct Hg as (ops & (q & He & Ht & Hs) & Hl64 & Hc & Hp). pose proof (same_latest _ _ Hs) as (S1 & S2 & S3).
  destruct Hos as [co Hos]. rewrite <-S3 in Hos.
  destruct (evolve_frozen _ _ _ _ _ _ He Hos) as [Hn|(l1 & l2 & p & E' & -> & H1 & H2 & Hlp & W & Hsp)]; [cbn in Hn; by rewrite lookup_empty in Hn|].
  assert (checkpoint_slot c0 os) as [j1 Hj1] by (apply Hc; rewrite <-S3; eauto).
  assert (checkpoint_slot c0 (oc_slot c)) as [j2 Hj2] by (apply Hc; rewrite Hkc; eauto).
  assert (j1 < j2)%N as Hj by nia. assert (os + c_cp_size c0 ≤ oc_slot c)%N as Hstep by nia.
  assert (st_latest (or_st p) < two64)%N as Hp64. { eapply evolve_latest; [exact H1|]. cbn. unfold u64_sub, u64. by apply N.mod_lt. }
  assert (oc_slot c ≤ st_latest (or_st q))%N as Hcq.
  { rewrite <-S3 in Hk. destruct (evolve_sound H _ _ _ He (sound_new H c0)) as [[_ Hall] _]. destruct (Hall _ _ Hk) as [Hx _]. lia. }
  assert (os + c_cp_size c0 = oc_slot c)%N as Heq.
  { destruct (N.eq_dec (os + c_cp_size c0) (oc_slot c)) as [|Hne]; [done|]. exfalso.
    destruct (evolve_between H p l2 q (os + c_cp_size c0)) as (a1 & a2 & p1 & -> & Ha1 & _ & Hl1); [done|done|lia|].
    assert (is_Some (st_committed (or_st (m_or m)) !! (os + c_cp_size c0)%N)) as Hx.
    { apply Hp; [lia|]. split; [exists (j1 + 1)%N; lia|]. exists (l1 ++ a1), a2, p1. split; [by rewrite app_assoc|].
      split; [by eapply evolve_app|]. split; [done|]. eapply evolve_vals; [exact Ha1|]. intros Hv.
      apply (snapshot_vals _ _ _ _ W Hsp) in Hv. done. }
    destruct (Hbetween _ Hx); lia. }
  rewrite <-Heq. unfold u64_add, u64. rewrite N.mod_small; [done|]. lia.
Qed.
Lemma next_submitted sha H c0 l sent m c os root a : typed_config c0 → (0 < c_dep_slot c0)%N → (0 < c_cp_size c0)%N → Forall typed_event l →
  no_signal_in_window sha H c0 l (Down ∅) → lifetime sha H c0 l (Down ∅) = (sent, Up m) → m_pc m = Deciding c →
  c_dry_run c0 = false → (∀ x, String.length (H x) = 32%nat) →
  is_Some (st_committed (or_st (m_or m)) !! os) → (os < oc_slot c)%N →
  (∀ k, is_Some (st_committed (or_st (m_or m)) !! k) → (k ≤ os ∨ oc_slot c ≤ k)%N) →
  an_onchain a = Some (root, os) → sa_nonce (an_submit a) = None → sa_chain (an_submit a) = None → sa_auth (an_submit a) = None →
  sa_instance (an_submit a) = None → sa_send (an_submit a) = None →
  ∃ bytes L', live sha H c0 (Tick a) (Up m) = (Some (oc_slot c, bytes), L') ∧ oc_root c = "0x" +:+ hex_encode bytes.
Proof.
  intros Tc Hd Hsz Te Hw Hl Hpc Hdry HH Hos Hlt Hb Ho N1 N2 N3 N4 N5.
  destruct (next_checkpoint _ _ _ _ _ _ _ _ Tc Hd Hsz Te Hw Hl Hpc Hos Hlt Hb) as [Hslot _].
  assert (good_life sha H c0 true (Up m)) as G.
  { eapply good_from_nothing; [done|done|done|by right|done]. }
  destruct (lived_cfg _ _ _ _ _ G) as [z Hz]. destruct G as [Hg _ _ _].
  assert (holds_latest (Up m)) as Hh by (by eapply holds_lifetime; [|exact Hl]). unfold holds_latest in Hh. rewrite Hpc in Hh.
  destruct (latest_state_spec _ _ (Hh c eq_refl)) as (k & Hk & _).
  destruct (good_frozen _ _ _ _ _ _ Hg Hk) as (_ & _ & p & _ & E & _ & _ & _ & _ & _ & Hsn & _).
  assert (∃ r, oc_root c = "0x" +:+ hex_encode r ∧ String.length r = 32%nat) as (r & Hr & Hlen).
  { destruct (snapshot_inv H E _ c Hsn) as [ls Ha]. destruct (snapshot_spec H E _ ls Ha) as [[_ Hn]|(Hl2 & c' & Hs' & _ & _ & Hr & _)]; [congruence|].
    assert (c' = c) as -> by congruence. eexists. split; [exact Hr|]. by apply root_length. }
  exists r. unfold live, step. rewrite Hpc. unfold step_deciding. rewrite Ho, Hz.
  assert (c_dry_run (cset_feepct z c0) = false) as -> by (by destruct c0).
  assert (c_cp_size (cset_feepct z c0) = c_cp_size c0) as -> by (by destruct c0).
  rewrite Hslot, N.eqb_refl. cbn [negb andb].
  assert (∃ e, update_root (an_submit a) (u64_add os (c_cp_size c0)) (oc_root c) = (Some (u64_add os (c_cp_size c0), r), e)) as [e He].
  { unfold update_root. rewrite Hr, (proj2 (has_prefix_app _ "0x")) by eauto. rewrite (sdrop_app "0x"), hex2bytes_encode, Hlen, String.eqb_refl.
    cbn [Nat.eqb negb]. rewrite N1, N2, N3, N4, N5. destruct (sa_mined (an_submit a)); repeat case_match; by eexists. }
  rewrite He. destruct e as [e|]; [destruct (contains _ _)|]; by eexists.
Qed.
(** Once something is frozen, every later checkpoint slot is passed. *)
Lemma lived_passes H c0 ops o k0 k : lived H c0 ops o → is_Some (st_committed (or_st o) !! k0) → (k0 ≤ k ≤ st_latest (or_st o))%N →
  checkpoint_slot c0 k → passes H c0 ops k.
Proof.
  intros (q & He & _ & Hs) [c Hc] Hk Hcp. pose proof (same_latest _ _ Hs) as (S1 & S2 & S3). rewrite <-S3 in Hc. rewrite <-S1 in Hk.
  destruct (evolve_frozen _ _ _ _ _ _ He Hc) as [Hn|(l1 & l2 & p & E' & -> & H1 & H2 & Hlp & W & Hsp)]; [cbn in Hn; by rewrite lookup_empty in Hn|].
  assert (st_latest (or_st p) < two64)%N as Hp64. { eapply evolve_latest; [exact H1|]. cbn. unfold u64_sub, u64. by apply N.mod_lt. }
  destruct (evolve_between H p l2 q k) as (a1 & a2 & p1 & -> & Ha1 & _ & Hl1); [done|done|lia|].
  split; [done|]. exists (l1 ++ a1), a2, p1. split; [by rewrite app_assoc|]. split; [by eapply evolve_app|]. split; [done|].
  eapply evolve_vals; [exact Ha1|]. intros Hv. by apply (snapshot_vals _ _ _ _ W Hsp) in Hv.
Qed.
Lemma own_history sha H c0 l sent m : typed_config c0 → (0 < c_dep_slot c0)%N → Forall typed_event l →
  lifetime sha H c0 l (Down ∅) = (sent, Up m) → ∃ ops, lived H c0 ops (m_or m).
Proof.
  intros Tc Hd Te Hl. assert (good_life sha H c0 false (Up m)) as [(ops & Hlv & _) _ _ _]; [|eauto].
  eapply good_from_nothing; [done|done|done|by left|done].
Qed.

Lemma lifetime_app sha H c0 l1 l2 L s1 L1 : lifetime sha H c0 l1 L = (s1, L1) →
  lifetime sha H c0 (l1 ++ l2) L = (s1 ++ (lifetime sha H c0 l2 L1).1, (lifetime sha H c0 l2 L1).2).
Proof.
  revert L s1. induction l1 as [|e l1 IH]; intros L s1 Hl; cbn [lifetime app] in *; [injection Hl as <- <-; by destruct (lifetime sha H c0 l2 L)|].
  destruct (live sha H c0 e L) as [x L'] eqn:He. destruct (lifetime sha H c0 l1 L') as [y L''] eqn:Hl'. injection Hl as <- <-.
  rewrite (IH _ _ Hl'). by destruct x.
Qed.
(** While the process runs, nothing frozen disappears. *)
Lemma step_keeps sha H a m sent m' k : step sha H a m = (sent, Ok m') → is_Some (st_committed (or_st (m_or m)) !! k) →
  is_Some (st_committed (or_st (m_or m')) !! k).
Proof.
  unfold step, stay. intros Hs Hk. destruct (m_pc m) eqn:Hpc.
  - injection Hs as _ Hs. unfold step_top in Hs. cbv zeta in Hs.
    destruct (are_nodes_in_sync _ _) as [[]|]; [|by injection Hs as <-|done]. destruct (an_final a) as [f|]; [|by injection Hs as <-]. destruct (_ <=? f)%N.
    + apply rbind_ok in Hs as ([fb ca] & _ & Hs). destruct (advance _ _ _) as [o' n| |] eqn:Ha; [|done|done]. injection Hs as <-. cbn [m_or].
      by rewrite (advance_committed _ _ _ _ _ Ha).
    + destruct (an_due a); [|by injection Hs as <-]. apply rbind_ok in Hs as (u & _ & Hs). apply rbind_ok in Hs as (cl & _ & Hs).
      destruct (an_balance a); [|by injection Hs as <-]. destruct cl; [|by injection Hs as <-].
      destruct (onchain_reconciliation _ _ _); [|done]. by injection Hs as <-.
  - injection Hs as _ Hs. unfold step_processed in Hs. cbv zeta in Hs. destruct (_ && _); [done|]. apply rbind_ok in Hs as ([[]|] & _ & Hs); [| |done].
    + destruct (offchain_reconciliation _); [|done]. by injection Hs as <-.
    + by injection Hs as <-.
  - injection Hs as _ Hs. unfold step_freezing in Hs. cbv zeta in Hs. apply rbind_ok in Hs as ([s' b] & Hf & Hs).
    assert (is_Some (st_committed s' !! k)) as Hk'.
    { destruct (freeze_inv _ _ _ _ _ Hf) as [(_ & -> & _)|(_ & c & _ & _ & ->)]; [done|]. cbn.
      destruct (N.eq_dec (st_latest (or_st (m_or m))) k) as [->|]; [rewrite lookup_insert; eauto|by rewrite lookup_insert_ne]. }
    destruct b; [destruct (latest_committed_state _ _); [|done]|]; by injection Hs as <-.
  - injection Hs as _ Hs. unfold step_polling in Hs. repeat case_match; simplify_eq; done.
  - injection Hs as _ Hs. unfold step_resting in Hs. repeat case_match; simplify_eq; done.
  - unfold step_deciding, fatal in Hs. destruct (an_onchain a) as [[r os]|]; [|done]. destruct (negb _ && _).
    + destruct (update_root _ _ _) as [x [e|]]; [destruct (contains _ _); [|done]|]; by injection Hs as _ <-.
    + by injection Hs as _ <-.
  - injection Hs as _ Hs. unfold step_waiting in Hs. destruct (an_onchain a) as [[r os]|]; [|done]. destruct (_ && _); by injection Hs as <-.
  - by injection Hs as _ <-.
Qed.
Lemma goes_on_typed s0 e : goes_on s0 e → typed_event e.
Proof. destruct e; cbn; tauto. Qed.
Lemma silent sha H c0 l0 sent m k s0 l : typed_config c0 → (0 < c_dep_slot c0)%N → Forall typed_event l0 →
  lifetime sha H c0 l0 (Down ∅) = (sent, Up m) → is_Some (st_committed (or_st (m_or m)) !! k) → (s0 + c_cp_size c0 < k)%N →
  Forall (goes_on s0) l → (lifetime sha H c0 l (Up m)).1 = [].
Proof.
  intros Tc Hd Te Hl Hk Hlt Hgo. revert l0 sent m Te Hl Hk. induction Hgo as [|e l He Hgo IH]; intros l0 sent m Te Hl Hk; [done|]. cbn [lifetime].
  destruct (live sha H c0 e (Up m)) as [x L1] eqn:H1. destruct (lifetime sha H c0 l L1) as [y L2] eqn:H2.
  assert (k < two64)%N as Hk64.
  { assert (good_life sha H c0 false (Up m)) as [(ops & (q & Hev & _ & Hs) & H64 & _) _ _ _] by (eapply good_from_nothing; [done|done|done|by left|done]).
    pose proof (same_latest _ _ Hs) as (S1 & _ & S3). rewrite <-S3 in Hk. destruct Hk as [ck Hk].
    destruct (evolve_sound H _ _ _ Hev (sound_new H c0)) as [[Hx Hall] _]. destruct (Hall _ _ Hk) as [Hy _]. lia. }
  assert (x = None) as ->.
  { destruct x as [[slot bytes]|]; [|done]. exfalso.
    destruct (submission_any _ _ _ _ _ _ _ _ _ _ _ Hl H1) as (a & root & os & k' & c & -> & Ho & _ & Hslot & Hk' & Hmax & Hoc & _).
    cbn in He. destruct He as [_ He]. specialize (He _ _ Ho). subst os. specialize (Hmax _ Hk).
    assert (good_life sha H c0 false (Up m)) as G by (eapply good_from_nothing; [done|done|done|by left|done]).
    destruct (lived_cfg _ _ _ _ _ G) as [z Hz]. destruct G as [Hg _ _ _].
    destruct (good_frozen _ _ _ _ _ _ Hg Hk') as (_ & _ & _ & _ & _ & _ & _ & _ & _ & _ & _ & Hkc).
    rewrite Hz in Hslot. assert (c_cp_size (cset_feepct z c0) = c_cp_size c0) as Hcs by (by destruct c0). rewrite Hcs in Hslot.
    unfold u64_add, u64 in Hslot. rewrite N.mod_small in Hslot by lia. lia. }
  enough (y = []) as -> by done.
  destruct L1 as [fs|m1].
  - (* nothing starts the process again *)
    assert (∀ l s L, Forall (goes_on s0) l → lifetime sha H c0 l (Down fs) = (s, L) → s = []) as Hdown.
    { clear. intros l. induction l as [|e l IH]; intros s L Hg Hl; cbn [lifetime] in Hl; [by injection Hl as <- _|].
      inversion Hg as [|? ? He Hg']; subst. assert (live sha H c0 e (Down fs) = (None, Down fs)) as Hx by by destruct e. rewrite Hx in Hl.
      destruct (lifetime sha H c0 l (Down fs)) as [s' L'] eqn:E. injection Hl as <- _. by eapply IH. }
    eapply Hdown; [|exact H2]. done.
  - assert (lifetime sha H c0 (l0 ++ [e]) (Down ∅) = (sent ++ [], Up m1)) as Hl1.
    { rewrite (lifetime_app _ _ _ _ _ _ _ _ Hl). cbn [lifetime]. rewrite H1. done. }
    assert ((lifetime sha H c0 l (Up m1)).1 = []) as Hy; [|by rewrite H2 in Hy]. apply (IH (l0 ++ [e]) (sent ++ []) m1); [|exact Hl1|].
    + apply Forall_app. split; [done|]. apply Forall_cons. split; [by eapply goes_on_typed|by apply Forall_nil].
    + destruct e as [E sync onchain|a| |d|d]; cbn [live] in H1; cbn in He; try done.
      * destruct (step sha H a m) as [x' [m'|]] eqn:Hs; [|done]. injection H1 as _ <-. by eapply step_keeps.
      * by injection H1 as <-.
      * by injection H1 as <-.
Qed.
Lemma waits_forever sha H c0 m c l : m_pc m = Waiting c → Forall (never_consolidates (oc_root c) (oc_slot c)) l →
  ∃ m', lifetime sha H c0 l (Up m) = ([], Up m') ∧ m_pc m' = Waiting c ∧ same_oracle (m_or m) (m_or m').
Proof.
  intros Hpc Hl. revert m Hpc. induction Hl as [|e l He _ IH]; intros m Hpc; [by exists m|]. cbn [lifetime].
  assert (∃ m1, live sha H c0 e (Up m) = (None, Up m1) ∧ m_pc m1 = Waiting c ∧ same_oracle (m_or m) (m_or m1)) as (m1 & -> & Hp1 & Hs1).
  { destruct e as [E sync onchain|a| |d|d]; cbn in He; try done.
    - destruct He as ([root slot] & Ho & Hne). exists m. cbn [live]. unfold step, stay. rewrite Hpc. unfold step_waiting. rewrite Ho.
      destruct (String.eqb_spec root (oc_root c)) as [->|]; cbn [andb]; [|done]. destruct (N.eqb_spec slot (oc_slot c)) as [->|]; done.
    - eexists. split; [reflexivity|]. split; [done|]. apply same_hashed.
    - eexists. split; [reflexivity|]. split; [done|]. apply same_hashed. }
  destruct (IH m1 Hp1) as (m' & -> & Hp' & Hs'). exists m'. split; [done|]. split; [done|]. by eapply same_trans.
Qed.
