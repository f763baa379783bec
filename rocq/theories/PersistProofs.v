(** Proofs about saving and loading the state: oracle.go:495-706, 988-1006 and main.go:128-189. *)
From Verif Require Export Persist PersistSpec CodecProofs SaveProofs CheckpointProofs DressProofs RunProofs.
From Verif Require Import StepProofs.

(** ** Recorded hashes *)
Lemma hash_text_content sha h s : hash_text sha (set_hash h s) = hash_text sha s.
Proof. done. Qed.
Lemma hash_state_content sha s : same_content (hash_state sha s) s.
Proof. done. Qed.
Lemma hash_text_lower sha s : to_lower (hash_text sha s) = hash_text sha s.
Proof. apply to_lower_hex. Qed.
Lemma range_hash h s : in_range s → in_range (set_hash h s).
Proof. intros ((_ & ?) & ?). done. Qed.
Lemma shaped_weaken (T T' : string → Prop) s : (∀ x, T x → T' x) → shaped T s → shaped T' s.
Proof.
  intros Hi ((A1 & A2 & A3 & A4) & B & Hv & Hc & F1 & F2 & F3 & F4 & F5 & F6 & F7).
  assert (∀ v, good_vinfo T v → good_vinfo T' v) as HV by (intros v (? & ? & ?); repeat split; auto).
  assert (∀ b, good_block T b → good_block T' b) as HB by (intros b (? & ? & ? & ? & ?); repeat split; auto).
  split; [auto|]. split; [done|]. split. { intros k v Hk. destruct (Hv k v Hk). auto. }
  split.
  { intros k c Hk. destruct (Hc k c Hk) as [Hku (O1 & O2 & O3 & O4 & O5 & O6)]. split; [done|]. do 3 (split; [auto|]).
    split. { intros i v Hi'. destruct (O4 i v Hi'). auto. }
    split. { intros i v Hi'. destruct (O5 i v Hi'). split; [auto|]. by apply Hi. }
    intros i l Hi'. destruct (O6 i l Hi') as [? Hl]. split; [auto|]. by apply (Forall_impl _ _ _ Hl). }
  do 4 (split; [done|]). split; [by apply (Forall_impl _ _ _ F5)|]. split; [by apply (Forall_impl _ _ _ F6)|].
  by apply (Forall_impl _ _ _ F7).
Qed.
Lemma saveable_range s : saveable s → in_range s.
Proof. by apply shaped_weaken. Qed.
Lemma equals_same a : equals a a = Ok true.
Proof. unfold equals. by rewrite Nat.eqb_refl, String.eqb_refl. Qed.

(** ** The schedule *)
Lemma best_fee_spec l upto : ∀ best,
  match best_fee l upto best with
  | None => best = None ∧ ∀ k z, (k, z) ∈ l → (upto < k)%N
  | Some (k, z) => (best = Some (k, z) ∨ ((k, z) ∈ l ∧ (k ≤ upto)%N)) ∧
      (∀ k' z', (k', z') ∈ l → (k' ≤ upto)%N → (k' ≤ k)%N) ∧ (∀ b, best = Some b → (b.1 ≤ k)%N)
  end.
Proof.
  induction l as [|[k z] l IH]; intros best; cbn [best_fee].
  - destruct best as [[b f]|].
    + split; [by left|]. split; [by intros ? ? ?%elem_of_nil|]. by intros ? [= <-].
    + split; [done|]. by intros ? ? ?%elem_of_nil.
  - destruct (N.leb_spec k upto) as [Hk|Hk]; cbn [andb].
    + destruct (match best with None => true | Some (b, _) => (b <? k)%N end) eqn:Hb.
      * specialize (IH (Some (k, z))). destruct (best_fee l upto (Some (k, z))) as [[k1 z1]|]; [|by destruct IH].
        destruct IH as (H1 & H2 & H3). pose proof (H3 _ eq_refl) as Hle. cbn in Hle. split; [|split].
        -- right. destruct H1 as [[= -> ->]|[Hin Hle']]; [split; [by left|done]|split; [by right|done]].
        -- intros k' z' [[= -> ->]|Hin]%elem_of_cons Hk'; [done|]. by eapply H2.
        -- intros [b f] ->. cbn. apply N.ltb_lt in Hb. lia.
      * specialize (IH best). destruct best as [[b f]|]; [|done]. apply N.ltb_ge in Hb.
        destruct (best_fee l upto (Some (b, f))) as [[k1 z1]|]; [|by destruct IH].
        destruct IH as (H1 & H2 & H3). pose proof (H3 _ eq_refl) as Hle. cbn in Hle. split; [|split; [|done]].
        -- destruct H1 as [H1|[Hin Hle']]; [by left|]. right. split; [by right|done].
        -- intros k' z' [[= -> ->]|Hin]%elem_of_cons Hk'; [lia|]. by eapply H2.
    + specialize (IH best). destruct (best_fee l upto best) as [[k1 z1]|].
      * destruct IH as (H1 & H2 & H3). split; [|split; [|done]].
        -- destruct H1 as [H1|[Hin Hle']]; [by left|]. right. split; [by right|done].
        -- intros k' z' [[= -> ->]|Hin]%elem_of_cons Hk'; [lia|]. by eapply H2.
      * destruct IH as [-> IH]. split; [done|]. intros k' z' [[= -> ->]|Hin]%elem_of_cons; [done|]. by eapply IH.
Qed.
Lemma apply_schedule_spec slot c :
  apply_fee_schedule slot c = cset_feepct (c_feepct (apply_fee_schedule slot c)) c ∧
  fee_in_force (c_network c) (c_feepct c) slot (c_feepct (apply_fee_schedule slot c)).
Proof.
  unfold apply_fee_schedule. pose proof (best_fee_spec (map_to_list (fee_schedule (c_network c))) slot None) as Hb.
  destruct (best_fee _ slot None) as [[k z]|].
  - split; [done|]. right. destruct Hb as ([?|[Hin Hle]] & Hmax & _); [done|]. exists k.
    split; [by apply elem_of_map_to_list|]. split; [done|]. intros k' z' Hk'%elem_of_map_to_list. by eapply Hmax.
  - destruct Hb as [_ Hb]. split; [by destruct c|]. left. split; [done|]. intros k z Hk%elem_of_map_to_list. by eapply Hb.
Qed.
Lemma fee_in_force_fun net fee0 slot a b : fee_in_force net fee0 slot a → fee_in_force net fee0 slot b → a = b.
Proof.
  intros [[-> Ha]|(k & Hk & Hle & Hmax)] [[-> Hb]|(k' & Hk' & Hle' & Hmax')]; [done|..].
  - pose proof (Ha _ _ Hk'). lia.
  - pose proof (Hb _ _ Hk). lia.
  - pose proof (Hmax _ _ Hk' Hle'). pose proof (Hmax' _ _ Hk Hle). assert (k = k') as -> by lia. congruence.
Qed.
(** At most one change is scheduled per network. *)
Lemma schedule_single net k z k' z' : fee_schedule net !! k = Some z → fee_schedule net !! k' = Some z' → k = k' ∧ z = z'.
Proof.
  unfold fee_schedule. intros A B. destruct (String.eqb net Mainnet).
  { apply lookup_singleton_Some in A as [<- <-]. apply lookup_singleton_Some in B as [<- <-]. done. }
  destruct (String.eqb net Hoodi); [|by rewrite lookup_empty in A].
  apply lookup_singleton_Some in A as [<- <-]. apply lookup_singleton_Some in B as [<- <-]. done.
Qed.

(** ** The checks of the loader *)
Lemma checks_inv s c c' : load_checks s c = (c', None) →
  same_params s c ∧ st_feepct s = c_feepct c' ∧ c' = cset_feepct (st_feepct s) c ∧
  (st_feepct s = c_feepct c ∨ fee_in_force (c_network c) (c_feepct c) (st_latest s) (st_feepct s)).
Proof.
  unfold load_checks. intros H.
  destruct (String.eqb_spec (st_network s) (c_network c)) as [E1|]; [|done].
  destruct (String.eqb_spec (st_pool s) (c_pool c)) as [E2|]; [|done].
  destruct (String.eqb_spec (st_fees_addr s) (c_fees_addr c)) as [E3|]; [|done]. cbn [negb] in H.
  destruct (apply_schedule_spec (st_latest s) c) as [Hap Hin].
  assert (∃ f, (if (st_feepct s =? c_feepct c)%Z then c else apply_fee_schedule (st_latest s) c) = cset_feepct f c ∧
    (f = c_feepct c ∨ fee_in_force (c_network c) (c_feepct c) (st_latest s) f)) as (f & Hc & Hf).
  { destruct (Z.eqb_spec (st_feepct s) (c_feepct c)) as [Ef|Ef].
    - exists (c_feepct c). split; [by destruct c|by left].
    - eexists. split; [exact Hap|by right]. }
  cbv zeta in H. rewrite Hc in H. cbn in H.
  destruct (Z.eqb_spec (st_feepct s) f) as [E4|]; [|done]. destruct (Z.eqb_spec (st_coll s) (c_coll c)) as [E5|]; [|done].
  destruct (N.eqb_spec (st_cp_size s) (c_cp_size c)) as [E6|]; [|done].
  destruct (N.eqb_spec (st_dep_block s) (c_dep_block c)) as [E7|]; [|done].
  destruct (N.eqb_spec (st_dep_slot s) (c_dep_slot c)) as [E8|]; [|done]. cbn [negb] in H. injection H as <-.
  split; [done|]. split; [done|]. split; [by rewrite E4|]. rewrite E4. exact Hf.
Qed.
Lemma checks_ok s c : same_params s c →
  st_feepct s = c_feepct c ∨ fee_in_force (c_network c) (c_feepct c) (st_latest s) (st_feepct s) →
  load_checks s c = (cset_feepct (st_feepct s) c, None).
Proof.
  intros [E1 E2 E3 E4 E5 E6 E7] Hf. unfold load_checks. rewrite E1, E2, E3, !String.eqb_refl. cbn [negb]. cbv zeta.
  assert ((if (st_feepct s =? c_feepct c)%Z then c else apply_fee_schedule (st_latest s) c) = cset_feepct (st_feepct s) c) as ->.
  { destruct (apply_schedule_spec (st_latest s) c) as [Hap Hin].
    destruct (Z.eqb_spec (st_feepct s) (c_feepct c)) as [->|Hne]; [by destruct c|].
    destruct Hf as [?|Hf]; [done|]. rewrite (fee_in_force_fun _ _ _ _ _ Hf Hin). exact Hap. }
  cbn. by rewrite Z.eqb_refl, E4, E5, E6, E7, Z.eqb_refl, !N.eqb_refl.
Qed.
Lemma checks_frame s c c' e : load_checks s c = (c', e) → c' = cset_feepct (c_feepct c') c.
Proof.
  destruct (apply_schedule_spec (st_latest s) c) as [Hap _]. assert (c = cset_feepct (c_feepct c) c) as Hc by (by destruct c).
  unfold load_checks. intros H. repeat (case_match; try (by injection H as <- <-)).
Qed.

(** ** Loading *)
Lemma tree_total H E s f20 : wf_env E → wf_records s → pool_apart s → names f20 (st_fees_addr s) →
  ∃ g, generate_tree H E s = Ok g.
Proof.
  intros W Hr Hp Hf. destruct (leaves_total E s f20 W Hr Hp Hf) as [ls Ha]. unfold generate_tree. rewrite Ha. cbn [rbind].
  destruct (length ls <? 2)%nat; eauto.
Qed.
Lemma load_inv sha H E raw o o' b : load_bytes sha H E raw o = Done o' b →
  ∃ s, unmarshal raw = Some s ∧ in_range s ∧ to_lower (st_hash s) = hash_text sha s ∧ b = true ∧
    load_checks s (or_cfg o) = (or_cfg o', None) ∧ or_st o' = set_hash "" s.
Proof.
  unfold load_bytes. destruct (unmarshal raw) as [s|] eqn:Hu; [|done]. pose proof (unmarshal_range _ _ Hu) as Hr.
  destruct (equals (st_hash s) (hash_text sha s)) as [[]|] eqn:He; [|done|done].
  unfold equals in He. destruct (_ =? _)%nat; [|done].
  assert (to_lower (st_hash s) = to_lower (hash_text sha s)) as He' by (apply String.eqb_eq; congruence).
  rewrite hash_text_lower in He'.
  destruct (load_checks s (or_cfg o)) as [c [e|]] eqn:Hc; [done|]. destruct (generate_tree _ _ _); [|done].
  intros [= <- <-]. exists s. done.
Qed.
Lemma load_saved sha H E s o : wf_env E → in_range s → (∃ g, generate_tree H E (set_hash "" s) = Ok g) →
  ∀ c, load_checks s (or_cfg o) = (c, None) →
  load_bytes sha H E (marshal (hash_state sha s)) o = Done (Oracle c (set_hash "" s)) true.
Proof.
  intros W Hr [g Hg] c Hc. unfold load_bytes. rewrite unmarshal_marshal by (by apply range_hash).
  change (hash_text sha (hash_state sha s)) with (hash_text sha s). cbn [st_hash hash_state set_hash].
  change (st_hash (hash_state sha s)) with (hash_text sha s). rewrite equals_same.
  change (load_checks (hash_state sha s) (or_cfg o)) with (load_checks s (or_cfg o)). rewrite Hc.
  change (set_hash "" (hash_state sha s)) with (set_hash "" s). by rewrite Hg.
Qed.
Lemma load_saved_bad sha H E s o c e : in_range s → load_checks s (or_cfg o) = (c, Some e) →
  load_bytes sha H E (marshal (hash_state sha s)) o = Fail (Oracle c (or_st o)) e.
Proof.
  intros Hr Hc. unfold load_bytes. rewrite unmarshal_marshal by (by apply range_hash).
  change (hash_text sha (hash_state sha s)) with (hash_text sha s).
  change (st_hash (hash_state sha s)) with (hash_text sha s). rewrite equals_same.
  change (load_checks (hash_state sha s) (or_cfg o)) with (load_checks s (or_cfg o)). by rewrite Hc.
Qed.
Lemma tree_hash H E h s : generate_tree H E (set_hash h s) = generate_tree H E s.
Proof. done. Qed.

Lemma slot_state_apart n : slot_path n ≠ state_path.
Proof. unfold slot_path, state_path. intros Heq. vm_compute in Heq. discriminate Heq. Qed.
Lemma save_files sha b o fs : (save sha b o fs).2 =
  (if b then <[slot_path (st_latest (or_st o)) := marshal (hash_state sha (or_st o))]> else id)
    (<[state_path := marshal (hash_state sha (or_st o))]> fs).
Proof. by destruct b. Qed.
Lemma save_state_file sha b o fs : (save sha b o fs).2 !! state_path = Some (marshal (hash_state sha (or_st o))).
Proof.
  rewrite save_files. destruct b; [rewrite lookup_insert_ne by apply slot_state_apart|unfold id]; apply lookup_insert.
Qed.
Lemma save_slot_file sha o fs : (save sha true o fs).2 !! slot_path (st_latest (or_st o)) = Some (marshal (hash_state sha (or_st o))).
Proof. rewrite save_files. apply lookup_insert. Qed.
Lemma save_other_file sha b o fs p : p ≠ state_path → p ≠ slot_path (st_latest (or_st o)) → (save sha b o fs).2 !! p = fs !! p.
Proof. intros H1 H2. rewrite save_files. destruct b; unfold id; by rewrite !lookup_insert_ne. Qed.

(** C29 *)
Lemma save_load sha H E b o o0 fs f20 : wf_env E → in_range (or_st o) → same_params (or_st o) (or_cfg o0) →
  st_feepct (or_st o) = c_feepct (or_cfg o0) → wf_records (or_st o) → pool_apart (or_st o) → names f20 (st_fees_addr (or_st o)) →
  load_json sha H E (save sha b o fs).2 o0 = Done (Oracle (or_cfg o0) (set_hash "" (or_st o))) true ∧
  (b = true → load_path sha H E (save sha b o fs).2 (slot_path (st_latest (or_st o))) o0 =
                Done (Oracle (or_cfg o0) (set_hash "" (or_st o))) true).
Proof.
  intros W Hr Hp Hf Hw Ha Hn. destruct (tree_total H E _ f20 W Hw Ha Hn) as [g Hg].
  assert (load_bytes sha H E (marshal (hash_state sha (or_st o))) o0 = Done (Oracle (or_cfg o0) (set_hash "" (or_st o))) true) as Hl.
  { apply load_saved; [done|done|by exists g|]. rewrite checks_ok by eauto. rewrite Hf. by destruct o0 as [[] ?]. }
  split.
  - unfold load_json, load_path. by rewrite save_state_file.
  - intros ->. unfold load_path. by rewrite save_slot_file.
Qed.

(** C30 *)
Lemma tamper sha s raw H E o o' b s1 : in_range s → load_bytes sha H E raw o = Done o' b →
  unmarshal raw = Some s1 → to_lower (st_hash s1) = hash_text sha s →
  same_content s1 s ∨ collision sha [marshal (set_hash "" s1)] [marshal (set_hash "" s)].
Proof.
  intros Hs Hl Hu Hh. apply load_inv in Hl as (s2 & Hu' & Hr & He & _). rewrite Hu in Hu'. injection Hu' as <-.
  destruct (decide (marshal (set_hash "" s1) = marshal (set_hash "" s))) as [Heq|Hne].
  - left. apply marshal_inj; [by apply range_hash|by apply range_hash|done].
  - right. exists (marshal (set_hash "" s1)), (marshal (set_hash "" s)).
    do 2 (split; [by left|]). split; [done|]. rewrite He in Hh. unfold hash_text, hexutil_encode in Hh.
    apply app_prefix_inj in Hh. by apply hex_encode_inj.
Qed.

(** C32 *)
Lemma load_fail sha H E raw o o' e : load_bytes sha H E raw o = Fail o' e →
  or_st o' = or_st o ∧ or_cfg o' = cset_feepct (c_feepct (or_cfg o')) (or_cfg o).
Proof.
  assert (or_cfg o = cset_feepct (c_feepct (or_cfg o)) (or_cfg o)) as Hc by (by destruct o as [[] ?]).
  unfold load_bytes. destruct (unmarshal raw); [|by intros [= <- <-]].
  destruct (equals _ _) as [[]|]; [|by intros [= <- <-]|done].
  destruct (load_checks o0 (or_cfg o)) as [c [x|]] eqn:E1; [|by destruct (generate_tree _ _ _)].
  intros [= <- <-]. cbn. split; [done|]. by eapply checks_frame.
Qed.
Lemma path_untouched sha H E fs p o : 
  match load_path sha H E fs p o with
  | Done o' false => o' = o
  | Fail o' e => or_st o' = or_st o ∧ or_cfg o' = cset_feepct (c_feepct (or_cfg o')) (or_cfg o)
  | _ => True
  end.
Proof.
  unfold load_path. destruct (fs !! p) as [raw|]; [|done]. destruct (load_bytes sha H E raw o) as [o' []|o' e|d] eqn:Hl; [done| |by eapply load_fail|done].
  apply load_inv in Hl as (s & _ & _ & _ & ? & _). done.
Qed.
Lemma given_untouched sha H E fs n o : 
  match load_given sha H E fs n o with
  | Done o' false | Fail o' _ => or_st o' = or_st o ∧ or_cfg o' = cset_feepct (c_feepct (or_cfg o')) (or_cfg o)
  | _ => True
  end.
Proof.
  assert (∀ c, cset_feepct (c_feepct c) c = c) as Hid by (by intros []).
  unfold load_given. pose proof (path_untouched sha H E fs (slot_path n) o) as H0.
  destruct (load_path sha H E fs (slot_path n) o) as [o1 []|o1 e|]; [done| |done|done]. subst o1. cbv zeta.
  set (p1 := slot_path (try_slot (or_cfg o) n 1)). pose proof (path_untouched sha H E fs p1 o) as H1.
  assert (∀ o2, or_st o2 = or_st o ∧ or_cfg o2 = cset_feepct (c_feepct (or_cfg o2)) (or_cfg o) →
    match load_path sha H E fs (slot_path (try_slot (or_cfg o2) n 2)) o2 with
    | Done o' false | Fail o' _ => or_st o' = or_st o ∧ or_cfg o' = cset_feepct (c_feepct (or_cfg o')) (or_cfg o)
    | _ => True
    end) as Hsecond.
  { intros o2 [Hs Hc]. pose proof (path_untouched sha H E fs (slot_path (try_slot (or_cfg o2) n 2)) o2) as H2.
    destruct (load_path sha H E fs _ o2) as [o3 []|o3 e|]; [done| | |done]; [by subst o3|]. destruct H2 as [-> Hc3].
    split; [done|]. rewrite Hc in Hc3. exact Hc3. }
  destruct (load_path sha H E fs p1 o) as [o2 []|o2 e|]; [done| | |done].
  - subst o2. apply Hsecond. by rewrite Hid.
  - by apply Hsecond.
Qed.
