(** Checkpoint sync: the compact text is read back, and a process started from it goes on like its provider. *)
From Verif Require Export SyncSpec ResumeProofs LoopProofs.

(** ** The compact text *)
Lemma delim_char c t : delim (String c "") → delim (String c t).
Proof. done. Qed.
Lemma elements_compact r (val : string → option (json * string)) l : ∀ k x,
  Forall (λ y, ∀ r, delim r → val (compact y +:+ r) = Some (y, r)) (x :: l) → (length l < k)%nat →
  array_items val k (commas (compact <$> (x :: l)) +:+ String "]" r) = Some (x :: l, r).
Proof.
  induction l as [|y l IH]; intros k x Hp Hk; (destruct k as [|k]; [cbn in Hk; lia|]).
  - apply Forall_cons in Hp as [Hx _]. cbn [fmap list_fmap commas array_items].
    rewrite Hx by (by vm_compute). rewrite skip_char by done. reflexivity.
  - apply Forall_cons in Hp as [Hx Hp]. change (compact <$> x :: y :: l) with (compact x :: compact y :: (compact <$> l)).
    rewrite commas_cons, sapp_assoc, scons_app. cbn [array_items]. rewrite Hx by apply delim_comma.
    rewrite skip_char by done. change ((N_of_ascii "," =? 44)%N) with true. cbv iota.
    change (compact y :: (compact <$> l)) with (compact <$> y :: l). rewrite IH; [done|done|cbn in Hk; lia].
Qed.
Definition centry (kx : string * json) : string := quote kx.1 +:+ ":" +:+ compact kx.2.
Lemma entries_compact r (val : string → option (json * string)) l : ∀ k x,
  Forall (λ y, (∀ r, delim r → val (compact y.2 +:+ r) = Some (y.2, r)) ∧
               (S (String.length y.1 + length l) < k)%nat) (x :: l) →
  (length l < k)%nat →
  object_items val k (commas (centry <$> (x :: l)) +:+ String "}" r) = Some (x :: l, r).
Proof.
  assert (∀ k x t, (String.length x.1 < k)%nat → delim t →
     (∀ r, delim r → val (compact x.2 +:+ r) = Some (x.2, r)) →
     object_items val (S k) (centry x +:+ t) =
       match skip t with
       | String c r' => if (N_of_ascii c =? 44)%N then
           match object_items val k r' with None => None | Some (l, r'') => Some ((x.1, x.2) :: l, r'') end
         else if (N_of_ascii c =? 125)%N then Some ([(x.1, x.2)], r') else None
       | EmptyString => None
       end) as Hstep.
  { intros k x t Hl Ht Hv. unfold centry. rewrite !sapp_assoc. cbn [object_items].
    unfold quote. rewrite !sapp_assoc. unfold dquote at 1. rewrite scons_app. rewrite skip_char by done.
    change ((N_of_ascii (ascii_of_N 34) =? 34)%N) with true. cbv iota.
    change ("" +:+ ?s) with s. rewrite quoted_body by done. change (":" +:+ ?s) with (String ":" s).
    rewrite skip_char by done. change ((N_of_ascii ":" =? 58)%N) with true. cbv iota. rewrite Hv by done. done. }
  induction l as [|y l IH]; intros k x Hp Hk; (destruct k as [|k]; [cbn in Hk; lia|]); destruct x as [kx vx].
  - apply Forall_cons in Hp as [(Hx & Hl) _]. cbn [fmap list_fmap commas]. cbn in Hl.
    rewrite Hstep; [|cbn; lia|by vm_compute|done]. rewrite skip_char by done. reflexivity.
  - apply Forall_cons in Hp as [(Hx & Hl) Hp]. change (centry <$> (kx, vx) :: y :: l) with (centry (kx, vx) :: centry y :: (centry <$> l)).
    cbn in Hl, Hk. rewrite commas_cons, sapp_assoc, scons_app. rewrite Hstep; [|cbn; lia|apply delim_comma|done].
    rewrite skip_char by done. change ((N_of_ascii "," =? 44)%N) with true. cbv iota.
    change (centry y :: (centry <$> l)) with (centry <$> y :: l). rewrite IH; [done| |lia].
    eapply Forall_impl; [exact Hp|]. cbn. intros z (H1 & H3). split; [done|]. lia.
Qed.
Lemma compact_head j : wf_json j → head_ok (compact j).
Proof.
  destruct j as [|[]|lit|s|l|l]; intros Hw; try (by eexists _, _).
  destruct (int_lit_head lit Hw) as (c & t & -> & Hc). destruct (digit_head c Hc) as (? & _ & _ & _ & ? & ?).
  by exists c, t.
Qed.
Lemma compact_nonempty j : wf_json j → (0 < String.length (compact j))%nat.
Proof. intros (c & t & -> & _)%compact_head. cbn. lia. Qed.

Lemma value_compact j : wf_json j → ∀ f r, (String.length (compact j) < f)%nat → delim r →
  value f (compact j +:+ r) = Some (j, r).
Proof.
  induction j as [|b|lit|s|l IH|l IH] using json_ind'; intros Hw f r Hf Hr; (destruct f as [|f]; [lia|]).
  - by destruct r.
  - by destruct b, r.
  - cbn [compact]. destruct (int_lit_head lit Hw) as (c & t & -> & Hc).
    destruct (digit_head c Hc) as (Hs & H1 & H2 & H3 & _). cbn [value]. rewrite scons_app, skip_char by done.
    rewrite H1, H2, H3, Hc. rewrite <-scons_app, number_lit by done. done.
  - cbn [compact] in *. unfold quote in *. rewrite !string_length_app in Hf. change (String.length dquote) with 1%nat in Hf.
    rewrite !sapp_assoc. unfold dquote at 1. rewrite scons_app. cbn [value]. rewrite skip_char by done.
    change ((N_of_ascii (ascii_of_N 34) =? 123)%N) with false. change ((N_of_ascii (ascii_of_N 34) =? 91)%N) with false.
    change ((N_of_ascii (ascii_of_N 34) =? 34)%N) with true. cbv iota. change ("" +:+ ?s) with s.
    pose proof (escape_length s). rewrite quoted_body; [done|lia].
  - apply wf_arr in Hw. destruct l as [|x l]; [reflexivity|].
    change (compact (JArr (x :: l))) with ("[" +:+ commas (compact <$> x :: l) +:+ "]") in *.
    rewrite !string_length_app in Hf. cbn [String.length] in Hf. rewrite !sapp_assoc. change ("]" +:+ r) with (String "]" r).
    change ("[" +:+ ?s) with (String "[" s). cbn [value]. rewrite skip_char by done.
    change ((N_of_ascii "[" =? 123)%N) with false. change ((N_of_ascii "[" =? 91)%N) with true. cbv iota.
    destruct (compact_head x) as (c & t & Hc & Hs & H1 & H2); [by apply Forall_cons in Hw as [? _]|].
    assert (∃ t', skip (commas (compact <$> x :: l) +:+ String "]" r) = String c t') as [t' ->].
    { destruct l as [|y l].
      - cbn [fmap list_fmap commas]. rewrite Hc, scons_app, skip_char by done. eauto.
      - change (compact <$> x :: y :: l) with (compact x :: compact y :: (compact <$> l)). rewrite commas_cons.
        rewrite !sapp_assoc, Hc, scons_app, skip_char by done. eauto. }
    rewrite H1. rewrite elements_compact; [done| |].
    + apply Forall_forall. intros y Hy r' Hr'. rewrite Forall_forall in IH. apply IH; [done| | |done].
      * rewrite Forall_forall in Hw. by apply Hw.
      * assert (String.length (compact y) ≤ String.length (commas (compact <$> x :: l)))%nat as Hle
          by (apply commas_length, elem_of_list_fmap; eauto). lia.
    + assert (length (compact <$> x :: l) ≤ String.length (commas (compact <$> x :: l)))%nat as Hle.
      { apply commas_count, Forall_fmap. eapply Forall_impl; [exact Hw|]. intros y Hy. by apply compact_nonempty. }
      rewrite fmap_length in Hle. cbn [length] in Hle. lia.
  - apply wf_obj in Hw. destruct l as [|x l]; [reflexivity|].
    change (compact (JObj (x :: l))) with ("{" +:+ commas (centry <$> x :: l) +:+ "}") in *.
    rewrite !string_length_app in Hf. cbn [String.length] in Hf. rewrite !sapp_assoc. change ("}" +:+ r) with (String "}" r).
    change ("{" +:+ ?s) with (String "{" s). cbn [value]. rewrite skip_char by done.
    change ((N_of_ascii "{" =? 123)%N) with true. cbv iota.
    assert (∃ t', skip (commas (centry <$> x :: l) +:+ String "}" r) = String (ascii_of_N 34) t') as [t' ->].
    { destruct l as [|y l].
      - cbn [fmap list_fmap commas]. unfold centry, quote, dquote. rewrite !sapp_assoc, scons_app, skip_char by done. eauto.
      - change (centry <$> x :: y :: l) with (centry x :: centry y :: (centry <$> l)). rewrite commas_cons. unfold centry at 1, quote, dquote.
        rewrite !sapp_assoc, scons_app, skip_char by done. eauto. }
    change ((N_of_ascii (ascii_of_N 34) =? 125)%N) with false. cbv iota.
    assert (Forall (λ x, (0 < String.length x)%nat) (centry <$> x :: l)) as Hpos.
    { apply Forall_fmap, Forall_true. intros z. unfold centry, quote. cbn. rewrite !string_length_app. cbn. lia. }
    pose proof (commas_count _ Hpos) as Hlen. rewrite fmap_length in Hlen. cbn [length] in Hlen.
    rewrite entries_compact; [done| |lia].
    apply Forall_forall. intros y Hy. rewrite Forall_forall in Hw. pose proof (Hw y Hy) as Hwy.
    assert (String.length (centry y) ≤ String.length (commas (centry <$> x :: l)))%nat as Hle
      by (apply commas_length, elem_of_list_fmap; eauto).
    unfold centry at 1, quote in Hle. rewrite !string_length_app in Hle. cbn [String.length] in Hle.
    pose proof (escape_length y.1). split.
    + intros r' Hr'. rewrite Forall_forall in IH. apply IH; [done|done| |done]. lia.
    + assert (centry y ∈ centry <$> x :: l) as Hin by (apply elem_of_list_fmap; eauto).
      pose proof (commas_both _ _ Hin Hpos) as Hb.
      rewrite fmap_length in Hb. unfold centry at 1, quote in Hb. rewrite !string_length_app in Hb. cbn [String.length length] in Hb.
      change (String.length dquote) with 1%nat in Hb. lia.
Qed.
Lemma parse_compact j : wf_json j → parse (compact j +:+ String (ascii_of_N 10) "") = Some j.
Proof.
  intros Hw. unfold parse. rewrite value_compact; [done|done| |by vm_compute].
  rewrite string_length_app. cbn. lia.
Qed.
Lemma unmarshal_body s : in_range s → unmarshal (state_body s) = Some s.
Proof.
  intros Hs. destruct (codec_state s Hs) as [Hd Hw]. unfold unmarshal, state_body. rewrite (parse_compact _ Hw). exact Hd.
Qed.
(** The text matters only through the state it holds. *)
Lemma load_text sha H E raw raw' o : unmarshal raw = unmarshal raw' → load_bytes sha H E raw o = load_bytes sha H E raw' o.
Proof. unfold load_bytes. by intros ->. Qed.
Lemma body_as_file sha H E s o : in_range s → load_bytes sha H E (state_body s) o = load_bytes sha H E (marshal s) o.
Proof. intros Hs. apply load_text. by rewrite unmarshal_body, unmarshal_marshal. Qed.

(** ** A text cut short is refused *)
Lemma parse_compact_cut l p x : wf_json (JObj l) → compact (JObj l) = p +:+ x → x ≠ "" → parse p = None.
Proof.
  intros Hw Hp Hx. unfold parse. destruct (value (S (String.length p)) p) as [[j r]|] eqn:E; [|done].
  destruct (skip r) as [|] eqn:Er; [|done]. exfalso.
  assert (∀ lit, j ≠ JNum lit) as Hj.
  { intros lit ->. destruct p as [|c p]; [done|].
    assert (c = "{"%char) as -> by (cbn [compact] in Hp; rewrite !scons_app in Hp; injection Hp as <- _; done).
    cbn [value] in E. rewrite skip_char in E by done. change ((N_of_ascii "{" =? 123)%N) with true in E. cbv iota in E.
    destruct (skip p) as [|c' r']; [done|]. destruct (_ =? _)%N; [done|]. destruct (object_items _ _ _) as [[]|]; done. }
  pose proof (value_compact (JObj l) Hw (S (String.length (compact (JObj l)))) "" ltac:(lia) I) as Hfull.
  rewrite sapp_nil_r in Hfull.
  pose proof (value_ext _ _ _ _ x (S (String.length (compact (JObj l)))) E) as He.
  rewrite Hp, string_length_app in He. specialize (He ltac:(lia) (or_intror Hj)).
  rewrite Hp, string_length_app, He in Hfull. injection Hfull as _ Hnil.
  destruct r; [by destruct x|done].
Qed.
Lemma unmarshal_body_cut s p x : in_range s → compact (enc_state s) = p +:+ x → x ≠ "" → unmarshal p = None.
Proof.
  intros Hs Hp Hx. destruct (codec_state s Hs) as [_ Hw]. unfold unmarshal. by rewrite (parse_compact_cut _ p x Hw Hp Hx).
Qed.
Lemma sapp_split a b : ∀ p x : string, p +:+ x = a +:+ b → (String.length p ≤ String.length a)%nat →
  ∃ y, a = p +:+ y ∧ x = y +:+ b.
Proof.
  induction a as [|c a IH]; intros [|d p] x E Hl; cbn in Hl; try lia.
  - exists "". done.
  - exists (String c a). done.
  - rewrite !scons_app in E. injection E as -> E. destruct (IH p x E) as (y & -> & ->); [lia|]. by exists y.
Qed.
Lemma body_cut sha H E s p x onchain fs c : in_range s → state_body s = p +:+ x →
  (String.length p < String.length (state_body s) - 1)%nat →
  ∃ e, sync_startup sha H E (Fetched 200 (Some p)) onchain fs c = Die (Fatal e).
Proof.
  intros Hs Hp Hl. unfold state_body in Hp, Hl. rewrite string_length_app in Hl. cbn [String.length] in Hl.
  symmetry in Hp. destruct (sapp_split _ _ _ _ Hp) as (y & Hy & ->); [lia|].
  unfold sync_startup, startup, load_bytes. cbn [N.eqb Pos.eqb negb]. rewrite (unmarshal_body_cut s p y Hs Hy); [by eexists|].
  intros ->. rewrite sapp_nil_r in Hy. subst p. lia.
Qed.

(** ** Starting from another oracle's state *)
Lemma setup_params s c c1 : same_setup c c1 → same_params s c → same_params s c1.
Proof.
  intros (E1 & E2 & E3 & E4 & E5 & E6 & E7 & E8) [? ? ? ? ? ? ?]. split; congruence.
Qed.
Lemma load_synced sha H E s c1 f20 : in_range s → same_params s c1 →
  st_feepct s = c_feepct c1 ∨ fee_in_force (c_network c1) (c_feepct c1) (st_latest s) (st_feepct s) →
  wf_env E → wf_records s → pool_apart s → names f20 (st_fees_addr s) →
  load_bytes sha H E (state_body (hash_state sha s)) (new_oracle c1) =
    Done (Oracle (cset_feepct (st_feepct s) c1) (set_hash "" s)) true.
Proof.
  intros Hr Hp Hf W Hw Ha Hn. rewrite body_as_file by (by apply range_hash). destruct (tree_total H E _ f20 W Hw Ha Hn) as [g Hg].
  apply load_saved; [done|done|by exists g|]. by apply checks_ok.
Qed.
Lemma deployed_setup c c1 o : deployed c o → same_setup c c1 → same_params (or_st o) c1 ∧
  (st_feepct (or_st o) = c_feepct c1 ∨
   fee_in_force (c_network c1) (c_feepct c1) (st_latest (or_st o)) (st_feepct (or_st o))).
Proof.
  intros [_ P F _] S. split; [by eapply setup_params|]. destruct S as (E1 & _ & _ & _ & _ & E6 & _). rewrite E1, E6.
  destruct F as [F|(k & Hle & Hk)]; [by left|]. right. right. exists k. do 2 (split; [done|]).
  intros k' z Hk' _. destruct (schedule_single _ _ _ _ _ Hk Hk') as [<- _]. done.
Qed.
(** Any state that carries the right parameters and its own hash is taken over. *)
Lemma trusts sha H E s c1 slot fs f20 : in_range s → same_params s c1 →
  st_feepct s = c_feepct c1 → wf_env E → wf_records s → pool_apart s → names f20 (st_fees_addr s) →
  c_dry_run c1 = true ∨ not_ahead s slot →
  sync_startup sha H E (Fetched 200 (Some (state_body (hash_state sha s)))) (Some slot) fs c1 = Ok (Oracle c1 (set_hash "" s)).
Proof.
  intros Hr Hp Hf W Hw Ha Hn Hk. unfold sync_startup, startup. cbn [N.eqb Pos.eqb negb].
  rewrite (load_synced _ _ _ _ _ f20) by eauto. cbn [or_cfg or_st].
  assert (cset_feepct (st_feepct s) c1 = c1) as -> by (rewrite Hf; by destruct c1).
  change (committed_keys (set_hash "" s)) with (committed_keys s).
  destruct Hk as [->|Hk]; [done|]. by rewrite (no_rollback _ _ Hk), andb_false_r.
Qed.
Lemma synced sha H H' E E' c0 c1 l o w r slot fs f20 : typed_config c0 → Forall typed_operation (work l) →
  lives sha H c0 (new_oracle c0) l o → same_setup c0 c1 → wf_env E → pool_apart (or_st o) → names f20 (c_fees_addr c0) →
  c_dry_run c1 = true ∨ not_ahead (or_st o) slot → serve sha E' GetState w o = Ok r →
  sync_startup sha H' E (sent_state r) (Some slot) fs c1 =
    Ok (Oracle (cset_feepct (st_feepct (or_st o)) c1) (set_hash "" (or_st o))).
Proof.
  intros Tc T Hl S W Ha Hn Hk [= <-]. destruct (lives_reach _ _ _ _ _ Tc Hl T) as (p & _ & _ & D & R & Hw).
  destruct (deployed_setup _ _ _ D S) as [P F]. cbn [sent_state]. unfold sync_startup, startup. cbn [N.eqb Pos.eqb negb].
  rewrite (load_synced _ _ _ _ _ f20); try done; [|by rewrite (sp_fees_addr _ _ (dp_params _ _ D))].
  cbn [or_cfg or_st]. change (committed_keys (set_hash "" (or_st o))) with (committed_keys (or_st o)).
  change (c_dry_run (cset_feepct (st_feepct (or_st o)) c1)) with (c_dry_run c1).
  destruct Hk as [->|Hk]; [done|]. by rewrite (no_rollback _ _ Hk), andb_false_r.
Qed.
Lemma synced_goes_on sha H c0 l1 o1 l2 o2 E E' w r slot fs f20 : typed_config c0 → Forall typed_operation l1 →
  evolve H (new_oracle c0) l1 o1 → evolve H o1 l2 o2 → wf_env E → pool_apart (or_st o1) → names f20 (c_fees_addr c0) →
  c_dry_run c0 = true ∨ not_ahead (or_st o1) slot → serve sha E' GetState w o1 = Ok r →
  ∃ o1' o2', sync_startup sha H E (sent_state r) (Some slot) fs c0 = Ok o1' ∧ evolve H o1' l2 o2' ∧ same_oracle o2' o2.
Proof.
  intros Tc T H1 H2 W Ha Hn Hk [= <-]. destruct (reach_ready _ _ _ _ Tc T H1) as (D & R & Hw).
  exists (rehash "" o1), (rehash "" o2). split; [|split; [by apply evolve_rehash|done]].
  destruct (deployed_setup c0 c0 o1 D) as [P F]; [by repeat split|]. cbn [sent_state]. unfold sync_startup, startup. cbn [N.eqb Pos.eqb negb].
  rewrite (load_synced _ _ _ _ _ f20); try done; [|by rewrite (sp_fees_addr _ _ (dp_params _ _ D))].
  rewrite <-(dp_cfg _ _ D). cbn [or_cfg or_st]. change (committed_keys (set_hash "" (or_st o1))) with (committed_keys (or_st o1)).
  change (Oracle (or_cfg o1) (set_hash "" (or_st o1))) with (rehash "" o1).
  assert (c_dry_run (or_cfg o1) = c_dry_run c0) as -> by (rewrite (dp_cfg _ _ D); by destruct c0).
  destruct Hk as [->|Hk]; [done|]. by rewrite (no_rollback _ _ Hk), andb_false_r.
Qed.
(** A provider whose newest checkpoint the contract does not have yet. *)
Lemma ahead_dies sha H H' E E' c0 c1 l o w r slot fs f20 k : typed_config c0 → Forall typed_operation (work l) →
  lives sha H c0 (new_oracle c0) l o → same_setup c0 c1 → wf_env E → pool_apart (or_st o) → names f20 (c_fees_addr c0) →
  c_dry_run c1 = false → is_Some (st_committed (or_st o) !! k) → (slot < k)%N → no_copies fs slot (c_cp_size c0) →
  serve sha E' GetState w o = Ok r →
  ∃ e, sync_startup sha H' E (sent_state r) (Some slot) fs c1 = Die (Fatal e).
Proof.
  intros Tc T Hl S W Ha Hn Hd Hk Hlt Hfs [= <-]. destruct (lives_reach _ _ _ _ _ Tc Hl T) as (p & _ & _ & D & R & Hw).
  destruct (deployed_setup _ _ _ D S) as [P F]. cbn [sent_state]. unfold sync_startup, startup. cbn [N.eqb Pos.eqb negb].
  rewrite (load_synced _ _ _ _ _ f20); try done; [|by rewrite (sp_fees_addr _ _ (dp_params _ _ D))].
  cbn [or_cfg or_st]. change (committed_keys (set_hash "" (or_st o))) with (committed_keys (or_st o)).
  rewrite (rollback_needed _ _ _ Hk Hlt).
  assert (c_cp_size c1 = c_cp_size c0) as Ecp by apply S.
  change (c_dry_run (cset_feepct (st_feepct (or_st o)) c1)) with (c_dry_run c1). rewrite Hd. cbn [negb andb].
  assert (∀ i, try_slot (cset_feepct (st_feepct (or_st o)) c1) slot i = u64_sub slot (u64 (c_cp_size c0 * i))) as Ht
    by (intros i; unfold try_slot; cbn [cset_feepct c_cp_size]; by rewrite Ecp).
  unfold load_given. cbv zeta. unfold load_path. rewrite (Hfs slot) by (by left). cbn [or_cfg]. rewrite Ht.
  rewrite (Hfs (u64_sub slot (u64 (c_cp_size c0 * 1)))) by (right; by left). cbn [or_cfg]. rewrite Ht.
  rewrite (Hfs (u64_sub slot (u64 (c_cp_size c0 * 2)))) by (right; right; by left). by eexists.
Qed.

(** ** Fleets *)
Lemma good_body sha H c0 n E q o b : typed_config c0 → good H c0 n q →
  load_bytes sha H E (state_body (hash_state sha (or_st q))) (new_oracle c0) = Done o b → same_oracle q o.
Proof.
  intros Tc Hg Hl. pose proof (good_range _ _ _ _ Tc Hg) as Hr. apply load_inv in Hl as (s & Hu & _ & _ & _ & Hc & Hs).
  rewrite unmarshal_body in Hu by (by apply range_hash). injection Hu as <-. apply checks_inv in Hc as (_ & _ & Hc & _).
  split; [|unfold same_content; by rewrite Hs]. rewrite (dp_cfg _ _ (good_deployed _ _ _ _ Hg)), Hc. by destruct c0.
Qed.
Lemma good_sync sha H c0 full E onchain fs q o : typed_config c0 → good_files sha H c0 full fs →
  good H c0 (lvl full (st_latest (or_st q) + 1)) q →
  startup sha H E (Some (state_body (hash_state sha (or_st q)))) onchain fs c0 = Ok o → good H c0 (lvl full (st_latest (or_st o) + 1)) o.
Proof.
  intros Tc Hfs Hq. unfold startup.
  destruct (load_bytes _ _ _ _ _) as [o1 x|o1 e|] eqn:E1; [|done|done].
  pose proof (good_body _ _ _ _ _ _ _ _ Tc Hq E1) as Hs.
  assert (good H c0 (lvl full (st_latest (or_st o1) + 1)) o1) as Hg1.
  { rewrite <-(proj1 (same_latest _ _ Hs)). by eapply good_same. }
  destruct onchain as [slot|]; [|done].
  destruct (negb _ && _); [|by intros [= <-]].
  destruct (load_given sha H E fs slot o1) as [o2 []|o2 e|] eqn:E2; [|done..]. intros [= <-].
  eapply good_given; [done|done| |done]. rewrite (dp_cfg _ _ (good_deployed _ _ _ _ Hg1)). by eexists.
Qed.
Lemma state_served sha E w o r raw : serve sha E GetState w o = Ok r → sent_state r = Fetched 200 (Some raw) →
  raw = state_body (hash_state sha (or_st o)).
Proof. cbn [serve]. intros [= <-] [= <-]. done. Qed.
Lemma good_out sha H c0 full m : good_machine sha H c0 full m → full = false ∨ ¬ in_window c0 m →
  good H c0 (lvl full (st_latest (or_st (m_or m)) + 1)) (m_or m).
Proof.
  intros [Hg _ _ _] Hw. destruct (m_pc m) eqn:Hpc; cbn [frontier] in Hg; try done; (apply good_past; [done|]);
    (destruct Hw as [?|Hw]; [by left|right]); intros Hk; apply Hw; (split; [rewrite Hpc; auto|done]).
Qed.
Lemma live_start sha H c0 E sync onchain L sent L' : live sha H c0 (Start E sync onchain) L = (sent, L') →
  L' = L ∨ ∃ fs o, L = Down fs ∧ startup sha H E sync onchain fs c0 = Ok o ∧ L' = Up (Machine Begin o empty_cache fs).
Proof.
  destruct L as [fs|m]; cbn [live]; [|intros [= _ <-]; by left]. destruct (startup _ _ _ _ _ _ _) as [o|] eqn:Hs; intros [= _ <-]; [|by left].
  right. by exists fs, o.
Qed.
Lemma good_begin sha H c0 full o fs : good_files sha H c0 full fs → good H c0 (lvl full (st_latest (or_st o) + 1)) o →
  good_machine sha H c0 full (Machine Begin o empty_cache fs).
Proof. intros Hf Hg. split; cbn [m_pc m_or m_cache m_files frontier]; [done|by apply Forall_nil|done|done]. Qed.
Lemma fleet_good sha H c0 full (P : machine → Prop) L : typed_config c0 → (0 < c_dep_slot c0)%N →
  (∀ m, P m → full = false ∨ ¬ in_window c0 m) → fleet sha H c0 P L → good_life sha H c0 full L.
Proof.
  intros Tc Hd HP. induction 1 as [|e L sent L' HL IH Te Hw Hl|L E m E' w r raw onchain sent L' HL IH HM IHm Pm Hr Hb Hl].
  - apply good_files_empty.
  - eapply good_live; [done|done|done| |done|done]. intros m d -> ->. apply HP. by eapply Hw.
  - pose proof (state_served _ _ _ _ _ _ Hr Hb) as Hraw. clear Hr Hb.
    apply live_start in Hl as [->|(fs & o & -> & Hs & ->)]; [exact IH|]. rewrite Hraw in Hs.
    apply good_begin; [exact IH|]. eapply good_sync; [exact Tc|exact IH| |exact Hs]. eapply good_out; [exact IHm|by apply HP].
Qed.
Lemma fleet_history sha H c0 P m : typed_config c0 → (0 < c_dep_slot c0)%N → fleet sha H c0 P (Up m) → ∃ ops, lived H c0 ops (m_or m).
Proof.
  intros Tc Hd Hf. apply (fleet_good _ _ _ false) in Hf as [(ops & Hl & _) _ _ _]; [by exists ops|done|done|by left].
Qed.
Lemma fleet_checkpoints sha H c0 m : typed_config c0 → (0 < c_dep_slot c0)%N → fleet sha H c0 (λ m, ¬ in_window c0 m) (Up m) →
  ∃ ops, lived H c0 ops (m_or m) ∧ ∀ k, passes H c0 ops k → (in_window c0 m → k ≠ st_latest (or_st (m_or m))) →
    is_Some (st_committed (or_st (m_or m)) !! k).
Proof.
  intros Tc Hd Hf. apply (fleet_good _ _ _ true) in Hf; [|done|done|by right]. by apply (good_all sha).
Qed.
Lemma fleet_holds sha H c0 P L : fleet sha H c0 P L → holds_latest L.
Proof.
  induction 1 as [|e L sent L' HL IH Te Hw Hl|L E m E' w r raw onchain sent L' HL IH HM IHm Pm Hr Hb Hl]; [done|..];
    (eapply holds_live; [exact IH|exact Hl]).
Qed.
Lemma fleet_submission sha H c0 P m e slot bytes L' : typed_config c0 → (0 < c_dep_slot c0)%N → fleet sha H c0 P (Up m) →
  live sha H c0 e (Up m) = (Some (slot, bytes), L') →
  c_dry_run c0 = false ∧ (∃ a root os, e = Tick a ∧ an_onchain a = Some (root, os) ∧ slot = u64_add os (c_cp_size c0)) ∧
  checkpoint_slot c0 slot ∧
  ∃ ops p E c, evolve H (new_oracle c0) ops p ∧ st_latest (or_st p) = slot ∧ wf_env E ∧ snapshot H E (or_st p) = Ok (Some c) ∧
    oc_root c = "0x" +:+ hex_encode bytes.
Proof.
  intros Tc Hd Hf. apply (submission_good sha); [|by eapply fleet_holds]. eapply fleet_good; [done|done|by left|done].
Qed.
Lemma fleet_lifetime sha H c0 (P : machine → Prop) l L sent L' : fleet sha H c0 P L → Forall typed_event l →
  (∀ l1 d l2 sent m, l = l1 ++ Signal d :: l2 → lifetime sha H c0 l1 L = (sent, Up m) → P m) →
  lifetime sha H c0 l L = (sent, L') → fleet sha H c0 P L'.
Proof.
  revert L sent. induction l as [|e l IH]; intros L sent HF Te HP Hl; [by injection Hl as _ <-|].
  apply Forall_cons in Te as [Te1 Te2]. cbn [lifetime] in Hl. destruct (live sha H c0 e L) as [s1 L1] eqn:H1.
  destruct (lifetime sha H c0 l L1) as [s2 L2] eqn:H2. injection Hl as _ <-. eapply (IH L1); [|done| |exact H2].
  - eapply fleet_event; [exact HF|done| |exact H1]. intros d m -> ->. by eapply (HP [] d l).
  - intros l1 d l2 x m -> Hx. eapply (HP (e :: l1) d l2); [done|]. cbn [lifetime]. by rewrite H1, Hx.
Qed.
