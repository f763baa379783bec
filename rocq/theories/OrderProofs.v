(** The runtime's map order does not change what a slot does. *)
From Verif Require Export CleanProofs.

Lemma apply_rewards_perm l1 l2 s : l1 ≡ₚ l2 → NoDup l1.*1 → (∀ i, i ∈ l1.*1 → is_Some (st_vals s !! i)) →
  apply_rewards l1 s = apply_rewards l2 s.
Proof.
  intros Hp Hnd Hk. assert (NoDup l2.*1) as Hnd2 by (by rewrite <-Hp).
  destruct (apply_rewards_succeeds l1 s Hk) as [s1 H1]. destruct (apply_rewards_succeeds l2 s) as [s2 H2].
  { intros i Hi. apply Hk. by rewrite Hp. }
  rewrite H1, H2. f_equal. apply apply_rewards_ok in H1 as [-> _]; [|done]. apply apply_rewards_ok in H2 as [-> _]; [|done].
  do 2 f_equal. by apply list_to_map_proper.
Qed.

Lemma vals_same E1 E2 req1 req2 slot : same_chain E1 E2 → req1 ≡ₚ req2 →
  (e_vals E1 req1 slot = None ∧ e_vals E2 req2 slot = None) ∨
  ∃ r1 r2, e_vals E1 req1 slot = Some r1 ∧ e_vals E2 req2 slot = Some r2 ∧ r1 ≡ₚ r2.
Proof.
  intros C Hp. pose proof (sc_vals _ _ C _ _ slot Hp) as H.
  destruct (e_vals E1 req1 slot) as [r1|], (e_vals E2 req2 slot) as [r2|]; try done; [right; eauto|by left].
Qed.

Lemma eligible_same E1 E2 s : wf_env E1 → wf_env E2 → eligible_indices E1 s ≡ₚ eligible_indices E2 s.
Proof. intros W1 W2. by rewrite (eligible_indices_perm E1 s W1), (eligible_indices_perm E2 s W2). Qed.

Lemma electra_split_same E1 E2 next r cut l1 l2 : wf_env E1 → wf_env E2 → same_chain E1 E2 → l1 ≡ₚ l2 →
  electra_split E1 next r cut l1 = electra_split E2 next r cut l2.
Proof.
  intros W1 W2 C Hl. unfold electra_split.
  destruct (vals_same E1 E2 l1 l2 next C Hl) as [[-> ->]|(r1 & r2 & H1 & H2 & Hr)]; [done|]. rewrite H1, H2.
  assert (total_balance r1 = total_balance r2) as ->. { rewrite !total_balance_sum. apply foldr_add_perm. by rewrite Hr. }
  destruct (_ =? 0)%Z; [done|].
  assert (∀ td tot, total_shares td tot r1 = total_shares td tot r2) as Hts.
  { intros. rewrite !total_shares_sum. apply foldr_add_perm. by rewrite Hr. }
  rewrite Hts. destruct (_ =? r)%Z; [|done]. do 2 f_equal.
  rewrite !electra_rewards_list.
  - apply list_to_map_proper; [rewrite share_list_fst; exact (wf_vals_nodup _ W1 _ _ _ H1)|]. unfold share_list. by rewrite Hr.
  - exact (wf_vals_nodup _ W2 _ _ _ H2).
  - intros k v. exact (wf_vals_index _ W2 _ _ _ k v H2).
  - exact (wf_vals_nodup _ W1 _ _ _ H1).
  - intros k v. exact (wf_vals_index _ W1 _ _ _ k v H1).
Qed.

Lemma increase_all_same E1 E2 net r s : wf_env E1 → wf_env E2 → same_chain E1 E2 →
  increase_all E1 net r s = increase_all E2 net r s.
Proof.
  intros W1 W2 C. pose proof (eligible_same E1 E2 s W1 W2) as Hp. unfold increase_all.
  assert (∀ z s0, st_vals s0 = st_vals s →
    apply_rewards ((λ i, (i, z)) <$> eligible_indices E1 s) s0 = apply_rewards ((λ i, (i, z)) <$> eligible_indices E2 s) s0) as Hap.
  { intros z s0 Hs0. assert (((λ i, (i, z)) <$> eligible_indices E1 s).*1 = eligible_indices E1 s) as Hf.
    { rewrite <-list_fmap_compose. rewrite (list_fmap_ext _ id) by done. by rewrite list_fmap_id. }
    apply apply_rewards_perm; [by rewrite Hp|rewrite Hf; by apply NoDup_eligible|].
    intros i. rewrite Hf, Hs0. intros Hi%elem_of_eligible; [|done]. destruct Hi as (v & Hv & _). eauto. }
  pose proof (electra_split_same E1 E2 (st_next s) r (go_div (r * st_feepct s) 10000) _ _ W1 W2 C Hp) as Hel.
  assert (length (eligible_indices E1 s) = length (eligible_indices E2 s)) as Hlen by by rewrite Hp.
  destruct (eligible_indices E1 s) as [|a l1], (eligible_indices E2 s) as [|b l2]; try done.
  rewrite Hlen. destruct (10000 <? st_feepct s)%Z; [done|].
  destruct (reward_method net (st_next s)) as [[| |]|]; cbn [rbind]; [| | |done].
  - destruct (prefork1_split _ _ _ _ _) as [[f p]|]; cbn [rbind]; [|done]. by apply Hap.
  - destruct (fork1_split _ _ _) as [[f p]|]; cbn [rbind]; [|done]. by apply Hap.
  - by rewrite Hel.
Qed.

(** The handlers. *)
Lemma rbind_ext {A B} (x : res A) (f g : A → res B) : (∀ a, f a = g a) → rbind x f = rbind x g.
Proof. intros H. destruct x; cbn; [apply H|done]. Qed.

(** Functions of the block read only the mask, which both environments share. *)
Ltac by_mask E1 E2 C := clear -C; pose proof (sc_mask _ _ C); destruct E1, E2; cbn in *; subst; reflexivity.
(** Same computation with the environment replaced, up to the equations [t] rewrites. *)
Ltac cong t := repeat first [reflexivity | progress t | apply rbind_ext; intros | case_match].

Section same.
  Context (E1 E2 : env) (net : string) (W1 : wf_env E1) (W2 : wf_env E2) (C : same_chain E1 E2).
  Lemma summarize_same s pool fb : summarize E1 s pool fb = summarize E2 s pool fb.
  Proof using C. by_mask E1 E2 C. Qed.
  Lemma get_donations_same pool fb : get_donations E1 pool fb = get_donations E2 pool fb.
  Proof using C. by_mask E1 E2 C. Qed.
  Lemma validate_same fb o : validate_config E1 fb o = validate_config E2 fb o.
  Proof using C. by_mask E1 E2 C. Qed.
  Lemma handle_sub_same e v s : handle_sub E1 e v s = handle_sub E2 e v s.
  Proof using C. by_mask E1 E2 C. Qed.
  Lemma inc_same r s : increase_all E1 net r s = increase_all E2 net r s.
  Proof using W1 W2 C. by apply increase_all_same. Qed.
  Lemma donations_same l s : handle_donations E1 net l s = handle_donations E2 net l s.
  Proof using W1 W2 C.
    unfold handle_donations. destruct (same_block _ l); [|done]. revert s.
    induction l as [|d l IH]; intros s; cbn [donations_loop]; [done|]. rewrite inc_same. apply rbind_ext. intros a. 
    apply IH.
  Qed.
  Lemma correct_same b s : handle_correct E1 net b s = handle_correct E2 net b s.
  Proof using W1 W2 C. unfold handle_correct. cong ltac:(rewrite inc_same). Qed.
  Lemma subs_same l vs s : handle_subs E1 l vs s = handle_subs E2 l vs s.
  Proof using C.
    unfold handle_subs. do 2 (case_match; [done|]). clear -C. revert s.
    induction (zip l vs) as [|[e v] l' IH]; intros s; cbn [subs_loop]; [done|]. rewrite handle_sub_same. apply rbind_ext. apply IH.
  Qed.
  Lemma handle_unsub_same e v s : handle_unsub E1 net e v s = handle_unsub E2 net e v s.
  Proof using W1 W2 C.
    unfold handle_unsub. rewrite (sc_mask _ _ C). cong ltac:(rewrite inc_same).
  Qed.
  Lemma unsubs_same l vs s : handle_unsubs E1 net l vs s = handle_unsubs E2 net l vs s.
  Proof using W1 W2 C.
    unfold handle_unsubs. do 2 (case_match; [done|]). clear -W1 W2 C. revert s.
    induction (zip l vs) as [|[e v] l' IH]; intros s; cbn [unsubs_loop]; [done|]. rewrite handle_unsub_same. apply rbind_ext. apply IH.
  Qed.
  Lemma bans_same l s : handle_bans E1 net l s = handle_bans E2 net l s.
  Proof using W1 W2 C. unfold handle_bans. cong ltac:(rewrite inc_same). Qed.
  Lemma ban_validator_same b s : handle_ban_validator E1 net b s = handle_ban_validator E2 net b s.
  Proof using W1 W2 C. unfold handle_ban_validator. cong ltac:(rewrite inc_same). Qed.
  Lemma process_same fb b don s : process_block E1 net fb b don s = process_block E2 net fb b don s.
  Proof using W1 W2 C.
    unfold process_block. cbv zeta. 
    cong ltac:(first [rewrite subs_same|rewrite correct_same|rewrite ban_validator_same|rewrite unsubs_same|rewrite donations_same|rewrite bans_same]).
  Qed.
End same.

(** ** Cleanup *)

Definition answers (E : env) (slot t : N) : Prop :=
  ∃ resp tv w, e_vals E [t] slot = Some resp ∧ (t, tv) ∈ resp ∧ exec_address (b_creds tv) w.

Lemma cleanup_one_done E slot pcs v vi d s : wf_env E → st_vals s !! b_index v = Some vi →
  (∀ t, target pcs (b_index v) = Some t → st_vals s !! t = None → answers E slot t) →
  ∃ s' d', cleanup_one E slot (source_to_target pcs) v d s = Done s' d'.
Proof.
  intros W Hv Ha. unfold cleanup_one. destruct (bstate_is_active (b_status v)); [eauto|]. rewrite Hv.
  destruct (v_pend vi =? 0)%Z; [eauto|]. set (s1 := advance_fsm (b_index v) Unsubscribe s).
  assert (∀ j, is_Some (st_vals s !! j) → is_Some (st_vals s1 !! j)) as H1 by (intros j; apply fsm_some).
  assert (∃ s2 d2, match source_to_target pcs !! b_index v with
                   | Some t => cleanup_consolidate E slot (b_index v) t (v_pend vi) d s1
                   | None => Done s1 (d + v_pend vi)%Z end = Done s2 d2 ∧
                   ∀ j, is_Some (st_vals s1 !! j) → is_Some (st_vals s2 !! j)) as (s2 & d2 & -> & H2).
  { rewrite target_spec. destruct (target pcs (b_index v)) as [t|] eqn:Ht; [|eauto]. specialize (Ha t eq_refl).
    unfold cleanup_consolidate. destruct (is_tracked s1 t) eqn:Htr; cbn [andb negb].
    - destruct (is_banned s1 t); cbn [negb]; [eauto|].
      destruct (upd_val_ok t (λ w, set_pend (v_pend w + v_pend vi) w) s1) as [s2 H3].
      { unfold is_tracked in Htr. destruct (st_vals s1 !! t); [by eexists|done]. }
      unfold inc_pend. rewrite H3. do 2 eexists. split; [done|]. intros j. by eapply upd_some.
    - destruct Ha as (r & tv & w & Hr & Hin & Hw).
      { unfold is_tracked in Htr. destruct (st_vals s1 !! t) eqn:Hst; [done|]. destruct (st_vals s !! t) eqn:Hs0; [|done].
        destruct (H1 t) as [? Hx]; [by eexists|]. by rewrite Hx in Hst. }
      rewrite Hr. assert ((list_to_map r : gmap N bval) !! t = Some tv) as ->.
      { apply elem_of_list_to_map; [exact (wf_vals_nodup _ W _ _ _ Hr)|done]. }
      rewrite (proj2 (compatible_iff _ _) (ex_intro _ w (conj Hw eq_refl))).
      do 2 eexists. split; [done|]. intros j Hj. cbn. destruct (decide (t = j)) as [->|Hne]; [by rewrite lookup_insert; eexists|by rewrite lookup_insert_ne]. }
  destruct (upd_val_ok (b_index v) (set_pend 0) s2) as [s3 H3]; [by apply H2, H1; eexists|].
  unfold reset_pend. rewrite H3. eauto.
Qed.

Lemma loop_done E slot pcs r d s : wf_env E → NoDup r.*1 → (∀ k v, (k, v) ∈ r → b_index v = k) →
  (∀ k, k ∈ r.*1 → is_Some (st_vals s !! k)) → unchained pcs r →
  (∀ j v t, gone r s !! j = Some v → target pcs j = Some t → st_vals s !! t = None → answers E slot t) →
  ∃ s' d', cleanup_loop E slot (source_to_target pcs) r d s = Done s' d'.
Proof.
  intros W. revert d s. induction r as [|[k v] r IH]; intros d s Hnd Hidx Htr Hun Hans; cbn [cleanup_loop]; [eauto|].
  rewrite fmap_cons in Hnd. cbn in Hnd. apply NoDup_cons in Hnd as [Hk Hnd].
  assert (b_index v = k) as Hvk by (apply Hidx; by left).
  destruct (Htr k) as [vi Hvi]; [rewrite fmap_cons; by left|].
  assert (∀ k v, (k, v) ∈ r → b_index v = k) as Hidx' by (intros; apply Hidx; by right).
  assert (unchained pcs r) as Hun' by (intros i t w Hit Hw; eapply Hun; [done|by right]).
  cbn [snd]. destruct (decide (on_duty v ∨ v_pend vi = 0%Z)) as [Hskip|Hgo].
  { assert (cleanup_one E slot (source_to_target pcs) v d s = Done s d) as ->.
    { unfold cleanup_one. rewrite on_duty_spec. destruct (bool_decide_reflect (on_duty v)) as [|Hnd']; [done|].
      rewrite Hvk, Hvi. destruct Hskip as [|Hz]; [done|]. by rewrite Hz. }
    assert (gone ((k, v) :: r) s = gone r s) as Hg.
    { apply gone_skip; [|done]. destruct Hskip as [|Hz]; [by left|right]. intros w. rewrite Hvi. by intros [= <-]. }
    rewrite Hg in Hans. apply IH; [done|done| |done|done].
    intros j Hj. apply Htr. rewrite fmap_cons. by right. }
  assert (¬ on_duty v ∧ v_pend vi ≠ 0%Z) as [Hnd' Hp] by (split; intros ?; apply Hgo; auto). clear Hgo.
  assert (gone ((k, v) :: r) s !! k = Some vi) as Hgk.
  { apply gone_lookup. split; [done|]. split; [|done]. exists v. split; [by left|done]. }
  rewrite <-Hvk in Hvi.
  destruct (cleanup_one_done E slot pcs v vi d s W Hvi) as (s1 & d1 & H1).
  { intros t Ht Hs0. rewrite Hvk in Ht. by eapply Hans. }
  rewrite H1. apply (cleanup_one_gone E slot pcs v vi) in H1 as (new & Hlk & _ & _ & _); [|done..|].
  2:{ intros Ht. apply target_in in Ht. rewrite Hvk in Ht. apply Hnd'. eapply Hun; [exact Ht|by left]. }
  rewrite Hvk in *.
  assert (∀ i b, (i, b) ∈ r → i ≠ k) as Hink.
  { intros i b Hb ->. apply Hk. apply elem_of_list_fmap. by exists (k, b). }
  destruct (gone_step k v vi r s s1) as [Hg Hgk']; [done..| |].
  { intros i b Hb Hdb. rewrite Hlk. unfold clean_val. rewrite decide_False by (by eapply Hink).
    assert (target pcs k ≠ Some i) as Hti. { intros Ht%target_in. apply Hdb. eapply Hun; [exact Ht|by right]. }
    destruct (st_vals s !! i); rewrite decide_False; done || naive_solver. }
  apply IH; [done..| |done|].
  - intros j Hj. destruct (Htr j) as [w Hw]; [rewrite fmap_cons; by right|]. rewrite Hlk. unfold clean_val.
    rewrite decide_False. 2:{ intros ->. done. } rewrite Hw. by eexists.
  - intros j w t Hj Ht Hs1. eapply (Hans j w t); [|done|].
    + rewrite Hg. rewrite lookup_insert_ne; [done|congruence].
    + rewrite Hlk in Hs1. unfold clean_val in Hs1. destruct (decide (t = k)); [done|]. by destruct (st_vals s !! t).
Qed.

(** The answers' order does not matter. *)
Lemma gone_perm r1 r2 s : r1 ≡ₚ r2 → gone r1 s = gone r2 s.
Proof. intros H. apply map_eq. intros i. apply option_eq. intros v. rewrite !gone_lookup. by setoid_rewrite H. Qed.
Lemma unchained_perm pcs r1 r2 : r1 ≡ₚ r2 → unchained pcs r1 → unchained pcs r2.
Proof. intros H Hu i t v. rewrite <-H. apply Hu. Qed.

Lemma cleaned_same E1 E2 slot pcs r1 r2 s s1 s2 : wf_env E1 → wf_env E2 → same_chain E1 E2 → r1 ≡ₚ r2 →
  cleaned E1 slot pcs r1 s s1 → cleaned E2 slot pcs r2 s s2 → s1 = s2.
Proof.
  intros W1 W2 C Hp [A1 A2 A3 A4 A5 A6] [B1 B2 B3 B4 B5 B6].
  assert (∀ i, inflow pcs r1 s i = inflow pcs r2 s i) as Hin by (intros i; unfold inflow; by rewrite (gone_perm _ _ s Hp)).
  pose proof (gone_perm _ _ s Hp) as Hg. rewrite <-Hg in B1, B2, B3, B4, B5.
  rewrite A6, B6. f_equal. apply map_eq. intros i.
  destruct (st_vals s !! i) as [v|] eqn:Hv.
  - destruct (gone r1 s !! i) as [w|] eqn:Hgi.
    + destruct (A1 _ _ Hgi) as (t1 & -> & M1). destruct (B1 _ _ Hgi) as (t2 & -> & M2).
      apply moves_fsm in M1, M2. by subst.
    + destruct (decide (v_status v = Banned)).
      * by rewrite (A3 i v), (B3 i v).
      * rewrite (A2 i v), (B2 i v) by done. by rewrite Hin.
  - destruct (decide (map_Exists (λ j _, target pcs j = Some i) (gone r1 s))) as [(j & v & Hj & Ht)|Hno].
    + destruct (A4 i j v Hv Hj Ht) as (p1 & t1 & w1 & R1 & I1 & X1 & ->).
      destruct (B4 i j v Hv Hj Ht) as (p2 & t2 & w2 & R2 & I2 & X2 & ->). rewrite Hin.
      destruct (vals_same E1 E2 [i] [i] slot C) as [[? _]|(q1 & q2 & Q1 & Q2 & Hq)]; [done|congruence|].
      assert (t1 = t2) as ->.
      { rewrite R1 in Q1. rewrite R2 in Q2. injection Q1 as ->. injection Q2 as ->. rewrite <-Hq in I2.
        pose proof (wf_vals_nodup _ W1 _ _ _ R1) as Hnd. 
        apply (elem_of_list_to_map (M := gmap N)) in I1; [|done]. apply (elem_of_list_to_map (M := gmap N)) in I2; [|done]. congruence. }
      by rewrite (exec_address_fun _ _ _ X1 X2).
    + rewrite A5, B5; [done..| |done|]; intros j v Hj Ht; apply Hno; by exists j, v.
Qed.

Definition cons_list (E : env) (net : string) (slot : N) : option (list (N * N)) :=
  if (default 0%N (slot_electra net) <=? slot)%N then e_cons E slot else Some [].

Lemma cleanup_spec E net slot s s' : wf_env E → (default 0 (slot_fork1 net) ≤ slot)%N → st_vals s ≠ ∅ →
  cleanup E net slot s = Done s' tt →
  ∃ pcs r, cons_list E net slot = Some pcs ∧ e_vals E (e_iter E (st_vals s)).*1 slot = Some r ∧
    (unchained pcs r → ∃ s1, cleaned E slot pcs r s s1 ∧ 
       (if (left_over pcs r s =? 0)%Z then s' = s1 else increase_all E net (left_over pcs r s) s1 = Ok s')).
Proof.
  intros W Hf Hne. unfold cleanup. destruct (N.leb_spec (default 0%N (slot_fork1 net)) slot) as [_|Hlt]; [|lia]. fold (cons_list E net slot).
  destruct (e_iter E (st_vals s)).*1 as [|i0 l0] eqn:Hit.
  { destruct Hne. apply map_to_list_empty_iff, Permutation_nil_r. rewrite <-(wf_iter _ W). by apply fmap_nil_inv in Hit as ->. }
  rewrite <-Hit. destruct (cons_list E net slot) as [pcs|]; [|done].
  destruct (e_vals E (e_iter E (st_vals s)).*1 slot) as [r|] eqn:Hr; [|done]. intros H. exists pcs, r. do 2 (split; [done|]). intros Hun.
  destruct (cleanup_loop E slot (source_to_target pcs) r 0 s) as [s1 d| |] eqn:Hl; [|done..].
  apply loop_char in Hl as [Hc ->]; [|done|exact (wf_vals_nodup _ W _ _ _ Hr)|intros k v; exact (wf_vals_index _ W _ _ _ k v Hr)| |done].
  - exists s1. split; [done|]. rewrite Z.add_0_l in H. destruct (left_over pcs r s =? 0)%Z; [by injection H|].
    destruct (increase_all E net (left_over pcs r s) s1); [by injection H as ->|done].
  - intros k Hk. apply (wf_vals_exact _ W _ _ _ k Hr) in Hk. rewrite (wf_iter _ W) in Hk.
    apply elem_of_list_fmap in Hk as ([k' vi] & -> & Hk). apply elem_of_map_to_list in Hk. by eexists.
Qed.
Lemma cleanup_early E net slot s : wf_env E → (slot < default 0 (slot_fork1 net))%N ∨ st_vals s = ∅ →
  cleanup E net slot s = Done s tt.
Proof.
  intros W [H|H]; unfold cleanup.
  - destruct (N.leb_spec (default 0%N (slot_fork1 net)) slot); [lia|done].
  - destruct (_ <=? slot)%N; [|done]. assert (e_iter E (st_vals s) = []) as ->; [|done].
    apply Permutation_nil_r. rewrite (wf_iter _ W), H. by rewrite map_to_list_empty.
Qed.

Definition chain_free (E : env) (net : string) (slot : N) : Prop :=
  ∀ pcs req r, cons_list E net slot = Some pcs → e_vals E req slot = Some r → unchained pcs r.

Lemma cleanup_same E1 E2 net slot s s' : wf_env E1 → wf_env E2 → same_chain E1 E2 → chain_free E1 net slot →
  cleanup E1 net slot s = Done s' tt → cleanup E2 net slot s = Done s' tt.
Proof.
  intros W1 W2 C Hcf H.
  destruct (decide ((slot < default 0 (slot_fork1 net))%N ∨ st_vals s = ∅)) as [He|He].
  { rewrite (cleanup_early E1) in H by done. injection H as <-. by apply cleanup_early. }
  assert ((default 0 (slot_fork1 net) ≤ slot)%N ∧ st_vals s ≠ ∅) as [Hf Hne].
  { split; [destruct (N.lt_ge_cases slot (default 0 (slot_fork1 net))%N); [|done]; destruct He; by left|]. intros ?. apply He. by right. }
  apply cleanup_spec in H as (pcs & r1 & Hpcs & Hr1 & H); [|done..].
  specialize (H (Hcf _ _ _ Hpcs Hr1)) as (s1 & Hcl & Hs').
  assert ((e_iter E1 (st_vals s)).*1 ≡ₚ (e_iter E2 (st_vals s)).*1) as Hit by (by rewrite (wf_iter _ W1), (wf_iter _ W2)).
  destruct (vals_same E1 E2 _ _ slot C Hit) as [[? _]|(q1 & r2 & Hq1 & Hr2 & Hp)]; [congruence|]. rewrite Hr1 in Hq1. injection Hq1 as <-.
  pose proof (unchained_perm _ _ _ Hp (Hcf _ _ _ Hpcs Hr1)) as Hun2.
  assert (∀ k, k ∈ r2.*1 → is_Some (st_vals s !! k)) as Htr.
  { intros k Hk. apply (wf_vals_exact _ W2 _ _ _ k Hr2) in Hk. rewrite (wf_iter _ W2) in Hk.
    apply elem_of_list_fmap in Hk as ([k' vi] & -> & Hk). apply elem_of_map_to_list in Hk. by eexists. }
  destruct (loop_done E2 slot pcs r2 0 s W2) as (s2 & d2 & Hl).
  { exact (wf_vals_nodup _ W2 _ _ _ Hr2). }
  { intros k v. exact (wf_vals_index _ W2 _ _ _ k v Hr2). }
  { done. }
  { done. }
  { intros j v t Hj Ht Hs0. rewrite <-(gone_perm _ _ s Hp) in Hj.
    destruct (cl_new _ _ _ _ _ _ Hcl t j v Hs0 Hj Ht) as (p & tv & w & Hv & Hin & Hw & _).
    destruct (vals_same E1 E2 [t] [t] slot C) as [[? _]|(q1 & q2 & Q1 & Q2 & Hq)]; [done|congruence|].
    rewrite Hv in Q1. injection Q1 as <-. exists q2, tv, w. split; [done|]. split; [by rewrite <-Hq|done]. }
  assert (cons_list E2 net slot = Some pcs) as Hpcs2.
  { rewrite <-Hpcs. unfold cons_list. by rewrite (sc_cons _ _ C). }
  unfold cleanup. destruct (N.leb_spec (default 0%N (slot_fork1 net)) slot); [|lia]. fold (cons_list E2 net slot).
  destruct (e_iter E2 (st_vals s)).*1 as [|i0 l0] eqn:Hit2.
  { destruct Hne. apply map_to_list_empty_iff, Permutation_nil_r. rewrite <-(wf_iter _ W2). by apply fmap_nil_inv in Hit2 as ->. }
  rewrite Hpcs2, Hr2, Hl. apply loop_char in Hl as [Hc2 ->]; [|done|exact (wf_vals_nodup _ W2 _ _ _ Hr2)|intros k v; exact (wf_vals_index _ W2 _ _ _ k v Hr2)|done|done].
  assert (left_over pcs r2 s = left_over pcs r1 s) as -> by (unfold left_over; by rewrite (gone_perm _ _ s Hp)).
  rewrite Z.add_0_l. rewrite <-(cleaned_same E1 E2 _ _ _ _ _ _ _ W1 W2 C Hp Hcl Hc2).
  destruct (left_over pcs r1 s =? 0)%Z; [by subst|]. rewrite <-(increase_all_same E1 E2) by done. by rewrite Hs'.
Qed.

Lemma settled_free E net slot : settled E → chain_free E net slot.
Proof.
  intros H pcs req r. unfold cons_list. destruct (_ <=? slot)%N; [apply H|].
  intros [= <-] _ i t v Hin. by apply elem_of_nil in Hin.
Qed.
Lemma same_sym E1 E2 : same_chain E1 E2 → same_chain E2 E1.
Proof.
  intros [H1 H2 H3]. split; [|done..]. intros req1 req2 slot Hp. symmetry in Hp. specialize (H1 req2 req1 slot Hp).
  by destruct (e_vals E1 req2 slot), (e_vals E2 req1 slot).
Qed.
Lemma settled_same E1 E2 : same_chain E1 E2 → settled E1 → settled E2.
Proof.
  intros C H slot pcs req r Hc Hv. rewrite <-(sc_cons _ _ C) in Hc.
  destruct (vals_same E1 E2 req req slot C) as [[_ ?]|(r1 & r2 & Hr1 & Hr2 & Hp)]; [done|congruence|].
  rewrite Hr2 in Hv. injection Hv as ->. eapply unchained_perm; [exact Hp|]. by eapply H.
Qed.

Lemma advance_same E1 E2 fb o o' n : wf_env E1 → wf_env E2 → same_chain E1 E2 → settled E1 →
  advance E1 fb o = Done o' n → advance E2 fb o = Done o' n.
Proof.
  intros W1 W2 C Hst. unfold advance. case_match; [done|]. case_match; [done|].
  rewrite <-(validate_same E1 E2 C). destruct (validate_config E1 fb o) as [o1 []|?|?] eqn:Hv; [|done..].
  rewrite <-(summarize_same E1 E2 C). destruct (summarize _ _ _ _) as [b|]; [|done]. case_match; [done|].
  rewrite <-(get_donations_same E1 E2 C). destruct (get_donations _ _ _) as [don|]; [|done].
  rewrite <-(process_same E1 E2 _ W1 W2 C). destruct (process_block _ _ _ _ _ _) as [s2|] eqn:Hp; [|done].
  destruct (st_next s2 mod 1200 =? 0)%N; [|done].
  destruct (cleanup E1 _ _ _) as [s3 []| |] eqn:Hc; [|done..].
  rewrite (cleanup_same E1 E2 _ _ _ s3 W1 W2 C); [done|by apply settled_free|done].
Qed.

Lemma run_same l1 l2 o o1 : wf_envs l1 → wf_envs l2 → same_history l1 l2 → Forall (λ x, settled x.1) l1 →
  run o l1 o1 → run o l2 o1.
Proof.
  intros W1 W2 Hs Hset Hr. revert l2 W2 Hs. induction Hr as [|o E fb o1 n l o2 Ha Hr IH]; intros l2 W2 Hs.
  - inversion Hs; subst. constructor.
  - inversion Hs as [|? [E2 fb2] ? l2' [C Hfb] Hs']; subst. cbn in C, Hfb. subst fb2.
    inversion W1; inversion W2; inversion Hset; subst. econstructor; [|by apply IH].
    by eapply (advance_same E).
Qed.
Lemma run_agree l1 l2 o o1 o2 : wf_envs l1 → wf_envs l2 → same_history l1 l2 → Forall (λ x, settled x.1) l1 →
  run o l1 o1 → run o l2 o2 → o1 = o2.
Proof.
  intros W1 W2 Hs Hset H1 H2. pose proof (run_same _ _ _ _ W1 W2 Hs Hset H1) as H3. clear -H2 H3.
  revert o1 H3. induction H2 as [|o E fb o1' n l o2 Ha Hr IH]; intros o1 H3; inversion H3; subst; [done|]. 
  match goal with H : advance E fb o = Done ?x _ |- _ => rewrite Ha in H; injection H as -> -> end. eauto.
Qed.

(** ** What cleanup leaves *)

Lemma forks_spec net f og : (net, (f, og)) ∈ forks → slot_fork1 net = Some f ∧ slot_electra net = og.
Proof.
  intros H. repeat (apply elem_of_cons in H as [H|H]; [injection H as -> -> ->; by split|]). by apply elem_of_nil in H.
Qed.
Lemma cleanup_char E net slot f og s s' : wf_env E → (net, (f, og)) ∈ forks → (f ≤ slot)%N → st_vals s ≠ ∅ →
  settled E → cleanup E net slot s = Done s' tt →
  ∃ pcs req r s1, acts_on E slot og pcs ∧ req ≡ₚ (map_to_list (st_vals s)).*1 ∧ e_vals E req slot = Some r ∧
    cleaned E slot pcs r s s1 ∧
    (left_over pcs r s = 0%Z → s' = s1) ∧ (left_over pcs r s ≠ 0%Z → increase_all E net (left_over pcs r s) s1 = Ok s').
Proof.
  intros W Hf Hs Hne Hset H. pose proof (forks_spec _ _ _ Hf) as [F1 F2].
  apply cleanup_spec in H as (pcs & r & Hpcs & Hr & H); [|done|by rewrite F1|done].
  destruct H as (s1 & Hcl & Hs1); [by eapply settled_free|].
  exists pcs, (e_iter E (st_vals s)).*1, r, s1. split.
  { unfold cons_list in Hpcs. rewrite F2 in Hpcs. destruct og as [g|]; cbn in *.
    - destruct (decide (slot < g)%N) as [Hlt|Hlt]; destruct (N.leb_spec g slot); try lia; congruence.
    - destruct (N.leb_spec 0 slot); [done|lia]. }
  split; [by rewrite (wf_iter _ W)|]. do 2 (split; [done|]).
  destruct (Z.eqb_spec (left_over pcs r s) 0); done.
Qed.

Lemma cleanup_gone_unpaid E net slot f og s s' i v b req r : wf_env E → (net, (f, og)) ∈ forks → (f ≤ slot)%N →
  settled E → cleanup E net slot s = Done s' tt →
  st_vals s !! i = Some v → v_pend v ≠ 0%Z → e_vals E req slot = Some r → (i, b) ∈ r → ¬ on_duty b →
  steady E slot →
  ∃ v', st_vals s' !! i = Some v' ∧ v_pend v' = 0%Z ∧ v_acc v' = v_acc v ∧ ¬ earning v'.
Proof.
  intros W Hf Hs Hset H Hv Hp Hreq Hb Hd Hcons.
  assert (st_vals s ≠ ∅) as Hne by (intros Hx; by rewrite Hx, lookup_empty in Hv).
  eapply cleanup_char in H as (pcs & req' & r' & s1 & _ & Hperm & Hr' & Hcl & H0 & H1); [|done..].
  assert (i ∈ r'.*1) as Hi.
  { apply (wf_vals_exact _ W _ _ _ i Hr'). rewrite Hperm. apply elem_of_list_fmap. exists (i, v). split; [done|]. by apply elem_of_map_to_list. }
  apply elem_of_list_fmap in Hi as ([i' b'] & Hi' & Hin). cbn in Hi'. subst i'.
  assert (b' = b) as -> by (eapply Hcons; [exact Hr'|exact Hreq|done..]).
  assert (gone r' s !! i = Some v) as Hg by (apply gone_lookup; eauto).
  destruct (cl_gone _ _ _ _ _ _ Hcl _ _ Hg) as (st & Hs1 & Hm).
  assert (¬ earning (set_pend 0 (set_status st v))) as Hnot.
  { apply moves_fsm in Hm. subst st. unfold earning. cbn. destruct (v_status v); cbn; intros [?|?]; done. }
  destruct (decide (left_over pcs r' s = 0%Z)) as [Hz|Hz].
  - rewrite (H0 Hz). eauto.
  - specialize (H1 Hz). exists (set_pend 0 (set_status st v)). split; [|done]. eapply share_not_earning; [done|exact H1|done|done].
Qed.

Lemma inflow_nonneg pcs r s i : pend_nonneg s → (0 ≤ inflow pcs r s i)%Z.
Proof.
  intros Hp. apply vsum_nonneg. intros j v. rewrite map_filter_lookup_Some. intros [Hg _].
  apply gone_lookup in Hg as (Hv & _). exact (Hp j v Hv).
Qed.
Lemma left_over_nonneg pcs r s : pend_nonneg s → (0 ≤ left_over pcs r s)%Z.
Proof.
  intros Hp. apply vsum_nonneg. intros j v. rewrite map_filter_lookup_Some. intros [Hg _].
  apply gone_lookup in Hg as (Hv & _). exact (Hp j v Hv).
Qed.
Lemma cleanup_active_keeps E net f og s s' i v b req r : wf_env E → sane_balances E → steady E (st_next s) →
  (net, (f, og)) ∈ forks → (f ≤ st_next s)%N → settled E → pend_nonneg s → (0 ≤ st_feepct s)%Z →
  cleanup E net (st_next s) s = Done s' tt →
  st_vals s !! i = Some v → e_vals E req (st_next s) = Some r → (i, b) ∈ r → on_duty b →
  ∃ v', st_vals s' !! i = Some v' ∧ v_status v' = v_status v ∧ v_acc v' = v_acc v ∧ (v_pend v ≤ v_pend v')%Z.
Proof.
  intros W Hsb Hcons Hf Hs Hset Hnn Hfee H Hv Hreq Hb Hd.
  assert (st_vals s ≠ ∅) as Hne by (intros Hx; by rewrite Hx, lookup_empty in Hv).
  eapply cleanup_char in H as (pcs & req' & r' & s1 & _ & Hperm & Hr' & Hcl & H0 & H1); [|done..].
  assert (gone r' s !! i = None) as Hg.
  { destruct (gone r' s !! i) as [w|] eqn:Hg; [|done]. apply gone_lookup in Hg as (_ & (b' & Hb' & Hd') & _).
    assert (b' = b) as -> by (eapply Hcons; [exact Hr'|exact Hreq|done..]). done. }
  assert (∃ v1, st_vals s1 !! i = Some v1 ∧ v_status v1 = v_status v ∧ v_acc v1 = v_acc v ∧ (v_pend v ≤ v_pend v1)%Z)
    as (v1 & Hv1 & E1 & E2 & E3).
  { destruct (decide (v_status v = Banned)) as [Hban|Hban].
    - exists v. split; [by eapply cl_banned|]. do 2 (split; [done|]). lia.
    - eexists. split; [by eapply cl_kept|]. do 2 (split; [done|]). cbn. pose proof (inflow_nonneg pcs r' s i Hnn). lia. }
  destruct (decide (left_over pcs r' s = 0%Z)) as [Hz|Hz]; [rewrite (H0 Hz); eauto|]. specialize (H1 Hz).
  pose proof (cl_rest _ _ _ _ _ _ Hcl) as Hrest.
  assert (st_next s1 = st_next s ∧ st_feepct s1 = st_feepct s) as [Hn1 Hf1] by (rewrite Hrest; done).
  apply shares_nonneg in H1 as (sh & part & -> & _ & Hsh); [|done|done| |by apply left_over_nonneg|by rewrite Hf1].
  - rewrite lookup_credited, Hv1. cbn. eexists. split; [done|]. cbn. do 2 (split; [done|]).
    destruct (sh !! i) as [z|] eqn:Hz'; cbn; [specialize (Hsh _ _ Hz')|]; lia.
  - rewrite Hn1. intros He. inversion He as [| |f' og' Hf' Hlt]; subst.
    pose proof (forks_spec _ _ _ Hf) as [F1 _]. pose proof (forks_spec _ _ _ Hf') as [F1' _]. rewrite F1 in F1'. injection F1' as <-. lia.
Qed.

Lemma cleanup_before E net slot f og s : wf_env E → (net, (f, og)) ∈ forks → (slot < f)%N ∨ st_vals s = ∅ →
  cleanup E net slot s = Done s tt.
Proof.
  intros W Hf H. pose proof (forks_spec _ _ _ Hf) as [F1 _]. apply cleanup_early; [done|]. by rewrite F1.
Qed.
Lemma cleanup_scheduled E fb o o' n : advance E fb o = Done o' n → (n mod 1200 = 0)%N →
  ∃ s s', cleanup E (c_network (or_cfg o)) n s = Done s' tt ∧ st_vals (or_st o') = st_vals s' ∧ st_fees (or_st o') = st_fees s'.
Proof.
  intros Ha Hn. pose proof (advance_slots _ _ _ _ _ Ha) as (_ & Hnext & _).
  apply advance_inv in Ha as (o1 & b & don & s2 & s3 & H1 & H2 & Hv & Hs & H3 & Hd & Hp & Hc & -> & Hn3).
  assert (st_next s2 = n) as Hn2.
  { apply process_block_frame in Hp as (s0 & -> & Hst & _). apply (f_equal (λ x, x.1.1.1.2)) in Hst. cbn in Hst.
    apply validate_config_frame in Hv as (_ & _ & _ & _ & _ & _ & _ & _ & Hv & _). congruence. }
  apply validate_config_frame in Hv as (Hnet & _). rewrite Hnet in Hc. rewrite Hn2, Hn in Hc. cbn [N.eqb] in Hc.
  exists s2, s3. done.
Qed.
