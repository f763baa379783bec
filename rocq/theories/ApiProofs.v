(** Proofs about the HTTP service. *)
From Verif Require Import ApiSpec StringProofs CodecProofs.
Open Scope string_scope.

(** ** Input checks *)

Lemma existsb_ascii c l : existsb (Ascii.eqb c) l = true ↔ c ∈ l.
Proof.
  rewrite existsb_exists. split.
  - intros (x & Hx & ->%Ascii.eqb_eq). by apply elem_of_list_In.
  - intros H. exists c. split; [by apply elem_of_list_In|]. by apply Ascii.eqb_eq.
Qed.
Lemma hex_char_spec c : is_hex_char c = true ↔ hex_char c.
Proof.
  unfold hex_char. rewrite <- existsb_ascii. apply eq_iff_eq_true.
  destruct c as [[] [] [] [] [] [] [] []]; vm_compute; reflexivity.
Qed.
Lemma dec_char_spec c : dec_char c ↔ (48 ≤ N_of_ascii c ≤ 57)%N.
Proof.
  unfold dec_char. rewrite <- existsb_ascii. transitivity (((48 <=? N_of_ascii c) && (N_of_ascii c <=? 57))%N = true).
  - apply eq_iff_eq_true. destruct c as [[] [] [] [] [] [] [] []]; vm_compute; reflexivity.
  - rewrite andb_true_iff, !N.leb_le. done.
Qed.

Lemma sforall_spec f s : sforall f s = true ↔ Forall (λ c, f c = true) (list_ascii_of_string s).
Proof.
  induction s as [|c s IH]; cbn; [split; constructor|]. rewrite andb_true_iff, IH, Forall_cons. done.
Qed.
Lemma matches_spec f n v : matches f n v = true ↔
  ∃ body, v = "0x" +:+ body ∧ String.length body = n ∧ Forall (λ c, f c = true) (list_ascii_of_string body).
Proof.
  unfold matches. split.
  - intros [[[k ->]%has_prefix_app Hl%Nat.eqb_eq]%andb_true_iff Hf%sforall_spec]%andb_true_iff. by exists k.
  - intros (k & -> & Hl & Hf). rewrite !andb_true_iff. split; [split|].
    + apply has_prefix_app. by exists k.
    + by apply Nat.eqb_eq.
    + by apply sforall_spec.
Qed.
Lemma valid_address_spec v : is_valid_address v = true ↔ hex_text 40 v.
Proof.
  unfold is_valid_address. rewrite matches_spec. unfold hex_text.
  split; intros (k & -> & Hl & Hf); exists k; (split; [done|]; split; [done|]); eapply Forall_impl; try exact Hf; intros c; apply hex_char_spec.
Qed.

(** The key check accepts the hex digits and the characters from G to the backquote. *)
Lemma pubkey_char_spec c : pubkey_char c = true ↔ hex_char c ∨ (71 ≤ N_of_ascii c ≤ 96)%N.
Proof.
  rewrite <- hex_char_spec. transitivity ((is_hex_char c || ((71 <=? N_of_ascii c) && (N_of_ascii c <=? 96))%N) = true).
  - apply eq_iff_eq_true. destruct c as [[] [] [] [] [] [] [] []]; vm_compute; reflexivity.
  - rewrite orb_true_iff, andb_true_iff, !N.leb_le. done.
Qed.
Lemma valid_pubkey_spec v : is_valid_pubkey v = true ↔
  ∃ body, v = "0x" +:+ body ∧ String.length body = 96%nat ∧
    Forall (λ c, hex_char c ∨ (71 ≤ N_of_ascii c ≤ 96)%N) (list_ascii_of_string body).
Proof.
  unfold is_valid_pubkey. rewrite matches_spec.
  split; intros (k & -> & Hl & Hf); exists k; (split; [done|]; split; [done|]); eapply Forall_impl; try exact Hf; intros c; apply pubkey_char_spec.
Qed.

Definition dec_fold (a : N) (s : string) : N := fold_left (λ a c, 10 * a + (N_of_ascii c - 48))%N (list_ascii_of_string s) a.
Lemma of_uint_acc_fold s d p : DecimalString.NilEmpty.uint_of_string s = Some d → Npos (Pos.of_uint_acc d p) = dec_fold (Npos p) s.
Proof.
  revert d p. induction s as [|c s IH]; intros d p; [intros [= <-]; done|].
  cbn [DecimalString.NilEmpty.uint_of_string]. intros H.
  destruct (DecimalString.NilEmpty.uint_of_string s) as [d'|] eqn:Hs.
  2:{ cbn in H. destruct c as [[] [] [] [] [] [] [] []]; discriminate. }
  unfold dec_fold in *. cbn [list_ascii_of_string fold_left].
  destruct c as [[] [] [] [] [] [] [] []]; try discriminate; cbv [DecimalString.uint_of_char] in H; injection H as <-;
    cbn [Pos.of_uint_acc]; rewrite (IH d' _ eq_refl); f_equal; cbn [N_of_ascii N_of_digits]; lia.
Qed.
Lemma of_uint_fold s d : DecimalString.NilEmpty.uint_of_string s = Some d → N.of_uint d = dec_fold 0 s.
Proof.
  revert d. induction s as [|c s IH]; intros d; [intros [= <-]; done|].
  cbn [DecimalString.NilEmpty.uint_of_string]. intros H.
  destruct (DecimalString.NilEmpty.uint_of_string s) as [d'|] eqn:Hs.
  2:{ cbn in H. destruct c as [[] [] [] [] [] [] [] []]; discriminate. }
  specialize (IH d' eq_refl). unfold dec_fold in *. cbn [list_ascii_of_string fold_left].
  destruct c as [[] [] [] [] [] [] [] []]; try discriminate; cbv [DecimalString.uint_of_char] in H; injection H as <-;
    unfold N.of_uint in *; cbn [Pos.of_uint];
    first [exact IH|rewrite (of_uint_acc_fold s d') by done; reflexivity].
Qed.
Lemma uint_of_string_spec s : Forall dec_char (list_ascii_of_string s) ↔ is_Some (DecimalString.NilEmpty.uint_of_string s).
Proof.
  induction s as [|c s IH]; [split; [by eexists|constructor]|]. cbn [list_ascii_of_string DecimalString.NilEmpty.uint_of_string].
  rewrite Forall_cons, IH. split.
  - intros [Hc [d ->]]. apply existsb_ascii in Hc. destruct c as [[] [] [] [] [] [] [] []]; first [discriminate Hc|eexists; reflexivity].
  - intros [d Hd]. destruct (DecimalString.NilEmpty.uint_of_string s) as [d'|].
    + split; [|by eexists]. apply existsb_ascii. destruct c as [[] [] [] [] [] [] [] []]; first [discriminate Hd|reflexivity].
    + destruct c as [[] [] [] [] [] [] [] []]; discriminate Hd.
Qed.
Lemma valid_index_spec v n : is_valid_index v = Some n ↔ dec_text v ∧ dec_value v = n ∧ (n < 2 ^ 64)%N.
Proof.
  unfold is_valid_index, read_u64, dec_text. change (dec_value v) with (dec_fold 0 v). change two64 with (2 ^ 64)%N.
  destruct v as [|c v]; [cbn; split; [done|]; naive_solver|]. unfold DecimalString.NilZero.uint_of_string.
  rewrite uint_of_string_spec.
  destruct (DecimalString.NilEmpty.uint_of_string (String c v)) as [d|] eqn:Hd.
  - apply of_uint_fold in Hd. rewrite Hd. split.
    + destruct (N.ltb_spec (dec_fold 0 (String c v)) (2 ^ 64)) as [Hlt|]; [|done]. intros [= <-]. split; [split; [done|by eexists]|done].
    + intros ([_ _] & <- & Hlt). by apply N.ltb_lt in Hlt as ->.
  - split; [done|]. intros ([_ [? ?]] & _). done.
Qed.

(** ** Readiness *)

Lemma oracle_ready_spec w s f : w_final w = Some f → (f < 2 ^ 64)%N → (st_latest s + 64 < 2 ^ 64)%N →
  oracle_ready 64 w s = true ↔ (st_latest s ≤ f ≤ st_latest s + 64)%N.
Proof.
  intros Hf Hf64 Hl. unfold oracle_ready. rewrite Hf, negb_true_iff, N.ltb_ge. unfold u64_sub, u64. change two64 with (2 ^ 64)%N.
  rewrite (N.mod_small (st_latest s)) by lia. change (2 ^ 64)%N with 18446744073709551616%N in *.
  destruct (N.le_gt_cases (st_latest s) f) as [H|H].
  - replace (f + (18446744073709551616 - st_latest s))%N with ((f - st_latest s) + 1 * 18446744073709551616)%N by lia.
    rewrite N.mod_add, N.mod_small by lia. lia.
  - rewrite N.mod_small by lia. lia.
Qed.

(** ** Requests leave the books alone *)

Lemma set_hash_same s : set_hash (st_hash s) s = s.
Proof. by destruct s. Qed.
Lemma after_request_hash sha r w o : wf_records (or_st o) →
  ∃ h, after_request sha r w o = Oracle (or_cfg o) (set_hash h (or_st o)) ∧ (r ≠ GetState → h = st_hash (or_st o)).
Proof.
  intros Hr. assert (o = Oracle (or_cfg o) (set_hash (st_hash (or_st o)) (or_st o))) as Ho by (rewrite set_hash_same; by destruct o).
  destruct r; try (by exists (st_hash (or_st o))).
  - eexists. split; [reflexivity|]. by intros [].
  - exists (st_hash (or_st o)). split; [|done]. cbn [after_request].
    destruct (oracle_ready 64 w (or_st o)); [|done]. destruct (is_valid_index i) as [n|]; [|done].
    destruct (st_vals (or_st o) !! n) as [v|] eqn:Hv; [|done].
    destruct (Hr _ _ Hv) as [Hi _]. replace (set_index n v) with v by (unfold set_index; rewrite <- Hi; by destruct v).
    rewrite insert_id by done. rewrite set_hash_same. by destruct o as [c []].
Qed.

(** ** Every recorded block has its reward *)

From Verif Require Import StepProofs RunProofs LifeProofs SlotProofs HandlerProofs.

Definition rewards_known (s : ost) : Prop := ∀ b, b ∈ st_proposed s → is_Some (sb_reward b).
Lemma advance_rewards E fb o o' n : advance E fb o = Done o' n → rewards_known (or_st o) → rewards_known (or_st o').
Proof.
  intros (o1 & b & don & s2 & s3 & H1 & H2 & Hv & Hs & H3 & Hd & Hp & Hc & -> & _)%advance_inv Hk.
  apply cleanup_step_frame in Hc as [_ Hr].
  apply validate_config_frame in Hv as (_ & _ & _ & _ & _ & _ & _ & _ & _ & _ & _ & _ & Hrec).
  assert (is_Some (sb_reward b) ∨ (sb_type b ≠ OkPoolProposal ∧ sb_type b ≠ OkPoolProposalBlsKeys)) as Hb.
  { unfold process_block in Hp. inv_res.
    destruct (sb_type b) eqn:Hty; try (right; done); left.
    - unfold handle_correct, deref_reward in Hb1. inv_res. destruct (sb_reward b); [by eexists|discriminate].
    - unfold handle_bls, deref_reward in Hb0. rewrite Hty in Hb0. destruct (sb_reward b); [by eexists|discriminate]. }
  apply process_block_frame in Hp as (s0 & _ & _ & p & m & wr & Hrs & Hcase).
  rewrite Hrs in Hr. unfold records in Hr, Hrec. injection Hr as _ Hpr _ _. injection Hrec as _ Hpr1 _ _.
  intros x. cbn [or_st bump_slots set_slots st_proposed]. rewrite Hpr, Hpr1, elem_of_app. intros [Hx|Hx]; [by apply Hk|].
  destruct (sb_type b); destruct Hcase as (-> & _); try (by apply elem_of_nil in Hx);
    apply elem_of_list_singleton in Hx as ->; destruct Hb as [?|[? ?]]; done.
Qed.
Lemma run_rewards o l o' : run o l o' → rewards_known (or_st o) → rewards_known (or_st o').
Proof. induction 1 as [|o E fb o1 n l o2 H _ IH]; [done|]. intros Hk. apply IH. by eapply advance_rewards. Qed.
Lemma fresh_rewards c : rewards_known (or_st (new_oracle c)).
Proof. intros b Hb. by apply elem_of_nil in Hb. Qed.

(** ** Every endpoint answers *)

(** [r] does not end the process, and panics only if [P]. *)
Definition safe {A} (P : Prop) (r : res A) : Prop :=
  match r with Ok _ => True | Die (Panic _) => P | Die (Fatal _) => False end.
Lemma safe_bind {A B} P (r : res A) (f : A → res B) : safe P r → (∀ a, r = Ok a → safe P (f a)) → safe P (rbind r f).
Proof. destruct r as [a|[]]; cbn; [|done..]. intros _ H. by apply H. Qed.
Lemma safe_ok {A} P (r : res A) : safe P r → ¬ P → ∃ a, r = Ok a.
Proof. destruct r as [a|[]]; cbn; [by eexists|done..]. Qed.

Lemma iter_values E (m : gmap N vinfo) v : wf_env E → v ∈ (e_iter E m).*2 ↔ ∃ i, m !! i = Some v.
Proof.
  intros W. rewrite elem_of_list_fmap. split.
  - intros ([i x] & -> & Hx). exists i. apply elem_of_map_to_list. by rewrite <- (wf_iter _ W).
  - intros [i Hi]. exists (i, v). split; [done|]. rewrite (wf_iter _ W). by apply elem_of_map_to_list.
Qed.
Lemma tally_zero st vs : tally st vs = 0%N ↔ ∀ v, v ∈ vs → v_status v ≠ st.
Proof.
  unfold tally. split.
  - intros H v Hv Hs. assert (v ∈ filter (λ v, v_status v = st) vs) as Hf by (by apply elem_of_list_filter).
    destruct (filter (λ v, v_status v = st) vs); [by apply elem_of_nil in Hf|]. cbn in H. lia.
  - intros H. destruct (filter (λ v, v_status v = st) vs) as [|v l] eqn:Hf; [done|].
    assert (v ∈ filter (λ v, v_status v = st) vs) as Hv by (rewrite Hf; by left).
    apply elem_of_list_filter in Hv as [Hv1 Hv2]. by destruct (H v).
Qed.
Lemma sent_loop_ok limit l acc : (∀ b, b ∈ l → is_Some (sb_reward b)) → ∃ x, sent_loop limit l acc = Ok x.
Proof.
  revert acc. induction l as [|b l IH]; intros acc Hl; [by eexists|]. cbn [sent_loop].
  assert (∀ acc, ∃ x, sent_loop limit l acc = Ok x) as IH' by (intros; apply IH; intros; apply Hl; by right).
  destruct (sb_type b); try apply IH'.
  destruct (Hl b) as [r Hr]; [by left|]. unfold deref_reward. rewrite Hr. cbn [rbind]. destruct acc as [[? ?] ?]. apply IH'.
Qed.
Lemma safe_if_ready {A} P w s (k : res (reply A)) : safe P k → safe P (if_ready w s k).
Proof. unfold if_ready. by case_match. Qed.
Lemma statistics_safe E w o : wf_env E → rewards_known (or_st o) → safe (only_red (or_st o)) (statistics E w o).
Proof.
  intros W Hr. apply safe_if_ready. case_match; [done|]. case_match; [done|].
  destruct (sent_loop_ok (st_latest (or_st o) - slots_in_month) (st_proposed (or_st o)) (0%Z, 0%Z, 0%N) Hr) as [[[sent recent] nok] ->].
  cbn [rbind]. destruct (donated_loop _ _ _) as [[don sent'] recent'].
  set (vs := (e_iter E (st_vals (or_st o))).*2).
  destruct (N.eqb_spec (tally Active vs + tally YellowCard vs + tally RedCard vs) 0) as [|Hn]; [done|].
  destruct (N.eqb_spec (tally Active vs + tally YellowCard vs) 0) as [Hz|]; [|done]. cbn.
  assert (tally Active vs = 0%N ∧ tally YellowCard vs = 0%N) as [Ha Hy] by lia.
  assert (tally RedCard vs ≠ 0%N) as Hred by lia.
  split.
  - unfold tally in Hred. destruct (filter (λ v, v_status v = RedCard) vs) as [|v l] eqn:Hf; [done|].
    assert (v ∈ filter (λ v, v_status v = RedCard) vs) as Hv by (rewrite Hf; by left).
    apply elem_of_list_filter in Hv as [Hv1 [i Hi]%iter_values]; [|done]. exists i, v. auto.
  - intros i v Hv. assert (v ∈ vs) as Hin by (apply iter_values; [done|by exists i]).
    intros [He|He]; revert He; by eapply tally_zero.
Qed.

Lemma status_safe w o : safe (w_sync w = SyncNothing) (handle_status w o).
Proof. unfold handle_status. repeat case_match; done. Qed.

Lemma address_equal_ok a b : String.length a = 42%nat → String.length b = 42%nat → address_equal a b = Ok (String.eqb (to_lower a) (to_lower b)).
Proof. intros Ha Hb. unfold address_equal. by rewrite Ha, Hb. Qed.
Lemma hex_text_length n v : hex_text n v → String.length v = (2 + n)%nat.
Proof. intros (b & -> & <- & _). by rewrite string_length_app. Qed.
Lemma to_lower_hex_char c : hex_char c → hex_char (lower_ascii c).
Proof.
  unfold hex_char. rewrite <- !existsb_ascii. destruct c as [[] [] [] [] [] [] [] []]; vm_compute; intros H; first [reflexivity|discriminate H].
Qed.
Lemma to_lower_hex_text n v : hex_text n v → hex_text n (to_lower v).
Proof.
  intros (b & -> & Hl & Hf). exists (to_lower b). split; [done|]. split; [by rewrite to_lower_length|].
  clear Hl. induction b as [|c b IH]; [done|]. cbn in *. apply Forall_cons in Hf as [Hc Hf].
  apply Forall_cons. split; [by apply to_lower_hex_char|by apply IH].
Qed.

(** What the loops build: entries under the index of a validator known to the beacon chain or tracked. *)
Definition addresses42 (m : gmap N vinfo) : Prop := ∀ i v, m !! i = Some v → String.length (v_addr v) = 42%nat.
Lemma untracked_safe addr l m : String.length addr = 42%nat → addresses42 m →
  ∃ m', untracked_loop addr l m = Ok m' ∧ addresses42 m' ∧ ∀ i, is_Some (m' !! i) → is_Some (m !! i) ∨ i ∈ l.*1.
Proof.
  intros Ha. revert m. induction l as [|[k b] l IH]; intros m Hm; cbn [untracked_loop].
  { exists m. split; [done|]. split; [done|]. by left. }
  destruct (get_compatible_address (hex_encode (b_creds b))) as [a|] eqn:Hc.
  - assert (lower_address a) as [_ La]%lower_address_lower by (eapply compatible_lower; exact Hc).
    rewrite address_equal_ok by done. cbn [rbind].
    destruct (to_lower a =? to_lower addr)%string.
    + set (v := VInfo Untracked 0 0 0 a (b_index b) (hexutil_encode (b_pubkey b)) Manual).
      destruct (IH (<[k:=v]> m)) as (m' & H1 & H2 & H3).
      { intros i x. destruct (decide (i = k)) as [->|Hne]; [rewrite lookup_insert; by intros [= <-]|].
        rewrite lookup_insert_ne by done. apply Hm. }
      exists m'. split; [done|]. split; [done|]. intros i Hi%H3.
      rewrite fmap_cons, elem_of_cons. destruct (decide (i = k)) as [->|Hne]; [by right; left|].
      rewrite lookup_insert_ne in Hi by done. tauto.
    + destruct (IH m Hm) as (m' & H1 & H2 & H3). exists m'. split; [done|]. split; [done|].
      intros i Hi%H3. rewrite fmap_cons, elem_of_cons. tauto.
  - destruct (IH m Hm) as (m' & H1 & H2 & H3). exists m'. split; [done|]. split; [done|].
    intros i Hi%H3. rewrite fmap_cons, elem_of_cons. tauto.
Qed.
Lemma tracked_safe addr l m : String.length addr = 42%nat → (∀ k v, (k, v) ∈ l → String.length (v_addr v) = 42%nat) → addresses42 m →
  ∃ m', tracked_loop addr l m = Ok m' ∧ addresses42 m' ∧ ∀ i, is_Some (m' !! i) → is_Some (m !! i) ∨ i ∈ l.*1.
Proof.
  intros Ha. revert m. induction l as [|[k v] l IH]; intros m Hl Hm; cbn [tracked_loop].
  { exists m. split; [done|]. split; [done|]. by left. }
  rewrite address_equal_ok by (done || (apply (Hl k); by left)). cbn [rbind].
  assert (∀ k v, (k, v) ∈ l → String.length (v_addr v) = 42%nat) as Hl' by (intros; eapply Hl; by right).
  destruct (to_lower (v_addr v) =? to_lower addr)%string.
  - destruct (IH (<[k:=set_index k v]> m)) as (m' & H1 & H2 & H3); [done| |].
    { intros i x. destruct (decide (i = k)) as [->|Hne]; [rewrite lookup_insert; intros [= <-]; cbn; apply (Hl k); by left|].
      rewrite lookup_insert_ne by done. apply Hm. }
    exists m'. split; [done|]. split; [done|]. intros i Hi%H3.
    rewrite fmap_cons, elem_of_cons. destruct (decide (i = k)) as [->|Hne]; [by right; left|].
    rewrite lookup_insert_ne in Hi by done. tauto.
  - destruct (IH m) as (m' & H1 & H2 & H3); [done..|]. exists m'. split; [done|]. split; [done|].
    intros i Hi%H3. rewrite fmap_cons, elem_of_cons. tauto.
Qed.

(** The overlay keeps addresses and the set of entries. *)
Definition same_entries (m m' : gmap N vinfo) : Prop := ∀ i, v_addr <$> m' !! i = v_addr <$> m !! i.
Lemma same_entries_42 m m' : same_entries m m' → addresses42 m → addresses42 m'.
Proof. intros Hs Hm i v Hv. specialize (Hs i). rewrite Hv in Hs. destruct (m !! i) as [x|] eqn:Hx; [|discriminate]. injection Hs as ->. by eapply Hm. Qed.
Lemma same_entries_insert m i v v' : m !! i = Some v → v_addr v' = v_addr v → same_entries m (<[i := v']> m).
Proof. intros Hv He j. destruct (decide (j = i)) as [->|]; [rewrite lookup_insert, Hv; cbn; congruence|by rewrite lookup_insert_ne]. Qed.
Lemma same_entries_refl m : same_entries m m. Proof. done. Qed.
Lemma same_entries_some m m' i : same_entries m m' → is_Some (m' !! i) → is_Some (m !! i).
Proof. intros H. by rewrite <- (fmap_is_Some v_addr), H, fmap_is_Some. Qed.
Lemma same_entries_trans m1 m2 m3 : same_entries m1 m2 → same_entries m2 m3 → same_entries m1 m3.
Proof. intros H1 H2 i. by rewrite H2, H1. Qed.
Lemma overlay_sub_safe E coll e val m : String.length (sub_sender e) = 20%nat → addresses42 m →
  safe (val = None ∧ is_Some (m !! sub_id e)) (overlay_sub E coll e val m) ∧
  ∀ m', overlay_sub E coll e val m = Ok m' → same_entries m m'.
Proof.
  intros Hl Hm. unfold overlay_sub. destruct (m !! sub_id e) as [v|] eqn:Hv; [|split; [done|by intros m' [= <-]]].
  rewrite address_equal_ok by (by eapply Hm || by rewrite addr_string_length, Hl). cbn [rbind].
  destruct (_ =? _)%string; cbn [negb]; [|split; [done|by intros m' [= <-]]].
  destruct (coll <=? sub_coll e)%Z; cbn [negb]; [|split; [done|by intros m' [= <-]]].
  destruct val as [b|]; [|split; [by split; [|eexists]|done]].
  destruct (can_subscribe b); cbn [negb]; [|split; [done|by intros m' [= <-]]].
  destruct (v_status v); (split; [done|]); intros m' H; injection H as <-; try done; by eapply same_entries_insert.
Qed.
Lemma overlay_unsub_safe E e m : String.length (uns_sender e) = 20%nat → addresses42 m →
  ∃ m', overlay_unsub E e m = Ok m' ∧ same_entries m m'.
Proof.
  intros Hl Hm. unfold overlay_unsub. destruct (m !! uns_id e) as [v|] eqn:Hv; [|by eexists].
  rewrite address_equal_ok by (by eapply Hm || by rewrite addr_string_length, Hl). cbn [rbind].
  destruct (_ =? _)%string; cbn [negb]; [|by eexists].
  destruct (v_status v); (eexists; split; [done|]); try done; by eapply same_entries_insert.
Qed.
Lemma overlay_subs_safe E coll bs l m (P : Prop) : (∀ e, e ∈ l → String.length (sub_sender e) = 20%nat) → addresses42 m →
  (∀ e, e ∈ l → is_Some (m !! sub_id e) → bs !! sub_id e = None → P) →
  safe P (overlay_subs E coll bs l m) ∧ ∀ m', overlay_subs E coll bs l m = Ok m' → same_entries m m'.
Proof.
  revert m. induction l as [|e l IH]; intros m Hl Hm HP; cbn [overlay_subs]; [split; [done|by intros m' [= <-]]|].
  destruct (overlay_sub_safe E coll e (bs !! sub_id e) m) as [H1 H2]; [apply Hl; by left|done|].
  destruct (overlay_sub E coll e (bs !! sub_id e) m) as [m1|[msg|msg]]; cbn [rbind].
  - specialize (H2 _ eq_refl). destruct (IH m1) as [H3 H4].
    + intros; apply Hl; by right.
    + by eapply same_entries_42.
    + intros e' He' Hs. apply HP; [by right|]. by eapply same_entries_some.
    + split; [done|]. intros m' Hm'. eapply same_entries_trans; [done|by apply H4].
  - done.
  - split; [|done]. cbn in *. destruct H1 as [H1 H1']. by apply (HP e); [left|..].
Qed.
Lemma overlay_unsubs_safe E l m : (∀ e, e ∈ l → String.length (uns_sender e) = 20%nat) → addresses42 m →
  ∃ m', overlay_unsubs E l m = Ok m' ∧ same_entries m m'.
Proof.
  revert m. induction l as [|e l IH]; intros m Hl Hm; cbn [overlay_unsubs]; [by eexists|].
  destruct (overlay_unsub_safe E e m) as (m1 & -> & H1); [apply Hl; by left|done|]. cbn [rbind].
  destruct (IH m1) as (m2 & -> & H2); [intros; apply Hl; by right|by eapply same_entries_42|].
  exists m2. split; [done|]. by eapply same_entries_trans.
Qed.
Lemma overlay_blocks_safe E coll bs subs unsubs ns m (P : Prop) :
  (∀ e, e ∈ subs → String.length (sub_sender e) = 20%nat) → (∀ e, e ∈ unsubs → String.length (uns_sender e) = 20%nat) → addresses42 m →
  (∀ e, e ∈ subs → is_Some (m !! sub_id e) → bs !! sub_id e = None → P) →
  safe P (overlay_blocks E coll bs subs unsubs ns m) ∧ ∀ m', overlay_blocks E coll bs subs unsubs ns m = Ok m' → same_entries m m'.
Proof.
  intros Hs Hu. revert m. induction ns as [|n ns IH]; intros m Hm HP; cbn [overlay_blocks]; [split; [done|by intros m' [= <-]]|].
  destruct (overlay_subs_safe E coll bs (filter (λ e, l_block (sub_log e) = n) subs) m P) as [H1 H2].
  { intros e [_ He]%elem_of_list_filter. by apply Hs. } { done. }
  { intros e [_ He]%elem_of_list_filter. by apply HP. }
  destruct (overlay_subs _ _ _ _ _) as [m1|[msg|msg]]; cbn [rbind]; [|done|by split].
  specialize (H2 _ eq_refl).
  destruct (overlay_unsubs_safe E (filter (λ e, l_block (uns_log e) = n) unsubs) m1) as (m2 & -> & H3).
  { intros e [_ He]%elem_of_list_filter. by apply Hu. } { by eapply same_entries_42. }
  assert (same_entries m m2) as H4 by (by eapply same_entries_trans). cbn [rbind].
  destruct (IH m2) as [H5 H6].
  - by eapply same_entries_42.
  - intros e He Hse. apply HP; [done|]. by eapply same_entries_some.
  - split; [done|]. intros m' Hm'. eapply same_entries_trans; [done|by apply H6].
Qed.

Lemma by_withdrawal_safe E a w o : wf_wire w → wf_records (or_st o) →
  safe (unknown_subscriber w o) (validators_by_withdrawal E a w o).
Proof.
  intros Ww Hr. apply safe_if_ready. destruct (is_valid_address (to_lower a)) eqn:Hva; cbn [negb]; [|done].
  apply valid_address_spec, hex_text_length in Hva as Ha. cbn in Ha.
  destruct (w_beacon w) as [bs|] eqn:Hb; [|done].
  destruct (untracked_safe (to_lower a) (map_to_list bs) ∅) as (m1 & -> & H1 & D1); [done|intros i v; by rewrite lookup_empty|]. cbn [rbind].
  destruct (tracked_safe (to_lower a) (map_to_list (st_vals (or_st o))) m1) as (m2 & -> & H2 & D2); [done| |done|].
  { intros k v [_ Hv]%elem_of_map_to_list%Hr. by apply lower_address_lower. } cbn [rbind].
  case_match; [done|]. case_match; [done|].
  destruct (w_subs w _) as [subs|] eqn:Hs; [|done]. destruct (w_unsubs w _) as [unsubs|] eqn:Hu; [|done].
  destruct (overlay_blocks_safe E (c_coll (or_cfg o)) bs subs unsubs
    (merge_sort N.le (once (((λ e, l_block (sub_log e)) <$> subs) ++ ((λ e, l_block (uns_log e)) <$> unsubs)))) m2 (unknown_subscriber w o)) as [Hsafe _].
  - intros e He. by eapply ww_subs.
  - intros e He. by eapply ww_unsubs.
  - done.
  - intros e He Hm Hno. assert (beacon w = bs) as Hbw by (unfold beacon; by rewrite Hb).
    apply D2 in Hm as [Hm|Hm].
    + apply D1 in Hm as [Hm|Hm]; [rewrite lookup_empty in Hm; by destruct Hm|].
      apply elem_of_list_fmap in Hm as ([k b] & Hk & Hin%elem_of_map_to_list). cbn in Hk. subst k. congruence.
    + apply elem_of_list_fmap in Hm as ([k v] & Hk & Hin%elem_of_map_to_list). cbn in Hk. subst k.
      exists subs, e, v. by rewrite Hbw.
  - apply safe_bind; [done|]. intros m3 _. done.
Qed.

Lemma hex_text_address v : hex_text 40 v → is_hex_address v = true.
Proof.
  intros (b & -> & Hl & Hf). unfold is_hex_address.
  assert (has_prefix ("0x" +:+ b) "0x" = true) as -> by (apply has_prefix_app; by eexists). cbn [orb].
  change (sdrop 2 ("0x" +:+ b)) with b. rewrite Hl. cbn. apply sforall_spec. eapply Forall_impl; [exact Hf|]. intros c. apply hex_char_spec.
Qed.
Lemma proof_safe E a w o : ∃ r, merkle_proof E a w o = Ok r.
Proof.
  apply (safe_ok False); [|tauto]. apply safe_if_ready. destruct (is_valid_address a) eqn:Hv; cbn [negb]; [|done].
  apply valid_address_spec, to_lower_hex_text, hex_text_address in Hv. unfold claimed_balance. rewrite Hv. cbn [negb].
  repeat (case_match; [..|done]); try done; cbn [rbind]; repeat case_match; done.
Qed.
Lemma relays_safe E key w o pool20 : wf_wire w → names pool20 (c_pool (or_cfg o)) → ∃ r, registered_relays E key w o = Ok r.
Proof.
  intros Ww [Hl Hn]. unfold registered_relays. destruct (is_valid_pubkey key); cbn [negb]; [|by eexists].
  assert (String.length (c_pool (or_cfg o)) = 42%nat) as Hp.
  { rewrite <- to_lower_length, Hn, string_length_app, hex_encode_length, Hl. done. }
  assert (∀ l b, (∀ name f, (name, RelayFee f) ∈ l → String.length f = 20%nat) → ∃ r, relay_loop E (c_pool (or_cfg o)) l b = Ok r) as Hloop.
  { induction l as [|[name ra] l IH]; intros b Hf; cbn [relay_loop]; [by eexists|].
    assert (∀ name f, (name, RelayFee f) ∈ l → String.length f = 20%nat) as Hf' by (intros; eapply Hf; by right).
    destruct ra as [| |f]; [by eexists|by apply IH|].
    unfold equals. rewrite addr_string_length, Hp, (Hf name f) by (by left). cbn [Nat.mul Nat.add Nat.eqb rbind]. by apply IH. }
  destruct (Hloop (w_relays w) (RelayBody false [] [] [])) as [r ->]; [apply (ww_relays _ Ww)|]. cbn [rbind].
  destruct r; eauto.
Qed.

Lemma serve_safe sha E r w o pool20 : wf_env E → wf_wire w → wf_records (or_st o) → rewards_known (or_st o) →
  names pool20 (c_pool (or_cfg o)) → safe (trouble r w o) (serve sha E r w o).
Proof.
  intros W Ww Hr Hk Hp. destruct r; cbn [serve trouble]; try done.
  - apply safe_bind; [apply status_safe|done].
  - destruct (relays_safe E key w o pool20 Ww Hp) as [x ->]. done.
  - unfold all_validators, if_ready. by case_match.
  - unfold one_validator, if_ready. repeat case_match; done.
  - apply safe_bind; [by apply by_withdrawal_safe|done].
  - apply safe_bind; [by apply statistics_safe|done].
  - destruct (proof_safe E addr w o) as [x ->]. done.
Qed.

(** ** Merkle proofs *)
From Verif Require Import MerkleProofs CheckpointProofs.

(** [c] was frozen by one of the operations in [l], starting from [o]. *)
Definition frozen_in (H : string → string) (o : oracle) (l : list operation) (k : N) (c : onchain_state) : Prop :=
  ∃ l1 E1 l2 o1, l = l1 ++ Freeze E1 :: l2 ∧ wf_env E1 ∧ evolve H o l1 o1 ∧ snapshot H E1 (or_st o1) = Ok (Some c) ∧ st_latest (or_st o1) = k.
Lemma evolve_frozen H o l o' : evolve H o l o' → ∀ k c, st_committed (or_st o') !! k = Some c →
  st_committed (or_st o) !! k = Some c ∨ frozen_in H o l k c.
Proof.
  induction 1 as [o|o E fb o1 n l o2 W Hnz Hadv _ IH|o E s1 b l o2 W Hf _ IH]; intros k c Hc; [by left| |].
  - apply IH in Hc as [Hc|(l1 & E1 & l2 & o3 & -> & W1 & He & Hs)].
    + left. by rewrite <- (advance_committed _ _ _ _ _ Hadv).
    + right. exists (Process E fb :: l1), E1, l2, o3. split; [done|]. split; [done|]. split; [|done]. by eapply evolve_process.
  - apply IH in Hc as [Hc|(l1 & E1 & l2 & o3 & -> & W1 & He & Hs)].
    + cbn in Hc. destruct (freeze_inv _ _ _ _ _ Hf) as [(-> & -> & _)|(-> & c' & Hs & _ & ->)]; [by left|].
      cbn in Hc. destruct (decide (st_latest (or_st o) = k)) as [Hk|Hne].
      * right. rewrite Hk, lookup_insert in Hc. injection Hc as ->.
        exists [], E, l, o. split; [done|]. split; [done|]. split; [constructor|]. done.
      * left. by rewrite lookup_insert_ne in Hc.
    + right. exists (Freeze E :: l1), E1, l2, o3. split; [done|]. split; [done|]. split; [|done]. by eapply evolve_freeze.
Qed.

Lemma stored_leaf H E s c a l : wf_env E → snapshot H E s = Ok (Some c) → oc_leafs c !! a = Some l →
  oc_vals c = st_vals s ∧ oc_slot c = st_latest s ∧ leaf_addr l = a ∧
  ∃ a20, spells a20 a ∧ entitled s a20 (leaf_bal l) ∧
    (uint256 (leaf_bal l) → ∃ pre root p, claim a20 (leaf_bal l) pre ∧ oc_root c = "0x" +:+ hex_encode root ∧
      oc_proofs c !! a = Some ((λ b, "0x" +:+ hex_encode b) <$> p) ∧ proves H root p pre).
Proof.
  intros W Hs Hl. destruct (snapshot_inv H E s c Hs) as [ls Ha].
  destruct (snapshot_spec H E s ls Ha) as [[_ Hn]|(Hlen & c' & Hs' & Hsl & Hv & Hroot & Hraw & Hall)]; [congruence|].
  assert (c' = c) as -> by congruence. specialize (Hall a). rewrite Hl in Hall. destruct Hall as (p & Hp & Hc).
  rewrite Hraw in Hl. apply raw_leaf_map_lookup in Hl as [[Hin <-]|[_ Hl]]; [|by rewrite lookup_empty in Hl].
  do 3 (split; [done|]). pose proof (aggregate_good _ _ _ Ha) as Hg. rewrite Forall_forall in Hg.
  assert (∃ a20, spells a20 (leaf_addr l)) as [a20 Hsp].
  { destruct (leaf_claim (RawLeaf (leaf_addr l) 0)) as (a20 & Hsp & _); [apply (Hg _ Hin)|split; done|]. by exists a20. }
  exists a20. split; [done|]. split.
  - destruct (aggregate_spec E s ls W Ha) as (rest & -> & _ & Hiff & Hb & _).
    apply elem_of_cons in Hin as [->|Hin]; [by left|]. right. exists (leaf_addr l). split; [done|].
    split; [|by apply Hb]. apply Hiff. apply elem_of_list_fmap. eauto.
  - intros Hu. destruct (leaf_claim l (Hg _ Hin) Hu) as (b20 & Hsp' & Hcl).
    assert (b20 = a20) as ->.
    { clear -Hsp Hsp'. destruct Hsp as [Ha Hsp], Hsp' as [Hb Hsp']. apply hex_encode_inj.
      assert (String.length (hex_encode a20) = 40%nat) as La by (rewrite hex_encode_length, Ha; done).
      assert (String.length (hex_encode b20) = 40%nat) as Lb by (rewrite hex_encode_length, Hb; done).
      destruct Hsp as [Hsp|Hsp], Hsp' as [Hsp'|Hsp']; rewrite Hsp in Hsp'.
      - by apply app_prefix_inj in Hsp'.
      - apply (f_equal String.length) in Hsp'. rewrite string_length_app, La, Lb in Hsp'. cbn in Hsp'. lia.
      - apply (f_equal String.length) in Hsp'. rewrite string_length_app, La, Lb in Hsp'. cbn in Hsp'. lia.
      - done. }
    exists (leaf_preimage l), (tree_root H (leaf_hash H <$> ls)), p. done.
Qed.

Lemma total_perm f (l l' : list (N * vinfo)) : l ≡ₚ l' → total_of f l.*2 = foldr Z.add 0%Z (f <$> l'.*2).
Proof.
  intros H. transitivity (foldr Z.add 0%Z (f <$> l.*2)).
  - clear H. unfold total_of. induction l as [|x l IH]; [done|]. cbn. by rewrite IH.
  - induction H as [|x l l' H IH|x y l|l1 l2 l3 H1 IH1 H2 IH2]; cbn; [done|by rewrite IH|lia|congruence].
Qed.
Lemma vsum_iter E (P : N * vinfo → Prop) `{!∀ x, Decision (P x)} f (m : gmap N vinfo) : wf_env E →
  total_of f (filter P (e_iter E m)).*2 = vsum f (filter P m).
Proof.
  intros W. unfold vsum.
  assert (filter P (e_iter E m) ≡ₚ map_to_list (filter P m)) as Hp.
  { apply NoDup_Permutation.
    - apply NoDup_filter. rewrite (wf_iter _ W). apply NoDup_map_to_list.
    - apply NoDup_map_to_list.
    - intros [i v]. rewrite elem_of_list_filter, elem_of_map_to_list, map_filter_lookup_Some, (wf_iter _ W), elem_of_map_to_list. tauto. }
  by apply total_perm.
Qed.
Lemma total_iter E f (m : gmap N vinfo) : wf_env E → total_of f (e_iter E m).*2 = vsum f m.
Proof.
  intros W. unfold vsum. apply total_perm, (wf_iter _ W).
Qed.
Lemma to_lower_idem s : to_lower (to_lower s) = to_lower s.
Proof.
  induction s as [|c s IH]; [done|]. cbn. rewrite IH. f_equal. destruct c as [[] [] [] [] [] [] [] []]; reflexivity.
Qed.

Lemma served_proof H cfg l o E a w p : evolve H (new_oracle cfg) l o → wf_env E →
  merkle_proof E a w o = Ok (Answer p) →
  hex_text 40 a ∧ w_onchain w = Some (pf_root p, pf_slot p) ∧ pf_addr p = to_lower a ∧
  w_claimed w (to_lower a) = Some (pf_claimed p) ∧ pf_claimable p = (pf_balance p - pf_claimed p)%Z ∧
  ∃ l1 E1 l2 o1, l = l1 ++ Freeze E1 :: l2 ∧ evolve H (new_oracle cfg) l1 o1 ∧ st_latest (or_st o1) = pf_slot p ∧
    (∀ i, i ∈ pf_validators p ↔ ∃ v, st_vals (or_st o1) !! i = Some v ∧ to_lower (v_addr v) = to_lower a) ∧
    pf_pending p = vsum v_pend (filter (λ kv, to_lower (v_addr kv.2) = to_lower a) (st_vals (or_st o1))) ∧
    ∃ a20, spells a20 (to_lower a) ∧ entitled (or_st o1) a20 (pf_balance p) ∧
      (uint256 (pf_balance p) → ∃ pre root sibs, claim a20 (pf_balance p) pre ∧ pf_root p = "0x" +:+ hex_encode root ∧
        pf_proof p = (λ b, "0x" +:+ hex_encode b) <$> sibs ∧ proves H root sibs pre).
Proof.
  intros Hev W Hm. unfold merkle_proof, if_ready in Hm. case_match; [|discriminate].
  destruct (is_valid_address a) eqn:Hva; [|discriminate]. cbn [negb] in Hm. apply valid_address_spec in Hva.
  destruct (w_onchain w) as [[root slot]|] eqn:Ho; [|discriminate].
  destruct (st_committed (or_st o) !! slot) as [c|] eqn:Hc; [|discriminate].
  destruct (String.eqb_spec root (oc_root c)) as [->|]; [|discriminate]. cbn [negb] in Hm.
  destruct (oc_proofs c !! to_lower a) as [pr|] eqn:Hpr; [|discriminate].
  destruct (oc_leafs c !! to_lower a) as [leaf|] eqn:Hl; [|discriminate].
  unfold claimed_balance in Hm. rewrite (hex_text_address _ (to_lower_hex_text _ _ Hva)) in Hm. cbn [negb rbind] in Hm.
  destruct (w_claimed w (to_lower a)) as [z|] eqn:Hz; [|discriminate]. injection Hm as <-. cbn.
  apply (evolve_frozen _ _ _ _ Hev) in Hc as [Hc|(l1 & E1 & l2 & o1 & -> & W1 & Hev1 & Hs & Hlat)]; [cbn in Hc; by rewrite lookup_empty in Hc|].
  destruct (stored_leaf H E1 (or_st o1) c (to_lower a) leaf W1 Hs Hl) as (Hv & Hsl & Hla & a20 & Hsp & Hen & Hcl).
  split; [done|]. split; [congruence|]. do 3 (split; [done|]). exists l1, E1, l2, o1. do 2 (split; [done|]). split; [congruence|].
  rewrite Hv, to_lower_idem. split; [|split].
  - intros i. rewrite elem_of_list_fmap. split.
    + intros ([j v] & -> & [He Hin]%elem_of_list_filter). exists v. rewrite (wf_iter _ W), elem_of_map_to_list in Hin. done.
    + intros (v & Hin & He). exists (i, v). split; [done|]. rewrite elem_of_list_filter, (wf_iter _ W), elem_of_map_to_list. done.
  - by apply vsum_iter.
  - exists a20. split; [done|]. split; [done|]. intros Hu. destruct (Hcl Hu) as (pre & r & sibs & ? & ? & Hp' & ?).
    exists pre, r, sibs. split; [done|]. split; [done|]. split; [congruence|done].
Qed.

(** ** Lists of validators *)

Lemma split_at_nonnil c s : split_at c s ≠ [].
Proof. destruct s as [|a s]; cbn [split_at]; [done|]. destruct (Ascii.eqb a c); [done|]. by destruct (split_at c s). Qed.
Lemma split_at_concat c s : String.concat (String c "") (split_at c s) = s.
Proof.
  induction s as [|a s IH]; [done|]. cbn [split_at]. pose proof (split_at_nonnil c s) as Hn.
  destruct (Ascii.eqb_spec a c) as [->|Hne].
  - destruct (split_at c s) as [|w l]; [done|]. transitivity (String c "" +:+ String.concat (String c "") (w :: l)); [done|]. by rewrite IH.
  - destruct (split_at c s) as [|w [|w' l]]; [done|..]; rewrite <- IH; done.
Qed.
Definition sep_free (c : ascii) (s : string) : Prop := c ∉ list_ascii_of_string s.
Lemma split_at_free c s : sep_free c s → split_at c s = [s].
Proof.
  unfold sep_free. induction s as [|a s IH]; [done|]. cbn. rewrite not_elem_of_cons. intros [Hne Hs]. rewrite IH by done.
  destruct (Ascii.eqb_spec a c); [congruence|done].
Qed.
Lemma split_at_app c a b : sep_free c a → split_at c (a +:+ String c b) = a :: split_at c b.
Proof.
  unfold sep_free. induction a as [|x a IH]; [change ("" +:+ String c b) with (String c b); cbn [split_at]; by rewrite Ascii.eqb_refl|]. cbn [list_ascii_of_string].
  rewrite not_elem_of_cons. intros [Hne Hs]. change (String x a +:+ String c b) with (String x (a +:+ String c b)). cbn [split_at].
  rewrite IH by done. destruct (Ascii.eqb_spec x c); [congruence|done].
Qed.
Lemma split_concat c l : l ≠ [] → Forall (sep_free c) l → split_at c (String.concat (String c "") l) = l.
Proof.
  intros Hn H. induction H as [|a l Ha H IH]; [done|]. destruct l as [|b l].
  - by apply split_at_free.
  - transitivity (split_at c (a +:+ String c (String.concat (String c "") (b :: l)))); [done|].
    rewrite split_at_app by done. by rewrite IH.
Qed.
Lemma dec_text_free v : dec_text v → sep_free ","%char v.
Proof.
  intros [_ H]. unfold sep_free. intros Hin. rewrite Forall_forall in H. specialize (H _ Hin). apply existsb_ascii in H. discriminate H.
Qed.
Lemma ends_with_last c a s : ends_with c (a +:+ String s "") = Ascii.eqb s c.
Proof. induction a as [|x a IH]; [done|]. change (String x a +:+ String s "") with (String x (a +:+ String s "")). cbn. rewrite IH. by destruct a. Qed.
Lemma ends_with_spec c v : ends_with c v = true → ∃ a, v = a +:+ String c "".
Proof.
  induction v as [|x v IH]; [done|]. destruct v as [|y v].
  - cbn. intros ->%Ascii.eqb_eq. by exists "".
  - intros H. destruct IH as [a Ha]; [exact H|]. exists (String x a). by rewrite Ha.
Qed.
Lemma split_at_last c a : ∃ l, split_at c (a +:+ String c "") = l ++ [""].
Proof.
  induction a as [|x a [l IH]]; [exists [""]; change ("" +:+ String c "") with (String c ""); cbn [split_at]; by rewrite Ascii.eqb_refl|].
  change (String x a +:+ String c "") with (String x (a +:+ String c "")). cbn [split_at]. rewrite IH.
  destruct (Ascii.eqb_spec x c); [exists ("" :: l); done|].
  destruct l as [|w l]; [|by exists (String x w :: l)].
  exfalso. assert (length (split_at c (a +:+ String c "")) = 1%nat) as Hl by (by rewrite IH).
  clear -Hl. revert Hl. induction a as [|y a IH]; [change ("" +:+ String c "") with (String c ""); cbn [split_at]; rewrite Ascii.eqb_refl; done|].
  change (String y a +:+ String c "") with (String y (a +:+ String c "")). cbn [split_at].
  pose proof (split_at_nonnil c (a +:+ String c "")). destruct (Ascii.eqb y c); cbn.
  - destruct (split_at c (a +:+ String c "")); [done|]. done.
  - destruct (split_at c (a +:+ String c "")) as [|w' l']; [done|]. exact IH.
Qed.
Lemma mapM_index ts is : mapM is_valid_index ts = Some is ↔ Forall2 (λ t i, dec_text t ∧ dec_value t = i ∧ (i < 2 ^ 64)%N) ts is.
Proof.
  rewrite mapM_Some. split; (intros H; eapply Forall2_impl; [exact H|]); intros t i; cbn; apply valid_index_spec.
Qed.
Lemma concat_nonempty ts is : is ≠ [] → Forall2 (λ t i, dec_text t ∧ dec_value t = i ∧ (i < 2 ^ 64)%N) ts is → String.concat "," ts ≠ "".
Proof.
  intros Hn H. destruct H as [|t i ts is ([Ht _] & _) H]; [done|]. destruct t as [|c t]; [done|]. by destruct ts.
Qed.

(** The index endpoint's answer is determined by the indices asked for. *)
Definition index_answer (w : wire) (o : oracle) (is : list N) : list view * list N := find_loop (beacon w) (st_vals (or_st o)) is.
Lemma by_index_answer v w o is : asks v is → (length is ≤ 100)%nat → validators_by_index v w o = Answer (index_answer w o is).
Proof.
  intros (Hn & ts & -> & Hf) Hl. unfold validators_by_index.
  assert (Forall (sep_free ","%char) ts) as Hfree.
  { clear Hn Hl. induction Hf as [|t i ts is (Ht & _) Hf IH]; [constructor|]. apply Forall_cons. split; [by apply dec_text_free|done]. }
  assert (ts ≠ []) as Hts by (intros ->; by inversion Hf; subst).
  assert (split_at "," (String.concat "," ts) = ts) as Hsp by (by apply (split_concat ","%char)).
  destruct (String.eqb_spec (String.concat "," ts) "") as [He|_]; [by destruct (concat_nonempty _ _ Hn Hf)|].
  destruct (ends_with "," (String.concat "," ts)) eqn:Hend.
  - exfalso. apply ends_with_spec in Hend as [a Ha]. destruct (split_at_last ","%char a) as [l Hlst]. rewrite <- Ha, Hsp in Hlst.
    rewrite Hlst in Hf. apply Forall2_app_inv_l in Hf as (i1 & i2 & _ & Hf & _). inversion Hf as [|? ? ? ? ([He _] & _)]; subst. done.
  - cbn [orb]. rewrite Hsp. apply Forall2_length in Hf as Hlen. destruct (Nat.ltb_spec 100 (length ts)); [lia|].
    apply mapM_index in Hf. by rewrite Hf.
Qed.
Lemma by_index_asked v w o x : validators_by_index v w o = Answer x → ∃ is, asks v is ∧ (length is ≤ 100)%nat ∧ x = index_answer w o is.
Proof.
  unfold validators_by_index. destruct (_ || _); [discriminate|]. destruct (Nat.ltb_spec 100 (length (split_at "," v))); [discriminate|].
  destruct (mapM is_valid_index (split_at "," v)) as [is|] eqn:Hm; [|discriminate]. intros [= <-].
  apply mapM_index in Hm as Hf. apply Forall2_length in Hf as Hlen. exists is. split; [|split; [lia|done]]. split.
  - intros ->. pose proof (split_at_nonnil ","%char v). by destruct (split_at "," v).
  - exists (split_at "," v). split; [|done]. symmetry. apply (split_at_concat ","%char).
Qed.
Lemma find_loop_spec bs s is found missing : wf_records s → find_loop bs (st_vals s) is = (found, missing) →
  missing = filter (λ i, st_vals s !! i = None) is ∧
  Forall2 (λ i x, tracked_view bs s i x) (filter (λ i, is_Some (st_vals s !! i) ∧ is_Some (bs !! i)) is) found.
Proof.
  intros Hr. revert found missing. induction is as [|i is IH]; intros found missing; cbn [find_loop].
  { intros [= <- <-]. split; [done|constructor]. }
  destruct (find_loop bs (st_vals s) is) as [f m]. destruct (IH f m eq_refl) as [-> Hf]. rewrite !filter_cons.
  destruct (st_vals s !! i) as [v|] eqn:Hv.
  - destruct (Hr _ _ Hv) as [Hi _]. rewrite Hi. rewrite (decide_False (P := Some v = None)) by done.
    destruct (bs !! i) as [b|] eqn:Hb; intros [= <- <-]; (split; [done|]).
    + rewrite decide_True by (split; by eexists). constructor; [|done]. by split.
    + rewrite decide_False by (intros [_ [? ?]]; done). done.
  - rewrite (decide_True (P := None = None)) by done. rewrite decide_False by (intros [[? ?] _]; done).
    intros [= <- <-]. done.
Qed.
Lemma by_index_spec v w o found missing : wf_records (or_st o) →
  validators_by_index v w o = Answer (found, missing) ↔
  ∃ is, asks v is ∧ (length is ≤ 100)%nat ∧ missing = filter (λ i, st_vals (or_st o) !! i = None) is ∧
    Forall2 (tracked_view (beacon w) (or_st o)) (filter (λ i, is_Some (st_vals (or_st o) !! i) ∧ is_Some (beacon w !! i)) is) found.
Proof.
  intros Hr. split.
  - intros (is & Ha & Hl & Hx)%by_index_asked. symmetry in Hx. apply find_loop_spec in Hx as [-> Hf]; [|done]. by exists is.
  - intros (is & Ha & Hl & -> & Hf). rewrite (by_index_answer _ _ _ is) by done. f_equal. unfold index_answer.
    destruct (find_loop (beacon w) (st_vals (or_st o)) is) as [f m] eqn:Hx. apply find_loop_spec in Hx as [-> Hf']; [|done].
    f_equal. clear -Hf Hf'. revert f Hf'. induction Hf as [|i x l found [H1 H2] Hf IH]; intros f Hf'; inversion Hf' as [|? y ? ? [H3 H4]]; subst; [done|].
    f_equal; [|by apply IH]. destruct x, y. cbn in *. congruence.
Qed.

Lemma elem_of_views bs vs x : x ∈ views bs vs ↔ vw_info x ∈ vs ∧ bs !! v_index (vw_info x) = Some (vw_beacon x).
Proof.
  unfold views. rewrite elem_of_list_omap. split.
  - intros (v & Hv & (b & Hb & ->)%fmap_Some). done.
  - intros [Hv Hb]. exists (vw_info x). split; [done|]. rewrite Hb. by destruct x.
Qed.
Global Instance index_le_trans : Transitive index_le.
Proof. intros a b c. unfold index_le. lia. Qed.
Global Instance index_le_total : Total index_le.
Proof. intros a b. unfold index_le. lia. Qed.
Lemma views_sorted bs vs : StronglySorted index_le vs → NoDup (v_index <$> vs) → by_rising_index (views bs vs).
Proof.
  unfold by_rising_index. induction 1 as [|v vs Hs IH Hf]; [constructor|]. cbn. intros [Hni Hnd]%NoDup_cons. specialize (IH Hnd).
  destruct (bs !! v_index v) as [b|]; cbn; [|done]. constructor; [done|]. apply Forall_forall. intros x [Hx _]%elem_of_views. cbn.
  rewrite Forall_forall in Hf. specialize (Hf _ Hx). unfold index_le in Hf.
  assert (v_index v ≠ v_index (vw_info x)); [|lia]. intros He. apply Hni. rewrite He. by apply elem_of_list_fmap_1.
Qed.
Lemma listing E bs (m : gmap N vinfo) : wf_env E → (∀ i v, m !! i = Some v → v_index v = i) →
  by_rising_index (views bs (by_index (e_iter E m).*2)) ∧
  ∀ x, x ∈ views bs (by_index (e_iter E m).*2) ↔ m !! v_index (vw_info x) = Some (vw_info x) ∧ bs !! v_index (vw_info x) = Some (vw_beacon x).
Proof.
  intros W Hm. split.
  - apply views_sorted.
    + apply (StronglySorted_merge_sort index_le).
    + unfold by_index. rewrite (merge_sort_Permutation index_le). rewrite (wf_iter _ W).
      replace (v_index <$> (map_to_list m).*2) with (map_to_list m).*1; [apply NoDup_fst_map_to_list|].
      assert (∀ l, (∀ i v, (i, v) ∈ l → v_index v = i) → l.*1 = v_index <$> l.*2) as Hl.
      { induction l as [|[i v] l IH]; [done|]. intros H. cbn. rewrite (H i v), IH by (intros; try apply H; by (left || right)). done. }
      apply Hl. intros i v Hin%elem_of_map_to_list. by apply Hm.
  - intros x. rewrite elem_of_views. unfold by_index. rewrite (merge_sort_Permutation index_le), iter_values by done.
    split; [|naive_solver]. intros [[i Hi] Hb]. split; [|done]. by rewrite (Hm _ _ Hi).
Qed.

(** ** Statistics *)

Lemma tally_status E st (s : ost) : wf_env E → tally st (e_iter E (st_vals s)).*2 = with_status st s.
Proof.
  intros W. unfold tally, with_status. f_equal. unfold size, map_size.
  transitivity (length (filter (λ v, v_status v = st) (map_to_list (st_vals s)).*2)).
  { by rewrite (wf_iter _ W). }
  transitivity (length (filter (λ kv : N * vinfo, v_status kv.2 = st) (map_to_list (st_vals s)))).
  { generalize (map_to_list (st_vals s)). intros l. induction l as [|x l IH]; [done|]. rewrite fmap_cons, !filter_cons.
    destruct (decide (v_status x.2 = st)); cbn; by rewrite IH. }
  apply Permutation_length. apply NoDup_Permutation.
  - apply NoDup_filter, NoDup_map_to_list.
  - apply NoDup_map_to_list.
  - intros [i v]. rewrite elem_of_list_filter, !elem_of_map_to_list, map_filter_lookup_Some. tauto.
Qed.
Lemma sent_loop_spec limit l a r n x : sent_loop limit l (a, r, n) = Ok x →
  x = ((a + sum_of (rewards_of (filter (λ b, sb_type b = OkPoolProposal ∧ after_bound None (sb_slot b)) l)))%Z,
       (r + sum_of (rewards_of (filter (λ b, sb_type b = OkPoolProposal ∧ after_bound (Some limit) (sb_slot b)) l)))%Z,
       (n + N.of_nat (length (filter (λ b, sb_type b = OkPoolProposal ∧ after_bound None (sb_slot b)) l)))%N).
Proof.
  revert a r n. induction l as [|b l IH]; intros a r n; cbn [sent_loop].
  { intros [= <-]. cbn. by rewrite !Z.add_0_r, N.add_0_r. }
  rewrite !filter_cons. destruct (sb_type b) eqn:Hty;
    try (intros ->%IH; rewrite !decide_False by (by intros [? _]); done).
  unfold deref_reward. destruct (sb_reward b) as [z|] eqn:Hz; cbn [rbind]; [|done]. intros ->%IH.
  rewrite !(decide_True (P := OkPoolProposal = OkPoolProposal ∧ after_bound None _)) by done. cbn [after_bound].
  unfold rewards_of. rewrite fmap_cons. cbn [length]. rewrite Hz. cbn [sum_of foldr default].
  f_equal; [f_equal|].
  - unfold sum_of. cbn. lia.
  - destruct (N.ltb_spec limit (sb_slot b)) as [Hlt|Hge].
    + rewrite decide_True by done. rewrite fmap_cons. cbn. rewrite Hz. cbn. unfold sum_of. lia.
    + rewrite decide_False by (intros [_ ?]; lia). done.
  - lia.
Qed.
Lemma donated_loop_spec limit l d a r :
  donated_loop limit l (d, a, r) =
  ((d + sum_of (er_amount <$> filter (λ e, after_bound None (l_block (er_log e))) l))%Z,
   (a + sum_of (er_amount <$> filter (λ e, after_bound None (l_block (er_log e))) l))%Z,
   (r + sum_of (er_amount <$> filter (λ e, after_bound (Some limit) (l_block (er_log e))) l))%Z).
Proof.
  revert d a r. induction l as [|e l IH]; intros d a r; cbn [donated_loop]; [cbn; by rewrite !Z.add_0_r|].
  rewrite IH, !filter_cons. cbn [after_bound]. rewrite (decide_True (P := True)) by done. rewrite fmap_cons. unfold sum_of. cbn [foldr].
  f_equal; [f_equal; lia|]. destruct (N.ltb_spec limit (l_block (er_log e))).
  - rewrite decide_True by done. rewrite fmap_cons. cbn. lia.
  - rewrite decide_False by lia. done.
Qed.

Lemma statistics_spec E w o b : wf_env E → statistics E w o = Ok (Answer b) →
  let s := or_st o in
  let month_slot := Some (st_latest s - 216000)%N in let month_block := Some (st_latest_block s - 216000)%N in
  (ss_active b = with_status Active s ∧ ss_yellow b = with_status YellowCard s ∧ ss_red b = with_status RedCard s ∧
   ss_banned b = with_status Banned s ∧ ss_unsubscribed b = with_status NotSubscribed s ∧
   ss_subscribed b = (ss_active b + ss_yellow b + ss_red b)%N) ∧
  (ss_accumulated b = vsum v_acc (st_vals s) ∧ ss_pending b = vsum v_pend (st_vals s)) ∧
  (ss_donations b = sum_of (donated_after None s) ∧
   ss_sent b = (sum_of (rewards_of (pool_blocks None s)) + ss_donations b)%Z ∧
   ss_sent30 b = (sum_of (rewards_of (pool_blocks month_slot s)) + sum_of (donated_after month_block s))%Z) ∧
  (ss_proposed b = N.of_nat (length (st_proposed s)) ∧ ss_missed b = N.of_nat (length (st_missed s)) ∧ ss_wrong b = N.of_nat (length (st_wrong s))) ∧
  ss_per_validator b = (if decide (ss_subscribed b = 0%N) then 0 else ss_sent30 b / Z.of_N (ss_active b + ss_yellow b))%Z ∧
  ss_avg_block b = (if decide (pool_blocks None s = []) then 0 else ss_sent b / Z.of_nat (length (pool_blocks None s)))%Z ∧
  ss_latest_checkpoint b = st_latest s ∧ ss_next_checkpoint b = u64_add (st_latest s) (c_cp_size (or_cfg o)).
Proof.
  intros W. unfold statistics, if_ready. case_match; [|done]. case_match; [done|]. case_match; [done|].
  rewrite !tally_status by done. set (s := or_st o) in *.
  destruct (sent_loop _ _ _) as [x|] eqn:Hx; [|done]. apply sent_loop_spec in Hx as ->. cbn [rbind].
  rewrite donated_loop_spec. fold (pool_blocks None s). fold (pool_blocks (Some (st_latest s - slots_in_month)%N) s).
  fold (donated_after None s). fold (donated_after (Some (st_latest_block s - slots_in_month)%N) s).
  rewrite !Z.add_0_l, !total_iter by done. unfold slots_in_month in *.
  set (sub := (with_status Active s + with_status YellowCard s + with_status RedCard s)%N).
  intros Hb.
  assert (0 < with_status Active s + with_status YellowCard s ∨ sub = 0)%N as Hd.
  { destruct (N.eqb_spec sub 0) as [|]; [by right|]. destruct (N.eqb_spec (with_status Active s + with_status YellowCard s) 0); [discriminate|]. left. lia. }
  match type of Hb with (rbind ?x _) = _ => destruct x as [per|] eqn:Hper; [|discriminate] end. cbn [rbind] in Hb.
  injection Hb as <-. cbn. do 3 (split; [done|]). split; [done|].
  split; [|split; [|done]].
  - fold sub. destruct (decide (sub = 0%N)) as [Hz|Hz].
    + rewrite (proj2 (N.eqb_eq _ _) Hz) in Hper. congruence.
    + rewrite (proj2 (N.eqb_neq _ _) Hz) in Hper. destruct Hd as [Hd|]; [|done].
      rewrite (proj2 (N.eqb_neq _ _)) in Hper by lia. injection Hper as <-. unfold go_div.
      destruct (Z.ltb_spec 0 (Z.of_N (with_status Active s + with_status YellowCard s))); [done|lia].
  - destruct (pool_blocks None s) as [|x l] eqn:Hl; [done|]. rewrite decide_False by done.
    cbn [length]. destruct (N.eqb_spec (0 + N.of_nat (S (length l))) 0); [lia|]. unfold go_div.
    rewrite N.add_0_l, nat_N_Z. destruct (Z.ltb_spec 0 (Z.of_nat (S (length l)))); [done|lia].
Qed.

(** ** Relays *)

Lemma equals_names E a pool pool20 : names pool20 pool → String.length a = 20%nat →
  equals (addr_string (e_mask E) a) pool = Ok (bool_decide (a = pool20)).
Proof.
  intros [Hl Hn] Ha. unfold equals.
  rewrite <- (to_lower_length pool), Hn, addr_string_length, string_length_app, hex_encode_length, Ha, Hl, to_lower_addr. cbn [String.length Nat.mul Nat.add Nat.eqb].
  f_equal. destruct (String.eqb_spec ("0x" +:+ hex_encode a) ("0x" +:+ hex_encode pool20)) as [He|Hne].
  - apply app_prefix_inj, hex_encode_inj in He. by rewrite bool_decide_eq_true_2.
  - rewrite bool_decide_eq_false_2; [done|]. by intros ->.
Qed.
Definition relay_names (E : env) (P : string → Prop) `{!∀ a, Decision (P a)} (l : list (string * relay_answer)) : list (string * string) :=
  omap (λ x, match x.2 with RelayFee f => if decide (P f) then Some (x.1, addr_string (e_mask E) f) else None | _ => None end) l.
Lemma relay_loop_spec E pool pool20 l b b' : names pool20 pool → (∀ name f, (name, RelayFee f) ∈ l → String.length f = 20%nat) →
  relay_loop E pool l b = Ok (Some b') →
  (∀ name, (name, RelayError) ∉ l) ∧
  rl_correct b' = rl_correct b ++ relay_names E (λ f, f = pool20) l ∧ rl_wrong b' = rl_wrong b ++ relay_names E (λ f, f ≠ pool20) l ∧
  rl_unknown b' = rl_unknown b ++ omap (λ x, match x.2 with RelayUnknown => Some x.1 | _ => None end) l.
Proof.
  intros Hp. revert b. induction l as [|[name a] l IH]; intros b Hf; cbn [relay_loop].
  { intros [= <-]. cbn. rewrite !app_nil_r. split; [|done]. intros ? ?%elem_of_nil. done. }
  assert (∀ name f, (name, RelayFee f) ∈ l → String.length f = 20%nat) as Hf' by (intros; eapply Hf; by right).
  destruct a as [| |f]; [discriminate|..].
  - intros (H1 & H2 & H3 & H4)%IH; [|done]. cbn in *. rewrite H2, H3, H4. rewrite <- app_assoc. cbn. split; [|done].
    intros nm [[=]|?]%elem_of_cons. by eapply H1.
  - rewrite (equals_names E f pool pool20) by (done || (eapply Hf; by left)). cbn [rbind].
    destruct (decide (f = pool20)) as [He|He].
    + rewrite bool_decide_eq_true_2 by done. intros (H1 & H2 & H3 & H4)%IH; [|done]. cbn in *. rewrite H2, H3, H4.
      unfold relay_names. cbn [omap list_omap snd]. rewrite decide_True by done. rewrite decide_False by tauto. rewrite <- app_assoc. split; [|done].
      intros nm [[=]|?]%elem_of_cons. by eapply H1.
    + rewrite bool_decide_eq_false_2 by done. intros (H1 & H2 & H3 & H4)%IH; [|done]. cbn in *. rewrite H2, H3, H4.
      unfold relay_names. cbn [omap list_omap snd]. rewrite decide_False by done. rewrite decide_True by tauto. rewrite <- app_assoc. split; [|done].
      intros nm [[=]|?]%elem_of_cons. by eapply H1.
Qed.
Lemma relay_names_nil E (P : string → Prop) `{!∀ a, Decision (P a)} l : relay_names E P l = [] ↔ ∀ name f, (name, RelayFee f) ∈ l → ¬ P f.
Proof.
  unfold relay_names. induction l as [|[name a] l IH]; cbn.
  { split; [by intros _ ? ? ?%elem_of_nil|done]. }
  destruct a as [| |f]; cbn.
  1,2: rewrite IH; split; [intros Hq nm g [[=]|?]%elem_of_cons; by eapply Hq|intros Hq nm g ?; eapply Hq; by right].
  destruct (decide (P f)) as [Hp|Hp].
  - split; [done|]. intros Hq. destruct (Hq name f); [by left|done].
  - rewrite IH. split; [intros Hq nm g [[= -> ->]|?]%elem_of_cons; [done|by eapply Hq]|intros Hq nm g ?; eapply Hq; by right].
Qed.
Lemma relays_spec E key w o pool20 b : wf_wire w → names pool20 (c_pool (or_cfg o)) →
  registered_relays E key w o = Ok (Answer b) →
  (∀ name, (name, RelayError) ∉ w_relays w) ∧
  (rl_ok b = true ↔ (∃ name, (name, RelayFee pool20) ∈ w_relays w) ∧ ∀ name f, (name, RelayFee f) ∈ w_relays w → f = pool20) ∧
  (∀ name, name ∈ rl_unknown b ↔ (name, RelayUnknown) ∈ w_relays w) ∧
  (∀ name, name ∈ (rl_correct b).*1 ↔ (name, RelayFee pool20) ∈ w_relays w) ∧
  (∀ name, name ∈ (rl_wrong b).*1 ↔ ∃ f, (name, RelayFee f) ∈ w_relays w ∧ f ≠ pool20).
Proof.
  intros Ww Hp. unfold registered_relays. destruct (is_valid_pubkey key); cbn [negb]; [|done].
  destruct (relay_loop _ _ _ _) as [[b0|]|] eqn:Hl; cbn [rbind]; [|done..]. intros [= <-].
  apply (relay_loop_spec _ _ pool20) in Hl as (H1 & H2 & H3 & H4); [|done|apply (ww_relays _ Ww)]. cbn in H2, H3, H4.
  cbn [rl_ok rl_correct rl_wrong rl_unknown]. split; [done|].
  assert (∀ P `{!∀ a, Decision (P a)} name, name ∈ (relay_names E P (w_relays w)).*1 ↔ ∃ f, (name, RelayFee f) ∈ w_relays w ∧ P f) as Hin.
  { intros P HP name. unfold relay_names. rewrite elem_of_list_fmap. split.
    - intros ([nm str] & -> & ([nm' a] & Hx & Ha)%elem_of_list_omap). cbn in Ha. destruct a as [| |f]; [done..|].
      destruct (decide (P f)); [|done]. injection Ha as -> _. by exists f.
    - intros (f & Hx & Hf). exists (name, addr_string (e_mask E) f). split; [done|]. apply elem_of_list_omap.
      exists (name, RelayFee f). split; [done|]. cbn. by rewrite decide_True. }
  split; [|split; [|split]].
  - rewrite H3, H2. destruct (relay_names E (λ f, f ≠ pool20) (w_relays w)) as [|y l] eqn:Hw.
    + assert (∀ name f, (name, RelayFee f) ∈ w_relays w → f = pool20) as Hall.
      { intros name f Hx. destruct (decide (f = pool20)); [done|]. by apply (proj1 (relay_names_nil E _ _) Hw) in Hx. }
      destruct (relay_names E (λ f, f = pool20) (w_relays w)) as [|[nm s] l'] eqn:Hc.
      * split; [done|]. intros [[name Hx] _]. by apply (proj1 (relay_names_nil E _ _) Hc) in Hx.
      * split; [|done]. intros _. split; [|done].
        destruct (proj1 (Hin (λ f, f = pool20) _ nm)) as (f & Hx & ->); [rewrite Hc; by left|]. eauto.
    + split; [done|]. intros [_ Hall]. exfalso. destruct y as [nm s].
      destruct (proj1 (Hin (λ f, f ≠ pool20) _ nm)) as (f & Hx & Hne); [rewrite Hw; by left|]. apply Hne. by eapply Hall.
  - intros name. rewrite H4, elem_of_list_omap. split.
    + intros ([nm a] & Hx & Ha). destruct a; cbn in Ha; [done| |done]. by injection Ha as ->.
    + intros Hx. by exists (name, RelayUnknown).
  - intros name. rewrite H2, Hin. naive_solver.
  - intros name. by rewrite H3, Hin.
Qed.

(** ** Status *)

Lemma u64_sub_le a b : (b ≤ a)%N → (a < 2 ^ 64)%N → u64_sub a b = (a - b)%N.
Proof.
  intros H Ha. unfold u64_sub, u64. change two64 with (2 ^ 64)%N. change (2 ^ 64)%N with 18446744073709551616%N in *.
  rewrite (N.mod_small b) by lia. replace (a + (18446744073709551616 - b))%N with ((a - b) + 1 * 18446744073709551616)%N by lia.
  rewrite N.mod_add by lia. apply N.mod_small. lia.
Qed.
Lemma u64_sub_zero a b : (a < 2 ^ 64)%N → (b < 2 ^ 64)%N → u64_sub a b = 0%N ↔ a = b.
Proof.
  intros Ha Hb. split; [|intros ->; rewrite u64_sub_le by lia; lia].
  destruct (N.le_gt_cases b a) as [H|H]; [rewrite u64_sub_le by lia; lia|].
  unfold u64_sub, u64. change two64 with (2 ^ 64)%N. change (2 ^ 64)%N with 18446744073709551616%N in *.
  rewrite (N.mod_small b), N.mod_small by lia. lia.
Qed.
Lemma status_spec w o b : handle_status w o = Ok (Answer b) →
  let s := or_st o in
  ∃ dist f root slot, w_sync w = SyncAt dist ∧ w_final w = Some f ∧ w_onchain w = Some (root, slot) ∧
    sy_finalized b = f ∧ sy_latest b = st_latest s ∧ sy_previous b = slot ∧ (sy_consensus b = true ↔ (dist ≤ 1)%N) ∧
    ((f < 2 ^ 64)%N → (st_latest s < 2 ^ 64)%N → (sy_oracle b = true ↔ st_latest s = f)) ∧
    ((f < 2 ^ 64)%N → (st_latest s ≤ f)%N → (st_latest s + sy_distance b = f)%N) ∧
    ((f < 2 ^ 60)%N → (slot ≤ f)%N → (c_cp_size (or_cfg o) < 2 ^ 60)%N →
      sy_next b = (slot + c_cp_size (or_cfg o))%N ∧ sy_age b = ((f - slot) * 12)%N ∧ sy_remaining b = ((sy_next b - f) * 12)%N).
Proof.
  unfold handle_status. destruct (w_chain w) as [ch|]; [|done]. destruct (w_deposit w) as [[? ?]|]; [|done]. destruct (w_exec w) as [ex|]; [|done].
  destruct (w_sync w) as [| | |dist]; [done..|]. destruct (w_final w) as [f|]; [|done]. destruct (w_onchain w) as [[root slot]|]; [|done].
  intros [= <-]. cbn. exists dist, f, root, slot. do 6 (split; [done|]).
  split; [rewrite N.ltb_lt; lia|].
  split; [intros H1 H2; rewrite N.eqb_eq; by apply u64_sub_zero|].
  split; [intros H1 H2; rewrite u64_sub_le by done; lia|].
  intros H1 H2 H3. change (2 ^ 60)%N with 1152921504606846976%N in *.
  assert (u64_add slot (c_cp_size (or_cfg o)) = slot + c_cp_size (or_cfg o))%N as ->.
  { unfold u64_add, u64. apply N.mod_small. change two64 with 18446744073709551616%N. lia. }
  split; [done|]. unfold u64_mul, u64. change two64 with 18446744073709551616%N. split.
  - rewrite u64_sub_le by (change (2 ^ 64)%N with 18446744073709551616%N; lia). apply N.mod_small. lia.
  - destruct (N.ltb_spec f (slot + c_cp_size (or_cfg o))) as [Hlt|Hge].
    + rewrite u64_sub_le by (change (2 ^ 64)%N with 18446744073709551616%N; lia). apply N.mod_small. lia.
    + replace (slot + c_cp_size (or_cfg o) - f)%N with 0%N by lia. done.
Qed.
