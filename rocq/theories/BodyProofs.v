(** Reading the texts of the answers. *)
From Verif Require Import ApiProofs CodecProofs JsonProofs.
From Verif Require Export SyncProofs ServeProofs BodySpec.

Lemma under_entry {A} k (f : json → option A) l v : filter (λ kv, kv.1 = k) l = [(k, v)] → under k f (JObj l) = f v.
Proof. intros H. unfold under. by rewrite H. Qed.
Lemma whole_Z z : whole (print_Z z) = Some z.
Proof. exact (read_big_print z). Qed.
Lemma print_N_Z n : print_N n = print_Z (Z.of_N n).
Proof. by destruct n. Qed.
Lemma whole_N n : whole (print_N n) = Some (Z.of_N n).
Proof. rewrite print_N_Z. apply whole_Z. Qed.
Lemma number_N n : as_number (enc_u64 n) = Some (Z.of_N n).
Proof. apply whole_N. Qed.
Lemma number_Z z : as_number (enc_big z) = Some z.
Proof. apply whole_Z. Qed.
Lemma amount_N n : as_amount (u64_text n) = Some (Z.of_N n).
Proof. apply whole_N. Qed.
Lemma amount_Z z : as_amount (big_text z) = Some z.
Proof. apply whole_Z. Qed.
Lemma reward_text z : as_reward (ptr_text z) = Some z.
Proof.
  destruct z as [z|]; [|done]. cbn [ptr_text]. unfold as_reward, big_text.
  destruct (String.eqb_spec (print_Z z) "<nil>") as [E|_]; [|by rewrite whole_Z].
  pose proof (whole_Z z) as H. rewrite E in H. discriminate.
Qed.
Lemma list_read {A B} (enc : A → json) (dec : json → option B) (g : A → B) l : (∀ x, dec (enc x) = Some (g x)) →
  as_list dec (enc_list enc l) = Some (g <$> l).
Proof. intros H. cbn. apply mapM_fmap_some. apply Forall_true. done. Qed.
Lemma slice_read {A B} (enc : A → json) (dec : json → option B) (g : A → B) l : (∀ x, dec (enc x) = Some (g x)) →
  as_maybe_list dec (enc_slice enc l) = Some (g <$> l).
Proof. intros H. destruct l as [|x l]; [done|]. exact (list_read enc dec g (x :: l) H). Qed.

Ltac rd := repeat (erewrite under_entry by reflexivity; cbn [as_text as_flag];
  try first [rewrite number_N|rewrite number_Z|rewrite amount_N|rewrite amount_Z|rewrite reward_text]; cbn [mbind option_bind]).

Lemma block_read b : read_block (block_json b) = Some (block_facts b).
Proof. unfold read_block, block_json. rd. unfold block_facts. by destruct (sb_type b), (sb_reward_type b). Qed.
Lemma donation_read mask e : read_donation (donation_json mask e) = Some (donation_facts mask e).
Proof. unfold read_donation, donation_json. by rd. Qed.
Lemma view_read X x : read_view (view_json X x) = Some (view_facts X x).
Proof.
  unfold read_view, read_val, read_beacon, view_json. rd. unfold view_facts, val_facts.
  by destruct (v_status (vw_info x)), (v_sub (vw_info x)).
Qed.
Lemma info_read v : read_val as_number (enc_vinfo v) = Some (val_facts v).
Proof. unfold read_val, enc_vinfo. rd. unfold val_facts. by destruct (v_status v), (v_sub v). Qed.
Lemma relay_read X r : read_relay (relay_json X r) = Some (relay_facts X r).
Proof. unfold read_relay, relay_json. by rd. Qed.
Lemma unknown_read n : read_relay (unknown_json n) = Some (RelayRow n "" "").
Proof. unfold read_relay, unknown_json. by rd. Qed.

(** ** The texts are JSON *)
Lemma wf_list {A} (enc : A → json) l : (∀ x, wf_json (enc x)) → wf_json (enc_list enc l).
Proof. intros H. apply wf_arr, Forall_fmap, Forall_true. done. Qed.
Lemma wf_slice {A} (enc : A → json) l : (∀ x, wf_json (enc x)) → wf_json (enc_slice enc l).
Proof. intros H. destruct l; [done|]. by apply wf_list. Qed.
Lemma wf_u64 n : wf_json (enc_u64 n).
Proof. apply print_N_lit. Qed.
Lemma wf_big z : wf_json (enc_big z).
Proof. apply print_Z_lit. Qed.
Lemma wf_ptr z : wf_json (ptr_text z).
Proof. by destruct z. Qed.
Lemma wf_map {A} (l : list (string * A)) enc : (∀ x, wf_json (enc x)) → wf_json (enc_map l enc).
Proof. intros H. apply wf_obj, Forall_fmap, Forall_true. intros x. apply H. Qed.
Ltac wfs := wf_fields; first [done|apply wf_u64|apply wf_big|apply wf_ptr|idtac].
Lemma wf_vinfo v : wf_json (enc_vinfo v).
Proof. unfold enc_vinfo. wfs. Qed.
Lemma wf_log x : wf_json (enc_log x).
Proof. unfold enc_log. wfs. by apply wf_list. Qed.
Lemma wf_sub x : wf_json (enc_sub x).
Proof. unfold enc_sub. wfs. apply wf_log. Qed.
Lemma wf_unsub x : wf_json (enc_unsub x).
Proof. unfold enc_unsub. wfs. apply wf_log. Qed.
Lemma wf_ether x : wf_json (enc_ether x).
Proof. unfold enc_ether. wfs. apply wf_log. Qed.
Lemma wf_block x : wf_json (enc_block x).
Proof. unfold enc_block. wfs. destruct (sb_reward x); [apply wf_big|done]. Qed.
Lemma wf_leaf x : wf_json (enc_leaf x).
Proof. unfold enc_leaf. wfs. Qed.
Lemma wf_onchain x : wf_json (enc_onchain x).
Proof.
  unfold enc_onchain. wfs; unfold enc_nmap, enc_smap; apply wf_map; [apply wf_vinfo|apply wf_leaf|]. intros l. by apply wf_list.
Qed.
Lemma wf_state s : wf_json (enc_state s).
Proof.
  unfold enc_state. wfs; first [apply wf_list; first [apply wf_sub|apply wf_unsub|apply wf_ether|apply wf_block]|apply wf_map; first [apply wf_vinfo|apply wf_onchain]].
Qed.
Lemma wf_view X x : wf_json (view_json X x).
Proof. unfold view_json. wfs. Qed.
Lemma wf_body X mask b : wf_json (body_json X mask b).
Proof.
  destruct b; cbn [body_json].
  - done.
  - unfold status_json. wfs.
  - unfold config_json. wfs.
  - unfold relays_json. wfs; apply wf_slice; intros x; unfold relay_json, unknown_json; wfs.
  - apply wf_state.
  - apply wf_list, wf_view.
  - apply wf_vinfo.
  - wfs; apply wf_slice; [apply wf_view|apply wf_u64].
  - unfold fees_json. wfs.
  - unfold stats_json. wfs.
  - apply wf_list. intros x. unfold block_json. wfs.
  - apply wf_list. intros x. unfold donation_json. wfs.
  - unfold proof_json. wfs; apply wf_list; [done|apply wf_u64].
Qed.

(** ** Requests and their bodies *)
Definition fits (r : request) (b : body) : Prop :=
  match r, b with
  | GetRoot, BText _ | GetStatus, BStatus _ | GetConfig, BConfig _ | GetRelays _, BRelays _ | GetState, BState _
  | GetValidators, BViews _ | GetByWithdrawal _, BViews _ | GetValidator _, BInfo _ | GetByIndex _, BFound _ _
  | GetFees, BFees _ _ _ | GetStatistics, BStats _ | GetAllBlocks, BBlocks _ | GetProposed, BBlocks _ | GetMissed, BBlocks _
  | GetWrongFee, BBlocks _ | GetDonations, BDonations _ | GetProof _, BProof _ => True
  | _, _ => False
  end.
Lemma body_read X mask r b : fits r b → read_body r (body_json X mask b) = Some (facts X mask b).
Proof.
  destruct r, b; try done; intros _; cbn [body_json read_body].
  - unfold status_json, read_each. rd. cbn [mapM]. by rd.
  - unfold config_json. by rd.
  - unfold relays_json. erewrite under_entry by reflexivity. cbn [as_flag mbind option_bind].
    erewrite under_entry by reflexivity. rewrite (slice_read _ _ _ _ (relay_read X)). cbn [mbind option_bind].
    erewrite under_entry by reflexivity. rewrite (slice_read _ _ _ _ (relay_read X)). cbn [mbind option_bind].
    erewrite under_entry by reflexivity. by rewrite (slice_read _ _ _ _ unknown_read).
  - unfold enc_state. by rd.
  - by rewrite (list_read _ _ _ _ (view_read X)).
  - by rewrite info_read.
  - do 2 (erewrite under_entry by reflexivity). rewrite (slice_read _ _ _ _ (view_read X)), (slice_read _ _ _ _ number_N). done.
  - by rewrite (list_read _ _ _ _ (view_read X)).
  - unfold fees_json. by rd.
  - unfold stats_json, read_each. cbn [mapM]. by rd.
  - by rewrite (list_read _ _ _ _ block_read).
  - by rewrite (list_read _ _ _ _ block_read).
  - by rewrite (list_read _ _ _ _ block_read).
  - by rewrite (list_read _ _ _ _ block_read).
  - by rewrite (list_read _ _ _ _ (donation_read mask)).
  - unfold proof_json. rd. rewrite (list_read JStr as_text id) by done. rewrite (list_read _ _ _ _ number_N). rd. by rewrite list_fmap_id.
Qed.

(** Every handler answers with its own kind of body, and refuses with another status than 200. *)
Definition no_200 {A} (x : res (reply A)) : Prop := match x with Ok (Refuse c _) => c ≠ 200%N | _ => True end.
Lemma no_200_bind {A B} (x : res B) (f : B → res (reply A)) : (∀ y, no_200 (f y)) → no_200 (rbind x f).
Proof. intros H. destruct x; [apply H|done]. Qed.
Lemma no_200_map {A B} (f : A → B) (x : res (reply A)) (P : B → Prop) rep : no_200 x → (∀ a, P (f a)) →
  (let! y := x in Ok (reply_map f y)) = Ok rep → match rep with Answer b => P b | Refuse c _ => c ≠ 200%N end.
Proof. destruct x as [[a|c m]|]; cbn; [..|discriminate]; intros Hx Hf [= <-]; [apply Hf|done]. Qed.
Ltac no200 := unfold if_ready; cbv zeta; repeat first [done|apply no_200_bind; intros|case_match].
Lemma serve_fits sha E r w o rep : serve sha E r w o = Ok rep →
  match rep with Answer b => fits r b | Refuse c _ => c ≠ 200%N end.
Proof.
  destruct r; cbn [serve].
  all: try (apply (no_200_map _ _ (fits _)); [|done]).
  all: try (intros [= <-]; done).
  - unfold handle_status. no200.
  - unfold registered_relays. no200.
  - unfold all_validators. no200.
  - unfold one_validator. no200.
  - assert (no_200 (Ok (validators_by_index is w o))) as Hn by (unfold validators_by_index; cbv zeta; repeat case_match; done).
    destruct (validators_by_index is w o) as [[x y]|c m]; cbn; intros [= <-]; done.
  - unfold validators_by_withdrawal. no200.
  - unfold statistics. no200.
  - unfold merkle_proof. no200.
Qed.

(** C95 *)
Lemma answer_read X sha E r w o rep : serve sha E r w o = Ok rep →
  client r (reply_status rep) (response_text X (e_mask E) rep) =
    Some (match rep with Answer b => facts X (e_mask E) b | Refuse c m => TRefused (Z.of_N c) m end).
Proof.
  intros Hs%serve_fits. unfold client, response_text. destruct rep as [b|c m].
  - rewrite (parse_compact _ (wf_body X (e_mask E) b)). cbn [mbind option_bind reply_status]. by apply body_read.
  - rewrite parse_compact by (unfold error_json; wfs). cbn [mbind option_bind reply_status].
    apply N.eqb_neq in Hs as ->. unfold read_error, error_json. by rd.
Qed.
Lemma books_read X sha E r w o rep : plain_read r → serve sha E r w o = Ok rep →
  ∃ b, rep = Answer b ∧ reads sha o r b ∧ client r 200 (response_text X (e_mask E) rep) = Some (facts X (e_mask E) b).
Proof.
  intros Hp Hs. pose proof (answer_read X sha E r w o rep Hs) as Hc. apply (serve_reads sha E r w o rep Hp) in Hs as (b & -> & Hb).
  exists b. split; [done|]. split; [done|]. exact Hc.
Qed.

(** C96 *)
Lemma claim_read X H sha cfg l o E a w rep addr bal root slot proof vals total claimed claimable pending :
  evolve H (new_oracle cfg) l o → wf_env E → serve sha E (GetProof a) w o = Ok rep →
  client (GetProof a) (reply_status rep) (response_text X (e_mask E) rep) =
    Some (TProof addr bal root slot proof vals total claimed claimable pending) →
  addr = to_lower a ∧ total = bal ∧ w_onchain w = Some (root, Z.to_N slot) ∧ w_claimed w addr = Some claimed ∧
  claimable = (bal - claimed)%Z ∧
  ∃ l1 E1 l2 o1, l = l1 ++ Freeze E1 :: l2 ∧ evolve H (new_oracle cfg) l1 o1 ∧ Z.of_N (st_latest (or_st o1)) = slot ∧
    (∀ i, Z.of_N i ∈ vals ↔ ∃ v, st_vals (or_st o1) !! i = Some v ∧ to_lower (v_addr v) = addr) ∧
    pending = vsum v_pend (filter (λ kv, to_lower (v_addr kv.2) = addr) (st_vals (or_st o1))) ∧
    ∃ a20, spells a20 addr ∧ entitled (or_st o1) a20 bal ∧
      (uint256 bal → ∃ pre root32 sibs, claim a20 bal pre ∧ root = "0x" +:+ hex_encode root32 ∧
        proof = (λ b, "0x" +:+ hex_encode b) <$> sibs ∧ proves H root32 sibs pre).
Proof.
  intros He W Hs. rewrite (answer_read X sha E _ w o rep Hs). pose proof (serve_fits _ _ _ _ _ _ Hs) as Hf.
  destruct rep as [[]|]; try done. cbn [facts]. intros [= <- <- <- <- <- <- <- <- <- <-].
  destruct (serve_proof H sha cfg l o E a w b He W Hs) as (H1 & H2 & H3 & H4 & H5 & l1 & E1 & l2 & o1 & H6 & H7 & H8 & H9 & H10 & H11).
  rewrite H3. split; [done|]. split; [done|]. rewrite N2Z.id. split; [done|]. split; [done|]. split; [done|].
  exists l1, E1, l2, o1. split; [done|]. split; [done|]. split; [by rewrite H8|]. split; [|by split].
  intros i. rewrite <- H9. rewrite elem_of_list_fmap. split; [|by exists i]. intros (j & Hj & Hin). by apply N2Z.inj in Hj as ->.
Qed.

(** C97 *)
Definition fine (nulls : Prop) (kv : string * json) : Prop :=
  (amount_key kv.1 = true → amount_text kv.2) ∧ (kv.2 = JNull → nulls).
Lemma fine_text P k t : amount_key k = false → Forall (fine P) (parts k (JStr t)).
Proof. intros H. apply Forall_singleton. by split; cbn; [rewrite H|]. Qed.
Lemma fine_bool P k t : amount_key k = false → Forall (fine P) (parts k (JBool t)).
Proof. intros H. apply Forall_singleton. by split; cbn; [rewrite H|]. Qed.
Lemma fine_num P k t : amount_key k = false → Forall (fine P) (parts k (JNum t)).
Proof. intros H. apply Forall_singleton. by split; cbn; [rewrite H|]. Qed.
Lemma fine_null (P : Prop) k : P → amount_key k = false → Forall (fine P) (parts k JNull).
Proof. intros HP H. apply Forall_singleton. by split; cbn; [rewrite H|]. Qed.
Lemma fine_big P k z : Forall (fine P) (parts k (big_text z)).
Proof. apply Forall_singleton. split; [|done]. intros _. exists (print_Z z). split; [done|]. left. exists z. apply whole_Z. Qed.
Lemma fine_gwei P k z : Forall (fine P) (parts k (u64_text z)).
Proof. unfold u64_text. rewrite print_N_Z. apply fine_big. Qed.
Lemma fine_ptr P k z : Forall (fine P) (parts k (ptr_text z)).
Proof. destruct z; [apply fine_big|]. apply Forall_singleton. split; [|done]. intros _. exists "<nil>". auto. Qed.
Lemma fine_arr P k l : amount_key k = false → (∀ x, x ∈ l → Forall (fine P) (parts "" x)) → Forall (fine P) (parts k (JArr l)).
Proof.
  intros Hk Hl. cbn [parts]. apply Forall_cons. split; [by split; cbn; [rewrite Hk|]|].
  induction l as [|x l IH]; [by apply Forall_nil|]. cbn [foldr]. apply Forall_app. split; [apply Hl; by left|]. apply IH. intros y Hy. apply Hl. by right.
Qed.
Lemma fine_obj P k l : amount_key k = false → Forall (λ kx, Forall (fine P) (parts kx.1 kx.2)) l → Forall (fine P) (parts k (JObj l)).
Proof.
  intros Hk Hl. cbn [parts]. apply Forall_cons. split; [by split; cbn; [rewrite Hk|]|].
  induction Hl as [|x l Hx Hl IH]; [by apply Forall_nil|]. cbn [foldr]. by apply Forall_app.
Qed.
Lemma fine_list {A} P k (enc : A → json) l : amount_key k = false → (∀ x, Forall (fine P) (parts "" (enc x))) →
  Forall (fine P) (parts k (enc_list enc l)).
Proof. intros Hk H. apply fine_arr; [done|]. intros x (y & -> & _)%elem_of_list_fmap. apply H. Qed.
Lemma fine_slice {A} (P : Prop) k (enc : A → json) l : P → amount_key k = false → (∀ x, Forall (fine P) (parts "" (enc x))) →
  Forall (fine P) (parts k (enc_slice enc l)).
Proof. intros HP Hk H. destruct l; [by apply fine_null|]. by apply fine_list. Qed.
Ltac fines := apply fine_obj; [reflexivity|]; repeat match goal with |- Forall _ (_ :: _) => apply Forall_cons; split end;
  try apply Forall_nil_2; cbn [fst snd];
  first [apply fine_big|apply fine_gwei|apply fine_ptr|apply fine_text; reflexivity|apply fine_bool; reflexivity|apply fine_num; reflexivity|idtac].
Lemma fine_view P X x : Forall (fine P) (parts "" (view_json X x)).
Proof. unfold view_json. fines. Qed.
Lemma fine_body X mask r b : fits r b → match r with GetValidator _ | GetState => False | _ => True end →
  Forall (fine (match r with GetRelays _ | GetByIndex _ => True | _ => False end)) (parts "" (body_json X mask b)).
Proof.
  destruct r, b; try done; intros _ _; cbn [body_json].
  - by apply fine_text.
  - unfold status_json. fines.
  - unfold config_json. fines.
  - unfold relays_json. fines; (apply fine_slice; [done|done|]); intros x; unfold relay_json, unknown_json; fines.
  - apply fine_list; [done|]. apply fine_view.
  - fines; (apply fine_slice; [done|done|]); [apply fine_view|]. intros x. by apply fine_num.
  - apply fine_list; [done|]. apply fine_view.
  - unfold fees_json. fines.
  - unfold stats_json. fines.
  - apply fine_list; [done|]. intros x. unfold block_json. fines.
  - apply fine_list; [done|]. intros x. unfold block_json. fines.
  - apply fine_list; [done|]. intros x. unfold block_json. fines.
  - apply fine_list; [done|]. intros x. unfold block_json. fines.
  - apply fine_list; [done|]. intros x. unfold donation_json. fines.
  - unfold proof_json. fines; (apply fine_list; [done|]); intros x; [by apply fine_text|by apply fine_num].
Qed.
Lemma answer_shape X sha E r w o b : serve sha E r w o = Ok (Answer b) → r ≠ GetState → (∀ i, r ≠ GetValidator i) →
  ∃ j, parse (response_text X (e_mask E) (Answer b)) = Some j ∧
    (∀ k v, (k, v) ∈ parts "" j → amount_key k = true → amount_text v) ∧
    ((∀ i, r ≠ GetRelays i) → (∀ i, r ≠ GetByIndex i) → ∀ k, (k, JNull) ∉ parts "" j).
Proof.
  intros Hs H1 H2. pose proof (serve_fits _ _ _ _ _ _ Hs) as Hf. cbn beta iota in Hf.
  exists (body_json X (e_mask E) b). split; [exact (parse_compact _ (wf_body X (e_mask E) b))|].
  pose proof (fine_body X (e_mask E) r b Hf) as Hb. rewrite Forall_forall in Hb. split.
  - intros k v Hin Hk. destruct (Hb ltac:(destruct r; try done; by destruct (H2 i)) (k, v) Hin) as [Ht _]. by apply Ht.
  - intros H3 H4 k Hin. destruct (Hb ltac:(destruct r; try done; by destruct (H2 i)) (k, JNull) Hin) as [_ Hn]. specialize (Hn eq_refl).
    destruct r; try done; [by destruct (H3 key)|by destruct (H4 is)].
Qed.

(** ** Escapes *)

Lemma hex_digit_ok big k : (k < 16)%N →
  ∃ c, String.get (N.to_nat k) (if big : bool then "0123456789ABCDEF" else "0123456789abcdef") = Some c ∧ hex_digit_val c = Some k.
Proof.
  intros H. assert (k = 0 ∨ k = 1 ∨ k = 2 ∨ k = 3 ∨ k = 4 ∨ k = 5 ∨ k = 6 ∨ k = 7 ∨ k = 8 ∨ k = 9 ∨ k = 10 ∨ k = 11 ∨ k = 12 ∨ k = 13 ∨ k = 14 ∨ k = 15)%N as Hk by lia.
  destruct big; repeat (destruct Hk as [->|Hk]; [eexists; by split|]); subst k; eexists; by split.
Qed.
Lemma utf8_code n : (n < 65536)%N → code_point (utf8 n) = Some n.
Proof.
  intros H. unfold utf8, code_point.
  destruct (n <? 128)%N eqn:E1.
  { apply N.ltb_lt in E1. cbn [list_ascii_of_string fmap list_fmap]. rewrite N_ascii_embedding by lia. by apply N.ltb_lt in E1 as ->. }
  apply N.ltb_ge in E1. pose proof (N.div_mod' n 64) as D. pose proof (N.mod_lt n 64 ltac:(done)) as M.
  destruct (n <? 2048)%N eqn:E2.
  { apply N.ltb_lt in E2. assert (n / 64 < 32)%N by (apply N.div_lt_upper_bound; lia).
    cbn [list_ascii_of_string fmap list_fmap]. rewrite !N_ascii_embedding by lia.
    generalize dependent (n / 64)%N. generalize dependent (n mod 64)%N. intros m Hm q Hq Hl.
    rewrite (proj2 (N.leb_le 192 (192 + q))), (proj2 (N.ltb_lt (192 + q) 224)), (proj2 (N.leb_le 128 (128 + m))), (proj2 (N.ltb_lt (128 + m) 192)) by lia.
    cbn [andb]. f_equal. lia. }
  apply N.ltb_ge in E2. assert (n / 4096 < 16)%N as B by (apply N.div_lt_upper_bound; lia).
  pose proof (N.div_mod' (n / 64) 64) as D2. pose proof (N.mod_lt (n / 64) 64 ltac:(done)) as M2.
  rewrite N.div_div in D2 by done. change (64 * 64)%N with 4096%N in D2.
  cbn [list_ascii_of_string fmap list_fmap]. rewrite !N_ascii_embedding by lia.
  generalize dependent (n / 4096)%N. generalize dependent (n / 64 mod 64)%N. generalize dependent (n / 64)%N. generalize dependent (n mod 64)%N.
  intros m Hm q Hq m2 Hm2 q2 Hq2 Hl.
  rewrite (proj2 (N.leb_le 224 (224 + q2))), (proj2 (N.ltb_lt (224 + q2) 240)), (proj2 (N.leb_le 128 (128 + m2))), (proj2 (N.ltb_lt (128 + m2) 192)),
    (proj2 (N.leb_le 128 (128 + m))), (proj2 (N.ltb_lt (128 + m) 192)) by lia.
  cbn [andb]. f_equal. lia.
Qed.
Lemma escape_read big n rest : (n < 65536)%N → ∃ t, unescape ("u" +:+ hex4 big n +:+ rest) = Some (t, rest) ∧ code_point t = Some n.
Proof.
  intros H. exists (utf8 n). split; [|by apply utf8_code]. unfold hex4.
  destruct (hex_digit_ok big (n / 4096 mod 16)) as (a & -> & Ea); [by apply N.mod_lt|].
  destruct (hex_digit_ok big (n / 256 mod 16)) as (b & -> & Eb); [by apply N.mod_lt|].
  destruct (hex_digit_ok big (n / 16 mod 16)) as (c & -> & Ec); [by apply N.mod_lt|].
  destruct (hex_digit_ok big (n / 1 mod 16)) as (d & -> & Ed); [by apply N.mod_lt|].
  change (unescape (String "u" (String a (String b (String c (String d rest))))) = Some (utf8 n, rest)).
  cbn [unescape]. change (N_of_ascii "u"%char) with 117%N. cbn [N.eqb Pos.eqb orb]. rewrite Ea, Eb, Ec, Ed. do 3 f_equal.
  rewrite N.div_1_r in *. pose proof (N.div_mod' n 16) as D. pose proof (N.div_mod' (n / 16) 16) as D1. pose proof (N.div_mod' (n / 256) 16) as D2.
  rewrite N.div_div in D1, D2 by done. change (16 * 16)%N with 256%N in D1. change (256 * 16)%N with 4096%N in D2.
  assert (n / 4096 < 16)%N as B by (apply N.div_lt_upper_bound; lia). rewrite (N.mod_small (n / 4096) 16) in * by done.
  generalize dependent (n / 4096)%N. generalize dependent (n / 256 mod 16)%N. generalize dependent (n / 16 mod 16)%N. generalize dependent (n mod 16)%N.
  generalize dependent (n / 256)%N. generalize dependent (n / 16)%N. intros; lia.
Qed.
Lemma escape_plain c : (32 ≤ N_of_ascii c)%N → escape (String c "") = String c "" ↔ c ∉ list_ascii_of_string "<>&""" ++ [ascii_of_N 92].
Proof.
  assert ((if (32 <=? N_of_ascii c)%N then Bool.eqb (String.eqb (escape (String c "")) (String c "")) (bool_decide (c ∉ list_ascii_of_string "<>&""" ++ [ascii_of_N 92])) else true) = true) as H
    by (destruct c as [[] [] [] [] [] [] [] []]; vm_compute; reflexivity).
  intros Hc%N.leb_le. rewrite Hc in H. apply Bool.eqb_prop in H. split.
  - intros Hx%String.eqb_eq. rewrite Hx in H. symmetry in H. by apply bool_decide_eq_true in H.
  - intros Hx. rewrite bool_decide_eq_true_2 in H by done. by apply String.eqb_eq.
Qed.

(** ** Durations *)
Local Open Scope Z_scope.
Lemma int64_mul_small x y : -9223372036854775808 ≤ x * y < 9223372036854775808 → int64_mul x y = x * y.
Proof.
  unfold int64_mul, int64_of_u64, two64. generalize (x * y). intros z Hz. change (Z.of_N 18446744073709551616) with 18446744073709551616.
  destruct (Z_lt_le_dec z 0) as [Hn|Hn].
  - assert (z mod 18446744073709551616 = z + 18446744073709551616) as ->.
    { symmetry. apply (Z.mod_unique _ _ (-1)); lia. }
    destruct (N.ltb_spec (Z.to_N (z + 18446744073709551616)) 9223372036854775808); lia.
  - rewrite Z.mod_small by lia. destruct (N.ltb_spec (Z.to_N z) 9223372036854775808); lia.
Qed.
(** Seconds that are a small number modulo 2^64 give that many, with the sign. *)
Lemma duration_small s z : Z.of_N s = z mod 18446744073709551616 → Z.abs z ≤ 9223372036 → duration s = z * 10 ^ 9.
Proof.
  intros Hs Hz. change (10 ^ 9) with 1000000000. unfold duration.
  assert (int64_of_u64 s = z) as ->; [|apply int64_mul_small; lia].
  unfold int64_of_u64. change (Z.of_N two64) with 18446744073709551616.
  destruct (Z_lt_le_dec z 0) as [Hn|Hn].
  - assert (z mod 18446744073709551616 = z + 18446744073709551616) as E by (symmetry; apply (Z.mod_unique _ _ (-1)); lia).
    rewrite E in Hs. destruct (N.ltb_spec s 9223372036854775808); lia.
  - rewrite Z.mod_small in Hs by lia. destruct (N.ltb_spec s 9223372036854775808); lia.
Qed.
Lemma slots_seconds a b : (a < 2 ^ 64)%N → (b < 2 ^ 64)%N →
  Z.of_N (u64_mul (u64_sub a b) 12) = ((Z.of_N a - Z.of_N b) * 12) mod 18446744073709551616.
Proof.
  intros Ha Hb. change (2 ^ 64)%N with 18446744073709551616%N in *. unfold u64_mul, u64_sub, u64, two64.
  rewrite N2Z.inj_mod, N2Z.inj_mul, N2Z.inj_mod. rewrite (N.mod_small b) by done.
  change (Z.of_N 18446744073709551616) with 18446744073709551616. rewrite Zmult_mod_idemp_l.
  replace (Z.of_N (a + (18446744073709551616 - b)) * Z.of_N 12) with ((Z.of_N a - Z.of_N b) * 12 + 12 * 18446744073709551616) by lia.
  by rewrite Z_mod_plus_full.
Qed.
Lemma status_durations X sha E w o f root slot rep : serve sha E GetStatus w o = Ok rep → reply_status rep = 200%N →
  w_final w = Some f → w_onchain w = Some (root, slot) →
  (f < 2 ^ 63)%N → (slot < 2 ^ 63)%N → (c_cp_size (or_cfg o) < 2 ^ 63)%N →
  let left := Z.max 0 (Z.of_N slot + Z.of_N (c_cp_size (or_cfg o)) - Z.of_N f) in
  let age := Z.of_N f - Z.of_N slot in
  left ≤ 768614336 → Z.abs age ≤ 768614336 →
  ∃ synced numbers chains deposit,
    client GetStatus 200 (response_text X (e_mask E) rep) =
      Some (TStatus synced numbers [bx_words X (slots_long left); bx_words X (slots_long age)] chains deposit) ∧
    numbers !! 6%nat = Some (left * 12) ∧ numbers !! 8%nat = Some ((age * 12) mod 2 ^ 64).
Proof.
  intros Hs Hc Hf Hw H1 H2 H3 left age HL HA. pose proof (answer_read X sha E GetStatus w o rep Hs) as Hr. rewrite Hc in Hr.
  destruct rep as [b|c m]; cycle 1.
  { apply serve_fits in Hs. by cbn in Hc, Hs. }
  assert (∃ x, handle_status w o = Ok (Answer x) ∧ BStatus x = b) as (x & Hx & <-) by exact (answered BStatus _ _ Hs).
  rewrite Hr. cbn [facts]. clear Hs Hr Hc. revert Hx. unfold handle_status. rewrite Hf, Hw.
  destruct (w_chain w) as [ch|]; [|done]. destruct (w_deposit w) as [[? ?]|]; [|done]. destruct (w_exec w) as [ex|]; [|done].
  destruct (w_sync w) as [| | |dist]; [done..|]. intros [= <-]. cbn [sy_remaining sy_age fmap list_fmap].
  change (2 ^ 63)%N with 9223372036854775808%N in *. change (2 ^ 64) with 18446744073709551616.
  assert (Z.of_N (u64_mul (u64_sub f slot) 12) = (age * 12) mod 18446744073709551616) as Ea
    by (apply slots_seconds; change (2 ^ 64)%N with 18446744073709551616%N; lia).
  assert (u64_add slot (c_cp_size (or_cfg o)) = slot + c_cp_size (or_cfg o))%N as En
    by (unfold u64_add, u64, two64; apply N.mod_small; lia).
  set (rm := u64_mul (if (f <? u64_add slot (c_cp_size (or_cfg o)))%N then _ else _) 12). assert (Z.of_N rm = left * 12) as Er.
  { unfold rm. rewrite En. destruct (N.ltb_spec f (slot + c_cp_size (or_cfg o))).
    - rewrite slots_seconds by (change (2 ^ 64)%N with 18446744073709551616%N; lia). rewrite Z.mod_small by (unfold left in *; lia). unfold left; lia.
    - change (u64_mul 0 12) with 0%N. unfold left; lia. }
  do 4 eexists. split; [unfold slots_long; rewrite (duration_small rm (left * 12)), (duration_small _ (age * 12) Ea) by (try rewrite Z.mod_small; unfold left in *; lia); reflexivity|].
  cbn. split; [by rewrite Er|by rewrite Ea].
Qed.
Lemma short_read c r x r' : c ≠ "u"%char → unescape (String c r) = Some (x, r') ↔ r' = r ∧ ∃ k, (c, k) ∈ short_escapes ∧ x = String (ascii_of_N k) "".
Proof.
  intros Hc.
  assert ((∃ k, unescape (String c r) = Some (String (ascii_of_N k) "", r) ∧ (c, k) ∈ short_escapes ∧ ∀ k', (c, k') ∈ short_escapes → k' = k) ∨
    (unescape (String c r) = None ∧ ∀ k, (c, k) ∉ short_escapes)) as [(k & -> & Hk & Hu)|[-> Hn]].
  { destruct c as [[] [] [] [] [] [] [] []]; try (by destruct Hc);
      first [right; split; [reflexivity|]; intros k Hk%elem_of_list_In; cbv in Hk; repeat (destruct Hk as [[=]|Hk]); exact Hk
            |left; eexists; split; [reflexivity|]; split;
              [apply elem_of_list_In; cbv; tauto|intros k' Hk%elem_of_list_In; cbv in Hk; repeat (destruct Hk as [Hk|Hk]; [first [discriminate Hk|injection Hk as <-; reflexivity]|]); destruct Hk]]. }
  - split; [intros [= <- <-]; split; [done|]; by exists k|]. intros (-> & k' & Hk' & ->). by rewrite (Hu k' Hk').
  - split; [done|]. intros (_ & k & Hk & _). by destruct (Hn k).
Qed.
Lemma hex_letter c : is_Some (hex_digit_val c) ↔ c ∈ list_ascii_of_string "0123456789abcdefABCDEF".
Proof.
  assert (Bool.eqb (match hex_digit_val c with Some _ => true | None => false end) (bool_decide (c ∈ list_ascii_of_string "0123456789abcdefABCDEF")) = true) as H
    by (destruct c as [[] [] [] [] [] [] [] []]; vm_compute; reflexivity).
  apply Bool.eqb_prop in H. rewrite <- (bool_decide_eq_true (c ∈ _)), <- H. destruct (hex_digit_val c); split; try done. intros [? [=]].
Qed.
Lemma hex_refused r : is_Some (unescape (String "u" r)) ↔
  ∃ a b c d r', r = String a (String b (String c (String d r'))) ∧ Forall (λ x, x ∈ list_ascii_of_string "0123456789abcdefABCDEF") [a; b; c; d].
Proof.
  cbn [unescape]. change (N_of_ascii "u"%char) with 117%N. cbn [N.eqb Pos.eqb orb]. split.
  - destruct r as [|a [|b [|c [|d r']]]]; try (by intros [? [=]]). intros H. exists a, b, c, d, r'. split; [done|].
    rewrite !Forall_cons, Forall_nil, <- !hex_letter.
    destruct (hex_digit_val a), (hex_digit_val b), (hex_digit_val c), (hex_digit_val d); by eauto 10 || by destruct H as [? [=]].
  - intros (a & b & c & d & r' & -> & H). rewrite !Forall_cons, Forall_nil, <- !hex_letter in H.
    destruct H as ([? ->] & [? ->] & [? ->] & [? ->] & _). by eexists.
Qed.
