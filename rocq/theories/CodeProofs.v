(** Proofs about the status of refusals. *)
From Verif Require Export CodeSpec.
From Verif Require Import ServeProofs.
From Verif Require Import ApiProofs OverlayProofs HandlerProofs.

Lemma ready_iff w o : (∀ f, w_final w = Some f → (f < 2 ^ 64)%N) → (st_latest (or_st o) + 64 < 2 ^ 64)%N →
  oracle_ready 64 w (or_st o) = true ↔ keeps_up w (or_st o).
Proof.
  intros Hf Hl. unfold keeps_up. destruct (w_final w) as [f|] eqn:Hw.
  - rewrite (oracle_ready_spec w _ f) by auto. split; [intros H; by exists f|]. intros (f' & [= <-] & H). done.
  - unfold oracle_ready. rewrite Hw. split; [done|]. intros (f & ? & _). done.
Qed.
Lemma mapped {A B} (f : A → B) (x : res (reply A)) rep : (let! y := x in Ok (reply_map f y)) = Ok rep → ∃ y, x = Ok y ∧ rep = reply_map f y.
Proof. destruct x as [y|]; cbn; [|discriminate]. intros [= <-]. by exists y. Qed.
Lemma relay_error E pool l b : relay_loop E pool l b = Ok None → ∃ name, (name, RelayError) ∈ l.
Proof.
  revert b. induction l as [|[name a] l IH]; intros b; cbn [relay_loop]; [done|]. destruct a as [| |f].
  - intros _. exists name. left.
  - intros [n Hn]%IH. exists n. by right.
  - intros H. apply bound_ok in H as (e & _ & H). apply IH in H as [n Hn]. exists n. by right.
Qed.
Lemma relay_fine E pool l b b' : relay_loop E pool l b = Ok (Some b') → ¬ ∃ name, (name, RelayError) ∈ l.
Proof.
  revert b. induction l as [|[name a] l IH]; intros b; cbn [relay_loop]; [intros _ [n Hn]; by apply elem_of_nil in Hn|]. destruct a as [| |f].
  - done.
  - intros H [n [[=]|Hn]%elem_of_cons]. by apply (IH _ H); exists n.
  - intros H. apply bound_ok in H as (e & _ & H). intros [n [[=]|Hn]%elem_of_cons]. by apply (IH _ H); exists n.
Qed.
(** What a key has to look like for the relays; the documented form is a case of it. *)
Lemma key_accepted key : hex_text 96 key → is_valid_pubkey key = true.
Proof.
  intros (b & -> & Hl & Hb). apply valid_pubkey_spec. exists b. split; [done|]. split; [done|]. eapply Forall_impl; [exact Hb|]. by left.
Qed.

Lemma code_of sha E r w o x : (∀ f, w_final w = Some f → (f < 2 ^ 64)%N) → (st_latest (or_st o) + 64 < 2 ^ 64)%N →
  (∀ key, r = GetRelays key → hex_text 96 key) → serve sha E r w o = Ok x → due r w (or_st o) x.
Proof.
  intros Hf Hl Hkey Hs. pose proof (ready_iff w o Hf Hl) as Hr.
  assert (∀ {A} (f : A → body) (k : res (reply A)) y, guarded r → if_ready w (or_st o) k = Ok y → x = reply_map f y →
    (keeps_up w (or_st o) → k = Ok y → due r w (or_st o) x) → due r w (or_st o) x) as Hg.
  { intros A f k y Hgr Hi -> Hk. unfold if_ready in Hi. destruct (oracle_ready 64 w (or_st o)) eqn:Ho.
    - apply Hk; [by apply Hr|done].
    - injection Hi as <-. cbn [reply_map]. apply due_later; [done|]. intros Hu%Hr. congruence. }
  destruct r; cbn [serve] in Hs.
  all: try (apply mapped in Hs as (y & Hy & ->)).
  all: try (injection Hs as <-; by apply due_answer; [|intros []|left; intros []]).
  - (* GetStatus *)
    unfold handle_status in Hy. destruct (w_chain w) as [ch|] eqn:H1; [|injection Hy as <-; apply due_server; [done|tauto|cbn; tauto]].
    destruct (w_deposit w) as [[dc da]|] eqn:H2; [|injection Hy as <-; apply due_server; [done|tauto|cbn; tauto]].
    destruct (w_exec w) as [ex|] eqn:H3; [|injection Hy as <-; apply due_server; [done|tauto|cbn; tauto]].
    destruct (w_sync w) as [| | |dist] eqn:H4; try discriminate Hy.
    1,2: injection Hy as <-; apply due_server; [done|tauto|]; right; right; right; left; intros d; rewrite H4; done.
    destruct (w_final w) as [f|] eqn:H5; [|injection Hy as <-; apply due_server; [done|tauto|cbn; tauto]].
    destruct (w_onchain w) as [[root slot]|] eqn:H6; [|injection Hy as <-; apply due_server; [done|tauto|cbn; tauto]].
    injection Hy as <-. cbn [reply_map]. apply due_answer; [done|tauto|]. left. cbn [lacks_input]. rewrite H1, H2, H3, H4, H5, H6.
    intros [?|[?|[?|[Hd|[?|?]]]]]; try done. by apply (Hd dist).
  - (* GetRelays *)
    unfold registered_relays in Hy. rewrite (key_accepted key (Hkey key eq_refl)) in Hy. cbn [negb] in Hy.
    apply bound_ok in Hy as (l & Hlo & Hy). destruct l as [b|]; injection Hy as <-.
    + cbn [reply_map]. apply due_answer; [done|intros H; by apply H, Hkey|]. left. exact (relay_fine _ _ _ _ _ Hlo).
    + cbn [reply_map]. apply due_server; [done|intros H; by apply H, Hkey|]. exact (relay_error _ _ _ _ Hlo).
  - (* GetValidators *)
    apply (Hg _ BViews _ y I Hy eq_refl). intros Hk [= <-]. cbn [reply_map]. apply due_answer; [done|intros []|left; intros []].
  - (* GetValidator *)
    apply (Hg _ BInfo _ y I Hy eq_refl). intros Hk Hv. clear Hy Hg. destruct (is_valid_index i) as [n|] eqn:Hi.
    + apply valid_index_spec in Hi as (Hd & Hn & Hb). subst n. destruct (st_vals (or_st o) !! dec_value i) as [v|] eqn:Hi2; injection Hv as <-; cbn [reply_map].
      * apply due_answer; [done| |left; intros []]. intros H. apply H. split; [done|]. split; [done|]. by eexists.
      * apply due_client; [done|]. intros (_ & _ & [v Hv2]). congruence.
    + injection Hv as <-. cbn [reply_map]. apply due_client; [done|]. intros (Hd & Hb & _).
      rewrite (proj2 (valid_index_spec i (dec_value i))) in Hi; done.
  - (* GetByIndex *)
    injection Hs as <-. destruct (validators_by_index is w o) as [y|c m] eqn:Hy.
    + cbn [reply_map]. apply by_index_asked in Hy as (js & Ha & Hlen & _). apply due_answer; [done| |left; intros []].
      intros H. specialize (H js Ha). lia.
    + cbn [reply_map]. assert (c = 400%N) as -> by (unfold validators_by_index in Hy; cbv zeta in Hy; repeat case_match; congruence).
      apply due_client; [done|]. intros js Ha. destruct (decide (100 < length js)%nat); [done|]. rewrite (by_index_answer is w o js Ha) in Hy by lia. done.
  - (* GetByWithdrawal *)
    apply (Hg _ BViews _ y I Hy eq_refl). intros Hk Hv. clear Hy Hg. destruct (is_valid_address (to_lower addr)) eqn:Ha; cbn [negb] in Hv.
    2: { injection Hv as <-. cbn [reply_map]. apply due_client; [done|]. intros H%valid_address_spec. congruence. }
    apply valid_address_spec in Ha. assert (¬ ill_asked (GetByWithdrawal addr) w (or_st o)) as Hill by (cbn [ill_asked]; tauto).
    destruct (w_beacon w) as [bs|] eqn:Hb; [|injection Hv as <-; apply due_server; [done|done|by left]].
    apply bound_ok in Hv as (m1 & _ & Hv). apply bound_ok in Hv as (m2 & _ & Hv).
    destruct (size m2 =? 0)%nat; [injection Hv as <-; apply due_answer; [done|done|by right]|].
    destruct (N.eqb_spec (st_latest_block (or_st o)) 0) as [H0|H0]; [injection Hv as <-; apply due_server; [done|done|by right; left]|].
    destruct (w_subs w _) as [subs|] eqn:Hsub; [|injection Hv as <-; apply due_server; [done|done|by right; right; left]].
    destruct (w_unsubs w _) as [unsubs|] eqn:Huns; [|injection Hv as <-; apply due_server; [done|done|by right; right; right]].
    apply bound_ok in Hv as (m3 & _ & Hv). injection Hv as <-. apply due_answer; [done|done|]. left. intros [?|[?|[?|?]]]; congruence.
  - (* GetStatistics *)
    apply (Hg _ BStats _ y I Hy eq_refl). intros Hk Hv. clear Hy Hg. cbv zeta in Hv. unfold slots_in_month in Hv at 1 2.
    destruct (N.ltb_spec (st_latest (or_st o)) 216000) as [H1|H1]; [injection Hv as <-; apply due_server; [done|intros []|by left]|].
    destruct (N.ltb_spec (st_latest_block (or_st o)) 216000) as [H2|H2]; [injection Hv as <-; apply due_server; [done|intros []|by right]|].
    apply bound_ok in Hv as ([[sent recent] nok] & _ & Hv). destruct (donated_loop _ _ _) as [[don sent'] recent'].
    apply bound_ok in Hv as (per & _ & Hv). injection Hv as <-. apply due_answer; [done|intros []|]. left. intros [H|H]; lia.
  - (* GetProof *)
    apply (Hg _ BProof _ y I Hy eq_refl). intros Hk Hv. clear Hy Hg. destruct (is_valid_address addr) eqn:Ha; cbn [negb] in Hv.
    2: { injection Hv as <-. cbn [reply_map]. apply due_client; [done|]. left. intros H%valid_address_spec. congruence. }
    apply valid_address_spec in Ha. cbv zeta in Hv.
    destruct (w_onchain w) as [[root slot]|] eqn:Ho.
    2: { injection Hv as <-. apply due_server; [done| |].
         - intros [?|(root & slot & c & Hw & _)]; [done|congruence].
         - left. intros root slot c (Hw & _). congruence. }
    destruct (st_committed (or_st o) !! slot) as [c|] eqn:Hc.
    2: { injection Hv as <-. apply due_server; [done| |].
         - intros [?|(root' & slot' & c & Hw & Hc' & _)]; [done|]. congruence.
         - left. intros root' slot' c (Hw & Hc' & _). congruence. }
    destruct (String.eqb_spec root (oc_root c)) as [Hroot|Hroot]; cbn [negb] in Hv.
    2: { injection Hv as <-. apply due_server; [done| |].
         - intros [?|(root' & slot' & c' & Hw & Hc' & Hr' & _)]; [done|]. congruence.
         - left. intros root' slot' c' (Hw & Hc' & Hr'). congruence. }
    destruct (oc_proofs c !! to_lower addr) as [proof|] eqn:Hp.
    2: { injection Hv as <-. apply due_client; [done|]. right. exists root, slot, c. do 3 (split; [done|]). by right. }
    destruct (oc_leafs c !! to_lower addr) as [leaf|] eqn:Hlf.
    2: { injection Hv as <-. apply due_client; [done|]. right. exists root, slot, c. do 3 (split; [done|]). by left. }
    assert (¬ ill_asked (GetProof addr) w (or_st o)) as Hill.
    { intros [?|(root' & slot' & c' & Hw & Hc' & _ & Hn)]; [done|]. rewrite Ho in Hw. injection Hw as <- <-. rewrite Hc in Hc'. injection Hc' as <-.
      destruct Hn; congruence. }
    unfold claimed_balance in Hv. rewrite (hex_text_address _ (to_lower_hex_text _ _ Ha)) in Hv. cbn [negb rbind] in Hv.
    destruct (w_claimed w (to_lower addr)) as [cl|] eqn:Hcl; injection Hv as <-.
    + apply due_answer; [done|done|]. left. intros [H|H]; [|congruence]. by apply (H root slot c).
    + apply due_server; [done|done|by right].
Qed.
(** The four kinds exclude each other. *)
Lemma due_code r w s c1 m1 c2 m2 : due r w s (Refuse c1 m1) → due r w s (Refuse c2 m2) → c1 = c2.
Proof. intros H1 H2. inversion H1; inversion H2; subst; tauto. Qed.
