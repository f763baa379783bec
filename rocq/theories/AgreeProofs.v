(** All oracles of a deployment that watch the same chain agree. *)
From Verif Require Export AgreeSpec SyncProofs.
From Verif Require Import DressProofs OrderProofs.

(** ** More answers change nothing that already worked *)
Record extends (E E' : env) : Prop := Extends {
  xt_iter : e_iter E' = e_iter E;
  xt_mask : e_mask E' = e_mask E;
  xt_vals : ∀ req slot r, e_vals E req slot = Some r → e_vals E' req slot = Some r;
  xt_cons : ∀ slot l, e_cons E slot = Some l → e_cons E' slot = Some l }.
Definition below {A} (x y : res A) : Prop := ∀ a, x = Ok a → y = Ok a.
Lemma below_refl {A} (x : res A) : below x x.
Proof. by intros a. Qed.
Local Hint Resolve below_refl : core.
Lemma below_bind {A B} (x y : res A) (f g : A → res B) : below x y → (∀ a, below (f a) (g a)) → below (rbind x f) (rbind y g).
Proof. intros H1 H2 b (a & Ha & Hb)%rbind_ok. rewrite (H1 _ Ha). cbn. by apply H2. Qed.
Ltac climb t := repeat first [apply below_refl | t | apply below_bind; intros | case_match].

Section extends.
Context (E E' : env) (net : string) (X : extends E E').
Lemma eligible_ext s : eligible_indices E' s = eligible_indices E s.
Proof using X. unfold eligible_indices. by rewrite (xt_iter _ _ X). Qed.
Lemma electra_ext next r cut l : below (electra_split E next r cut l) (electra_split E' next r cut l).
Proof using X. intros a. unfold electra_split. destruct (e_vals E l next) as [x|] eqn:Hx; [|done]. by rewrite (xt_vals _ _ X _ _ _ Hx). Qed.
Lemma increase_ext r s : below (increase_all E net r s) (increase_all E' net r s).
Proof using X.
  unfold increase_all. rewrite eligible_ext. cbv zeta. destruct (eligible_indices E s); [done|]. destruct (10000 <? _)%Z; [done|].
  apply below_bind; [done|]. intros [| |]; [done|done|]. apply below_bind; [apply electra_ext|]. intros [? ?]. done.
Qed.
Lemma summarize_ext s pool fb : summarize E' s pool fb = summarize E s pool fb.
Proof using X. clear -X. destruct X as [_ Hm _ _]. destruct E, E'; cbn in *; subst; reflexivity. Qed.
Lemma get_donations_ext pool fb : get_donations E' pool fb = get_donations E pool fb.
Proof using X. clear -X. destruct X as [_ Hm _ _]. destruct E, E'; cbn in *; subst; reflexivity. Qed.
Lemma validate_ext fb o : validate_config E' fb o = validate_config E fb o.
Proof using X. clear -X. destruct X as [_ Hm _ _]. destruct E, E'; cbn in *; subst; reflexivity. Qed.
Lemma handle_sub_ext e v s : handle_sub E' e v s = handle_sub E e v s.
Proof using X. clear -X. destruct X as [_ Hm _ _]. destruct E, E'; cbn in *; subst; reflexivity. Qed.
Lemma donations_ext l s : below (handle_donations E net l s) (handle_donations E' net l s).
Proof using X.
  unfold handle_donations. destruct (same_block _ l); [|done]. revert s. induction l as [|d l IH]; intros s; cbn [donations_loop]; [done|].
  apply below_bind; [apply increase_ext|]. intros a. apply IH.
Qed.
Lemma correct_ext b s : below (handle_correct E net b s) (handle_correct E' net b s).
Proof using X. unfold handle_correct. climb ltac:(apply increase_ext). Qed.
Lemma subs_ext l vs s : handle_subs E' l vs s = handle_subs E l vs s.
Proof using X.
  unfold handle_subs. do 2 (case_match; [done|]). clear -X. revert s.
  induction (zip l vs) as [|[e v] l' IH]; intros s; cbn [subs_loop]; [done|]. rewrite handle_sub_ext. apply rbind_ext. apply IH.
Qed.
Lemma unsub_ext e v s : below (handle_unsub E net e v s) (handle_unsub E' net e v s).
Proof using X. unfold handle_unsub. rewrite (xt_mask _ _ X). climb ltac:(apply increase_ext). Qed.
Lemma unsubs_ext l vs s : below (handle_unsubs E net l vs s) (handle_unsubs E' net l vs s).
Proof using X.
  unfold handle_unsubs. do 2 (case_match; [done|]). clear -X. revert s.
  induction (zip l vs) as [|[e v] l' IH]; intros s; cbn [unsubs_loop]; [done|]. apply below_bind; [apply unsub_ext|]. apply IH.
Qed.
Lemma bans_ext l s : below (handle_bans E net l s) (handle_bans E' net l s).
Proof using X. unfold handle_bans. climb ltac:(apply increase_ext). Qed.
Lemma ban_validator_ext b s : below (handle_ban_validator E net b s) (handle_ban_validator E' net b s).
Proof using X. unfold handle_ban_validator. climb ltac:(apply increase_ext). Qed.
Lemma process_ext fb b don s : below (process_block E net fb b don s) (process_block E' net fb b don s).
Proof using X.
  unfold process_block. cbv zeta. rewrite subs_ext.
  climb ltac:(first [apply correct_ext|apply ban_validator_ext|apply unsubs_ext|apply donations_ext|apply bans_ext]).
Qed.
Lemma consolidate_ext slot idx t p d s s' d' : cleanup_consolidate E slot idx t p d s = Done s' d' → cleanup_consolidate E' slot idx t p d s = Done s' d'.
Proof using X.
  unfold cleanup_consolidate. destruct (_ && _); [done|]. destruct (negb _); [|done].
  destruct (e_vals E [t] slot) as [r|] eqn:Hr; [|done]. by rewrite (xt_vals _ _ X _ _ _ Hr).
Qed.
Lemma cleanup_loop_ext slot m r d s s' d' : cleanup_loop E slot m r d s = Done s' d' → cleanup_loop E' slot m r d s = Done s' d'.
Proof using X.
  revert d s. induction r as [|kv r IH]; intros d s; cbn [cleanup_loop]; [done|].
  destruct (cleanup_one E slot m kv.2 d s) as [s1 d1| |] eqn:H1; [|done..].
  assert (cleanup_one E' slot m kv.2 d s = Done s1 d1) as ->; [|apply IH].
  revert H1. unfold cleanup_one. cbv zeta. destruct (bstate_is_active _); [done|]. destruct (st_vals s !! _) as [vi|]; [|done].
  destruct (_ =? 0)%Z; [done|]. destruct (m !! _) as [t|]; [|done].
  destruct (cleanup_consolidate E _ _ _ _ _ _) as [s2 d2| |] eqn:H2; [|done..]. by rewrite (consolidate_ext _ _ _ _ _ _ _ _ H2).
Qed.
Lemma cleanup_ext slot s s' : cleanup E net slot s = Done s' tt → cleanup E' net slot s = Done s' tt.
Proof using X.
  unfold cleanup. destruct (_ <=? slot)%N; [|done]. cbv zeta. rewrite (xt_iter _ _ X). destruct ((e_iter E (st_vals s)).*1) as [|i l]; [done|].
  destruct (if (_ <=? slot)%N then _ else _) as [pcs|] eqn:Hc; [|done].
  assert ((if (default 0 (slot_electra net) <=? slot)%N then e_cons E' slot else Some []) = Some pcs) as ->.
  { destruct (_ <=? slot)%N; [by apply (xt_cons _ _ X)|done]. }
  destruct (e_vals E (i :: l) slot) as [r|] eqn:Hr; [|done]. rewrite (xt_vals _ _ X _ _ _ Hr).
  destruct (cleanup_loop E _ _ _ _ _) as [s1 d| |] eqn:Hl; [|done..]. rewrite (cleanup_loop_ext _ _ _ _ _ _ _ Hl).
  destruct (d =? 0)%Z; [done|]. destruct (increase_all E net d s1) as [s2|] eqn:Hi; [|done]. by rewrite (increase_ext _ _ _ Hi).
Qed.
End extends.
Lemma advance_ext E E' fb o o' n : extends E E' → advance E fb o = Done o' n → advance E' fb o = Done o' n.
Proof.
  intros X. unfold advance. cbv zeta. destruct (negb _); [done|]. destruct (negb _); [done|].
  rewrite (validate_ext _ _ X). destruct (validate_config E fb o) as [o1 []|?|?]; [|done..].
  rewrite (summarize_ext _ _ X). destruct (summarize _ _ _ _) as [b|]; [|done]. destruct (negb _); [done|].
  rewrite (get_donations_ext _ _ X). destruct (get_donations _ _ _) as [don|]; [|done].
  destruct (process_block E _ _ _ _ _) as [s2|] eqn:Hp; [|done]. rewrite (process_ext _ _ _ X _ _ _ _ _ Hp).
  destruct (_ =? 0)%N; [|done]. destruct (cleanup E _ _ _) as [s3 []| |] eqn:Hc; [|done..]. by rewrite (cleanup_ext _ _ _ X _ _ _ Hc).
Qed.

(** Whatever a process worked out with the answers it got, it is what the chain gives. *)
Definition filled (E0 E : env) : env :=
  Env (e_iter E) (λ req slot, match e_vals E req slot with Some r => Some r | None => e_vals E0 req slot end) (e_cons E0) (e_mask E).
Lemma advance_chain E0 E fb o o' n : one_chain E0 → wf_env E → reflects E0 E → advance E fb o = Done o' n → advance E0 fb o = Done o' n.
Proof.
  intros [W0 R0 S0] W R Ha. apply (advance_ext E (filled E0 E)) in Ha.
  2:{ split; [done|done| |apply (rf_cons _ _ R)]. intros req slot r Hr. cbn. by rewrite Hr. }
  assert (wf_env (filled E0 E)) as Wf.
  { destruct W as [A1 A2 A3 A4], W0 as [B1 B2 B3 B4]. split; cbn; [done|..].
    - intros req slot r. destruct (e_vals E req slot) eqn:Hv; [intros [= <-]|]; eauto.
    - intros req slot r k v. destruct (e_vals E req slot) eqn:Hv; [intros [= <-]|]; eauto.
    - intros req slot r k. destruct (e_vals E req slot) eqn:Hv; [intros [= <-]|]; eauto. }
  assert (same_chain (filled E0 E) E0) as C.
  { split; [|done|apply (rf_mask _ _ R)]. intros req1 req2 slot Hp. cbn. destruct (e_vals E req1 slot) as [r|] eqn:Hv.
    - destruct (rf_vals _ _ R _ _ _ _ Hp Hv) as (r0 & -> & Hr). done.
    - destruct (e_vals E0 req1 slot) as [r1|] eqn:H1; [destruct (rf_vals _ _ R0 _ _ _ _ Hp H1) as (r0 & -> & Hr); done|].
      destruct (e_vals E0 req2 slot) as [r2|] eqn:H2; [|done]. symmetry in Hp. destruct (rf_vals _ _ R0 _ _ _ _ Hp H2) as (r0 & Hx & _). congruence. }
  eapply (advance_same (filled E0 E)); [done|done|done| |done]. apply (settled_same E0); [by apply same_sym|done].
Qed.

(** ** Blocks fetched with and without receipts *)
Definition bare (fb : fullblock) : fullblock := with_receipts None None fb.
Lemma sent_bare E pool sub fb x : sent_reward E pool sub (bare fb) = Ok x → sent_reward E pool sub fb = Ok x.
Proof.
  unfold sent_reward, bare. rewrite mev_with_receipts.
  assert (get_fee_recipient E (with_receipts None None fb) = get_fee_recipient E fb) as -> by by destruct fb.
  destruct (mev_reward E fb) as [[[r []] rcp]|]; cbn [rbind]; [done| |done].
  destruct (get_fee_recipient E fb) as [fr|]; cbn [rbind]; [|done]. destruct (equals fr pool) as [e|]; cbn [rbind]; [|done].
  destruct (e || sub); [|done]. by cbn.
Qed.
Lemma summarize_bare E s pool fb b : summarize E s pool (bare fb) = Ok b → summarize E s pool fb = Ok b.
Proof.
  unfold summarize. cbn [bare with_receipts fb_validator fb_cblock fb_duty_pubkey fb_duty_slot fb_duty_index].
  destruct (withdrawal_and_type (fb_validator fb)) as [[wa wt]|]; cbn [rbind]; [|done].
  destruct (fb_cblock fb) as [c|] eqn:Hc; [|done].
  assert (get_proposer (bare fb) = get_proposer fb) as -> by (by destruct fb).
  assert (get_number (bare fb) = get_number fb) as -> by by destruct fb.
  destruct (get_proposer fb) as [prop|]; cbn [rbind]; [|done].
  destruct (sent_reward E pool (is_subscribed s prop) (bare fb)) as [x|] eqn:Hs; cbn [rbind]; [|done]. by rewrite (sent_bare _ _ _ _ _ Hs).
Qed.
Lemma advance_bare E fb o o' n : advance E (bare fb) o = Done o' n → advance E fb o = Done o' n.
Proof.
  unfold advance, bare. rewrite validate_with_receipts. cbn [with_receipts fb_duty_slot]. cbv zeta.
  destruct (negb _); [done|]. destruct (negb _); [done|]. destruct (validate_config E fb o) as [o1 []|?|?]; [|done..].
  fold (bare fb). destruct (summarize _ _ _ (bare fb)) as [b|] eqn:Hs; [|done]. rewrite (summarize_bare _ _ _ _ _ Hs).
  unfold bare. rewrite donations_with_receipts. destruct (negb _); [done|]. destruct (get_donations _ _ fb) as [don|]; [|done].
  by rewrite process_with_receipts.
Qed.
(** The same block, with or without receipts. *)
Definition kin (a b : fullblock) : Prop := a = b ∨ a = bare b ∨ b = bare a.
Lemma advance_kin E a b o o1 n1 o2 n2 : kin a b → advance E a o = Done o1 n1 → advance E b o = Done o2 n2 → o1 = o2.
Proof.
  intros [->|[->| ->]] H1 H2; [congruence| |].
  - apply advance_bare in H1. congruence.
  - apply advance_bare in H2. congruence.
Qed.

(** ** What is fetched depends on the chain alone *)
Lemma single_echo nd0 nd i slot v : echoes nd0 nd → get_single_validator nd i slot = Some v → get_single_validator nd0 i slot = Some v.
Proof. intros X. unfold get_single_validator. destruct (nd_vals nd [i] slot) eqn:Hv; [|done]. by rewrite (ec_vals _ _ X _ _ _ Hv). Qed.
Lemma duty_echo nd0 nd slot ca d ca' : echoes nd0 nd → told nd0 ca → get_proposal_duty nd slot ca = Ok (Some d, ca') →
  told nd0 ca' ∧ ∃ l, nd_duties nd0 (slot / 32)%N = Some l ∧ l !! N.to_nat (slot mod 32) = Some d.
Proof.
  intros X T. unfold get_proposal_duty. cbv zeta. change slots_in_epoch with 32%N. destruct (N.eqb_spec (ca_epoch ca) (slot / 32)) as [He|He].
  - destruct (ca_duties ca !! _) as [x|] eqn:Hx; [|done]. destruct (negb _); [done|]. intros [= -> <-]. split; [done|].
    destruct T as [T|T]; [by rewrite T in Hx|]. exists (ca_duties ca). by rewrite <-He.
  - destruct (nd_duties nd _) as [l|] eqn:Hl; [|done]. destruct (l !! _) as [x|] eqn:Hx; [|done]. intros [= -> <-].
    apply (ec_duties _ _ X) in Hl. split; [by right|]. by exists l.
Qed.
Lemma events_echo nd0 nd n ev : echoes nd0 nd → fetch_events nd n = Ok ev → fetch_events nd0 n = Ok ev.
Proof. intros X. rewrite !fetch_events_spec. destruct X. naive_solver. Qed.
Lemma receipts_echo nd0 nd txs rs : echoes nd0 nd → get_receipts nd txs = Ok rs → get_receipts nd0 txs = Ok rs.
Proof.
  intros X. revert rs. induction txs as [|[t|] txs IH]; intros rs; cbn [get_receipts]; [done| |done].
  destruct (nd_receipt nd _) as [r|] eqn:Hr; [|done]. rewrite (ec_receipt _ _ X _ _ Hr). intros (x & Hx & [= <-])%rbind_ok. by rewrite (IH _ Hx).
Qed.
Lemma header_echo nd0 nd n txs x : echoes nd0 nd → get_header_and_receipts nd n txs = Ok x → get_header_and_receipts nd0 n txs = Ok x.
Proof.
  intros X. unfold get_header_and_receipts. destruct (nd_header nd n) as [h|] eqn:Hh; [|done]. rewrite (ec_header _ _ X _ _ Hh).
  intros (rs & Hr & [= <-])%rbind_ok. by rewrite (receipts_echo _ _ _ _ X Hr).
Qed.
Lemma fetch_told nd0 nd E pool all slot s ca fb ca' : echoes nd0 nd → told nd0 ca → fetch_full_block nd E pool all slot s ca = Ok (fb, ca') → told nd0 ca'.
Proof. intros X T (d & v & b & Hd & _)%fetch_split. by apply (duty_echo nd0) in Hd as [? _]. Qed.

(** What the chain says about a slot. *)
Definition told_block (nd0 : node) (slot : N) (fb : fullblock) : Prop :=
  ∃ l d v b, nd_duties nd0 (slot / 32)%N = Some l ∧ l !! N.to_nat (slot mod 32) = Some d ∧
    get_single_validator nd0 (d_index d) slot = Some (Some v) ∧ nd_block nd0 slot = Some b ∧
    let fb0 := FullBlock slot (d_index d) (d_key d) v None None None no_events [] [] (nd_chain nd0) in
    match b with
    | None => fb = fb0
    | Some c => ∃ fb1 n ev fb2 subs unsubs,
        set_consensus_block c fb0 = Ok fb1 ∧ get_number fb1 = Ok n ∧ fetch_events nd0 n = Ok ev ∧ set_block_events ev fb1 = Ok fb2 ∧
        fetch_validators nd0 slot (sub_id <$> ev_subscribe (fb_events fb2)) = Ok subs ∧
        fetch_validators nd0 slot (uns_id <$> ev_unsubscribe (fb_events fb2)) = Ok unsubs ∧
        let fb3 := set_request_validators subs unsubs fb2 in
        fb = fb3 ∧ bare fb = fb ∨
        (∃ txs h rs, get_txs fb3 = Ok txs ∧ get_header_and_receipts nd0 n txs = Ok (h, rs) ∧ fb = with_receipts (Some h) (Some rs) fb3 ∧ bare fb = fb3)
    end.
Lemma fetched_told nd0 slot fb : fetches nd0 slot fb → told_block nd0 slot fb.
Proof.
  intros (nd & E & pool & all & s & ca & ca' & X & T & Hf). apply fetch_split in Hf as (d & v & b & Hd & Hs & Hv & Hi & Hb & Hf).
  apply (duty_echo nd0) in Hd as (_ & l & Hl & Hx); [|done..]. exists l, d, v, b. do 2 (split; [done|]).
  split; [by eapply single_echo|]. split; [by apply (ec_block _ _ X)|]. cbv zeta in *. rewrite (ec_chain _ _ X) in Hf.
  destruct b as [c|]; [|done].
  apply fetch_proposed_split in Hf as (fb1 & n & ev & fb2 & subs & unsubs & prop & rew & H1 & H2 & H3 & H4 & H5 & H6 & H7 & H8 & H9 & H10).
  exists fb1, n, ev, fb2, subs, unsubs. do 2 (split; [done|]). split; [by eapply events_echo|]. split; [done|].
  assert (∀ ids vs, Forall2 (λ i v, get_single_validator nd i slot = Some v) ids vs → fetch_validators nd0 slot ids = Ok vs) as Hall.
  { intros ids vs Hids. apply fetch_validators_spec. eapply Forall2_impl; [exact Hids|]. intros i w. by apply single_echo. }
  split; [by apply Hall|]. split; [by apply Hall|].
  assert (fb_header fb2 = None ∧ fb_receipts fb2 = None) as [Hh Hr].
  { apply set_consensus_spec in H1 as (_ & _ & _ & ->). destruct (set_events_spec _ _ _ _ H3 H5) as (_ & ev' & -> & _). done. }
  assert (bare (set_request_validators subs unsubs fb2) = set_request_validators subs unsubs fb2) as Hbare.
  { destruct fb2. cbn in *. by subst. }
  destruct (all || _).
  - right. destruct H10 as (txs & h & rs & G1 & G2 & G3). exists txs, h, rs. split; [done|]. split; [by eapply header_echo|].
    assert (get_number (set_request_validators subs unsubs fb2) = Ok n) as Hn.
    { destruct (set_events_spec _ _ _ _ H3 H5) as (_ & ev' & -> & _). exact H3. }
    apply (set_header_spec _ _ _ _ n) in G3 as [_ ->]; [|done]. split; [done|]. rewrite <-Hbare. done.
  - left. subst fb. done.
Qed.
Lemma told_kin nd0 slot a b : told_block nd0 slot a → told_block nd0 slot b → kin a b.
Proof.
  intros (l & d & v & bl & H1 & H2 & H3 & H4 & Ha) (l' & d' & v' & bl' & G1 & G2 & G3 & G4 & Hb). cbv zeta in *.
  rewrite H1 in G1. injection G1 as <-. rewrite H2 in G2. injection G2 as <-. rewrite H3 in G3. injection G3 as <-. rewrite H4 in G4. injection G4 as <-.
  destruct bl as [c|]; [|left; congruence].
  destruct Ha as (fb1 & n & ev & fb2 & subs & unsubs & A1 & A2 & A3 & A4 & A5 & A6).
  destruct Hb as (fb1' & n' & ev' & fb2' & subs' & unsubs' & B1 & B2 & B3 & B4 & B5 & B6).
  rewrite A1 in B1. injection B1 as <-. rewrite A2 in B2. injection B2 as <-. rewrite A3 in B3. injection B3 as <-. rewrite A4 in B4. injection B4 as <-.
  rewrite A5 in B5. injection B5 as <-.
  destruct A6 as (A6 & Ha), B6 as (B6 & Hb). rewrite A6 in B6. injection B6 as <-.
  destruct Ha as [[-> Ha]|(txs & h & rs & X1 & X2 & -> & Ha)], Hb as [[-> Hb]|(txs' & h' & rs' & Y1 & Y2 & -> & Hb)].
  - by left.
  - right. left. by rewrite Hb.
  - right. right. by rewrite Ha.
  - left. rewrite X1 in Y1. injection Y1 as <-. rewrite X2 in Y2. by injection Y2 as <- <-.
Qed.

(** ** Two histories of the same chain *)
Definition plain (o : oracle) : oracle := dress_oracle "" ∅ o.
Lemma same_work_plain a b : same_work a b ↔ plain a = plain b.
Proof.
  assert (∀ o, plain o = Oracle (or_cfg o) (set_hash "" (set_committed ∅ (or_st o)))) as Hp by (by intros [? []]).
  rewrite !Hp. unfold same_work. split; [intros [-> ->]; done|]. intros Ho. split; [exact (f_equal or_cfg Ho)|exact (f_equal or_st Ho)].
Qed.
Definition of_chain (nd0 : node) (E0 : env) (x : operation) : Prop :=
  match x with Process E fb => reflects E0 E ∧ ∃ slot, fetches nd0 slot fb | Freeze _ => True end.

Lemma plain_advance E fb o o' n : advance E fb o = Done o' n → advance E fb (plain o) = Done (plain o') n.
Proof. intros Ha. unfold plain. by rewrite dress_advance, Ha. Qed.
Lemma evolve_plain H nd0 E0 o l p : one_chain E0 → evolve H o l p → Forall (of_chain nd0 E0) l →
  ∃ fbs, run (plain o) ((λ fb, (E0, fb)) <$> fbs) (plain p) ∧ Forall (λ fb, fb_duty_slot fb ≠ 0%N ∧ ∃ slot, fetches nd0 slot fb) fbs.
Proof.
  intros C. induction 1 as [o|o E fb o1 n l o2 W Hd Ha He IH|o E s1 b l o2 W Hf He IH]; intros HQ.
  - exists []. split; [constructor|by apply Forall_nil].
  - apply Forall_cons in HQ as [[HR HF] HQ]. destruct (IH HQ) as (fbs & Hr & Hs). exists (fb :: fbs). split.
    + cbn. eapply run_cons; [|exact Hr]. apply plain_advance. by eapply advance_chain.
    + by apply Forall_cons.
  - apply Forall_cons in HQ as [_ HQ]. destruct (IH HQ) as (fbs & Hr & Hs). exists fbs. split; [|done].
    assert (plain o = plain (Oracle (or_cfg o) s1)) as ->; [|done].
    apply freeze_inv in Hf as [(_ & -> & _)|(_ & c & _ & _ & ->)]; by destruct o as [? []].
Qed.
Lemma run_latest E0 fbs o p : run o ((λ fb, (E0, fb)) <$> fbs) p → Forall (λ fb, fb_duty_slot fb ≠ 0%N) fbs → (st_latest (or_st o) < two64)%N →
  (st_latest (or_st p) < two64)%N ∧ st_latest (or_st p) = (st_latest (or_st o) + N.of_nat (length fbs))%N.
Proof.
  revert o. induction fbs as [|fb fbs IH]; intros o Hr Hs Hlt; cbn in Hr.
  - inversion Hr; subst. cbn. lia.
  - inversion Hr as [|? ? ? o1 n ? ? Ha Hr']; subst. apply Forall_cons in Hs as [Hd Hs].
    pose proof (advance_latest _ _ _ _ _ Hlt Hd Ha) as Hl.
    assert (st_latest (or_st o1) < two64)%N as Hlt1.
    { pose proof (advance_slots _ _ _ _ _ Ha) as (_ & _ & H2 & H3 & _). rewrite H3, H2. unfold u64_add, u64. by apply N.mod_lt. }
    destruct (IH _ Hr' Hs Hlt1) as [H1 H2]. split; [done|]. rewrite H2, Hl. cbn [length]. lia.
Qed.
Lemma runs_agree nd0 E0 a b o p q : run o ((λ fb, (E0, fb)) <$> a) p → run o ((λ fb, (E0, fb)) <$> b) q → length a = length b →
  Forall (λ fb, ∃ slot, fetches nd0 slot fb) a → Forall (λ fb, ∃ slot, fetches nd0 slot fb) b → p = q.
Proof.
  revert o b. induction a as [|fa a IH]; intros o [|fb b] Hp Hq Hlen Ha Hb; cbn in *; try done.
  - inversion Hp; inversion Hq; by subst.
  - inversion Hp as [|? ? ? o1 n ? ? A1 Hp']; subst. inversion Hq as [|? ? ? o2 n' ? ? A2 Hq']; subst.
    apply Forall_cons in Ha as [[s1 Fa] Ha]. apply Forall_cons in Hb as [[s2 Fb] Hb].
    assert (s1 = s2) as ->.
    { pose proof (advance_slots _ _ _ _ _ A1) as (G1 & G1x & _). pose proof (advance_slots _ _ _ _ _ A2) as (G2 & G2x & _).
      destruct Fa as (nda & Ea & pa & aa & sa & ca & ca' & _ & _ & Fa). destruct Fb as (ndb & Eb & pb & ab & sb & cb & cb' & _ & _ & Fb).
      apply fetch_coherent in Fa as [<- _ _ _ _ _ _ _ _]. apply fetch_coherent in Fb as [<- _ _ _ _ _ _ _ _]. congruence. }
    assert (o1 = o2) as ->; [|by eapply IH; [exact Hp'|exact Hq'|lia|done|done]].
    eapply advance_kin; [|exact A1|exact A2]. apply (told_kin nd0 s2); by apply fetched_told.
Qed.
Lemma evolve_agree H nd0 E0 o l1 p1 l2 p2 : one_chain E0 → (st_latest (or_st o) < two64)%N → evolve H o l1 p1 → evolve H o l2 p2 →
  Forall (of_chain nd0 E0) l1 → Forall (of_chain nd0 E0) l2 → st_latest (or_st p1) = st_latest (or_st p2) → plain p1 = plain p2.
Proof.
  intros C Hlt H1 H2 Q1 Q2 Hl. destruct (evolve_plain _ _ _ _ _ _ C H1 Q1) as (a & Ra & Fa). destruct (evolve_plain _ _ _ _ _ _ C H2 Q2) as (b & Rb & Fb).
  assert (∀ fbs, Forall (λ fb, fb_duty_slot fb ≠ 0%N ∧ ∃ slot, fetches nd0 slot fb) fbs →
    Forall (λ fb, fb_duty_slot fb ≠ 0%N) fbs ∧ Forall (λ fb, ∃ slot, fetches nd0 slot fb) fbs) as Hsp.
  { intros fbs Hf. split; (eapply Forall_impl; [exact Hf|]); naive_solver. }
  destruct (Hsp _ Fa) as [Da Ga]. destruct (Hsp _ Fb) as [Db Gb].
  eapply runs_agree; [exact Ra|exact Rb| |exact Ga|exact Gb].
  destruct (run_latest _ _ _ _ Ra Da Hlt) as [_ La]. destruct (run_latest _ _ _ _ Rb Db Hlt) as [_ Lb].
  change (st_latest (or_st (plain ?x))) with (st_latest (or_st x)) in La, Lb. lia.
Qed.

(** ** The invariant of the processes *)
Section crew.
Context (sha H : string → string) (c0 : config) (nd0 : node) (E0 : env).
Definition known (o : oracle) : Prop :=
  ∃ ops p, evolve H (new_oracle c0) ops p ∧ Forall typed_operation ops ∧ Forall (of_chain nd0 E0) ops ∧ same_oracle p o ∧
    (st_latest (or_st o) + 1 < two64)%N ∧ ∀ k, is_Some (st_committed (or_st o) !! k) → checkpoint_slot c0 k.
Lemma known_good o : known o → good H c0 0 o.
Proof. intros (ops & p & He & Ht & _ & Hs & Hl & Hc). exists ops. split; [by exists p|]. do 2 (split; [done|]). intros k Hk. lia. Qed.
Lemma known_same o o' : known o → same_oracle o o' → known o'.
Proof.
  intros (ops & p & He & Ht & Hq & Hs & Hl & Hc) Hsame. pose proof (same_latest _ _ Hsame) as (E1 & _ & E3).
  exists ops, p. do 3 (split; [done|]). split; [by eapply same_trans|]. by rewrite <-E1, <-E3.
Qed.
Lemma known_new : typed_config c0 → (0 < c_dep_slot c0)%N → known (new_oracle c0).
Proof.
  intros Tc Hd. exists [], (new_oracle c0). split; [constructor|]. do 2 (split; [by apply Forall_nil|]). split; [done|].
  destruct Tc as (_ & Hdep & _). unfold is_u64 in Hdep. cbn. rewrite u64_sub_exact by lia. split; [lia|].
  intros k [c Hc]. by rewrite lookup_empty in Hc.
Qed.
Lemma known_advance E fb slot o o' m : known o → wf_env E → typed_env E → typed_block fb → reflects E0 E → fetches nd0 slot fb →
  (fb_duty_slot fb + 1 < two64)%N → advance E fb o = Done o' m → known o'.
Proof.
  intros (ops & p & He & Ht & Hq & Hs & Hl & Hc) W Te Tb Hr Hf Hb Ha.
  pose proof (advance_slots _ _ _ _ _ Ha) as (G1 & _ & G2 & G3 & _).
  assert (fb_duty_slot fb ≠ 0%N) as Hnz.
  { rewrite <-G1, G2. unfold u64_add, u64. rewrite N.mod_small by lia. lia. }
  assert (st_latest (or_st o') = st_latest (or_st o) + 1)%N as Hl' by (apply (advance_latest E fb o o' m); [lia|done|done]).
  assert (Hrh := same_rehash _ _ Hs). set (h := st_hash (or_st o)) in *.
  assert (∃ p', advance E fb p = Done p' m ∧ same_oracle p' o') as (p' & Hap & Hsp).
  { assert (p = rehash (st_hash (or_st p)) o) as Hpo.
    { rewrite Hrh. destruct p as [? []]. done. }
    pose proof (advance_rehash (st_hash (or_st p)) _ _ _ _ _ Ha) as Hx. rewrite <-Hpo in Hx. eexists. split; [exact Hx|].
    by destruct o' as [? []]. }
  exists (ops ++ [Process E fb]), p'. split.
  { eapply evolve_app; [done|]. eapply evolve_process; [done|done|done|constructor]. }
  split; [apply Forall_app; split; [done|]; apply Forall_cons; split; [done|by apply Forall_nil]|].
  split; [apply Forall_app; split; [done|]; apply Forall_cons; split; [split; [done|by exists slot]|by apply Forall_nil]|].
  split; [done|]. rewrite (advance_committed _ _ _ _ _ Ha). split; [|done]. rewrite Hl', <-Hl', G3, G1. lia.
Qed.
Lemma known_freeze E o s' b : known o → checkpoint_slot c0 (st_latest (or_st o)) → wf_env E → freeze H E (or_st o) = Ok (s', b) → known (Oracle (or_cfg o) s').
Proof.
  intros (ops & p & He & Ht & Hq & Hs & Hl & Hc) Hcp W Hf. assert (Hr := same_rehash _ _ Hs).
  assert (∃ s1, freeze H E (or_st p) = Ok (s1, b) ∧ same_oracle (Oracle (or_cfg p) s1) (Oracle (or_cfg o) s')) as (s1 & Hfp & Hsp).
  { assert (or_st p = set_hash (st_hash (or_st p)) (or_st o)) as Hpo.
    { rewrite Hr. destruct p as [? []]. done. }
    pose proof (freeze_rehash H (st_hash (or_st p)) _ _ _ _ Hf) as Hx. rewrite <-Hpo in Hx. eexists. split; [exact Hx|].
    split; [apply Hs|]. by destruct s'. }
  destruct (freeze_latest _ _ _ _ _ Hf) as [L1 V1].
  exists (ops ++ [Freeze E]), (Oracle (or_cfg p) s1). split.
  { eapply evolve_app; [done|]. eapply evolve_freeze; [done|done|constructor]. }
  do 2 (split; [apply Forall_app; split; [done|]; apply Forall_cons; split; [done|by apply Forall_nil]|]).
  split; [done|]. cbn [or_st]. split; [congruence|]. intros k Hk.
  destruct (freeze_inv _ _ _ _ _ Hf) as [(_ & -> & _)|(_ & c & _ & _ & ->)]; [by apply Hc|]. cbn in Hk.
  destruct (N.eq_dec (st_latest (or_st o)) k) as [<-|]; [done|]. rewrite lookup_insert_ne in Hk by done. by apply Hc.
Qed.
Lemma known_cfg o : known o → fee_only c0 (or_cfg o).
Proof. intros Hk%known_good. rewrite (dp_cfg _ _ (good_deployed _ _ _ _ Hk)). by eexists. Qed.

Definition known_files (fs : files) : Prop := ∀ path raw, fs !! path = Some raw →
  ∃ o x, known o ∧ raw = substring 0 x (marshal (hash_state sha (or_st o))).
Lemma known_save b o d fs : known_files fs → known o → known_files (disk_after sha b o d fs).
Proof.
  intros Hfs Hg p raw Hp. destruct (disk_lookup sha b o d fs p) as [E|[x E]]; rewrite E in Hp; [by apply (Hfs p)|].
  injection Hp as <-. by exists o, x.
Qed.
Lemma known_load E fs path o o' : typed_config c0 → known_files fs → fee_only c0 (or_cfg o) →
  load_path sha H E fs path o = Done o' true → known o'.
Proof.
  intros Tc Hfs [z Hz]. unfold load_path. destruct (fs !! path) as [raw|] eqn:Hp; [|done]. intros Hl.
  destruct (Hfs _ _ Hp) as (q & x & Hk & ->). pose proof (known_good _ Hk) as Hg. pose proof (good_range _ _ _ _ Tc Hg) as Hr.
  apply load_inv in Hl as (s & Hu & _ & _ & _ & Hc & Hs).
  destruct (substring_prefix x (marshal (hash_state sha (or_st q)))) as [E2|(y & E2 & Hy)].
  2:{ rewrite (unmarshal_cut (hash_state sha (or_st q)) _ y) in Hu; [done|by apply range_hash|done|done]. }
  rewrite E2, unmarshal_marshal in Hu by (by apply range_hash). injection Hu as <-.
  apply checks_inv in Hc as (_ & _ & Hc & _). eapply known_same; [exact Hk|].
  split; [|unfold same_content; by rewrite Hs]. rewrite (dp_cfg _ _ (good_deployed _ _ _ _ Hg)), Hc, Hz. by destruct c0.
Qed.
Lemma known_given E fs slot o o' : typed_config c0 → known_files fs → fee_only c0 (or_cfg o) →
  load_given sha H E fs slot o = Done o' true → known o'.
Proof.
  intros Tc Hfs Hf. unfold load_given. cbv zeta. pose proof (fee_only_path sha H c0 E fs (slot_path slot) o Hf) as F1.
  destruct (load_path sha H E fs (slot_path slot) o) as [o1 []|o1 e|] eqn:E1; [intros [= <-]; by eapply known_load| |done|done]. subst o1.
  pose proof (fee_only_path sha H c0 E fs (slot_path (try_slot (or_cfg o) slot 1)) o Hf) as F2.
  destruct (load_path sha H E fs (slot_path (try_slot (or_cfg o) slot 1)) o) as [o2 []|o2 e|] eqn:E2.
  - intros [= <-]. by eapply known_load.
  - subst o2. by apply known_load.
  - by apply known_load.
  - done.
Qed.
Lemma known_startup E sync onchain fs o : typed_config c0 → (0 < c_dep_slot c0)%N → known_files fs →
  (∀ raw, sync = Some raw → ∃ q, known q ∧ raw = state_body (hash_state sha (or_st q))) →
  startup sha H E sync onchain fs c0 = Ok o → known o.
Proof.
  intros Tc Hd Hfs Hsy. unfold startup. assert (fee_only c0 (or_cfg (new_oracle c0))) as Hf0 by (exists (c_feepct c0); by destruct c0).
  match goal with |- match ?y with _ => _ end = _ → _ => destruct y as [o1 x|o1 e|] eqn:E1 end; [|done|done].
  assert (known o1) as Hk1.
  { destruct sync as [raw|].
    - destruct (Hsy _ eq_refl) as (q & Hq & ->). eapply known_same; [exact Hq|]. eapply good_body; [exact Tc|by apply known_good|exact E1].
    - unfold load_json in E1. pose proof (fee_only_path sha H c0 E fs state_path (new_oracle c0) Hf0) as F1. rewrite E1 in F1.
      destruct x; [by eapply known_load|]. subst o1. by apply known_new. }
  destruct onchain as [slot|]; [|done]. destruct (negb _ && _); [|by intros [= <-]].
  destruct (load_given sha H E fs slot o1) as [o2 []|o2 e|] eqn:E2; [|done..]. intros [= <-].
  eapply known_given; [done|done| |done]. by apply known_cfg.
Qed.

Record known_machine (m : machine) : Prop := KnownMachine {
  km_known : known (m_or m);
  km_cache : typed_cache (m_cache m) ∧ told nd0 (m_cache m);
  km_files : known_files (m_files m);
  km_freezing : m_pc m = Freezing → checkpoint_slot c0 (st_latest (or_st (m_or m))) }.
Definition known_life (L : life) : Prop := match L with Down fs => known_files fs | Up m => known_machine m end.

Lemma known_top a m m' : typed_answers a → echoes nd0 (an_node a) → reflects E0 (an_env a) → m_pc m = Begin → known_machine m →
  step_top a m = Ok m' → known_machine m'.
Proof.
  intros [W Te Tn Tf] Xn Xe Hpc G. unfold step_top. cbv zeta. destruct (are_nodes_in_sync _ _) as [[]|]; [|by intros [= <-]|done].
  destruct (an_final a) as [f|]; [|by intros [= <-]]. destruct (N.leb_spec (st_next (or_st (m_or m))) f) as [Hle|Hgt].
  - intros Hs. apply rbind_ok in Hs as ([fb ca] & Hf & Hs). destruct G as [Hg [Hca Hto] Hfs _].
    destruct (fetch_typed _ _ _ _ _ _ _ _ _ Tn Hca Hf) as [Tb Tca]. pose proof (fetch_told _ _ _ _ _ _ _ _ _ _ Xn Hto Hf) as Tto.
    assert (fetches nd0 (st_next (or_st (m_or m))) fb) as Hfe by (do 7 eexists; split; [exact Xn|]; split; [exact Hto|exact Hf]).
    apply fetch_coherent in Hf as [Hslot _ _ _ _ _ _ _ _].
    destruct (advance (an_env a) fb (m_or m)) as [o' n|o' e|d] eqn:Ha; [|done|done]. injection Hs as <-.
    split; cbn [m_pc m_or m_cache m_files]; [|done|done|done].
    eapply known_advance; try done. specialize (Tf _ eq_refl). lia.
  - destruct (an_due a); [|by intros [= <-]]. intros Hs. apply rbind_ok in Hs as (u & _ & Hs). apply rbind_ok in Hs as (cl & _ & Hs).
    destruct (an_balance a); [|by injection Hs as <-]. destruct cl; [|by injection Hs as <-].
    destruct (onchain_reconciliation _ _ _); [by injection Hs as <-|done].
Qed.
Lemma known_goto p m : known_machine m → p ≠ Freezing → known_machine (goto p m).
Proof. intros [Hg Hca Hfs Hcp] H1. by split; cbn [goto m_pc m_or m_cache m_files]. Qed.
Lemma known_processed a m m' : known_machine m → step_processed a m = Ok m' → known_machine m'.
Proof.
  intros G. unfold step_processed. cbv zeta. destruct (_ && _); [done|]. intros Hs. apply rbind_ok in Hs as ([b|] & Hc & Hs); [|done].
  pose proof (km_known _ G) as Hk. destruct (known_cfg _ Hk) as [z Hz].
  apply is_checkpoint_inv in Hc as Hiff; [|by eapply good_latest, known_good]. rewrite Hz, checkpoint_cfg in Hiff. destruct b.
  - destruct (offchain_reconciliation _); [|done]. injection Hs as <-. destruct G as [Hg Hca Hfs _].
    split; cbn [goto m_pc m_or m_cache m_files]; [done|done|done|]. intros _. by apply Hiff.
  - injection Hs as <-. by apply known_goto.
Qed.
Lemma known_freezing a m m' : typed_answers a → m_pc m = Freezing → known_machine m → step_freezing H a m = Ok m' → known_machine m'.
Proof.
  intros [W _ _ _] Hpc [Hg Hca Hfs Hcp]. specialize (Hcp Hpc). unfold step_freezing. cbv zeta. intros Hs.
  apply rbind_ok in Hs as ([s' enough] & Hf & Hs). pose proof (known_freeze _ _ _ _ Hg Hcp W Hf) as G0.
  destruct enough; [destruct (latest_committed_state _ _) as [c|]; [|done]|]; injection Hs as <-; by split; cbn.
Qed.
Lemma known_save_now b d m : known_machine m → known_machine (save_now sha b d m).
Proof.
  intros [Hg Hca Hfs Hcp]. split; cbn [save_now m_pc m_or m_cache m_files].
  - eapply known_same; [exact Hg|]. apply same_hashed.
  - done.
  - by apply known_save.
  - exact Hcp.
Qed.
Lemma known_step a m sent m' : typed_answers a → echoes nd0 (an_node a) → reflects E0 (an_env a) → known_machine m →
  step sha H a m = (sent, Ok m') → known_machine m'.
Proof.
  intros Ta Xn Xe G. unfold step, stay. destruct (m_pc m) eqn:Hpc; intros Hs.
  - injection Hs as _ Hs. by eapply known_top.
  - injection Hs as _ Hs. by eapply known_processed.
  - injection Hs as _ Hs. by eapply known_freezing.
  - injection Hs as _ Hs. unfold step_polling in Hs. repeat case_match; simplify_eq; try done; by apply known_goto.
  - injection Hs as _ Hs. unfold step_resting in Hs. repeat case_match; simplify_eq; by apply known_goto.
  - unfold step_deciding, fatal in Hs. destruct (an_onchain a) as [[r os]|]; [|done]. destruct (negb _ && _).
    + destruct (update_root _ _ _) as [x [e|]]; [destruct (contains _ _); [|done]|]; injection Hs as _ <-; by apply known_goto.
    + injection Hs as _ <-. by apply known_goto.
  - injection Hs as _ Hs. unfold step_waiting in Hs. destruct (an_onchain a) as [[r os]|]; [|done]. destruct (_ && _); injection Hs as <-; [|done].
    by apply known_goto.
  - injection Hs as _ <-. apply known_goto; [|done]. by apply known_save_now.
Qed.
Lemma known_begin o fs : known_files fs → known o → known_machine (Machine Begin o empty_cache fs).
Proof. intros Hf Hg. split; cbn [m_pc m_or m_cache m_files]; [done|split; [by apply Forall_nil|by left]|done|done]. Qed.
Lemma known_live e L sent L' : typed_config c0 → (0 < c_dep_slot c0)%N → typed_event e → watches nd0 E0 e → known_life L →
  live sha H c0 e L = (sent, L') → known_life L'.
Proof.
  intros Tc Hd Te Hw G. destruct L as [fs|m]; cbn [live known_life] in *.
  - destruct e as [E sync onchain|a| |d|d]; try (by intros [= <- <-]). cbn in Te. subst sync.
    destruct (startup sha H E None onchain fs c0) as [o|] eqn:Hs; [|by intros [= <- <-]]. intros [= <- <-].
    apply known_begin; [done|]. eapply known_startup; [exact Tc|exact Hd|exact G| |exact Hs]. done.
  - destruct e as [E sync onchain|a| |d|d].
    + by intros [= <- <-].
    + destruct Hw as [Xn Xe]. destruct (step sha H a m) as [x [m'|]] eqn:Hs; intros [= <- <-]; [by eapply known_step|]. apply G.
    + intros [= <- <-]. destruct G as [Hg Hca Hfs Hcp]. split; cbn [m_pc m_or m_cache m_files]; [|done|done|done].
      eapply known_same; [exact Hg|]. apply same_hashed.
    + intros [= <- <-]. by apply known_save_now.
    + intros [= <- <-]. cbn. destruct G as [Hg Hca Hfs Hcp]. destruct (m_pc m); try done. by apply known_save.
Qed.
Lemma crew_known L : typed_config c0 → (0 < c_dep_slot c0)%N → crew sha H c0 nd0 E0 L → known_life L.
Proof.
  intros Tc Hd. induction 1 as [|e L sent L' HL IH Te Hw Hl|L E m E' w r raw onchain sent L' HL IH HM IHm Hr Hb Hl].
  - intros p raw Hp. by rewrite lookup_empty in Hp.
  - by eapply known_live.
  - pose proof (state_served _ _ _ _ _ _ Hr Hb) as Hraw. clear Hr Hb.
    apply live_start in Hl as [->|(fs & o & -> & Hs & ->)]; [exact IH|].
    apply known_begin; [exact IH|]. eapply known_startup; [exact Tc|exact Hd|exact IH| |exact Hs].
    intros raw' [= <-]. exists (m_or m). split; [apply IHm|exact Hraw].
Qed.

(** ** Agreement *)
Lemma known_agree o1 o2 : one_chain E0 → known o1 → known o2 → st_latest (or_st o1) = st_latest (or_st o2) → same_work o1 o2.
Proof.
  intros C (l1 & p1 & H1 & _ & Q1 & S1 & _) (l2 & p2 & H2 & _ & Q2 & S2 & _) Hl.
  rewrite <-(proj1 (same_latest _ _ S1)), <-(proj1 (same_latest _ _ S2)) in Hl.
  apply same_work_plain. assert (plain p1 = plain p2) as Hp.
  { eapply evolve_agree; [exact C| |exact H1|exact H2|done|done|done]. exact (dp_slot _ _ (deployed_new c0)). }
  rewrite (same_rehash _ _ S1), (same_rehash _ _ S2). exact Hp.
Qed.
Lemma known_frozen o1 o2 k c1 c2 : one_chain E0 → known o1 → known o2 →
  st_committed (or_st o1) !! k = Some c1 → st_committed (or_st o2) !! k = Some c2 → c1 = c2.
Proof.
  intros C (l1 & p1 & H1 & _ & Q1 & S1 & _) (l2 & p2 & H2 & _ & Q2 & S2 & _) K1 K2.
  rewrite <-(proj2 (proj2 (same_latest _ _ S1))) in K1. rewrite <-(proj2 (proj2 (same_latest _ _ S2))) in K2.
  destruct (evolve_frozen _ _ _ _ _ _ H1 K1) as [Hn|(a1 & b1 & q1 & E1 & -> & A1 & _ & L1 & W1 & Hs1)]; [cbn in Hn; by rewrite lookup_empty in Hn|].
  destruct (evolve_frozen _ _ _ _ _ _ H2 K2) as [Hn|(a2 & b2 & q2 & E2 & -> & A2 & _ & L2 & W2 & Hs2)]; [cbn in Hn; by rewrite lookup_empty in Hn|].
  apply Forall_app in Q1 as [Q1 _]. apply Forall_app in Q2 as [Q2 _].
  assert (plain q1 = plain q2) as Hp.
  { eapply evolve_agree; [exact C| |exact A1|exact A2|done|done|congruence]. exact (dp_slot _ _ (deployed_new c0)). }
  rewrite (snapshot_same H E1 E2 _ W1 W2) in Hs1.
  change (snapshot H E2 (or_st q1)) with (snapshot H E2 (or_st (plain q1))) in Hs1.
  change (snapshot H E2 (or_st q2)) with (snapshot H E2 (or_st (plain q2))) in Hs2. rewrite Hp, Hs2 in Hs1. by injection Hs1.
Qed.
End crew.

Lemma crew_states sha H c0 nd0 E0 m1 m2 : typed_config c0 → (0 < c_dep_slot c0)%N → one_chain E0 →
  crew sha H c0 nd0 E0 (Up m1) → crew sha H c0 nd0 E0 (Up m2) →
  st_latest (or_st (m_or m1)) = st_latest (or_st (m_or m2)) → same_work (m_or m1) (m_or m2).
Proof.
  intros Tc Hd C H1%crew_known H2%crew_known; [|done..]. destruct H1 as [K1 _ _ _], H2 as [K2 _ _ _]. by eapply known_agree.
Qed.
Lemma crew_checkpoints sha H c0 nd0 E0 m1 m2 k c1 c2 : typed_config c0 → (0 < c_dep_slot c0)%N → one_chain E0 →
  crew sha H c0 nd0 E0 (Up m1) → crew sha H c0 nd0 E0 (Up m2) →
  st_committed (or_st (m_or m1)) !! k = Some c1 → st_committed (or_st (m_or m2)) !! k = Some c2 → c1 = c2.
Proof.
  intros Tc Hd C H1%crew_known H2%crew_known; [|done..]. destruct H1 as [K1 _ _ _], H2 as [K2 _ _ _]. by eapply known_frozen.
Qed.
Lemma crew_fleet sha H c0 nd0 E0 L : crew sha H c0 nd0 E0 L → fleet sha H c0 (λ _, True) L.
Proof.
  induction 1 as [|e L sent L' HL IH Te Hw Hl|L E m E' w r raw onchain sent L' HL IH HM IHm Hr Hb Hl].
  - constructor.
  - eapply fleet_event; [exact IH|exact Te|done|exact Hl].
  - eapply fleet_sync; [exact IH|exact IHm|done|exact Hr|exact Hb|exact Hl].
Qed.
Lemma crew_submission sha H c0 nd0 E0 m e slot bytes L' : typed_config c0 → (0 < c_dep_slot c0)%N → crew sha H c0 nd0 E0 (Up m) →
  live sha H c0 e (Up m) = (Some (slot, bytes), L') →
  ∃ c, st_committed (or_st (m_or m)) !! slot = Some c ∧ oc_root c = "0x" +:+ hex_encode bytes.
Proof.
  intros Tc Hd Hcr Hs. pose proof (crew_known _ _ _ _ _ _ Tc Hd Hcr) as [Hg%known_good _ _ _].
  apply crew_fleet, fleet_holds in Hcr.
  destruct (submission_now _ _ _ _ _ _ _ _ Hcr Hs) as (a & root & os & k & c & -> & Ho & Hdry & Hslot & Hk & _ & Hoc & Hr).
  destruct (good_frozen _ _ _ _ _ _ Hg Hk) as (l1 & l2 & p & q & E & H1 & _ & _ & Hp & W & Hsn & Hkc).
  assert (k = slot) as -> by congruence. exists c. split; [done|]. destruct Hr as [Hr|Hr]; [done|]. exfalso.
  destruct (snapshot_root _ _ _ _ Hsn) as [r Hr']. rewrite Hr' in Hr. by apply root_bytes in Hr.
Qed.
Lemma crew_roots sha H c0 nd0 E0 m1 m2 e1 e2 slot b1 b2 L1 L2 : typed_config c0 → (0 < c_dep_slot c0)%N → one_chain E0 →
  crew sha H c0 nd0 E0 (Up m1) → crew sha H c0 nd0 E0 (Up m2) →
  live sha H c0 e1 (Up m1) = (Some (slot, b1), L1) → live sha H c0 e2 (Up m2) = (Some (slot, b2), L2) → b1 = b2.
Proof.
  intros Tc Hd C H1 H2 S1 S2.
  destruct (crew_submission _ _ _ _ _ _ _ _ _ _ Tc Hd H1 S1) as (c1 & K1 & R1).
  destruct (crew_submission _ _ _ _ _ _ _ _ _ _ Tc Hd H2 S2) as (c2 & K2 & R2).
  assert (c1 = c2) as -> by (eapply crew_checkpoints; [exact Tc|exact Hd|exact C|exact H1|exact H2|exact K1|exact K2]). rewrite R1 in R2.
  apply app_prefix_inj in R2. by apply hex_encode_inj.
Qed.
