(** Fetching from nodes and submitting to the contract. *)
From Verif Require Export OnchainSpec ResumeProofs LiveProofs.

(** ** Validators *)
Lemma get_set_iff nd req slot r :
  get_set_of_validators nd req slot = Some r ↔
  req ≠ [] ∧ nd_vals nd req slot = Some r ∧ ∀ i, i ∈ req → ∃ v, (i, v) ∈ r.
Proof.
  unfold get_set_of_validators.
  assert (∀ l, forallb (λ i, existsb (λ kv : N * bval, (kv.1 =? i)%N) r) l = true ↔ ∀ i, i ∈ l → ∃ v, (i, v) ∈ r) as Hall.
  { intros l. rewrite forallb_forall. split; intros H i Hi.
    - apply elem_of_list_In, H, existsb_exists in Hi as ([k v] & Hin & Hk). apply N.eqb_eq in Hk as Hk'. cbn in Hk'. subst k.
      exists v. by apply elem_of_list_In.
    - apply elem_of_list_In, H in Hi as [v Hv]. apply existsb_exists. exists (i, v). split; [by apply elem_of_list_In|].
      apply N.eqb_refl. }
  destruct req as [|i req]; [split; [done|by intros (? & _)]|].
  destruct (nd_vals nd (i :: req) slot) as [[|x r']|] eqn:Hn.
  - split; [done|]. intros (_ & Hr & Hx). injection Hr as <-. destruct (Hx i) as [v Hv]; [by left|]. by apply elem_of_nil in Hv.
  - destruct (forallb _ _) eqn:Hf.
    + split.
      * intros Hr. injection Hr as <-. split; [done|]. split; [done|]. by apply Hall.
      * intros (_ & Hr & _). done.
    + split; [done|]. intros (_ & Hr & Hx). injection Hr as <-. apply Hall in Hx. congruence.
  - split; [done|]. by intros (_ & ? & _).
Qed.

(** ** Duties *)
Definition duty_cache (D : N → duty) (ca : cache) : Prop :=
  ca = empty_cache ∨
  (length (ca_duties ca) = 32%nat ∧ ∀ k, (k < 32)%nat → ca_duties ca !! k = Some (D (32 * ca_epoch ca + N.of_nat k)%N)).

Lemma slot_parts slot : (32 * (slot / 32) + N.of_nat (N.to_nat (slot mod 32)))%N = slot.
Proof. rewrite N2Nat.id. pose proof (N.div_mod slot 32). lia. Qed.
Lemma slot_in_epoch slot : (N.to_nat (slot mod 32) < 32)%nat.
Proof. pose proof (N.mod_lt slot 32). lia. Qed.

Lemma duty_step D nd slot ca : duty_table D → tells_duties D nd → duty_cache D ca → (32 ≤ slot)%N →
  ∃ d ca', get_proposal_duty nd slot ca = Ok (d, ca') ∧ duty_cache D ca' ∧
    (d = Some (D slot) ∨ (d = None ∧ nd_duties nd (slot / 32)%N = None)).
Proof.
  intros HD Ht Hc Hs. unfold get_proposal_duty, slots_in_epoch.
  pose proof (slot_parts slot) as Hp. pose proof (slot_in_epoch slot) as Hk.
  assert (1 ≤ slot / 32)%N as He by (apply N.div_le_lower_bound; lia).
  destruct (N.eqb_spec (ca_epoch ca) (slot / 32)) as [Heq|Hne].
  - destruct Hc as [->|[Hl Hd]]; [cbn in Heq; lia|]. rewrite (Hd _ Hk), Heq, Hp, HD, N.eqb_refl. cbn [negb].
    do 2 eexists. split; [done|]. split; [by right|by left].
  - destruct (nd_duties nd (slot / 32)) as [l|] eqn:Hn.
    + destruct (Ht _ _ Hn) as [Hl Hd]. rewrite (Hd _ Hk), Hp. do 2 eexists. split; [done|]. split; [by right|by left].
    + do 2 eexists. split; [done|]. split; [done|by right].
Qed.

Lemma duties_transparent D l : duty_table D → Forall (λ x, tells_duties D x.1 ∧ (32 ≤ x.2)%N) l →
  ∃ ds ca, asks empty_cache l ds ca ∧
    Forall2 (λ x d, d = Some (D x.2) ∨ (d = None ∧ nd_duties x.1 (x.2 / 32)%N = None)) l ds.
Proof.
  intros HD. assert (duty_cache D empty_cache) as Hc by by left. revert Hc. generalize empty_cache.
  induction l as [|[nd slot] l IH]; intros ca Hc Hl.
  { exists [], ca. split; constructor. }
  inversion Hl as [|? ? [Ht Hs] Hl']; subst. cbn in Ht, Hs.
  destruct (duty_step D nd slot ca) as (d & ca1 & Hd & Hc1 & Hv); [done..|].
  destruct (IH ca1) as (ds & ca2 & Ha & Hf); [done..|].
  exists (d :: ds), ca2. split; [by eapply asks_one|by constructor].
Qed.
Lemma asks_fun ca l ds1 ca1 ds2 ca2 : asks ca l ds1 ca1 → asks ca l ds2 ca2 → ds1 = ds2 ∧ ca1 = ca2.
Proof.
  intros H1. revert ds2 ca2. induction H1 as [|ca nd slot l d c1 ds c2 Hd H1 IH]; intros ds2 ca2 H2; inversion H2 as [|? ? ? ? d' c1' ds' ? Hd' H2']; subst; [done|].
  rewrite Hd in Hd'. injection Hd' as <- <-. destruct (IH _ _ H2') as [-> ->]. done.
Qed.
Lemma duties_exact D l ds ca : duty_table D → Forall (λ x, tells_duties D x.1 ∧ (32 ≤ x.2)%N) l → asks empty_cache l ds ca →
  Forall2 (λ x d, d = Some (D x.2) ∨ (d = None ∧ nd_duties x.1 (x.2 / 32)%N = None)) l ds.
Proof.
  intros HD Hl Ha. destruct (duties_transparent D l HD Hl) as (ds' & ca' & Ha' & Hf).
  by destruct (asks_fun _ _ _ _ _ _ Ha Ha') as [-> _].
Qed.
Lemma epoch0_dies nd slot : (slot < 32)%N → get_proposal_duty nd slot empty_cache = Die (Panic "index out of range").
Proof. intros Hs. unfold get_proposal_duty, slots_in_epoch. by rewrite N.div_small. Qed.

(** ** Blocks *)
Lemma must_ok {A} (x : option A) msg a : must x msg = Ok a ↔ x = Some a.
Proof. destruct x; cbn; split; intros H; try congruence. Qed.

Lemma fetch_validators_spec nd slot ids vs : fetch_validators nd slot ids = Ok vs ↔
  Forall2 (λ i v, get_single_validator nd i slot = Some v) ids vs.
Proof.
  revert vs. induction ids as [|i ids IH]; intros vs; cbn [fetch_validators].
  - split; [intros H; injection H as <-; constructor|by inversion 1].
  - split.
    + intros H. inv_res. subst vs. apply must_ok in Hb. constructor; [done|by apply IH].
    + inversion 1 as [|? v ? vs' Hv Hvs]; subst. rewrite (proj2 (must_ok _ _ _) Hv). cbn [rbind].
      rewrite (proj2 (IH _) Hvs). done.
Qed.
Lemma single_index nd i slot w : get_single_validator nd i slot = Some (Some w) → b_index w = i.
Proof.
  unfold get_single_validator. destruct (nd_vals nd [i] slot) as [[|[k v] [|]]|]; try done.
  destruct (N.eqb_spec k i), (N.eqb_spec (b_index v) i); cbn; congruence.
Qed.
Lemma single_tells nd i slot v : tells_validator nd slot i v → get_single_validator nd i slot = Some v.
Proof.
  unfold tells_validator, get_single_validator. destruct v as [w|]; [|by intros ->].
  intros [-> ->]. by rewrite !N.eqb_refl.
Qed.

Lemma events_logs n ev : forallb (λ x, (n =? l_block x)%N) (checked_logs ev) = true → logs_at n ev.
Proof.
  rewrite forallb_forall. intros H.
  assert (∀ x, x ∈ checked_logs ev → l_block x = n) as Hx.
  { intros x Hx. apply elem_of_list_In, H, N.eqb_eq in Hx. done. }
  unfold checked_logs in Hx.
  repeat split; apply Forall_forall; intros x Hin; apply Hx; rewrite !elem_of_app, !elem_of_list_fmap; naive_solver.
Qed.
Lemma logs_events n ev : ev_others ev = [] → logs_at n ev → forallb (λ x, (n =? l_block x)%N) (checked_logs ev) = true.
Proof.
  intros Ho (H1 & H2 & H3 & H4 & H5 & H6 & H7). apply forallb_forall. intros x Hx. apply N.eqb_eq.
  apply elem_of_list_In in Hx. unfold checked_logs in Hx. rewrite Ho, app_nil_r in Hx.
  pose proof (proj1 (Forall_forall _ _) H1). pose proof (proj1 (Forall_forall _ _) H2). pose proof (proj1 (Forall_forall _ _) H3).
  pose proof (proj1 (Forall_forall _ _) H4). pose proof (proj1 (Forall_forall _ _) H5). pose proof (proj1 (Forall_forall _ _) H6).
  pose proof (proj1 (Forall_forall _ _) H7). rewrite !elem_of_app, !elem_of_list_fmap in Hx. symmetry.
  naive_solver.
Qed.

Lemma payload_get fb p : payload_of fb p ↔ get_payload fb = Ok p.
Proof.
  unfold payload_of, get_payload, need_cblock. split.
  - intros (c & -> & H1 & H2 & ->). cbn. by destruct (cb_version c).
  - destruct (fb_cblock fb) as [c|]; cbn; [|done]. intros H. exists c. destruct (cb_version c); try done; naive_solver.
Qed.

Lemma new_full_block_spec slot idx key v chain fb : new_full_block slot idx key v chain = Ok fb →
  ∃ w, v = Some w ∧ b_index w = idx ∧ fb = FullBlock slot idx key w None None None no_events [] [] chain.
Proof.
  unfold new_full_block. destruct v as [w|]; [|done]. destruct (N.eqb_spec (b_index w) idx) as [He|]; cbn; [|done].
  intros H. injection H as <-. by exists w.
Qed.
Lemma set_consensus_spec c fb fb' : set_consensus_block c fb = Ok fb' →
  cb_slot c = fb_duty_slot fb ∧ cb_proposer c = fb_duty_index fb ∧ cb_version c ≠ VEmpty ∧
  fb' = FullBlock (fb_duty_slot fb) (fb_duty_index fb) (fb_duty_pubkey fb) (fb_validator fb) (Some c)
          (fb_header fb) (fb_receipts fb) (fb_events fb) (fb_subs fb) (fb_unsubs fb) (fb_chain fb).
Proof.
  unfold set_consensus_block. destruct (N.eqb_spec (fb_duty_slot fb) (cb_slot c)) as [Hs|]; cbn [negb]; [|done].
  destruct (N.eqb_spec (fb_duty_index fb) (cb_proposer c)) as [Hi|]; cbn [negb]; [|by destruct (cb_version c)].
  intros H. destruct (cb_version c); try done; injection H as <-; done.
Qed.
Definition with_events (fb : fullblock) (e : events) : fullblock :=
  FullBlock (fb_duty_slot fb) (fb_duty_index fb) (fb_duty_pubkey fb) (fb_validator fb)
    (fb_cblock fb) (fb_header fb) (fb_receipts fb) e (fb_subs fb) (fb_unsubs fb) (fb_chain fb).
Lemma set_events_spec ev fb fb' n : get_number fb = Ok n → set_block_events ev fb = Ok fb' →
  forallb (λ x, (n =? l_block x)%N) (checked_logs ev) = true ∧ ∃ ev', fb' = with_events fb ev' ∧
    ev_subscribe ev' = ev_subscribe ev ∧ ev_unsubscribe ev' = ev_unsubscribe ev ∧
    (¬ (fb_chain fb = 1%N ∧ get_slot fb = Ok 10400574%N) → ev' = ev).
Proof.
  intros Hn. unfold set_block_events. rewrite Hn.
  assert ((match checked_logs ev with [] => Ok true | l => let! n := Ok n in Ok (forallb (λ x, (n =? l_block x)%N) l) end)
    = Ok (forallb (λ x, (n =? l_block x)%N) (checked_logs ev))) as -> by by destruct (checked_logs ev).
  cbn [rbind]. destruct (forallb _ _); cbn [negb]; [|done]. unfold MainnetChainId, exception_slot.
  intros H. split; [done|].
  destruct (N.eqb_spec (fb_chain fb) 1) as [Hc|Hc].
  - inv_res. destruct (N.eqb_spec a 10400574) as [Ha|Ha]; inv_res; subst fb'; eexists; (split; [reflexivity|]); cbn.
    + split; [done|]. split; [done|]. intros Hx. destruct Hx. by subst a.
    + done.
  - injection H as <-. by exists ev.
Qed.
Lemma set_header_spec h rs fb fb' n : get_number fb = Ok n → set_header_and_receipts h rs fb = Ok fb' →
  h_number h = n ∧ fb' = FullBlock (fb_duty_slot fb) (fb_duty_index fb) (fb_duty_pubkey fb) (fb_validator fb) (fb_cblock fb)
             (Some h) (Some rs) (fb_events fb) (fb_subs fb) (fb_unsubs fb) (fb_chain fb).
Proof.
  intros Hn. unfold set_header_and_receipts. rewrite Hn. cbn [rbind]. destruct (N.eqb_spec n (h_number h)) as [->|]; cbn [negb]; [|done].
  destruct (match rs with [] => true | _ => _ end); cbn [negb]; [|done]. intros H. injection H as <-. done.
Qed.

Lemma fetch_events_spec nd n ev : fetch_events nd n = Ok ev ↔
  nd_ether nd n = Some (ev_ether_received ev) ∧ nd_subs nd n = Some (ev_subscribe ev) ∧
  nd_unsubs nd n = Some (ev_unsubscribe ev) ∧ nd_fee nd n = Some (ev_pool_fee ev) ∧
  nd_recipient nd n = Some (ev_fee_recipient ev) ∧ nd_size nd n = Some (ev_checkpoint_size ev) ∧
  nd_coll nd n = Some (ev_collateral ev) ∧ nd_bans nd n = Some (ev_bans ev) ∧ nd_unbans nd n = Some (ev_unbans ev) ∧
  ev_others ev = [].
Proof.
  unfold fetch_events. split.
  - intros H. inv_res. subst ev. rewrite !must_ok in *. cbn. tauto.
  - intros (-> & -> & -> & -> & -> & -> & -> & -> & -> & Ho). cbn. destruct ev; cbn in *. by subst.
Qed.

(** The block before header and receipts are added, and what decides whether they are. *)
Lemma fetch_proposed_split nd E pool all slot s c fb fb' : fetch_proposed nd E pool all slot s c fb = Ok fb' →
  ∃ fb1 n ev fb2 subs unsubs prop rew,
    set_consensus_block c fb = Ok fb1 ∧ get_slot fb1 = Ok slot ∧ get_number fb1 = Ok n ∧ fetch_events nd n = Ok ev ∧
    set_block_events ev fb1 = Ok fb2 ∧
    Forall2 (λ i v, get_single_validator nd i slot = Some v) (sub_id <$> ev_subscribe (fb_events fb2)) subs ∧
    Forall2 (λ i v, get_single_validator nd i slot = Some v) (uns_id <$> ev_unsubscribe (fb_events fb2)) unsubs ∧
    get_proposer (set_request_validators subs unsubs fb2) = Ok prop ∧
    is_address_rewarded E pool (set_request_validators subs unsubs fb2) = Ok rew ∧
    if all || (is_subscribed s prop || rew) then
      ∃ txs h rs, get_txs (set_request_validators subs unsubs fb2) = Ok txs ∧ get_header_and_receipts nd n txs = Ok (h, rs) ∧
        set_header_and_receipts h rs (set_request_validators subs unsubs fb2) = Ok fb'
    else fb' = set_request_validators subs unsubs fb2.
Proof.
  unfold fetch_proposed. intros H. destruct (set_consensus_block c fb) as [fb1|] eqn:H1; cbn [rbind] in H; [|done].
  destruct (get_slot fb1) as [sl|] eqn:H2; cbn [rbind] in H; [|done].
  destruct (N.eqb_spec sl slot) as [->|]; cbn [negb] in H; [|done].
  destruct (get_number fb1) as [n|] eqn:H3; cbn [rbind] in H; [|done].
  destruct (fetch_events nd n) as [ev|] eqn:H4; cbn [rbind] in H; [|done].
  destruct (set_block_events ev fb1) as [fb2|] eqn:H5; cbn [rbind] in H; [|done].
  destruct (fetch_validators nd slot (sub_id <$> _)) as [subs|] eqn:H6; cbn [rbind] in H; [|done].
  destruct (fetch_validators nd slot (uns_id <$> _)) as [unsubs|] eqn:H7; cbn [rbind] in H; [|done].
  destruct (get_proposer _) as [prop|] eqn:H8; cbn [rbind] in H; [|done].
  destruct (is_address_rewarded _ _ _) as [rew|] eqn:H9; cbn [rbind] in H; [|done].
  exists fb1, n, ev, fb2, subs, unsubs, prop, rew. rewrite fetch_validators_spec in H6, H7.
  do 9 (split; [done|]). destruct (all || _).
  - inv_res. do 3 eexists. done.
  - by injection H as <-.
Qed.
Lemma fetch_split nd E pool all slot s ca fb ca' : fetch_full_block nd E pool all slot s ca = Ok (fb, ca') →
  ∃ d v b, get_proposal_duty nd slot ca = Ok (Some d, ca') ∧ d_slot d = slot ∧
    get_single_validator nd (d_index d) slot = Some (Some v) ∧ b_index v = d_index d ∧ nd_block nd slot = Some b ∧
    let fb0 := FullBlock slot (d_index d) (d_key d) v None None None no_events [] [] (nd_chain nd) in
    match b with None => fb = fb0 | Some c => fetch_proposed nd E pool all slot s c fb0 = Ok fb end.
Proof.
  unfold fetch_full_block. intros H. destruct (get_proposal_duty nd slot ca) as [[d ca1]|] eqn:H1; cbn [rbind] in H; [|done].
  destruct d as [d|]; cbn [must rbind] in H; [|done].
  destruct (N.eqb_spec (d_slot d) slot) as [Hs|]; cbn [negb] in H; [|done].
  destruct (get_single_validator nd (d_index d) slot) as [v|] eqn:H2; cbn [must rbind] in H; [|done].
  destruct (new_full_block _ _ _ _ _) as [fb0|] eqn:H3; cbn [rbind] in H; [|done].
  destruct (nd_block nd slot) as [b|] eqn:H4; cbn [must rbind] in H; [|done].
  apply new_full_block_spec in H3 as (w & -> & Hw & ->). rewrite Hs in H.
  destruct b as [c|].
  - inv_res. subst. exists d, w, (Some c). done.
  - injection H as <- <-. exists d, w, None. done.
Qed.

Lemma Forall2_fmap_single {A} nd slot (f : A → N) (l : list A) vs :
  Forall2 (λ i v, get_single_validator nd i slot = Some v) (f <$> l) vs → Forall2 (λ x v, ∀ w, v = Some w → b_index w = f x) l vs.
Proof.
  revert vs. induction l as [|x l IH]; intros vs H; inversion H; subst; constructor; [|by apply IH].
  intros w ->. by eapply single_index.
Qed.

Lemma fetch_coherent nd E pool all slot s ca fb ca' : fetch_full_block nd E pool all slot s ca = Ok (fb, ca') → coherent slot fb.
Proof.
  intros (d & v & b & Hd & Hs & Hv & Hi & Hb & Hf)%fetch_split. cbv zeta in Hf. destruct b as [c|].
  2:{ subst fb. split; cbn; try done; intros; try (by destruct_and!); try by constructor.
      all: match goal with H : payload_of _ _ |- _ => destruct H as (? & ? & _); done end. }
  apply fetch_proposed_split in Hf as (fb1 & n & ev & fb2 & subs & unsubs & prop & rew & H1 & H2 & H3 & H4 & H5 & H6 & H7 & H8 & H9 & H10).
  apply set_consensus_spec in H1 as (Hcs & Hcp & Hcv & ->).
  destruct (set_events_spec _ _ _ _ H3 H5) as (Hlog & ev' & -> & Hes & Heu & Hev).
  assert (get_number (set_request_validators subs unsubs (with_events (FullBlock slot (d_index d) (d_key d) v (Some c) None None no_events [] [] (nd_chain nd)) ev')) = Ok n) as Hn by exact H3.
  assert (∃ h rs, fb = FullBlock slot (d_index d) (d_key d) v (Some c) h rs ev' subs unsubs (nd_chain nd) ∧ ∀ x, h = Some x → h_number x = n) as (h & rs & -> & Hh).
  { destruct (all || _).
    - destruct H10 as (txs & h & rs & _ & _ & Hset). apply (set_header_spec _ _ _ _ n) in Hset as [Hh ->]; [|done].
      exists (Some h), (Some rs). split; [done|]. congruence.
    - subst fb. exists None, None. done. }
  cbn in *. assert (n = p_number (cb_payload c)) as ->.
  { unfold get_number, get_payload in H3. cbn in H3. destruct (cb_version c); try done; by injection H3 as <-. }
  split; cbn; try done.
  - intros c' Hc. injection Hc as <-. done.
  - intros c' Hc. injection Hc as <-. exists c. split; [done|]. split; [done|]. split; [|done].
    intros Ha. unfold get_number, get_payload in H3. cbn in H3. by rewrite Ha in H3.
  - intros p Hp (c' & Hc & _ & _ & ->). injection Hc as <-. rewrite Hev; [by apply events_logs|].
    intros [Hc1 Hc2]. rewrite H2 in Hc2. injection Hc2 as ->. by apply Hp.
  - by eapply Forall2_fmap_single.
  - by eapply Forall2_fmap_single.
  - intros p x (c' & Hc & _ & _ & ->) Hx. injection Hc as <-. by apply Hh.
Qed.

(** ** Header and receipts are only needed when they are fetched *)
Definition with_receipts (h : option header) (rs : option (list receipt)) (fb : fullblock) : fullblock :=
  FullBlock (fb_duty_slot fb) (fb_duty_index fb) (fb_duty_pubkey fb) (fb_validator fb) (fb_cblock fb)
    h rs (fb_events fb) (fb_subs fb) (fb_unsubs fb) (fb_chain fb).

Lemma mev_with_receipts E h rs fb : mev_reward E (with_receipts h rs fb) = mev_reward E fb.
Proof. by destruct fb. Qed.
Lemma sent_with_receipts E pool h rs fb : is_address_rewarded E pool fb = Ok false →
  sent_reward E pool false (with_receipts h rs fb) = sent_reward E pool false fb.
Proof.
  unfold is_address_rewarded, sent_reward. rewrite mev_with_receipts.
  assert (get_fee_recipient E (with_receipts h rs fb) = get_fee_recipient E fb) as -> by by destruct fb.
  intros H. destruct (mev_reward E fb) as [[[r []] rcp]|] eqn:Hm; cbn [rbind]; [done| |done].
  destruct (get_fee_recipient E fb) as [fr|] eqn:Hf; cbn [rbind] in H |- *; [|done].
  destruct (equals fr pool) as [[]|] eqn:He; cbn [rbind] in H |- *; done.
Qed.
Lemma summarize_with_receipts E s pool h rs fb prop : get_proposer fb = Ok prop → is_subscribed s prop = false →
  is_address_rewarded E pool fb = Ok false →
  summarize E s pool (with_receipts h rs fb) = summarize E s pool fb.
Proof.
  intros Hp Hs Hr. unfold summarize. cbn [with_receipts fb_validator fb_cblock fb_duty_pubkey fb_duty_slot fb_duty_index].
  destruct (withdrawal_and_type (fb_validator fb)) as [[wa wt]|]; cbn [rbind]; [|done].
  destruct (fb_cblock fb) as [c|] eqn:Hc; [|done].
  assert (get_proposer (with_receipts h rs fb) = Ok prop) as -> by (rewrite <- Hp; by destruct fb).
  assert (get_number (with_receipts h rs fb) = get_number fb) as -> by by destruct fb.
  rewrite Hp. cbn [rbind]. rewrite Hs, sent_with_receipts by done. done.
Qed.
Lemma validate_vals E fb o o1 : validate_config E fb o = Done o1 tt → st_vals (or_st o1) = st_vals (or_st o) ∧ c_pool (or_cfg o1) = c_pool (or_cfg o).
Proof.
  unfold validate_config. intros H. repeat (case_match; try done); injection H as <-; simplify_eq/=; try done.
  all: repeat match goal with H : inl _ = inl _ |- _ => injection H as <- end; done.
Qed.
Lemma validate_with_receipts E h rs fb o : validate_config E (with_receipts h rs fb) o = validate_config E fb o.
Proof. by destruct fb. Qed.
Lemma donations_with_receipts E pool h rs fb : get_donations E pool (with_receipts h rs fb) = get_donations E pool fb.
Proof. by destruct fb. Qed.
Lemma process_with_receipts E net h rs fb b don s : process_block E net (with_receipts h rs fb) b don s = process_block E net fb b don s.
Proof. by destruct fb. Qed.

Lemma advance_with_receipts E h rs fb o prop : get_proposer fb = Ok prop → is_subscribed (or_st o) prop = false →
  is_address_rewarded E (c_pool (or_cfg o)) fb = Ok false →
  advance E (with_receipts h rs fb) o = advance E fb o.
Proof.
  intros Hp Hs Hr. unfold advance. rewrite validate_with_receipts. cbn [with_receipts fb_duty_slot].
  destruct (negb (st_next (or_st o) =? u64_add (st_latest (or_st o)) 1)%N); [done|].
  destruct (negb (st_next (or_st o) =? fb_duty_slot fb)%N); [done|].
  destruct (validate_config E fb o) as [o1 []|o1 e|d] eqn:Hv; [|done|done].
  apply validate_vals in Hv as [Hvv Hvp].
  rewrite (summarize_with_receipts _ _ _ _ _ _ prop); [|done|by unfold is_subscribed in *; rewrite Hvv|by rewrite Hvp].
  destruct (summarize _ _ _ fb) as [b|]; [|done]. rewrite donations_with_receipts.
  destruct (negb _); [done|]. destruct (get_donations _ _ fb) as [don|]; [|done]. by rewrite process_with_receipts.
Qed.

Lemma fetch_lazy nd E slot o ca fb ca' : fetch_full_block nd E (c_pool (or_cfg o)) true slot (or_st o) ca = Ok (fb, ca') →
  ∃ fb', fetch_full_block nd E (c_pool (or_cfg o)) false slot (or_st o) ca = Ok (fb', ca') ∧
    advance E fb' o = advance E fb o.
Proof.
  unfold fetch_full_block. intros H.
  destruct (get_proposal_duty nd slot ca) as [[d ca1]|] eqn:H1; cbn [rbind] in H |- *; [|done].
  destruct d as [d|]; cbn [must rbind] in H |- *; [|done].
  destruct (negb (d_slot d =? slot)%N); [done|].
  destruct (get_single_validator nd (d_index d) slot) as [v|] eqn:H2; cbn [must rbind] in H |- *; [|done].
  destruct (new_full_block _ _ _ _ _) as [fb0|] eqn:H3; cbn [rbind] in H |- *; [|done].
  destruct (nd_block nd slot) as [[c|]|] eqn:H4; cbn [must rbind] in H |- *; [| |done].
  2:{ exists fb. by injection H as <- <-. }
  destruct (fetch_proposed nd E (c_pool (or_cfg o)) true slot (or_st o) c fb0) as [fb1|] eqn:Hf; cbn [rbind] in H; [|done].
  injection H as <- <-.
  enough (∃ fb', fetch_proposed nd E (c_pool (or_cfg o)) false slot (or_st o) c fb0 = Ok fb' ∧ advance E fb' o = advance E fb1 o) as (fb' & -> & Ha)
    by (by exists fb').
  pose proof Hf as (fba & n & ev & fb2 & subs & unsubs & prop & rew & G1 & G2 & G3 & G4 & G5 & G6 & G7 & G8 & G9 & G10)%fetch_proposed_split.
  cbn [orb] in G10. destruct G10 as (txs & h & rs & G10 & G11 & G12).
  unfold fetch_proposed. rewrite G1. cbn [rbind]. rewrite G2. cbn [rbind]. rewrite N.eqb_refl. cbn [negb].
  rewrite G3. cbn [rbind]. rewrite G4. cbn [rbind]. rewrite G5. cbn [rbind].
  apply fetch_validators_spec in G6, G7. rewrite G6. cbn [rbind]. rewrite G7. cbn [rbind]. rewrite G8. cbn [rbind]. rewrite G9. cbn [rbind orb].
  destruct (is_subscribed (or_st o) prop) eqn:Hs; cbn [orb].
  { rewrite G10. cbn [rbind]. rewrite G11. cbn [rbind]. exists fb1. done. }
  destruct rew.
  { rewrite G10. cbn [rbind]. rewrite G11. cbn [rbind]. exists fb1. done. }
  eexists. split; [done|]. symmetry.
  assert (get_number (set_request_validators subs unsubs fb2) = Ok n) as Hn.
  { destruct (set_events_spec _ _ _ _ G3 G5) as (_ & ev' & -> & _). exact G3. }
  apply (set_header_spec _ _ _ _ n) in G12 as [_ ->]; [|done].
  by apply (advance_with_receipts E (Some h) (Some rs) _ o prop).
Qed.

(** ** A node that serves a complete block *)
Lemma get_receipts_ok nd txs rs : Forall2 (λ t r, ∃ x, t = Some x ∧ nd_receipt nd (tx_hash x) = Some r) txs rs →
  get_receipts nd txs = Ok rs.
Proof. induction 1 as [|t r txs rs (x & -> & Hr) _ IH]; cbn [get_receipts]; [done|]. rewrite Hr, IH. done. Qed.
Lemma single_fmap {A} nd slot (f : A → N) (l : list A) vs :
  Forall2 (λ x v, tells_validator nd slot (f x) v) l vs → fetch_validators nd slot (f <$> l) = Ok vs.
Proof.
  intros H. apply fetch_validators_spec. induction H; cbn; constructor; [by apply single_tells|done].
Qed.
Lemma duty_fresh nd fb ca : serves nd fb → fresh_cache ca fb →
  ∃ ca', get_proposal_duty nd (fb_duty_slot fb) ca = Ok (Some (Duty (fb_duty_slot fb) (fb_duty_index fb) (fb_duty_pubkey fb)), ca').
Proof.
  intros [_ (l & Hl & Hd) _ _ _ _] Hf. unfold get_proposal_duty, slots_in_epoch.
  destruct (N.eqb_spec (ca_epoch ca) (fb_duty_slot fb / 32)) as [He|He].
  - destruct Hf as [Hf|Hf]; [done|]. rewrite Hf. cbn [d_slot]. rewrite He, N.eqb_refl. cbn [negb]. eauto.
  - rewrite Hl, Hd. eauto.
Qed.

Lemma rewarded_ok E pool pool20 fb base txs rs : names pool20 pool → addrs20 fb → ordinary fb → fb_chain fb ∈ [1; 17000; 560048]%N →
  complete_block fb base txs rs → Forall (λ t, is_Some (tx_sender t)) txs →
  ∃ r, is_address_rewarded E pool fb = Ok r.
Proof.
  intros Hn H20 Hord Hch Hc Hs. destruct (complete_payload _ _ _ _ Hc) as (c & p & _ & _ & Hp & Htx).
  destruct (mev_ok E fb p txs) as (r & m & a & Hm); [done..|]. unfold is_address_rewarded, get_fee_recipient.
  rewrite (proj2 (get_payload_spec _ _) Hp). cbn [rbind].
  rewrite (names_equals _ _ _ _ Hn (a20_fee _ H20 _ Hp)). cbn [rbind]. destruct (bool_decide _); [eauto|].
  rewrite Hm. cbn [rbind]. pose proof (mev_reward_spec E fb r m a H20 Hord Hm) as Hspec. destruct m; [|eauto].
  destruct Hspec as (x & _ & Lx & ->). rewrite (names_equals_lower _ _ _ _ Hn Lx). eauto.
Qed.

Lemma fetch_serves nd E c pool20 s ca fb : names pool20 (c_pool c) → good_slot c pool20 E fb → serves nd fb → fresh_cache ca fb →
  ∃ ca', fetch_full_block nd E (c_pool c) true (fb_duty_slot fb) s ca = Ok (fb, ca').
Proof.
  intros Hn [_ _ G3 G4 G5 _ _] Hsv Hfr. destruct (duty_fresh _ _ _ Hsv Hfr) as [ca' Hd]. exists ca'.
  destruct Hsv as [S1 _ S3 S4 S5 S6]. unfold fetch_full_block. rewrite Hd. cbn [rbind must d_slot d_index d_key].
  rewrite N.eqb_refl. cbn [negb]. rewrite (single_tells _ _ _ _ S3). cbn [must rbind].
  destruct S3 as [_ Hi]. unfold new_full_block. rewrite Hi, N.eqb_refl. cbn [negb rbind]. rewrite S4. cbn [must rbind].
  destruct (fb_cblock fb) as [cb|] eqn:Hcb.
  2:{ destruct (S5 eq_refl) as (Q1 & Q2 & Q3 & Q4 & Q5). do 2 f_equal. destruct fb; cbn in *. congruence. }
  destruct (S6 cb eq_refl) as (T1 & T2 & T3 & T4 & T5 & T6 & T7 & T8 & T9 & T10 & T11 & T12 & T13 & T14 & T15 & T16 & h & rs & T17 & T18 & T19 & T20 & T21 & T22).
  destruct (se_block _ _ _ G5) as [Hno|(base & txs & rs' & Hc & Hs)]; [congruence|].
  destruct (rewarded_ok E (c_pool c) pool20 fb base txs rs') as [rew Hrew]; try done; [apply G5|].
  destruct T3 as (cb' & Hcb' & V1 & V2 & _). rewrite Hcb in Hcb'. injection Hcb' as <-.
  unfold fetch_proposed, set_consensus_block. cbn [fb_duty_slot fb_duty_index]. rewrite T1, T2, !N.eqb_refl. cbn [negb].
  set (fb1 := FullBlock _ _ _ _ (Some cb) _ _ _ _ _ _).
  assert (∀ x, (match cb_version cb with VEmpty => x | _ => Ok fb1 end) = Ok fb1) as -> by (intros x; by destruct (cb_version cb)).
  cbn [rbind].
  assert (get_slot fb1 = Ok (fb_duty_slot fb)) as Hgs.
  { unfold get_slot, need_cblock, fb1. cbn. rewrite T1. by destruct (cb_version cb). }
  rewrite Hgs. cbn [rbind]. rewrite N.eqb_refl. cbn [negb].
  assert (get_number fb1 = Ok (p_number (cb_payload cb))) as Hgn.
  { unfold get_number, get_payload, need_cblock, fb1. cbn. by destruct (cb_version cb). }
  rewrite Hgn. cbn [rbind].
  rewrite (proj2 (fetch_events_spec nd _ (fb_events fb))) by tauto. cbn [rbind].
  assert (set_block_events (fb_events fb) fb1 = Ok (with_events fb1 (fb_events fb))) as ->.
  { unfold set_block_events. rewrite Hgn. cbn [rbind].
    assert ((match checked_logs (fb_events fb) with [] => Ok true | l => Ok (forallb (λ x, (p_number (cb_payload cb) =? l_block x)%N) l) end)
      = Ok (forallb (λ x, (p_number (cb_payload cb) =? l_block x)%N) (checked_logs (fb_events fb)))) as -> by by destruct (checked_logs _).
    rewrite logs_events by done. cbn [rbind negb]. unfold MainnetChainId, exception_slot.
    assert (fb_chain fb1 = fb_chain fb) as Hch by exact S1. destruct (N.eqb_spec (fb_chain fb1) 1) as [H1|]; [|done].
    rewrite Hgs. cbn [rbind]. rewrite (proj2 (N.eqb_neq _ _)); [done|]. rewrite <- T1. rewrite Hch in H1. by apply G4. }
  cbn [rbind with_events fb_events].
  rewrite (single_fmap _ _ _ _ _ T15). cbn [rbind]. rewrite (single_fmap _ _ _ _ _ T16). cbn [rbind].
  assert (set_request_validators (fb_subs fb) (fb_unsubs fb) (with_events fb1 (fb_events fb)) = with_receipts None None fb) as Hfb.
  { unfold set_request_validators, with_events, with_receipts, fb1. cbn. by rewrite S1, Hcb. }
  cbn [with_events] in Hfb. rewrite Hfb.
  assert (get_proposer (with_receipts None None fb) = Ok (cb_proposer cb)) as ->.
  { unfold get_proposer, need_cblock. cbn. rewrite Hcb. cbn. by destruct (cb_version cb). }
  cbn [rbind].
  assert (is_address_rewarded E (c_pool c) (with_receipts None None fb) = is_address_rewarded E (c_pool c) fb) as -> by by destruct fb.
  rewrite Hrew. cbn [rbind orb].
  assert (get_txs (with_receipts None None fb) = Ok (p_txs (cb_payload cb))) as ->.
  { unfold get_txs, get_payload, need_cblock. cbn. rewrite Hcb. cbn. by destruct (cb_version cb). }
  cbn [rbind]. unfold get_header_and_receipts. rewrite T19, (get_receipts_ok _ _ _ T22). cbn [rbind].
  assert (get_number (with_receipts None None fb) = Ok (p_number (cb_payload cb))) as Hgn'.
  { unfold get_number, get_payload, need_cblock. cbn. rewrite Hcb. cbn. by destruct (cb_version cb). }
  unfold set_header_and_receipts. rewrite Hgn'. cbn [rbind]. rewrite T20, N.eqb_refl. cbn [negb].
  assert ((match rs with [] => true | x :: _ => (p_number (cb_payload cb) =? rc_block x)%N end) = true) as ->.
  { destruct T21 as [|r rs Hr _]; [done|]. by rewrite Hr, N.eqb_refl. }
  cbn [negb rbind with_receipts fb_duty_slot fb_duty_index fb_duty_pubkey fb_validator fb_cblock fb_events fb_subs fb_unsubs fb_chain].
  do 2 f_equal. rewrite <- T17, <- T18. by destruct fb.
Qed.

(** The whole step of the main loop, from the node to the new state. *)
Lemma fetched_step nd E fb o pool20 ca : names pool20 (c_pool (or_cfg o)) → good_slot (or_cfg o) pool20 E fb → ready o (fb_duty_slot fb) →
  serves nd fb → fresh_cache ca fb →
  ∃ fb' ca' o', fetch_full_block nd E (c_pool (or_cfg o)) false (fb_duty_slot fb) (or_st o) ca = Ok (fb', ca') ∧
    advance E fb' o = Done o' (fb_duty_slot fb) ∧ advance E fb o = Done o' (fb_duty_slot fb).
Proof.
  intros Hn Hg Hr Hs Hc. destruct (fetch_serves nd E (or_cfg o) pool20 (or_st o) ca fb) as [ca' Hf]; [done..|].
  apply fetch_lazy in Hf as (fb' & Hf & Ha). destruct (good_advance E fb o pool20) as [o' Ho]; [done..|].
  exists fb', ca', o'. by rewrite Ha.
Qed.

Lemma fetched_run c pool20 D o l o' ca : names pool20 (c_pool c) → duty_table D → duty_cache D ca → c_pool (or_cfg o) = c_pool c →
  Forall (λ x, let '(nd, E, fb) := x in good_slot c pool20 E fb ∧ serves nd fb ∧ tells_duties D nd ∧
    D (fb_duty_slot fb) = Duty (fb_duty_slot fb) (fb_duty_index fb) (fb_duty_pubkey fb) ∧ (32 ≤ fb_duty_slot fb)%N) l →
  run o ((λ x, (x.1.2, x.2)) <$> l) o' →
  ∃ ca', follows o ca ((λ x, (x.1.1, x.1.2, fb_duty_slot x.2)) <$> l) o' ca'.
Proof.
  intros Hn HD. revert o ca. induction l as [|[[nd E] fb] l IH]; intros o ca Hca Hp Hl Hr; cbn in Hr; inversion Hr as [|? ? ? o1 n ? ? Ha Hr1]; subst.
  { exists ca. constructor. }
  inversion Hl as [|? ? Hx Hl']; subst. cbv beta iota in Hx. destruct Hx as (Hg & Hs & Ht & Hd & H32).
  destruct (fetch_serves nd E c pool20 (or_st o) ca fb) as [ca1 Hf]; [done..| |].
  { destruct Hca as [->|[Hlen Hca]].
    - left. cbn. assert (1 ≤ fb_duty_slot fb / 32)%N by (apply N.div_le_lower_bound; lia). lia.
    - destruct (N.eq_dec (ca_epoch ca) (fb_duty_slot fb / 32)) as [He|]; [right|by left].
      rewrite (Hca _ (slot_in_epoch _)), He, slot_parts. by rewrite Hd. }
  rewrite <-Hp in Hf. apply fetch_lazy in Hf as (fb' & Hf & Ha').
  assert (duty_cache D ca1) as Hca1.
  { pose proof Hf as (d & v & b & Hd1 & _)%fetch_split. destruct (duty_step D nd (fb_duty_slot fb) ca) as (d' & ca2 & Hd2 & Hc2 & _); [done..|]. congruence. }
  destruct (IH o1 ca1) as [ca2 Hfo]; [done| |done|done|].
  { destruct (advance_cfg_all _ _ _ _ _ Ha) as (_ & -> & _). done. }
  exists ca2. cbn. eapply follows_one; [done| |done]. by rewrite Ha'.
Qed.
Lemma fetched_chain D o l slot pool20 : names pool20 (c_pool (or_cfg o)) → duty_table D → ready o slot →
  Forall (λ x, let '(nd, E, fb) := x in good_slot (or_cfg o) pool20 E fb ∧ serves nd fb ∧ tells_duties D nd ∧
    D (fb_duty_slot fb) = Duty (fb_duty_slot fb) (fb_duty_index fb) (fb_duty_pubkey fb)) l →
  consecutive slot ((λ x, (x.1.2, x.2)) <$> l) → (32 ≤ slot)%N → (slot + N.of_nat (length l) < 2 ^ 64)%N →
  ∃ o' ca', follows o empty_cache ((λ x, (x.1.1, x.1.2, fb_duty_slot x.2)) <$> l) o' ca' ∧
    run o ((λ x, (x.1.2, x.2)) <$> l) o' ∧ st_next (or_st o') = (slot + N.of_nat (length l))%N.
Proof.
  intros Hn HD Hr Hl Hc H32 Hb. destruct (good_run o ((λ x, (x.1.2, x.2)) <$> l) slot pool20) as (o' & Hrun & Hnext); [done..| |done| |].
  { apply Forall_fmap. eapply Forall_impl; [done|]. by intros [[nd E] fb] [? _]. }
  { by rewrite fmap_length. }
  rewrite fmap_length in Hnext.
  destruct (fetched_run (or_cfg o) pool20 D o l o' empty_cache) as [ca' Hf]; [done|done|by left|done| |done|].
  { clear -Hl Hc H32. revert slot Hc H32. induction Hl as [|[[nd E] fb] l Hx _ IH]; intros slot Hc H32; [done|]. cbv beta iota in Hx. destruct Hx as (A & B & C & E').
    cbn in Hc. destruct Hc as [<- Hc]. constructor; [by auto 6|]. apply (IH (fb_duty_slot fb + 1)%N); [done|lia]. }
  by exists o', ca'.
Qed.

(** ** Submitting *)
Lemma hex2bytes_encode s : hex2bytes (hex_encode s) = s.
Proof.
  induction s as [|c s IH]; [done|]. cbn [hex_encode hex2bytes].
  assert (is_hex_char (hex_digit (N_of_ascii c / 16)) && is_hex_char (hex_digit (N_of_ascii c mod 16)) = true ∧
    ascii_of_N (16 * hex_val (hex_digit (N_of_ascii c / 16)) + hex_val (hex_digit (N_of_ascii c mod 16))) = c) as [-> ->]
    by (destruct c as [[] [] [] [] [] [] [] []]; vm_compute; done).
  by rewrite IH.
Qed.

Lemma hex_chars : ∀ c, (is_hex_char (lower_ascii c) = is_hex_char c) ∧
  (is_hex_char c = true → hex_digit (hex_val c) = lower_ascii c ∧ (hex_val c < 16)%N).
Proof. intros [[] [] [] [] [] [] [] []]; split; vm_compute; try done; intros; by split. Qed.
Lemma hex2bytes_in_hex n : ∀ d, String.length d = (2 * n)%nat → sforall is_hex_char d = true →
  String.length (hex2bytes d) = n ∧ to_lower d = hex_encode (hex2bytes d).
Proof.
  induction n as [|n IH]; intros d Hl Hx.
  - destruct d; [done|discriminate Hl].
  - destruct d as [|a [|b d]]; cbn in Hl; [lia|lia|]. cbn [sforall] in Hx. apply andb_prop in Hx as [Ha [Hb Hd]%andb_prop].
    destruct (IH d) as [H1 H2]; [lia|done|]. cbn [hex2bytes]. rewrite Ha, Hb. cbn [andb String.length to_lower hex_encode]. split; [by rewrite H1|].
    destruct (proj2 (hex_chars a) Ha) as [Da La]. destruct (proj2 (hex_chars b) Hb) as [Db Lb].
    rewrite N_ascii_embedding by lia. replace ((16 * hex_val a + hex_val b) / 16)%N with (hex_val a) by (apply (N.div_unique _ _ _ (hex_val b)); [done|lia]).
    replace ((16 * hex_val a + hex_val b) mod 16)%N with (hex_val b) by (apply (N.mod_unique _ _ (hex_val a)); [done|lia]). by rewrite Da, Db, H2.
Qed.
Lemma lower_length s : String.length (to_lower s) = String.length s.
Proof. induction s as [|c s IH]; [done|]. cbn. by rewrite IH. Qed.
Lemma lower_hex s : sforall is_hex_char (to_lower s) = sforall is_hex_char s.
Proof. induction s as [|c s IH]; [done|]. cbn [to_lower sforall]. by rewrite IH, (proj1 (hex_chars c)). Qed.
Lemma names_address a20 str : names a20 str → is_hex_address str = true ∧ hex_to_address str = a20.
Proof.
  intros [Hl Hs]. destruct str as [|c1 [|c2 d]]; [discriminate Hs..|]. cbn [to_lower] in Hs. injection Hs as H1 H2 Hd.
  assert (has_prefix (String c1 (String c2 d)) "0x" || has_prefix (String c1 (String c2 d)) "0X" = true) as Hp.
  { clear Hd. destruct c1 as [[] [] [] [] [] [] [] []]; try discriminate H1. destruct c2 as [[] [] [] [] [] [] [] []]; try discriminate H2; destruct d; reflexivity. }
  assert (String.length d = (2 * 20)%nat) as Hn by by rewrite <-lower_length, Hd, hex_encode_length, Hl.
  assert (sforall is_hex_char d = true) as Hx by by rewrite <-lower_hex, Hd, (proj1 (hex_encode_ok a20)).
  unfold is_hex_address, hex_to_address. rewrite Hp. cbn [sdrop]. rewrite Hx, Hn. split; [reflexivity|].
  apply (hex2bytes_in_hex 20 d Hn) in Hx as [_ Hx]. rewrite Hd in Hx. by apply hex_encode_inj in Hx.
Qed.

(** No error: the transaction went out with this slot and root, and a receipt came back. *)
Lemma submitted A slot root sent : update_root A slot root = (sent, None) →
  ∃ bytes status late, sent = Some (slot, bytes) ∧ String.length bytes = 32%nat ∧
    (root = "0x" +:+ hex_encode bytes ∨ root = hex_encode bytes) ∧ sa_mined A = Mined status late ∧
    sa_nonce A = None ∧ sa_chain A = None ∧ sa_auth A = None ∧ sa_instance A = None ∧ sa_send A = None.
Proof.
  unfold update_root. set (r := if has_prefix root "0x" then sdrop 2 root else root). intros H.
  destruct (Nat.eqb_spec (String.length (hex2bytes r)) 32) as [Hl|]; cbn [negb] in H; [|done].
  destruct (String.eqb_spec (hex_encode (hex2bytes r)) r) as [He|]; cbn [negb] in H; [|done].
  destruct (sa_nonce A); [done|]. destruct (sa_chain A); [done|]. destruct (sa_auth A); [done|].
  destruct (sa_instance A); [done|]. destruct (sa_send A); [done|].
  destruct (sa_mined A) as [status late|e]; [|done].
  exists (hex2bytes r), status, late. split; [|split; [done|]; split].
  - destruct late; cbn in H; [congruence|]. destruct (negb _); cbn in H; congruence.
  - rewrite He. unfold r. destruct (has_prefix root "0x") eqn:Hp; [left|by right].
    apply has_prefix_app in Hp as [t ->]. by rewrite (sdrop_app "0x").
  - done.
Qed.
(** Whatever goes out has the slot and the bytes of the root that were asked for. *)
Lemma sent_what A slot bytes20 e slot' bytes : String.length bytes20 = 32%nat →
  update_root A slot (hexutil_encode bytes20) = (Some (slot', bytes), e) → slot' = slot ∧ bytes = bytes20.
Proof.
  intros Hl. unfold update_root, hexutil_encode. rewrite (proj2 (has_prefix_app _ "0x")) by eauto. rewrite (sdrop_app "0x"), hex2bytes_encode, Hl.
  rewrite String.eqb_refl. cbn [Nat.eqb negb]. intros H. repeat case_match; simplify_eq; done.
Qed.

(** ** Configuration *)
Lemma find_initialize_spec args sel data : String.length sel = 4%nat →
  match find_initialize args sel data with
  | Some fee => ∃ pre tail, data = pre +:+ sel +:+ tail ∧ args tail = Some fee
  | None => ∀ pre tail fee, data = pre +:+ sel +:+ tail → args tail ≠ Some fee
  end.
Proof.
  intros Hsel. induction data as [|c data IH]; cbn [find_initialize].
  { intros pre tail fee H. apply (f_equal String.length) in H. rewrite !string_length_app, Hsel in H. cbn in H. lia. }
  assert (∀ t, String c data = sel +:+ t → sdrop 4 (String c data) = t) as Hdrop.
  { intros t ->. rewrite <-Hsel. apply sdrop_app. }
  destruct (has_prefix (String c data) sel) eqn:Hp.
  - apply has_prefix_app in Hp as [t Ht]. rewrite (Hdrop t Ht). destruct (args t) as [fee|] eqn:Ha.
    { exists "", t. by rewrite Ht. }
    destruct (find_initialize args sel data) as [fee|].
    + destruct IH as (pre & tail & -> & H). by exists (String c pre), tail.
    + intros pre tail fee H Hf. destruct pre as [|c' pre].
      * change ("" +:+ (sel +:+ tail)) with (sel +:+ tail) in H. rewrite Ht in H. apply app_prefix_inj in H as <-. congruence.
      * rewrite scons_app in H. injection H as -> ->. by eapply IH.
  - destruct (find_initialize args sel data) as [fee|].
    + destruct IH as (pre & tail & -> & H). by exists (String c pre), tail.
    + intros pre tail fee H Hf. destruct pre as [|c' pre].
      * assert (has_prefix (String c data) sel = true) by (apply has_prefix_app; exists tail; exact H). congruence.
      * rewrite scons_app in H. injection H as -> ->. by eapply IH.
Qed.

Lemma decode_initial_spec args sel pool20 txs : String.length sel = 4%nat →
  match decode_initial_fee args sel pool20 txs with
  | Some fee => initializes args sel pool20 txs fee
  | None => (∀ fee, ¬ initializes args sel pool20 txs fee) ∨ malformed args sel pool20 txs
  end.
Proof.
  intros Hsel. induction txs as [|[to data] txs IH]; cbn [decode_initial_fee].
  { left. intros fee (to & data & pre & tail & H & _). by apply elem_of_nil in H. }
  assert (∀ fee, initializes args sel pool20 txs fee → initializes args sel pool20 ((to, data) :: txs) fee) as Hup.
  { intros fee (to' & data' & pre & tail & H & H'). exists to', data', pre, tail. split; [by right|done]. }
  assert (malformed args sel pool20 txs → malformed args sel pool20 ((to, data) :: txs)) as Hmal.
  { intros (tail & H & H'). exists tail. split; [by right|done]. }
  assert (∀ fee, initializes args sel pool20 ((to, data) :: txs) fee → initializes args sel pool20 txs fee ∨
    ∃ pre tail, data = pre +:+ sel +:+ tail ∧ args tail = Some fee ∧ ((to = Some pool20 ∧ pre = "") ∨ to = None)) as Hdown.
  { intros fee (to' & data' & pre & tail & H & H1 & H2 & H3). apply elem_of_cons in H as [[= -> ->]|H]; [right|left].
    - by exists pre, tail.
    - by exists to', data', pre, tail. }
  assert ((∀ fee pre tail, data = pre +:+ sel +:+ tail → args tail = Some fee → ((to = Some pool20 ∧ pre = "") ∨ to = None) → False) →
    match decode_initial_fee args sel pool20 txs with
    | Some fee => initializes args sel pool20 ((to, data) :: txs) fee
    | None => (∀ fee, ¬ initializes args sel pool20 ((to, data) :: txs) fee) ∨ malformed args sel pool20 ((to, data) :: txs)
    end) as Hnext.
  { intros Hno. destruct (decode_initial_fee args sel pool20 txs) as [fee|]; [by apply Hup|].
    destruct IH as [IH|IH]; [left|right; by apply Hmal]. intros fee Hi.
    apply Hdown in Hi as [Hi|(pre & tail & H1 & H2 & H3)]; [by eapply IH|by eapply Hno]. }
  destruct (Nat.ltb_spec (String.length data) 4) as [Hl|Hl].
  { apply Hnext. intros fee pre tail -> _ _. rewrite !string_length_app in Hl. lia. }
  destruct to as [a|].
  - destruct (String.eqb_spec a pool20) as [->|Hne]; cbn [andb].
    2:{ apply Hnext. intros fee pre tail _ _ [[[= ->] _]|[=]]. done. }
    destruct (has_prefix data sel) eqn:Hp.
    + apply has_prefix_app in Hp as [t ->]. rewrite <-Hsel, sdrop_app. destruct (args t) as [fee|] eqn:Ha.
      * exists (Some pool20), (sel +:+ t), "", t. split; [by left|]. split; [done|]. split; [done|]. by left.
      * right. exists t. split; [by left|done].
    + apply Hnext. intros fee pre tail -> _ [[_ ->]|[=]].
      assert (has_prefix ("" +:+ (sel +:+ tail)) sel = true) as H' by (apply has_prefix_app; by exists tail). by rewrite H' in Hp.
  - pose proof (find_initialize_spec args sel data Hsel) as Hf. destruct (find_initialize args sel data) as [fee|].
    + destruct Hf as (pre & tail & H1 & H2). exists None, data, pre, tail. split; [by left|]. by auto.
    + apply Hnext. intros fee pre tail H1 H2 _. by eapply Hf.
Qed.

Lemma big_int64 x : is_int64 x → int64_of_big x = x.
Proof.
  unfold is_int64, int64_of_big, int64_of_u64, u64, two64. intros Hx. rewrite N.mod_small by lia.
  destruct (N.ltb_spec (Z.abs_N x) 9223372036854775808); destruct (Z.ltb_spec x 0); try case_match;
    repeat match goal with H : (_ =? _)%Z = _ |- _ => first [apply Z.eqb_eq in H | apply Z.eqb_neq in H] end; lia.
Qed.

Lemma chain_ids exec cons : cons = u64 (Z.to_N (int64_of_big exec mod 18446744073709551616)) →
  (cons < 9223372036854775808)%N → is_int64 exec → Z.of_N cons = exec.
Proof.
  intros Hc Hl Hi. rewrite (big_int64 exec Hi) in Hc. unfold is_int64 in Hi.
  pose proof (Z.mod_pos_bound exec 18446744073709551616 eq_refl) as Hb.
  rewrite u64_small in Hc by (unfold two64; lia). rewrite Hc, Z2N.id by lia.
  destruct (Z.ltb_spec exec 0); [|by apply Z.mod_small; lia].
  assert (exec mod 18446744073709551616 = exec + 18446744073709551616)%Z as Hm; [|lia].
  rewrite <-(Z.mod_small (exec + 18446744073709551616) 18446744073709551616) by lia. rewrite <-(Z_mod_plus_full exec 1). f_equal.
Qed.

Lemma config_right E args sel pool20 A pool dry c : String.length sel = 4%nat →
  get_config E args sel pool20 A pool dry = Ok c → right_config args sel pool20 A pool dry c.
Proof.
  intros Hsel. unfold get_config. intros H.
  destruct (ga_exec_chain A) as [exec|] eqn:H1; cbn [must rbind] in H; [|done].
  destruct (ga_cons_chain A) as [cons|] eqn:H2; cbn [must rbind] in H; [|done].
  destruct (N.eqb_spec cons (u64 (Z.to_N (int64_of_big exec mod 18446744073709551616)))) as [Hcons|]; cbn [negb] in H; [|done].
  destruct (network_of cons) as [net|] eqn:H3; cbn [must rbind] in H; [|done].
  destruct (ga_genesis A) as [genesis|] eqn:H4; cbn [must rbind] in H; [|done].
  destruct (ga_balance A) eqn:H5; cbn [must rbind] in H; [|done].
  destruct (ga_deployed A) as [deployed|] eqn:H6; cbn [must rbind] in H; [|done].
  destruct (ga_block A) as [[time txs]|] eqn:H7; cbn [must rbind] in H; [|done].
  destruct (ga_cblock A (u64_sub time genesis / 12)%N) as [cb|] eqn:H8; cbn [must rbind] in H; [|done].
  set (slot := (u64_sub time genesis / 12)%N) in *.
  destruct (get_number _) as [n|] eqn:H9 in H; cbn [rbind] in H; [|done].
  destruct (N.eqb_spec n (u64 (Z.abs_N deployed))) as [Hn|]; cbn [negb] in H; [|done].
  pose proof (decode_initial_spec args sel pool20 txs Hsel) as Hdec.
  destruct (decode_initial_fee args sel pool20 txs) as [fee|] eqn:H10;
    [|destruct (default_fee net) as [fee|] eqn:H11]; cbn [must rbind] in H; [..|done].
  all: destruct (ga_cp_size A) as [size|] eqn:H12; cbn [must rbind] in H; [|done].
  all: destruct (ga_fees_addr A) as [addr|] eqn:H13; cbn [must rbind] in H; [|done].
  all: destruct (ga_coll A) as [coll|] eqn:H14; cbn [must rbind] in H; [|done].
  all: destruct (ga_members A) eqn:H15; cbn [must rbind] in H; [|done].
  all: destruct (ga_quorum A) eqn:H16; cbn [must rbind] in H; [|done].
  all: injection H as <-.
  all: assert (cons = 1 ∧ net = "mainnet" ∨ cons = 5 ∧ net = "goerli" ∨ cons = 17000 ∧ net = "holesky" ∨ cons = 560048 ∧ net = "hoodi")%N as Hnet.
  1,3: unfold network_of in H3; repeat case_match; simplify_eq;
    repeat match goal with H : (_ =? _)%N = true |- _ => apply N.eqb_eq in H end; subst; auto 6.
  all: assert (∃ c, cb = Some c ∧ p_number (cb_payload c) = n) as (cb' & -> & Hnum).
  1,3: unfold get_number, get_payload, need_cblock in H9; cbn [fb_cblock] in H9; destruct cb as [cb|]; cbn [rbind] in H9; [|done];
    exists cb; split; [done|]; destruct (cb_version cb); cbn [rbind] in H9; congruence.
  all: split; cbn [c_network c_dep_slot c_dep_block c_cp_size c_feepct c_fees_addr c_dry_run c_coll c_pool]; try done.
  all: try (exists addr; split; [done|]; intros ?; split; [done|]; apply to_lower_addr).
  all: try (exists exec, cons; do 2 (split; [done|]); split;
      [unfold chains; rewrite !elem_of_cons; destruct Hnet as [[-> ->]|[[-> ->]|[[-> ->]|[-> ->]]]]; auto 6
      |apply chain_ids; [done|]; lia]).
  all: exists time, txs, genesis, deployed, cb'; do 3 (split; [done|]).
  all: split; [intros Ht; unfold slot; by rewrite u64_sub_exact by lia|].
  all: split; [intros Hd; rewrite u64_small by (unfold two64; lia); lia|].
  all: split; [done|]; split; [congruence|].
  - by left.
  - right. split; [done|]. unfold default_fee in H11. destruct Hnet as [[-> ->]|[[-> ->]|[[-> ->]|[-> ->]]]]; cbn in H11; simplify_eq; auto.
Qed.

Lemma addr_string_ascii m a : ascii_only (addr_string m a) = true.
Proof.
  unfold addr_string. rewrite ascii_only_app. cbn [andb]. change (ascii_only "0x") with true. cbn [andb].
  destruct (hex_encode_ok a) as [_ Ha]. revert Ha. generalize (hex_encode a) 0%nat. intros s. unfold ascii_only.
  induction s as [|c s IH]; intros i; [done|]. cbn [sforall apply_mask]. intros [Hc Hs]%andb_prop. rewrite (IH (S i) Hs), andb_true_r.
  destruct (m a i); [|done]. destruct c as [[] [] [] [] [] [] [] []]; revert Hc; vm_compute; done.
Qed.

Lemma config_typed E args sel pool20 A pool dry c : String.length sel = 4%nat →
  ascii_only pool = true → (∀ x, ga_cp_size A = Some x → is_u64 x) → (∀ x f, args x = Some f → is_int64 f) →
  get_config E args sel pool20 A pool dry = Ok c → typed_config c.
Proof.
  intros Hsel Hpool Hsize Hargs H. pose proof (config_right _ _ _ _ _ _ _ _ Hsel H) as [Hc Hd Hs _ _ [Hp _]].
  assert (∃ a, c_fees_addr c = addr_string (e_mask E) a) as [a Ha].
  { unfold get_config in H. inv_res. case_match; [done|]. inv_res. case_match; [done|]. inv_res. subst c. by eexists. }
  assert (is_u64 (c_dep_slot c) ∧ is_u64 (c_dep_block c)) as [Hs1 Hs2].
  { unfold get_config in H.
    destruct (ga_exec_chain A); cbn [must rbind] in H; [|done].
    destruct (ga_cons_chain A); cbn [must rbind] in H; [|done]. case_match; [done|].
    destruct (network_of _); cbn [must rbind] in H; [|done].
    destruct (ga_genesis A); cbn [must rbind] in H; [|done].
    destruct (ga_balance A); cbn [must rbind] in H; [|done].
    destruct (ga_deployed A); cbn [must rbind] in H; [|done].
    destruct (ga_block A) as [[??]|]; cbn [must rbind] in H; [|done].
    inv_res. case_match; [done|]. inv_res. subst c. cbn. split; [|apply u64_is].
    assert (is_u64 (u64_sub n1 n0)) by apply u64_is. unfold is_u64 in *. eapply N.le_lt_trans; [|done]. apply N.div_le_upper_bound; lia. }
  split.
  - rewrite Ha, Hp. split; [|split; [done|apply addr_string_ascii]]. destruct Hc as (_ & cons & _ & _ & Hn & _).
    unfold chains in Hn. rewrite !elem_of_cons in Hn. destruct Hn as [[= _ ->]|[[= _ ->]|[[= _ ->]|[[= _ ->]|Hn]]]]; [done..|]. by apply elem_of_nil in Hn.
  - split; [done|]. split; [done|]. split; [by apply Hsize|]. destruct Hd as (_ & txs & _ & _ & _ & _ & _ & _ & _ & _ & _ & _ & Hf).
    destruct Hf as [(? & ? & ? & ? & _ & _ & Hf & _)|[_ [[_ ->]|[_ ->]]]]; [by eapply Hargs|done..].
Qed.
