(** Concrete environments, blocks and histories used by the examples that accompany the theorems. *)
From Verif Require Export OrderProofs.

(** ** Environments *)

(** A string of [k] bytes of value [n]. *)
Definition bytes (k : nat) (n : N) : string := string_of_list_ascii (repeat (ascii_of_N n) k).

(** The environment of an honest node: canonical iteration order, every validator known to the chain as
    [val i], and the given pending consolidations. *)
Definition honest_env (val : N → bval) (pcs : list (N * N)) : env :=
  Env map_to_list (λ req _, Some ((λ i, (i, val i)) <$> remove_dups req)) (λ _, Some pcs) (λ _ _, false).

Lemma honest_env_wf val pcs : (∀ i, b_index (val i) = i) → wf_env (honest_env val pcs).
Proof.
  intros Hval. split; cbn.
  - done.
  - intros req slot r [= <-]. rewrite <-list_fmap_compose. rewrite (list_fmap_ext _ id) by done.
    rewrite list_fmap_id. apply NoDup_remove_dups.
  - intros req slot r k v [= <-] H. apply elem_of_list_fmap in H as (i & [= -> ->] & _). apply Hval.
  - intros req slot r k [= <-]. rewrite <-list_fmap_compose. rewrite (list_fmap_ext _ id) by done.
    rewrite list_fmap_id. by rewrite elem_of_remove_dups.
Qed.

(** The same, visiting maps backwards. *)
Definition backward_env (val : N → bval) (pcs : list (N * N)) : env :=
  Env (λ m, rev (map_to_list m)) (λ req _, Some (rev ((λ i, (i, val i)) <$> remove_dups req))) (λ _, Some pcs) (λ _ _, false).

Lemma backward_env_wf val pcs : (∀ i, b_index (val i) = i) → wf_env (backward_env val pcs).
Proof.
  intros Hval. destruct (honest_env_wf val pcs Hval) as [_ H1 H2 H3]. split; cbn.
  - intros m. by rewrite <-Permutation_rev.
  - intros req slot r [= <-]. rewrite <-Permutation_rev. by eapply (H1 req slot).
  - intros req slot r k v [= <-] H. rewrite <-Permutation_rev in H. by eapply (H2 req slot).
  - intros req slot r k [= <-]. rewrite <-Permutation_rev. by eapply (H3 req slot).
Qed.

(** ** Validators *)

(** The address of validator [i]: 20 bytes of value [i + 16]. *)
Definition owner (i : N) : string := bytes 20 (i + 16).
(** Execution credentials: 01, eleven zero bytes, the address. *)
Definition creds (i : N) : string := bytes 1 1 +:+ bytes 11 0 +:+ owner i.
(** Effective balance in gwei: [i + 1] ether, for small [i]. *)
Definition eth_of (i : N) : N := ((i mod 64 + 1) * 1000000000)%N.
(** An active, an exited and a pending validator. *)
Definition active_val (i : N) : bval := BVal i BActiveOngoing (bytes 48 i) (creds i) (eth_of i) 0.
Definition exited_val (i : N) : bval := BVal i BExitedUnslashed (bytes 48 i) (creds i) (eth_of i) 0.
Definition pending_val (i : N) : bval := BVal i BPendingQueued (bytes 48 i) (creds i) (eth_of i) 0.

Definition honest : env := honest_env active_val [].
Definition backward : env := backward_env active_val [].
Lemma honest_wf : wf_env honest.
Proof. by apply honest_env_wf. Qed.
Lemma backward_wf : wf_env backward.
Proof. by apply backward_env_wf. Qed.

Lemma env_balances val pcs slot : (∀ i, b_effbal (val i) = eth_of i) → balances (honest_env val pcs) slot (λ i, Z.of_N (eth_of i)).
Proof.
  intros Hval req r k v [= <-] H. apply elem_of_list_fmap in H as (i & [= -> ->] & _). rewrite Hval. split; [done|].
  unfold eth_of. pose proof (N.mod_lt i 64). lia.
Qed.
Lemma honest_balances slot : balances honest slot (λ i, Z.of_N (eth_of i)).
Proof. by apply env_balances. Qed.
Lemma env_sane val pcs : (∀ i, b_effbal (val i) = eth_of i) → sane_balances (honest_env val pcs).
Proof. intros Hval req slot r k v H Hin. by eapply (env_balances val pcs slot). Qed.
Lemma honest_sane : sane_balances honest.
Proof. by apply env_sane. Qed.

(** ** Blocks *)

Definition pool20 : string := bytes 20 170.
Definition pool_str : string := "0x" +:+ hex_encode pool20.
Definition fees20 : string := bytes 20 187.
Definition fees_str : string := "0x" +:+ hex_encode fees20.

(** A mainnet deployment; the given slot decides which fork applies. *)
Definition cfg_at (net : string) (slot : N) : config :=
  Config net pool_str slot 100 7200 700 fees_str true 1000.

Definition lg (bn : N) : rawlog := RawLog pool20 [bytes 32 9] (bytes 32 3) bn (bytes 32 7) 4 (bytes 32 8) 5 false.
Definition sub_ev (i : N) (z : Z) (bn : N) : ev_sub := EvSub (owner i) z i (lg bn).
Definition unsub_ev (i : N) (bn : N) : ev_unsub := EvUnsub (owner i) i (lg bn).
Definition ether_ev (z : Z) (bn : N) : ev_ether := EvEther (bytes 20 1) z (lg bn).
Definition ban_ev (i : N) (bn : N) : ev_ban := EvBan i (lg bn).

Definition evs (eth : list ev_ether) (subs : list ev_sub) (unsubs : list ev_unsub) (bans unbans : list ev_ban) : events :=
  Events eth subs unsubs [] [] [] [] bans unbans [].

(** A block with fee recipient [fr] and transactions [txs], proposed by [i]. *)
Definition block (slot i : N) (fr : string) (txs : list tx) (rs : list receipt) (gas : N) (e : events) : fullblock :=
  FullBlock slot i (bytes 48 i) (active_val i)
    (Some (CBlock VDeneb slot i (Payload fr (Some <$> txs) slot gas [] 10)))
    (Some (Header slot 10)) (Some rs) e
    ((λ x, Some (active_val (sub_id x))) <$> ev_subscribe e)
    ((λ x, Some (active_val (uns_id x))) <$> ev_unsubscribe e) 1.

(** A block that pays somebody else. *)
Definition foreign_block (slot i : N) (e : events) : fullblock := block slot i (bytes 20 9) [] [] 0 e.
(** A vanilla block to the pool with one transaction of 21000 gas at price 12 over base fee 10. *)
Definition vanilla_block (slot i : N) (e : events) : fullblock :=
  block slot i pool20 [Tx (Some (bytes 20 5)) 1 0 12 0 0 (bytes 32 3) (Some (bytes 20 6))] [Receipt slot (bytes 32 3) 21000] 21000 e.
(** An MEV block: the builder (fee recipient) pays [z] to the pool in the last transaction. *)
Definition mev_block (slot i : N) (z : Z) (e : events) : fullblock :=
  block slot i (bytes 20 9) [Tx (Some pool20) z 0 12 0 0 (bytes 32 3) (Some (bytes 20 9))] [Receipt slot (bytes 32 3) 21000] 21000 e.
(** A missed slot. *)
Definition missed_slot (slot i : N) (e : events) : fullblock :=
  FullBlock slot i (bytes 48 i) (active_val i) None None None e
    ((λ x, Some (active_val (sub_id x))) <$> ev_subscribe e)
    ((λ x, Some (active_val (uns_id x))) <$> ev_unsubscribe e) 1.

(** ** Executions as functions *)

Fixpoint run_fn (o : oracle) (l : list (env * fullblock)) : option oracle :=
  match l with
  | [] => Some o
  | (E, fb) :: l => match advance E fb o with Done o1 _ => run_fn o1 l | _ => None end
  end.
Lemma run_fn_run o l o' : run_fn o l = Some o' → run o l o'.
Proof.
  revert o. induction l as [|[E fb] l IH]; intros o; cbn; [intros [= ->]; constructor|].
  destruct (advance E fb o) eqn:H; [|done..]. intros Hr. econstructor; eauto.
Qed.
Lemma run_run_fn o l o' : run o l o' → run_fn o l = Some o'.
Proof. induction 1 as [|o E fb o1 n l o2 H _ IH]; [done|]. cbn. by rewrite H. Qed.

(** Two subscriptions, an MEV block, a vanilla block, a donation, an unsubscription that forfeits, a missed
    slot, a ban. *)
Definition history (slot : N) : list (env * fullblock) :=
  (λ fb, (honest, fb)) <$>
  [ foreign_block slot 9 (evs [] [sub_ev 1 1000 slot; sub_ev 2 1000 slot; sub_ev 3 1000 slot; sub_ev 4 10 slot] [] [] []);
    mev_block (slot + 1) 1 100000 (evs [ether_ev 100000 (slot + 1); ether_ev 777 (slot + 1)] [] [] [] []);
    vanilla_block (slot + 2) 5 (evs [] [] [] [] []);
    foreign_block (slot + 3) 9 (evs [ether_ev 5000 (slot + 3)] [] [unsub_ev 2 (slot + 3)] [] []);
    missed_slot (slot + 4) 3 (evs [] [] [] [] []);
    foreign_block (slot + 5) 9 (evs [] [] [] [ban_ev 3 (slot + 5)] []) ].

(** A computable test for [wf_block] on these environments. *)
Lemma wf_block_no_mev E pool fb :
  (fb_cblock fb = None → ev_ether_received (fb_events fb) = []) →
  (length (ev_ether_received (fb_events fb)) ≤ 1)%nat →
  (∀ slot, e_cons E slot = Some []) → wf_block E pool fb.
Proof.
  intros H1 H2 H3. split.
  - done.
  - intros r rcp _ _. etrans; [apply filter_length|done].
  - intros slot l i. rewrite H3. intros [= <-]. apply not_elem_of_nil.
Qed.

(** The state after the first [k] blocks of the sample history. *)
Definition after_oracle (net : string) (slot : N) (k : nat) : oracle :=
  default (new_oracle (cfg_at net slot)) (run_fn (new_oracle (cfg_at net slot)) (take k (history slot))).
Definition after (net : string) (slot : N) (k : nat) : ost := or_st (after_oracle net slot k).

(** Pending and accumulated rewards of a validator, for reading off examples. *)
Definition pend_of (s : ost) (i : N) : option Z := v_pend <$> st_vals s !! i.
Definition status_of (s : ost) (i : N) : option vstatus := v_status <$> st_vals s !! i.

(** A history that runs to its end is a run, checked by computing one boolean. *)
Definition completes (net : string) (slot : N) (k : nat) : bool :=
  match run_fn (new_oracle (cfg_at net slot)) (take k (history slot)) with Some _ => true | None => false end.
Lemma after_run net slot k : completes net slot k = true →
  run (new_oracle (cfg_at net slot)) (take k (history slot)) (after_oracle net slot k).
Proof. unfold completes, after_oracle. destruct (run_fn _ _) eqn:E; [|done]. intros _. by apply run_fn_run. Qed.
Lemma history_envs slot k : wf_envs (take k (history slot)).
Proof. apply Forall_take. unfold history. repeat (apply Forall_cons; split; [apply honest_wf|]). done. Qed.

(** A computable test for [nonneg_block]. *)
Definition nonneg_test (E : env) (pool : string) (fb : fullblock) : bool :=
  forallb (λ x, (0 <=? sub_coll x)%Z) (ev_subscribe (fb_events fb)) &&
  forallb (λ x, (0 <=? er_amount x)%Z) (ev_ether_received (fb_events fb)) &&
  forallb (λ b, match sent_reward E pool b fb with Ok (Some r, _, _) => (0 <=? r)%Z | _ => true end) [true; false].
Lemma nonneg_test_sound E pool fb : nonneg_test E pool fb = true → nonneg_block E pool fb.
Proof.
  unfold nonneg_test. intros [[H1 H2]%andb_prop H3]%andb_prop. rewrite forallb_forall in H1, H2, H3. split.
  - apply List.Forall_forall. intros x Hx. by apply H1, Z.leb_le in Hx.
  - apply List.Forall_forall. intros x Hx. by apply H2, Z.leb_le in Hx.
  - intros s b r H Hr. unfold summarize in H. destruct (withdrawal_and_type _) as [[wa wt]|]; cbn in H; [|done].
    destruct (fb_cblock fb); [|injection H as <-; cbn in Hr; injection Hr as <-; done].
    destruct (get_proposer fb) as [prop|]; cbn in H; [|done].
    specialize (H3 (is_subscribed s prop)).
    destruct (sent_reward E pool (is_subscribed s prop) fb) as [[[rw ok] rt]|]; cbn in H; [|done].
    destruct (get_number fb); cbn in H; [|done]. injection H as <-. cbn in Hr. subst rw.
    apply Z.leb_le, H3. destruct (is_subscribed s prop); cbn; auto.
Qed.

(** To show that a computation succeeds with a result that has a property, compute the property. *)
Lemma ex_ok {A} (P : A → Prop) (x : res A) : match x with Ok a => P a | Die _ => False end → ∃ a, x = Ok a ∧ P a.
Proof. destruct x; [eauto|done]. Qed.
Lemma ex_done {S A} (P : S → A → Prop) (x : outcome S A) :
  match x with Done s a => P s a | _ => False end → ∃ s a, x = Done s a ∧ P s a.
Proof. destruct x; [eauto|done..]. Qed.
Lemma ex_lookup (P : vinfo → Prop) (m : gmap N vinfo) i :
  match m !! i with Some v => P v | None => False end → ∃ v, m !! i = Some v ∧ P v.
Proof. destruct (m !! i); [eauto|done]. Qed.
Lemma some_earners s : (0 <? n_earners s)%Z = true → earners s ≠ ∅.
Proof. intros H%Z.ltb_lt E. unfold n_earners in H. rewrite E, map_size_empty in H. done. Qed.
Lemma ex_run (P : oracle → Prop) o l : match run_fn o l with Some o' => P o' | None => False end → ∃ o', run o l o' ∧ P o'.
Proof. destruct (run_fn o l) eqn:E; [|done]. intros H. eexists. split; [by apply run_fn_run|done]. Qed.

(** A computable test for [addrs20]. *)
Definition opt20 (a : option string) : bool := match a with Some a => (String.length a =? 20)%nat | None => true end.
Definition addrs20_test (fb : fullblock) : bool :=
  match fb_cblock fb with
  | None => true
  | Some c => (String.length (p_fee_recipient (cb_payload c)) =? 20)%nat &&
      forallb (λ ot, match ot with Some t => opt20 (tx_to t) && opt20 (tx_sender t) | None => true end) (p_txs (cb_payload c))
  end && forallb (λ e, (String.length (l_addr (er_log e)) =? 20)%nat) (ev_ether_received (fb_events fb)).
Lemma addrs20_sound fb : addrs20_test fb = true → addrs20 fb.
Proof.
  unfold addrs20_test. intros [H1 H2]%andb_prop. rewrite forallb_forall in H2.
  assert (∀ p t, payload_of fb p → Some t ∈ p_txs p → opt20 (tx_to t) = true ∧ opt20 (tx_sender t) = true) as Ht.
  { intros p t (c & Hc & _ & _ & ->) Hin. rewrite Hc in H1. apply andb_prop in H1 as [_ H1]. rewrite forallb_forall in H1.
    apply elem_of_list_In in Hin. by apply H1, andb_prop in Hin. }
  split.
  - intros p (c & Hc & _ & _ & ->). rewrite Hc in H1. apply andb_prop in H1 as [H1 _]. by apply Nat.eqb_eq.
  - intros p t a Hp Hin Ha. destruct (Ht p t Hp Hin) as [H _]. rewrite Ha in H. by apply Nat.eqb_eq in H.
  - intros p t a Hp Hin Ha. destruct (Ht p t Hp Hin) as [_ H]. rewrite Ha in H. by apply Nat.eqb_eq in H.
  - intros e He. apply Nat.eqb_eq, H2. by apply elem_of_list_In.
Qed.
Lemma pool_names : names pool20 pool_str.
Proof. split; [done|]. by vm_compute. Qed.
Lemma fees_names : names fees20 fees_str.
Proof. split; [done|]. by vm_compute. Qed.
Lemma ordinary_block fb c : fb_cblock fb = Some c → cb_slot c ≠ 10400574%N → ordinary fb.
Proof. intros Hc Hs _ c' Hc'. congruence. Qed.
Lemma mev_block_payment slot i z rest : 
  mev_payment (mev_block slot i z (evs (ether_ev z slot :: rest) [] [] [] [])) z pool20.
Proof.
  eexists _, _, [], _, _. split; [eexists; done|]. split; [done|]. do 2 (split; [done|]). split; [by left|]. split; [done|].
  left. exists [], (ether_ev z slot), rest. split; [done|]. split; [done|]. split; [|done]. intros x Hx. by apply elem_of_nil in Hx.
Qed.

(** A block to the pool that ends with an ordinary payment by the accepted builder. *)
Definition builder_block : fullblock :=
  block 12000002 1 pool20 [Tx (Some (bytes 20 5)) 1 0 12 0 0 (bytes 32 3) (Some builder20)] [Receipt 12000002 (bytes 32 3) 21000] 21000 no_events.
Lemma builder_refutation : ∃ E s fb b p,
  addrs20 fb ∧ ordinary fb ∧ wf_env E ∧ summarize E s pool_str fb = Ok b ∧
  payload_of fb p ∧ p_fee_recipient p = pool20 ∧
  (∀ l t a, p_txs p = l ++ [Some t] → tx_sender t = Some a → a ≠ pool20) ∧
  sb_type b = WrongFeeRecipient.
Proof.
  destruct (ex_ok (λ b, sb_type b = WrongFeeRecipient)
    (summarize honest (after Mainnet 12000001 1) pool_str builder_block)) as (b & Hb & Ht); [by vm_compute|].
  eexists honest, _, builder_block, b, _. split; [apply addrs20_sound; by vm_compute|]. split; [by eapply ordinary_block|].
  split; [apply honest_wf|]. split; [exact Hb|]. split; [eexists; done|]. split; [done|]. split; [|done].
  intros l t a H. apply (app_inj_2 [] l) in H as [_ [= <-]]; [|done]. intros [= <-]. by vm_compute.
Qed.

(** Two deposits of the same amount, one of them the MEV payment. *)
Definition twin_block : fullblock := mev_block 12000002 1 100000 (evs [ether_ev 100000 12000002; ether_ev 100000 12000002] [] [] [] []).
Lemma twin_refutation : ∃ fb don o o',
  addrs20 fb ∧ ordinary fb ∧ mev_payment fb 100000 pool20 ∧ get_donations honest pool_str fb = Ok don ∧
  foldr Z.add 0%Z (er_amount <$> ev_ether_received (fb_events fb)) ≠ (100000 + foldr Z.add 0 (er_amount <$> don))%Z ∧
  offchain_reconciliation (or_st o) = true ∧ advance honest fb o = Done o' 12000002%N ∧ offchain_reconciliation (or_st o') = false.
Proof.
  destruct (ex_done (λ o' n, n = 12000002%N ∧ offchain_reconciliation (or_st o') = false)
    (advance honest twin_block (after_oracle Mainnet 12000001 1))) as (o' & n & Ha & -> & Hr); [by vm_compute|].
  exists twin_block, [], (after_oracle Mainnet 12000001 1), o'.
  split; [apply addrs20_sound; by vm_compute|]. split; [by eapply ordinary_block|]. split; [apply mev_block_payment|].
  split; [by vm_compute|]. split; [by vm_compute|]. split; [by vm_compute|]. split; [exact Ha|exact Hr].
Qed.

(** To show that a computation fails leaving a state with a property, compute the property. *)
Lemma ex_fail {S A} (P : S → string → Prop) (x : outcome S A) :
  match x with Fail s e => P s e | _ => False end → ∃ s e, x = Fail s e ∧ P s e.
Proof. destruct x; [done|eauto|done]. Qed.

(** The scheduled fee change announced together with a collateral that is not the configured one. *)
Definition fee_and_collateral : fullblock := foreign_block 14082460 9 (Events [] [] [] [(500%Z, lg 14082460)] [] [] [(2000%Z, lg 14082460)] [] [] []).
Lemma fee_atomicity_refutation : ∃ E fb o o' e, wf_env E ∧ st_feepct (or_st o) = 700%Z ∧
  advance E fb o = Fail o' e ∧ st_feepct (or_st o') = 500%Z ∧ c_feepct (or_cfg o') = 500%Z.
Proof.
  destruct (ex_fail (λ o' e, st_feepct (or_st o') = 500%Z ∧ c_feepct (or_cfg o') = 500%Z)
    (advance honest fee_and_collateral (new_oracle (cfg_at Mainnet 14082460)))) as (o' & e & Ha & Hb & Hc); [by vm_compute|].
  exists honest, fee_and_collateral, (new_oracle (cfg_at Mainnet 14082460)), o', e. split; [apply honest_wf|]. split; [done|].
  split; [exact Ha|]. by split.
Qed.

(** A cleanup slot during which the beacon node does not answer. *)
Definition mute : env := Env map_to_list (λ _ _, None) (λ _, Some []) (λ _ _, false).
Lemma mute_wf : wf_env mute.
Proof. by split. Qed.
Definition sub_at_cleanup : fullblock := foreign_block 12000000 9 (evs [] [sub_ev 1 1000 12000000] [] [] []).
Lemma cleanup_atomicity_refutation : ∃ E fb o o1 e o2 n, wf_env E ∧
  ev_pool_fee (fb_events fb) = [] ∧ advance E fb o = Fail o1 e ∧ owed (or_st o) = 0%Z ∧ owed (or_st o1) = 1000%Z ∧
  advance honest fb o1 = Done o2 n ∧ owed (or_st o2) = 2000%Z.
Proof.
  destruct (ex_fail (λ o1 e, owed (or_st o1) = 1000%Z ∧
     match advance honest sub_at_cleanup o1 with Done o2 n => owed (or_st o2) = 2000%Z | _ => False end)
    (advance mute sub_at_cleanup (new_oracle (cfg_at Mainnet 12000000)))) as (o1 & e & Ha & Hb & Hc); [by vm_compute|].
  destruct (ex_done (λ o2 _, owed (or_st o2) = 2000%Z) _ Hc) as (o2 & n & Hd & He).
  exists mute, sub_at_cleanup, (new_oracle (cfg_at Mainnet 12000000)), o1, e, o2, n.
  split; [apply mute_wf|]. split; [done|]. split; [exact Ha|]. split; [by vm_compute|]. split; [exact Hb|]. split; [exact Hd|exact He].
Qed.

(** ** Blocks that are always processed *)
Lemma exec_creds i : exec_address (creds i) (owner i).
Proof.
  unfold exec_address, creds. split; [done|]. left. done.
Qed.
Lemma honest_responsive val pcs : (∀ i, b_effbal (val i) = eth_of i) → (∀ i, b_creds (val i) = creds i) → responsive (honest_env val pcs).
Proof.
  intros Hb Hc. split.
  - done.
  - done.
  - intros req slot r k v [= <-] H. apply elem_of_list_fmap in H as (i & [= -> ->] & _). rewrite Hb.
    unfold eth_of. assert (i mod 64 < 64)%N by (apply N.mod_lt; lia). generalize dependent (i mod 64)%N. lia.
  - intros slot l a t req r v _ _ [= <-] H. apply elem_of_list_fmap in H as (i & [= -> ->] & _). rewrite Hc.
    exists (owner i). apply exec_creds.
Qed.

(** A computable test for the part of [served] about events. *)
Definition served_events (c : config) (bn : N) (e : events) : bool :=
  forallb (λ x, (l_block (er_log x) =? bn)%N) (ev_ether_received e) &&
  forallb (λ x, (l_block (sub_log x) =? bn)%N && (String.length (sub_sender x) =? 20)%nat) (ev_subscribe e) &&
  forallb (λ x, (l_block (uns_log x) =? bn)%N && (String.length (uns_sender x) =? 20)%nat) (ev_unsubscribe e) &&
  forallb (λ x, (l_block (ban_log x) =? bn)%N) (ev_bans e) && forallb (λ x, (l_block (ban_log x) =? bn)%N) (ev_unbans e) &&
  match ev_pool_fee e, ev_fee_recipient e, ev_checkpoint_size e, ev_collateral e with [], [], [], [] => true | _, _, _, _ => false end.
Lemma forallb_Forall {A} (P : A → Prop) (f : A → bool) l : (∀ x, f x = true → P x) → forallb f l = true → Forall P l.
Proof. intros H Hf. apply Forall_forall. intros x Hx. rewrite forallb_forall in Hf. apply H, Hf. by apply elem_of_list_In. Qed.
Lemma served_sound c fb bn i :
  fb_validator fb = active_val i → fb_chain fb = 1%N →
  (fb_cblock fb = None ∨ ∃ base txs rs, complete_block fb base txs rs ∧ Forall (λ t, is_Some (tx_sender t)) txs) →
  (∀ r, mev_payment fb r pool20 → ∃ e, e ∈ ev_ether_received (fb_events fb) ∧ er_amount e = r) →
  fb_subs fb = (λ x, Some (active_val (sub_id x))) <$> ev_subscribe (fb_events fb) →
  fb_unsubs fb = (λ x, Some (active_val (uns_id x))) <$> ev_unsubscribe (fb_events fb) →
  served_events c bn (fb_events fb) = true → served c pool20 fb.
Proof.
  intros Hv Hch Hb Hm Hs Hu Ht. unfold served_events in Ht. repeat apply andb_prop in Ht as [Ht ?].
  destruct (ev_pool_fee (fb_events fb)) eqn:F1; [|done]. destruct (ev_fee_recipient (fb_events fb)) eqn:F2; [|done].
  destruct (ev_checkpoint_size (fb_events fb)) eqn:F3; [|done]. destruct (ev_collateral (fb_events fb)) eqn:F4; [|done].
  split; try done.
  - by rewrite Hv.
  - rewrite Hch. by left.
  - rewrite Hs. apply Forall2_fmap_r.
    apply Forall_Forall2_diag. eapply forallb_Forall; [|exact H3]. intros x [_ Hx]%andb_prop. apply Nat.eqb_eq in Hx. split; [done|]. by intros v [= <-].
  - rewrite Hu. apply Forall2_fmap_r, Forall_Forall2_diag. eapply forallb_Forall; [|exact H2]. intros x [_ Hx]%andb_prop. apply Nat.eqb_eq in Hx. split; [done|]. by intros v [= <-].
  - exists bn. repeat split; (eapply forallb_Forall; [|done]); cbn; intros x Hx; repeat apply andb_prop in Hx as [Hx ?]; by apply N.eqb_eq.
  - split; [rewrite F2, F3, F4; cbn; lia|rewrite F2|rewrite F3|rewrite F4]; by intros ? ? ?%elem_of_nil.
  - by left.
Qed.
Lemma complete_empty slot i fr e : complete_block (block slot i fr [] [] 0 e) 10 [] [].
Proof.
  split; [|constructor|by cbn]. eexists _, _. split; [done|]. split; [right; split; [by left|done]|]. done.
Qed.
Lemma complete_one slot i fr t e : (tx_type t ≤ 4)%N → complete_block (block slot i fr [t] [Receipt slot (tx_hash t) 21000] 21000 e) 10 [t] [Receipt slot (tx_hash t) 21000].
Proof.
  intros Ht. split; [|by repeat constructor|by cbn]. eexists _, _. split; [done|]. split; [right; split; [by left|done]|]. done.
Qed.
Lemma foreign_served c slot i e : served_events c slot e = true → served c pool20 (foreign_block slot i e).
Proof.
  intros He. apply (served_sound c _ slot i); try done.
  - right. exists 10%Z, [], []. split; [apply complete_empty|done].
  - intros r (p & t & l & snd & dst & (cb & [= <-] & _ & _ & ->) & Ht & _). cbn in Ht. by destruct l.
Qed.
Lemma vanilla_served c slot i e : served_events c slot e = true → served c pool20 (vanilla_block slot i e).
Proof.
  intros He. apply (served_sound c _ slot i); try done.
  - right. eexists 10%Z, _, _. split; [by apply complete_one|]. by repeat constructor.
  - intros r (p & t & l & snd & dst & (cb & [= <-] & _ & _ & ->) & Ht & Hs & _ & Hb & _). cbn in Ht.
    apply (app_inj_2 [] l) in Ht as [_ [= <-]]; [|done]. cbn in Hs. injection Hs as <-. destruct Hb as [Hb|[_ Hb]].
    + by vm_compute in Hb.
    + apply (names_fun _ _ _ builder_names) in Hb. by vm_compute in Hb.
Qed.
Lemma mev_served c slot i z rest : served_events c slot (evs (ether_ev z slot :: rest) [] [] [] []) = true →
  served c pool20 (mev_block slot i z (evs (ether_ev z slot :: rest) [] [] [] [])).
Proof.
  intros He. apply (served_sound c _ slot i); try done.
  - right. eexists 10%Z, _, _. split; [by apply complete_one|]. by repeat constructor.
  - intros r Hr. destruct (mev_payment_fun _ _ _ _ _ Hr (mev_block_payment slot i z rest)) as [-> _].
    exists (ether_ev z slot). split; [by left|done].
Qed.
Lemma missed_served c slot i e : served_events c slot e = true → served c pool20 (missed_slot slot i e).
Proof.
  intros He. apply (served_sound c _ slot i); try done; [by left|].
  intros r (p & t & l & snd & dst & (cb & [=] & _) & _).
Qed.

(** Every slot of the sample history is one that honest nodes serve. *)
Lemma mainnet_electra slot : (11649024 ≤ slot)%N → era "mainnet" slot Electra.
Proof. intros H. eapply (era_electra _ _ 10188220%N 11649024%N); [by left|done]. Qed.
Lemma history_good : Forall (λ x, good_slot (cfg_at Mainnet 12000001) pool20 x.1 x.2) (history 12000001).
Proof.
  unfold history. repeat (apply Forall_cons; split); [..|done]; cbn [fst snd].
  all: (split; [apply honest_wf|by apply honest_responsive|apply addrs20_sound; by vm_compute|
    first [by eapply ordinary_block|intros _ ? [=]]| |apply nonneg_test_sound; by vm_compute|
    right; apply mainnet_electra; by vm_compute]).
  - by apply foreign_served.
  - by apply mev_served.
  - by apply vanilla_served.
  - by apply foreign_served.
  - by apply missed_served.
  - by apply foreign_served.
Qed.
Lemma fresh_ready : ready (new_oracle (cfg_at Mainnet 12000001)) 12000001.
Proof.
  split; try done.
  - right. by apply mainnet_electra.
  - exists fees20. apply fees_names.
Qed.

(** Validators without effective balance. *)
Definition poor_val (i : N) : bval := BVal i BActiveOngoing (bytes 48 i) (creds i) 0 0.
Definition donation_only (slot : N) : fullblock := foreign_block slot 9 (evs [ether_ev 5000 slot] [] [] [] []).
Definition first_slot (slot : N) : list (env * fullblock) :=
  [(honest, foreign_block slot 9 (evs [] [sub_ev 1 1000 slot] [] [] []))].
Lemma poor_refutation : ∃ E o d, wf_env E ∧ run (new_oracle (cfg_at Mainnet 12000001)) (first_slot 12000001) o ∧
  advance E (donation_only 12000002) o = Dead d ∧ served (or_cfg o) pool20 (donation_only 12000002).
Proof.
  destruct (ex_run (λ o, or_cfg o = cfg_at Mainnet 12000001 ∧ match advance (honest_env poor_val []) (donation_only 12000002) o with Dead _ => True | _ => False end)
    (new_oracle (cfg_at Mainnet 12000001)) (first_slot 12000001)) as (o & Hr & Hc & Ha); [by vm_compute|].
  destruct (advance (honest_env poor_val []) (donation_only 12000002) o) as [| |d] eqn:Hd; [done..|].
  exists (honest_env poor_val []), o, d. split; [by apply honest_env_wf|]. split; [exact Hr|]. split; [exact Hd|].
  rewrite Hc. by apply foreign_served.
Qed.
Lemma goerli_refutation : ∃ o d, run (new_oracle (cfg_at Goerli 12000001)) (first_slot 12000001) o ∧
  advance honest (donation_only 12000002) o = Dead d ∧ served (or_cfg o) pool20 (donation_only 12000002).
Proof.
  destruct (ex_run (λ o, or_cfg o = cfg_at Goerli 12000001 ∧ match advance honest (donation_only 12000002) o with Dead _ => True | _ => False end)
    (new_oracle (cfg_at Goerli 12000001)) (first_slot 12000001)) as (o & Hr & Hc & Ha); [by vm_compute|].
  destruct (advance honest (donation_only 12000002) o) as [| |d] eqn:Hd; [done..|].
  exists o, d. split; [exact Hr|]. split; [exact Hd|]. rewrite Hc. by apply foreign_served.
Qed.

(** ** Cleanup *)

Lemma remove_dups_perm (l1 l2 : list N) : l1 ≡ₚ l2 → remove_dups l1 ≡ₚ remove_dups l2.
Proof.
  intros H. apply NoDup_Permutation; [apply NoDup_remove_dups..|]. intros x. by rewrite !elem_of_remove_dups, H.
Qed.
Lemma both_ways val pcs : same_chain (honest_env val pcs) (backward_env val pcs).
Proof.
  split; [|done..]. intros req1 req2 slot H. cbn. rewrite <-Permutation_rev. by rewrite (remove_dups_perm _ _ H).
Qed.
Lemma honest_steady val pcs slot : steady (honest_env val pcs) slot.
Proof.
  intros q1 q2 r1 r2 k v1 v2 [= <-] [= <-] H1 H2. apply elem_of_list_fmap in H1 as (i & [= -> ->] & _).
  by apply elem_of_list_fmap in H2 as (j & [= -> ->] & _).
Qed.
Lemma honest_settled val pcs : (∀ i t, (i, t) ∈ pcs → on_duty (val t)) → settled (honest_env val pcs).
Proof.
  intros H slot pcs' req r [= <-] [= <-] i t v Hit Hv. apply elem_of_list_fmap in Hv as (j & [= -> ->] & _). by eapply H.
Qed.

(** Two subscribers, just before a cleanup slot. *)
Definition two_subs : list (env * fullblock) :=
  [(honest, foreign_block 11999999 9 (evs [] [sub_ev 1 1000 11999999; sub_ev 2 1000 11999999] [] [] []))].
(** The cleanup slot itself: nothing happens on chain. *)
Definition idle (slot : N) : fullblock := foreign_block slot 9 no_events.

(** Validator 1 consolidates into 2, and both have exited. *)
Definition all_exited (i : N) : bval := exited_val i.
(** A third node: it answers backwards while the oracle asks in canonical order. *)
Definition shuffled_env (val : N → bval) (pcs : list (N * N)) : env :=
  Env map_to_list (e_vals (backward_env val pcs)) (λ _, Some pcs) (λ _ _, false).
Lemma shuffled_env_wf val pcs : (∀ i, b_index (val i) = i) → wf_env (shuffled_env val pcs).
Proof. intros H. destruct (backward_env_wf val pcs H) as [_ H1 H2 H3]. by split. Qed.
Lemma shuffled_same val pcs : same_chain (honest_env val pcs) (shuffled_env val pcs).
Proof. destruct (both_ways val pcs) as [H1 H2 H3]. by split. Qed.
Lemma chained_refutation : ∃ E1 E2 o o1 o2 n1 n2, wf_env E1 ∧ wf_env E2 ∧ same_chain E1 E2 ∧
  run (new_oracle (cfg_at Mainnet 11999999)) two_subs o ∧
  advance E1 (idle 12000000) o = Done o1 n1 ∧ advance E2 (idle 12000000) o = Done o2 n2 ∧
  pend_of (or_st o1) 2 = Some 0%Z ∧ pend_of (or_st o2) 2 = Some 1000%Z.
Proof.
  destruct (ex_run (λ o, match advance (honest_env all_exited [(1%N, 2%N)]) (idle 12000000) o,
      advance (shuffled_env all_exited [(1%N, 2%N)]) (idle 12000000) o with
      | Done o1 _, Done o2 _ => pend_of (or_st o1) 2 = Some 0%Z ∧ pend_of (or_st o2) 2 = Some 1000%Z | _, _ => False end)
    (new_oracle (cfg_at Mainnet 11999999)) two_subs) as (o & Hr & H); [by vm_compute|].
  destruct (advance (honest_env _ _) _ o) as [o1 n1| |] eqn:H1; [|done..].
  destruct (advance (shuffled_env _ _) _ o) as [o2 n2| |] eqn:H2; [|done..]. destruct H as [Hp1 Hp2].
  exists (honest_env all_exited [(1%N, 2%N)]), (shuffled_env all_exited [(1%N, 2%N)]), o, o1, o2, n1, n2.
  split; [by apply honest_env_wf|]. split; [by apply shuffled_env_wf|]. split; [apply shuffled_same|].
  split; [exact Hr|]. split; [exact H1|]. split; [exact H2|]. split; [exact Hp1|exact Hp2].
Qed.

(** Validator 1 proposes, so its pending rewards move to accumulated, then exits. *)
Definition one_exited (i : N) : bval := if (i =? 1)%N then exited_val i else active_val i.
Definition proposed_then_exited : list (env * fullblock) :=
  [(honest, foreign_block 11999998 9 (evs [] [sub_ev 1 1000 11999998; sub_ev 2 1000 11999998] [] [] []));
   (honest, mev_block 11999999 1 100000 (evs [ether_ev 100000 11999999] [] [] [] []));
   (honest_env one_exited [], idle 12000000)].
Lemma exited_earns_refutation : ∃ E o o', wf_env E ∧ settled E ∧
  (∀ req slot r v, e_vals E req slot = Some r → (1%N, v) ∈ r → b_status v = BExitedUnslashed) ∧
  run (new_oracle (cfg_at Mainnet 11999998)) proposed_then_exited o ∧ last proposed_then_exited = Some (E, idle 12000000) ∧
  advance E (donation_only 12000001) o = Done o' 12000001%N ∧
  (∃ z z', pend_of (or_st o) 1 = Some z ∧ pend_of (or_st o') 1 = Some z' ∧ (z < z')%Z).
Proof.
  destruct (ex_run (λ o, match advance (honest_env one_exited []) (donation_only 12000001) o with
      | Done o' n => n = 12000001%N ∧ pend_of (or_st o) 1 = Some 0%Z ∧ pend_of (or_st o') 1 = Some 1860%Z | _ => False end)
    (new_oracle (cfg_at Mainnet 11999998)) proposed_then_exited) as (o & Hr & H); [by vm_compute|].
  destruct (advance _ _ o) as [o' n| |] eqn:H1; [|done..]. destruct H as (-> & Hp1 & Hp2).
  exists (honest_env one_exited []), o, o'.
  split; [apply honest_env_wf; intros i; unfold one_exited; by destruct (i =? 1)%N|].
  split; [by apply honest_settled; intros i t ?%elem_of_nil|].
  split. { intros req slot r v [= <-] Hin. apply elem_of_list_fmap in Hin as (i & Hi & _). by injection Hi as <- ->. }
  split; [exact Hr|]. split; [done|]. split; [exact H1|]. exists 0%Z, 1860%Z. split; [exact Hp1|]. split; [exact Hp2|done].
Qed.

(** Validator 1 deposits while it waits for activation. *)
Definition pending_one (i : N) : bval := if (i =? 1)%N then pending_val i else active_val i.
Definition early_sub : fullblock :=
  let fb := foreign_block 11999999 9 (evs [] [sub_ev 1 1000 11999999] [] [] []) in
  FullBlock (fb_duty_slot fb) (fb_duty_index fb) (fb_duty_pubkey fb) (fb_validator fb) (fb_cblock fb) (fb_header fb)
    (fb_receipts fb) (fb_events fb) [Some (pending_val 1)] [] 1.
Lemma early_deposit_refutation : ∃ E o o', wf_env E ∧ settled E ∧
  (∀ req slot r v, e_vals E req slot = Some r → (1%N, v) ∈ r → b_status v = BPendingQueued) ∧
  run (new_oracle (cfg_at Mainnet 11999999)) [(E, early_sub)] o ∧
  status_of (or_st o) 1 = Some Active ∧ pend_of (or_st o) 1 = Some 1000%Z ∧
  advance E (idle 12000000) o = Done o' 12000000%N ∧
  status_of (or_st o') 1 = Some NotSubscribed ∧ pend_of (or_st o') 1 = Some 0%Z ∧ st_fees (or_st o') = 1000%Z.
Proof.
  destruct (ex_run (λ o, match advance (honest_env pending_one []) (idle 12000000) o with
      | Done o' n => n = 12000000%N ∧ status_of (or_st o) 1 = Some Active ∧ pend_of (or_st o) 1 = Some 1000%Z ∧
         status_of (or_st o') 1 = Some NotSubscribed ∧ pend_of (or_st o') 1 = Some 0%Z ∧ st_fees (or_st o') = 1000%Z | _ => False end)
    (new_oracle (cfg_at Mainnet 11999999)) [(honest_env pending_one [], early_sub)]) as (o & Hr & H); [by vm_compute|].
  destruct (advance _ _ o) as [o' n| |] eqn:H1; [|done..]. destruct H as (-> & Hs1 & Hp1 & Hs2 & Hp2 & Hf).
  exists (honest_env pending_one []), o, o'.
  split; [apply honest_env_wf; intros i; unfold pending_one; by destruct (i =? 1)%N|].
  split; [by apply honest_settled; intros i t ?%elem_of_nil|].
  split. { intros req slot r v [= <-] Hin. apply elem_of_list_fmap in Hin as (i & Hi & _). by injection Hi as <- ->. }
  split; [exact Hr|]. split; [exact Hs1|]. split; [exact Hp1|]. split; [exact H1|]. split; [exact Hs2|]. split; [exact Hp2|exact Hf].
Qed.
