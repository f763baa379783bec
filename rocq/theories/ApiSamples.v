(** Concrete requests and node answers used by the examples of PropApi.v. *)
From Verif Require Import ApiProofs.
From Verif Require Export ServeProofs LoopSpec MerkleSamples.

(** ** Nodes *)

(** The validators map: validators 1 to 9 are active; number 7 withdraws to the owner of number 1. *)
Definition seven : bval := BVal 7 BActiveOngoing (bytes 48 7) (creds 1) (eth_of 7) 0.
Definition sample_beacon : gmap N bval :=
  list_to_map ((λ i, (i, if (i =? 7)%N then seven else active_val i)) <$> [1; 2; 3; 4; 5; 6; 7; 8; 9]%N).
(** Without validator 1. *)
Definition stale_beacon : gmap N bval := delete 1%N sample_beacon.
(** Nodes in sync, with finalized slot [f], the contract's root and slot, these events after the processed block, this
    validators map and these relays. *)
Definition sample_wire (f : N) (root : string) (slot : N) (subs : list ev_sub) (unsubs : list ev_unsub) (bs : gmap N bval)
    (relays : list (string * relay_answer)) : wire :=
  Wire (Some f) (Some (root, slot)) (λ _, Some 1000%Z) (λ _, Some subs) (λ _, Some unsubs) (Some bs) (Some 1%N) (Some (1%N, "0x00"))
    (Some true) (SyncAt 0) relays.
Definition plain_wire (f : N) : wire := sample_wire f "" 0 [] [] sample_beacon [].

Definition indexed_test (bs : gmap N bval) : bool := forallb (λ kb, (b_index kb.2 =? kb.1)%N) (map_to_list bs).
Lemma indexed_sound bs : indexed_test bs = true → ∀ i b, bs !! i = Some b → b_index b = i.
Proof.
  unfold indexed_test. rewrite forallb_forall. intros H i b Hb%elem_of_map_to_list. apply elem_of_list_In, H in Hb. by apply N.eqb_eq in Hb.
Qed.
Lemma sample_wire_wf f root slot subs unsubs bs relays :
  forallb (λ e, (String.length (sub_sender e) =? 20)%nat) subs = true →
  forallb (λ e, (String.length (uns_sender e) =? 20)%nat) unsubs = true →
  forallb (λ r, match r.2 with RelayFee f => (String.length f =? 20)%nat | _ => true end) relays = true →
  indexed_test bs = true → wf_wire (sample_wire f root slot subs unsubs bs relays).
Proof.
  intros H1 H2 H3 H4. rewrite forallb_forall in H1, H2, H3. split; cbn.
  - intros _ l e [= <-] He. apply Nat.eqb_eq, H1. by apply elem_of_list_In.
  - intros _ l e [= <-] He. apply Nat.eqb_eq, H2. by apply elem_of_list_In.
  - intros name g Hin. apply Nat.eqb_eq. apply elem_of_list_In in Hin. exact (H3 _ Hin).
  - by apply indexed_sound.
Qed.
Lemma plain_wire_wf f : wf_wire (plain_wire f).
Proof. apply sample_wire_wf; by vm_compute. Qed.

(** ** Executions *)

(** The first [k] blocks of the sample history as operations. *)
Definition operations (l : list (env * fullblock)) : list operation := (λ x, Process x.1 x.2) <$> l.
Lemma operations_wf l : Forall (λ x, wf_env x.1 ∧ fb_duty_slot x.2 ≠ 0%N) l → Forall wf_operation (operations l).
Proof. intros H. apply Forall_fmap. eapply Forall_impl; [exact H|]. by intros [E fb]. Qed.
Lemma history_operations k : Forall wf_operation (operations (take k (history 12000001))).
Proof.
  apply operations_wf, Forall_take. unfold history. repeat (apply Forall_cons; split; [split; [apply honest_wf|done]|]). done.
Qed.
Lemma two_checkpoints_wf : Forall wf_operation two_checkpoints.
Proof. repeat (constructor; [first [split; [apply honest_wf|done]|apply honest_wf|apply backward_wf]|]). done. Qed.

(** To show that a request is answered with a property, compute the property. *)
Lemma ex_answer (P : body → Prop) (x : res (reply body)) :
  match x with Ok (Answer b) => P b | _ => False end → ∃ b, x = Ok (Answer b) ∧ P b.
Proof. destruct x as [[b|]|]; [eauto|done..]. Qed.

Definition holds (P : body → Prop) (x : res (reply body)) : Prop := match x with Ok (Answer b) => P b | _ => False end.
Lemma ex_asked (P : body → Prop) (f : oracle → res (reply body)) H o l : Forall wf_operation l →
  match evolve_fn H o l with Some o' => holds P (f o') | None => False end → ∃ o', evolve H o l o' ∧ ∃ b, f o' = Ok (Answer b) ∧ P b.
Proof. intros Hw Hm. destruct (ex_evolve (λ o', holds P (f o')) H o l Hw Hm) as (o' & He & Hp). exists o'. split; [exact He|]. exact (ex_answer P _ Hp). Qed.
Lemma ex_run_asked (P : body → Prop) (f : oracle → res (reply body)) o l :
  match run_fn o l with Some o' => holds P (f o') | None => False end → ∃ o', run o l o' ∧ ∃ b, f o' = Ok (Answer b) ∧ P b.
Proof. intros Hm. destruct (ex_run (λ o', holds P (f o')) o l Hm) as (o' & He & Hp). exists o'. split; [exact He|]. exact (ex_answer P _ Hp). Qed.

(** The only subscriber misses two proposals. *)
Definition red_history : list (env * fullblock) := (λ fb, (honest, fb)) <$>
  [ foreign_block 12000001 9 (evs [] [sub_ev 1 1000 12000001] [] [] []);
    missed_slot 12000002 1 (evs [] [] [] [] []); missed_slot 12000003 1 (evs [] [] [] [] []) ].
Lemma red_operations : Forall wf_operation (operations red_history).
Proof. apply operations_wf. unfold red_history. repeat (apply Forall_cons; split; [split; [apply honest_wf|done]|]). done. Qed.
Lemma statistics_refutation : ∃ o w, evolve toy (new_oracle (cfg_at Mainnet 12000001)) (operations red_history) o ∧
  wf_wire w ∧ keeps_up w (or_st o) ∧ ∀ sha, serve sha honest GetStatistics w o = Die (Panic "division by zero").
Proof.
  destruct (ex_evolve (λ o, st_latest (or_st o) = 12000003%N ∧ statistics honest (plain_wire 12000010) o = Die (Panic "division by zero"))
    toy (new_oracle (cfg_at Mainnet 12000001)) (operations red_history) red_operations) as (o & He & Hl & Hs); [by vm_compute|].
  exists o, (plain_wire 12000010). split; [exact He|]. split; [apply plain_wire_wf|]. split.
  - exists 12000010%N. split; [done|]. rewrite Hl. lia.
  - intros sha. cbn [serve]. rewrite Hs. done.
Qed.

(** The owner of a tracked validator deposits again; the validators map is older than the validator. *)
Definition stale_wire : wire := sample_wire 12000010 "" 0 [sub_ev 1 1000 12000002] [] stale_beacon [].
Lemma stale_wire_wf : wf_wire stale_wire.
Proof. apply sample_wire_wf; by vm_compute. Qed.
Lemma stale_refutation : ∃ o a, evolve toy (new_oracle (cfg_at Mainnet 12000001)) (operations (take 1 (history 12000001))) o ∧
  wf_wire stale_wire ∧ keeps_up stale_wire (or_st o) ∧ names (owner 1) a ∧
  ∀ sha, serve sha honest (GetByWithdrawal a) stale_wire o = Die (Panic "nil pointer dereference").
Proof.
  destruct (ex_evolve (λ o, st_latest (or_st o) = 12000001%N ∧
      validators_by_withdrawal honest ("0x" +:+ hex_encode (owner 1)) stale_wire o = Die (Panic "nil pointer dereference"))
    toy (new_oracle (cfg_at Mainnet 12000001)) _ (history_operations 1)) as (o & He & Hl & Hs); [by vm_compute|].
  exists o, ("0x" +:+ hex_encode (owner 1)). split; [exact He|]. split; [apply stale_wire_wf|]. split.
  - exists 12000010%N. split; [done|]. rewrite Hl. lia.
  - split; [split; [done|by vm_compute]|]. intros sha. cbn [serve]. rewrite Hs. done.
Qed.

(** ** Requests that are not finalized yet *)

(** A block in which validators only join or leave. *)
Definition request_block (slot : N) (subs : list ev_sub) (unsubs : list ev_unsub) : fullblock :=
  FullBlock slot 9 (bytes 48 9) (active_val 9)
    (Some (CBlock VDeneb slot 9 (Payload (bytes 20 9) [] slot 0 [] 10)))
    (Some (Header slot 10)) (Some []) (evs [] subs unsubs [] [])
    ((λ e, sample_beacon !! sub_id e) <$> subs) ((λ e, sample_beacon !! uns_id e) <$> unsubs) 1.
(** Number 1 leaves and number 7 joins; then number 7 leaves and number 1 joins again. *)
Definition swap_subs : list ev_sub := [EvSub (owner 1) 1000 7 (lg 12000002); EvSub (owner 1) 1000 1 (lg 12000003)].
Definition swap_unsubs : list ev_unsub := [EvUnsub (owner 1) 1 (lg 12000002); EvUnsub (owner 1) 7 (lg 12000003)].
Definition swap_blocks : list (env * fullblock) :=
  [(honest, request_block 12000002 (take 1 swap_subs) (take 1 swap_unsubs));
   (backward, request_block 12000003 (drop 1 swap_subs) (drop 1 swap_unsubs))].
Definition swap_wire (f : N) : wire := sample_wire f "" 0 swap_subs swap_unsubs sample_beacon [].

Lemma request_block_quiet slot subs unsubs : (slot mod 1200 ≠ 0)%N → slot ≠ 10400574%N →
  forallb (λ e, (String.length (sub_sender e) =? 20)%nat) subs = true →
  forallb (λ e, (String.length (uns_sender e) =? 20)%nat) unsubs = true →
  only_requests pool20 sample_beacon (request_block slot subs unsubs).
Proof.
  intros Hm Hs H1 H2. split; try done.
  - intros [(r & p & t & l & snd & dst & (c & [= <-] & _ & _ & ->) & Ht & _)|(_ & p & (c & [= <-] & _ & _ & ->) & Hf)].
    + cbn in Ht. by destruct l.
    + by vm_compute in Hf.
  - apply addrs20_sound. by vm_compute.
  - by eapply ordinary_block.
  - split; (eapply forallb_Forall; [|eassumption]); intros x Hx; by apply Nat.eqb_eq in Hx.
Qed.

(** Computable versions of the hypotheses of C48. *)
Definition up_to_date_test (bs : gmap N bval) (s : ost) : bool :=
  indexed_test bs && forallb (λ iv, match bs !! iv.1 with
    | Some b => let a := sdrop 12 (b_creds b) in
        (String.length a =? 20)%nat && String.eqb (b_creds b) (String (ascii_of_N 1) (zeros 11 +:+ a)) &&
        String.eqb (v_addr iv.2) ("0x" +:+ hex_encode a)
    | None => false end) (map_to_list (st_vals s)).
Lemma up_to_date_sound bs s : up_to_date_test bs s = true → up_to_date bs s.
Proof.
  unfold up_to_date_test. intros [H1 H2]%andb_prop. split; [by apply indexed_sound|]. rewrite forallb_forall in H2.
  intros i v Hv%elem_of_map_to_list%elem_of_list_In. apply H2 in Hv. cbn [fst snd] in Hv. destruct (bs !! i) as [b|] eqn:Hb; [|done].
  apply andb_prop in Hv as [[Hl Hc]%andb_prop Ha]. apply Nat.eqb_eq in Hl. apply String.eqb_eq in Hc, Ha.
  exists (sdrop 12 (b_creds b)). split; [|done]. exists b. split; [done|]. split; [done|]. by left.
Qed.
Definition outsiders_test (s : ost) (l : list (env * fullblock)) : bool :=
  forallb (λ x, match status_of s (fb_duty_index x.2) with
    | Some Active | Some YellowCard | Some RedCard => false | _ => true end &&
    forallb (λ e, negb (sub_id e =? fb_duty_index x.2)%N) (all_subs l)) l.
Lemma outsiders_sound s l : outsiders_test s l = true → outsiders s l.
Proof.
  unfold outsiders_test. rewrite forallb_forall. intros H x Hx%elem_of_list_In. apply H in Hx as [Hx Hs]%andb_prop. split.
  - intros (v & Hv & Hst). unfold status_of in Hx. rewrite Hv in Hx. cbn in Hx. by destruct Hst as [E|[E|E]]; rewrite E in Hx.
  - rewrite forallb_forall in Hs. intros e He%elem_of_list_In. apply Hs in He. intros E. rewrite E, N.eqb_refl in He. done.
Qed.
Lemma swap_rising : rising 12000001 swap_blocks.
Proof.
  apply (rising_next _ 12000002); [done|by repeat constructor..|].
  apply (rising_next _ 12000003); [done|by repeat constructor..|]. constructor.
Qed.
Lemma swap_requests : Forall (λ x, only_requests pool20 sample_beacon x.2) swap_blocks.
Proof. repeat (apply Forall_cons; split); [..|done]; apply request_block_quiet; by vm_compute. Qed.
Lemma swap_envs : wf_envs swap_blocks.
Proof. repeat (apply Forall_cons; split); [apply honest_wf|apply backward_wf|done]. Qed.

(** Number 2 leaves with something pending, and number 1 does nothing; number 7 joins. *)
Definition leave_unsubs : list ev_unsub := [EvUnsub (owner 2) 2 (lg 12000002)].
Definition leave_blocks : list (env * fullblock) := [(honest, request_block 12000002 [] leave_unsubs)].
Definition leave_wire (f : N) : wire := sample_wire f "" 0 [] leave_unsubs sample_beacon [].
Definition join_blocks : list (env * fullblock) := [(honest, request_block 12000002 (take 1 swap_subs) [])].
Definition join_wire (f : N) : wire := sample_wire f "" 0 (take 1 swap_subs) [] sample_beacon [].
Lemma leave_rising : rising 12000001 leave_blocks.
Proof. apply (rising_next _ 12000002); [done|by repeat constructor..|]. constructor. Qed.
Lemma join_rising : rising 12000001 join_blocks.
Proof. apply (rising_next _ 12000002); [done|by repeat constructor..|]. constructor. Qed.
Lemma leave_requests : Forall (λ x, only_requests pool20 sample_beacon x.2) leave_blocks.
Proof. apply Forall_cons; split; [apply request_block_quiet; by vm_compute|done]. Qed.
Lemma join_requests : Forall (λ x, only_requests pool20 sample_beacon x.2) join_blocks.
Proof. apply Forall_cons; split; [apply request_block_quiet; by vm_compute|done]. Qed.
(** Validator 1 will have a share of what validator 2 leaves behind; the answer does not say so. *)
Lemma leave_refutation : ∃ o o' b x, evolve toy (new_oracle (cfg_at Mainnet 12000001)) (operations (take 1 (history 12000001))) o ∧
  wf_envs leave_blocks ∧ run o leave_blocks o' ∧
  up_to_date sample_beacon (or_st o) ∧ outsiders (or_st o) leave_blocks ∧
  serve toy honest (GetByWithdrawal "0x1111111111111111111111111111111111111111") (leave_wire 12000010) o = Ok (Answer (BViews b)) ∧
  x ∈ b ∧ v_index (vw_info x) = 1%N ∧ v_pend (vw_info x) = 1000%Z ∧ pending_at (or_st o') 1 = 1310%Z.
Proof.
  destruct (ex_evolve (λ o, match run_fn o leave_blocks with
      | Some o' => up_to_date_test sample_beacon (or_st o) = true ∧ outsiders_test (or_st o) leave_blocks = true ∧ pending_at (or_st o') 1 = 1310%Z ∧
          match serve toy honest (GetByWithdrawal "0x1111111111111111111111111111111111111111") (leave_wire 12000010) o with
          | Ok (Answer (BViews (x :: vs))) => (v_index (vw_info x), v_pend (vw_info x)) = (1%N, 1000%Z)
          | _ => False end
      | None => False end)
    toy (new_oracle (cfg_at Mainnet 12000001)) _ (history_operations 1)) as (o & He & H); [by vm_compute|].
  destruct (run_fn o leave_blocks) as [o'|] eqn:Hr; [|done]. destruct H as (H1 & H2 & H3 & H4).
  destruct (serve _ _ _ _ _) as [[b|]|] eqn:Hs in H4; [|done..]. destruct b as [| | | | |vs| | | | | | |]; try done. destruct vs as [|x vs]; [done|]. injection H4 as H5 H6.
  exists o, o', (x :: vs), x. split; [exact He|]. split; [apply Forall_cons; split; [apply honest_wf|done]|]. split; [by apply run_fn_run|].
  split; [by apply up_to_date_sound|]. split; [by apply outsiders_sound|]. split; [done|]. split; [by left|]. done.
Qed.

(** The contract holds the root of this slot's checkpoint. *)
Definition proof_wire (slot : N) (o : oracle) : wire :=
  sample_wire 12000010 (default "" (oc_root <$> st_committed (or_st o) !! slot)) slot [] [] sample_beacon [].

(** A key of 96 letters Z. *)
Definition z_key : string := "0x" +:+ bytes 96 90.
Lemma pubkey_refutation : ∃ v, is_valid_pubkey v = true ∧ ¬ hex_text 96 v.
Proof.
  exists z_key. split; [by vm_compute|]. intros (body & Hb & _ & Hf).
  assert (body = bytes 96 90) as -> by (symmetry; exact (app_prefix_inj _ _ _ Hb)).
  apply Forall_inv in Hf. apply hex_char_spec in Hf. by vm_compute in Hf.
Qed.

(** Checkpoints in the statistics. *)
Lemma checkpoints_refutation : ∃ o w b, run (new_oracle (cfg_at Mainnet 12000001)) (history 12000001) o ∧ wf_wire w ∧
  (∀ sha, serve sha honest GetStatistics w o = Ok (Answer (BStats b))) ∧
  ¬ checkpoint_slot (cfg_at Mainnet 12000001) (ss_latest_checkpoint b) ∧ ¬ checkpoint_slot (cfg_at Mainnet 12000001) (ss_next_checkpoint b).
Proof.
  destruct (ex_run (λ o, match statistics honest (plain_wire 12000010) o with
      | Ok (Answer b) => ss_latest_checkpoint b = 12000006%N ∧ ss_next_checkpoint b = 12007206%N | _ => False end)
    (new_oracle (cfg_at Mainnet 12000001)) (history 12000001)) as (o & Hr & H); [by vm_compute|].
  destruct (statistics honest (plain_wire 12000010) o) as [[b|]|] eqn:Hs; [|done..]. destruct H as [H1 H2].
  exists o, (plain_wire 12000010), b. split; [exact Hr|]. split; [apply plain_wire_wf|].
  split; [intros sha; cbn [serve]; rewrite Hs; done|]. rewrite H1, H2. unfold checkpoint_slot. cbn [c_dep_slot c_cp_size cfg_at].
  split; intros [j Hj]; lia.
Qed.

(** A tracked validator that the validators map does not have yet. *)
Lemma silent_refutation : ∃ o, evolve toy (new_oracle (cfg_at Mainnet 12000001)) (operations (take 1 (history 12000001))) o ∧
  wf_wire stale_wire ∧ status_of (or_st o) 1 = Some Active ∧ ApiSpec.asks "1" [1%N] ∧
  ∀ sha, serve sha honest (GetByIndex "1") stale_wire o = Ok (Answer (BFound [] [])).
Proof.
  destruct (ex_evolve (λ o, status_of (or_st o) 1 = Some Active ∧ validators_by_index "1" stale_wire o = Answer ([], []))
    toy (new_oracle (cfg_at Mainnet 12000001)) _ (history_operations 1)) as (o & He & H1 & Hs); [by vm_compute|].
  exists o. split; [exact He|]. split; [apply stale_wire_wf|]. split; [exact H1|]. split.
  - split; [done|]. exists ["1"]. split; [done|]. constructor; [|constructor]. split; [|by vm_compute]. split; [done|].
    constructor; [|constructor]. apply elem_of_list_further, elem_of_list_here.
  - intros sha. cbn [serve]. by rewrite Hs.
Qed.

(** Three relays: registered with the pool, not registered, registered with somebody else. *)
Definition some_key : string := "0x" +:+ bytes 96 97.
Definition relay_wire : wire :=
  sample_wire 12000010 "" 0 [] [] sample_beacon [("one", RelayFee pool20); ("two", RelayUnknown); ("three", RelayFee (owner 1))].
