(** Nodes used by the examples of PropOnchain.v. *)
From Verif Require Export OnchainProofs PersistSamples.

(** ** Nodes that serve one block each *)

(** Who proposes: the proposers of [history 12000001], validator 7 elsewhere. *)
Definition proposers (slot : N) : duty :=
  let i := nth (N.to_nat (N.min (slot - 12000001) 100)) [9; 1; 5; 9; 3; 9]%N 7%N in
  let i := if (slot <? 12000001)%N then 7%N else i in
  Duty slot i (bytes 48 i).
Lemma proposers_table : duty_table proposers.
Proof. done. Qed.

(** The node while [fb] is the block asked for. *)
Definition serving (fb : fullblock) : node :=
  let ev := fb_events fb in
  Node (fb_chain fb) (λ e, Some ((λ k, proposers (32 * e + N.of_nat k)) <$> seq 0 32))
    (λ req _, match req with [i] => Some [(i, active_val i)] | _ => None end)
    (λ _, Some (fb_cblock fb))
    (λ _, Some (ev_ether_received ev)) (λ _, Some (ev_subscribe ev)) (λ _, Some (ev_unsubscribe ev))
    (λ _, Some (ev_pool_fee ev)) (λ _, Some (ev_fee_recipient ev)) (λ _, Some (ev_checkpoint_size ev))
    (λ _, Some (ev_collateral ev)) (λ _, Some (ev_bans ev)) (λ _, Some (ev_unbans ev))
    (λ _, fb_header fb)
    (λ h, match fb_receipts fb with Some rs => List.find (λ r, String.eqb (rc_tx r) h) rs | None => None end).
(** The same node, not answering requests for duties. *)
Definition speechless (fb : fullblock) : node :=
  let nd := serving fb in
  Node (nd_chain nd) (λ _, None) (nd_vals nd) (nd_block nd) (nd_ether nd) (nd_subs nd) (nd_unsubs nd) (nd_fee nd)
    (nd_recipient nd) (nd_size nd) (nd_coll nd) (nd_bans nd) (nd_unbans nd) (nd_header nd) (nd_receipt nd).

Lemma serving_tells fb : tells_duties proposers (serving fb).
Proof.
  intros epoch l H. assert (l = (λ k, proposers (32 * epoch + N.of_nat k)) <$> seq 0 32) as -> by (symmetry; exact (Some_inj _ _ H)).
  rewrite fmap_length, seq_length. split; [done|]. intros k Hk. by rewrite list_lookup_fmap, lookup_seq_lt.
Qed.
Lemma speechless_tells fb : tells_duties proposers (speechless fb).
Proof. by intros epoch l [=]. Qed.

(** History as served. *)
Definition served_history : list (node * env * fullblock) := (λ x, (serving x.2, x.1, x.2)) <$> history 12000001.
Lemma history_serves : Forall (λ x, let '(nd, E, fb) := x in good_slot (cfg_at Mainnet 12000001) pool20 E fb ∧ serves nd fb ∧
    tells_duties proposers nd ∧ proposers (fb_duty_slot fb) = Duty (fb_duty_slot fb) (fb_duty_index fb) (fb_duty_pubkey fb)) served_history.
Proof.
  assert (Forall (λ x, serves (serving x.2) x.2 ∧ proposers (fb_duty_slot x.2) = Duty (fb_duty_slot x.2) (fb_duty_index x.2) (fb_duty_pubkey x.2)) (history 12000001)) as Hs.
  { unfold history. repeat (apply Forall_cons; split); [..|done]; cbn [fst snd].
    all: split; [|by vm_compute].
    all: split; [done|by eexists; split; [reflexivity|by vm_compute]|done|done|by intros|].
    all: try (by intros c [=]).
    all: intros c [= <-]; cbv zeta.
    all: do 2 (split; [done|]); split; [by eexists; split; [reflexivity|]; repeat split|].
    all: do 10 (split; [done|]); split; [repeat split; repeat (apply Forall_cons; split; [done|]); by apply Forall_nil|].
    all: split; [repeat (apply Forall2_cons; split; [done|]); by apply Forall2_nil|].
    all: split; [repeat (apply Forall2_cons; split; [done|]); by apply Forall2_nil|].
    all: do 2 eexists; do 4 (split; [reflexivity|]).
    all: split; [repeat (apply Forall_cons; split; [done|]); by apply Forall_nil|].
    all: repeat (apply Forall2_cons; split; [by eexists; split; [reflexivity|by vm_compute]|]); by apply Forall2_nil. }
  unfold served_history. apply Forall_fmap. pose proof history_good as Hg.
  rewrite Forall_forall in Hs. rewrite Forall_forall in Hg. apply Forall_forall. intros [E fb] Hin. cbn.
  destruct (Hs _ Hin) as [H1 H2]. split; [by apply (Hg (E, fb))|]. split; [done|]. split; [apply serving_tells|done].
Qed.

(** ** Unreported failures *)
Definition sends (m : mined) : submit_answers := SubmitAnswers None None None None None m.
Lemma failed_receipt_unreported : ∃ A slot root sent, sa_mined A = Mined 0 false ∧ update_root A slot root = (Some sent, None).
Proof. exists (sends (Mined 0 false)), 7200%N, (hexutil_encode (bytes 32 200)). eexists. split; [done|]. by vm_compute. Qed.
Lemma deadline_unreported : ∃ A slot root sent, sa_mined A = Mined 0 true ∧ update_root A slot root = (Some sent, None).
Proof. exists (sends (Mined 0 true)), 7200%N, (hexutil_encode (bytes 32 200)). eexists. split; [done|]. by vm_compute. Qed.
Lemma mismatch_unreported : ∃ exec cons, is_int64 exec ∧ exec ≠ Z.of_N cons ∧ new_onchain exec cons = (false, None).
Proof. exists 1%Z, 17000%N. split; [done|]. split; done. Qed.

(** A vanilla block to the pool whose receipt is of another transaction. *)
Definition wrong_receipt (slot : N) : fullblock :=
  block slot 5 pool20 [Tx (Some (bytes 20 5)) 1 0 12 0 0 (bytes 32 3) (Some (bytes 20 6))] [Receipt slot (bytes 32 4) 21000] 21000 no_events.
Lemma ex_dead (P : death → bool) E fb o : match advance E fb o with Dead d => P d | _ => false end = true → ∃ d, advance E fb o = Dead d ∧ P d = true.
Proof. destruct (advance E fb o); try done. eauto. Qed.
Lemma tip_unreported : ∃ E fb o d, (∃ t r, get_txs fb = Ok [Some t] ∧ fb_receipts fb = Some [r] ∧ tx_hash t ≠ rc_tx r) ∧
  proposer_tip fb = Ok TipNil ∧ run (new_oracle (cfg_at Mainnet 12000001)) (take 1 (history 12000001)) o ∧ advance E fb o = Dead d.
Proof.
  destruct (ex_dead (λ _, true) honest (wrong_receipt 12000002) (after_oracle Mainnet 12000001 1)) as [d [Hd _]]; [by vm_compute|].
  exists honest, (wrong_receipt 12000002), (after_oracle Mainnet 12000001 1), d.
  split; [by do 2 eexists; split; [reflexivity|split; [reflexivity|]]; intros H%(f_equal (String.get 0))|]. split; [by vm_compute|]. split; [|done].
  exact (after_run Mainnet 12000001 1 eq_refl).
Qed.

Lemma epoch0_refutation : ∃ D nd slot, duty_table D ∧ tells_duties D nd ∧ nd_duties nd (slot / 32)%N ≠ None ∧
  ∃ d, get_proposal_duty nd slot empty_cache = Die d.
Proof.
  exists proposers, (serving (missed_slot 3 7 no_events)), 3%N. split; [done|]. split; [apply serving_tells|]. split; [done|].
  eexists. by apply epoch0_dies.
Qed.

(** ** Deployments *)

(** Arguments of one character stand for the fee. *)
Definition read_fee (s : string) : option Z :=
  match s with String c EmptyString => Some (Z.of_N (N_of_ascii c) - 48)%Z | _ => None end.
(** A deployment at slot 12000001 with the transactions [txs] in its block. *)
Definition deployment (txs : list deploy_tx) : config_answers :=
  ConfigAnswers (Some 1%Z) (Some 1%N) (Some 1606824023%N) (Some 0%Z) (Some 12000001%Z) (Some (1606824023 + 12 * 12000001, txs)%N)
    (λ slot, Some (fb_cblock (foreign_block slot 9 no_events))) (Some 7200%N) (Some fees20) (Some 1000%Z) (Some []) (Some 1%N).
Lemma stranger_fee : ∃ E args sel p20 A pool c time data tail fee, get_config E args sel p20 A pool true = Ok c ∧
  String.length sel = 4%nat ∧ ga_block A = Some (time, [(None, data); (Some p20, sel +:+ tail)]) ∧ args tail = Some fee ∧ c_feepct c ≠ fee.
Proof.
  exists honest, read_fee, "init", pool20, (deployment [(None, "abinit6"); (Some pool20, "init5")]), pool_str,
    (Config Mainnet pool_str 12000001 12000001 7200 6 fees_str true 1000).
  exists (1606824023 + 12 * 12000001)%N, "abinit6", "5", 5%Z. split; [by vm_compute|]. done.
Qed.
Definition missed_answers : config_answers :=
  let A := deployment [] in
  ConfigAnswers (ga_exec_chain A) (ga_cons_chain A) (ga_genesis A) (ga_balance A) (ga_deployed A) (ga_block A) (λ _, Some None)
    (ga_cp_size A) (ga_fees_addr A) (ga_coll A) (ga_members A) (ga_quorum A).
Lemma missed_deployment : ∃ E args sel p20 A pool d, (∀ slot, ga_cblock A slot = Some None) ∧ get_config E args sel p20 A pool true = Die (Panic d).
Proof. exists honest, read_fee, "init", pool20, missed_answers, pool_str. eexists. split; [done|]. by vm_compute. Qed.
