(** C43, C51, C52, C58 (fetching), C61, C62: what is obtained from the nodes and what is sent to the contract. *)
From Verif Require Import OnchainSamples.

(** ** C43
    The full claim (a nil error means that the report transaction succeeded; a chain mismatch or a receipt of another
    transaction is reported) is refuted below: errors.Wrap of a nil error is nil. What holds: with a nil error the
    transaction was sent, with the slot asked for and the 32 bytes the root stands for, and it was mined; every
    other failure is reported. *)
Theorem C43_reported_partial A slot root sent : update_root A slot root = (sent, None) →
  ∃ bytes status late, sent = Some (slot, bytes) ∧ String.length bytes = 32%nat ∧
    (root = "0x" +:+ hex_encode bytes ∨ root = hex_encode bytes) ∧ sa_mined A = Mined status late ∧
    sa_nonce A = None ∧ sa_chain A = None ∧ sa_auth A = None ∧ sa_instance A = None ∧ sa_send A = None.
Proof. exact (submitted A slot root sent). Qed.

(** A root printed by hexutil.Encode is sent as the bytes it was printed from. *)
Theorem C43_sent_bytes A slot root e slot' bytes : String.length root = 32%nat →
  update_root A slot (hexutil_encode root) = (Some (slot', bytes), e) → slot' = slot ∧ bytes = root.
Proof. exact (sent_what A slot root e slot' bytes). Qed.

Theorem C43_failed_receipt_refuted : ∃ A slot root sent, sa_mined A = Mined 0 false ∧ update_root A slot root = (Some sent, None).
Proof. exact failed_receipt_unreported. Qed.
Theorem C43_deadline_refuted : ∃ A slot root sent, sa_mined A = Mined 0 true ∧ update_root A slot root = (Some sent, None).
Proof. exact deadline_unreported. Qed.
(** Every mismatch of chain ids yields a nil pointer and no error. *)
Theorem C43_chain_refuted : ∃ exec cons, is_int64 exec ∧ exec ≠ Z.of_N cons ∧ new_onchain exec cons = (false, None).
Proof. exact mismatch_unreported. Qed.
(** A receipt of another transaction: no tip and no error, and the step that uses the tip crashes. *)
Theorem C43_tip_refuted : ∃ E fb o d, (∃ t r, get_txs fb = Ok [Some t] ∧ fb_receipts fb = Some [r] ∧ tx_hash t ≠ rc_tx r) ∧
  proposer_tip fb = Ok TipNil ∧ run (new_oracle (cfg_at Mainnet 12000001)) (take 1 (history 12000001)) o ∧ advance E fb o = Dead d.
Proof. exact tip_unreported. Qed.

Example C43_example : ∃ sent, update_root (SubmitAnswers None None None None None (Mined 1 false)) 7200 (hexutil_encode (bytes 32 200)) = (Some sent, None) ∧
  sent = (7200%N, bytes 32 200) ∧
  update_root (SubmitAnswers None None None None (Some "nonce too low") (Mined 1 false)) 7200 (hexutil_encode (bytes 32 200)) =
    (None, Some "could not create tx to call SubmitReport: nonce too low").
Proof. eexists. split; [by vm_compute|]. split; by vm_compute. Qed.
Print Assumptions C43_reported_partial.
Print Assumptions C43_sent_bytes.
Print Assumptions C43_failed_receipt_refuted.
Print Assumptions C43_deadline_refuted.
Print Assumptions C43_chain_refuted.
Print Assumptions C43_tip_refuted.

(** ** C51 *)
(** Whatever was asked before: the duty of the slot, or nothing when the node did not answer just then. *)
Theorem C51_transparent_partial D l ds ca : duty_table D → Forall (λ x, tells_duties D x.1 ∧ (32 ≤ x.2)%N) l → asks empty_cache l ds ca →
  Forall2 (λ x d, d = Some (D x.2) ∨ (d = None ∧ nd_duties x.1 (x.2 / 32)%N = None)) l ds.
Proof. exact (duties_exact D l ds ca). Qed.
(** No sequence of requests crashes. *)
Theorem C51_total_partial D l : duty_table D → Forall (λ x, tells_duties D x.1 ∧ (32 ≤ x.2)%N) l → ∃ ds ca, asks empty_cache l ds ca.
Proof. intros HD Hl. destruct (duties_transparent D l HD Hl) as (ds & ca & H & _). by exists ds, ca. Qed.
(** The slots of epoch 0: the empty cache claims to hold them, whatever the node would say. *)
Theorem C51_epoch0_refuted : ∃ D nd slot, duty_table D ∧ tells_duties D nd ∧ nd_duties nd (slot / 32)%N ≠ None ∧
  ∃ d, get_proposal_duty nd slot empty_cache = Die d.
Proof. exact epoch0_refutation. Qed.

(** Three requests: the second is answered from the cache although the node has gone silent, the third is not. *)
Definition three_requests : list (node * N) :=
  [(serving (missed_slot 12000005 3 no_events), 12000001%N); (speechless (missed_slot 12000005 3 no_events), 12000005%N);
   (speechless (missed_slot 12000005 3 no_events), 64%N)].
Example C51_example : Forall (λ x, tells_duties proposers x.1 ∧ (32 ≤ x.2)%N) three_requests ∧
  ∃ ca, asks empty_cache three_requests [Some (proposers 12000001); Some (proposers 12000005); None] ca.
Proof.
  split.
  - repeat (apply Forall_cons; split); [..|done]; split; try done; first [apply serving_tells|apply speechless_tells].
  - eexists. eapply asks_one; [by vm_compute|]. eapply asks_one; [by vm_compute|]. eapply asks_one; [by vm_compute|]. constructor.
Qed.
Print Assumptions C51_transparent_partial.
Print Assumptions C51_total_partial.
Print Assumptions C51_epoch0_refuted.

(** ** C52 *)
Theorem C52_complete nd req slot r : get_set_of_validators nd req slot = Some r ↔
  req ≠ [] ∧ nd_vals nd req slot = Some r ∧ ∀ i, i ∈ req → ∃ v, (i, v) ∈ r.
Proof. exact (get_set_iff nd req slot r). Qed.

Example C52_example :
  let nd vals := Node 1 (λ _, None) (λ req slot, Some vals) (λ _, None) (λ _, None) (λ _, None) (λ _, None) (λ _, None)
                   (λ _, None) (λ _, None) (λ _, None) (λ _, None) (λ _, None) (λ _, None) (λ _, None) in
  get_set_of_validators (nd [(2, active_val 2); (1, active_val 1)]%N) [1; 2]%N 100 = Some [(2, active_val 2); (1, active_val 1)]%N ∧
  get_set_of_validators (nd [(2, active_val 2)]%N) [1; 2]%N 100 = None.
Proof. split; by vm_compute. Qed.
Print Assumptions C52_complete.

(** ** C58, with the blocks obtained from the nodes *)
(** A slot the nodes serve is fetched, without header and receipts when they are not needed, and processed with the
    same result as the complete block. *)
Theorem C58_fetched_slot nd E fb o pool20 ca : names pool20 (c_pool (or_cfg o)) → good_slot (or_cfg o) pool20 E fb →
  ready o (fb_duty_slot fb) → serves nd fb → fresh_cache ca fb →
  ∃ fb' ca' o', fetch_full_block nd E (c_pool (or_cfg o)) false (fb_duty_slot fb) (or_st o) ca = Ok (fb', ca') ∧
    advance E fb' o = Done o' (fb_duty_slot fb) ∧ advance E fb o = Done o' (fb_duty_slot fb).
Proof. exact (fetched_step nd E fb o pool20 ca). Qed.

(** A whole chain, each slot from whatever the node then is, starting with the empty duty cache. *)
Theorem C58_fetched_chain D o l slot pool20 : names pool20 (c_pool (or_cfg o)) → duty_table D → ready o slot →
  Forall (λ x, let '(nd, E, fb) := x in good_slot (or_cfg o) pool20 E fb ∧ serves nd fb ∧ tells_duties D nd ∧
    D (fb_duty_slot fb) = Duty (fb_duty_slot fb) (fb_duty_index fb) (fb_duty_pubkey fb)) l →
  consecutive slot ((λ x, (x.1.2, x.2)) <$> l) → (32 ≤ slot)%N → (slot + N.of_nat (length l) < 2 ^ 64)%N →
  ∃ o' ca', follows o empty_cache ((λ x, (x.1.1, x.1.2, fb_duty_slot x.2)) <$> l) o' ca' ∧
    run o ((λ x, (x.1.2, x.2)) <$> l) o' ∧ st_next (or_st o') = (slot + N.of_nat (length l))%N.
Proof. exact (fetched_chain D o l slot pool20). Qed.

Example C58_fetched_example : ready (new_oracle (cfg_at Mainnet 12000001)) 12000001 ∧ duty_table proposers ∧
  consecutive 12000001 ((λ x, (x.1.2, x.2)) <$> served_history) ∧
  Forall (λ x, let '(nd, E, fb) := x in good_slot (cfg_at Mainnet 12000001) pool20 E fb ∧ serves nd fb ∧ tells_duties proposers nd ∧
    proposers (fb_duty_slot fb) = Duty (fb_duty_slot fb) (fb_duty_index fb) (fb_duty_pubkey fb)) served_history.
Proof. split; [apply fresh_ready|]. split; [done|]. split; [by repeat split|apply history_serves]. Qed.
Print Assumptions C58_fetched_slot.
Print Assumptions C58_fetched_chain.

(** ** C61 *)
(** Whatever the nodes answer: the parts belong together. *)
Theorem C61_coherent nd E pool all slot s ca fb ca' : fetch_full_block nd E pool all slot s ca = Ok (fb, ca') → coherent slot fb.
Proof. exact (fetch_coherent nd E pool all slot s ca fb ca'). Qed.

(** Leaving out header and receipts changes nothing in the processing of the block. *)
Theorem C61_lazy nd E slot o ca fb ca' : fetch_full_block nd E (c_pool (or_cfg o)) true slot (or_st o) ca = Ok (fb, ca') →
  ∃ fb', fetch_full_block nd E (c_pool (or_cfg o)) false slot (or_st o) ca = Ok (fb', ca') ∧ advance E fb' o = advance E fb o.
Proof. exact (fetch_lazy nd E slot o ca fb ca'). Qed.

(** Header and receipts present in one case, absent in the other. *)
Example C61_example : let fb := foreign_block 12000001 9 (evs [] [sub_ev 1 1000 12000001; sub_ev 4 10 12000001] [] [] []) in
  let get all := fetch_full_block (serving fb) honest pool_str all 12000001 (or_st (new_oracle (cfg_at Mainnet 12000001))) empty_cache in
  ∃ fb1 ca1 fb2 ca2, get true = Ok (fb1, ca1) ∧ get false = Ok (fb2, ca2) ∧ fb_header fb1 ≠ None ∧ fb_header fb2 = None ∧
    fb_subs fb2 = [Some (active_val 1); Some (active_val 4)].
Proof. cbv zeta. do 4 eexists. split; [by vm_compute|]. split; [by vm_compute|]. split; [done|]. split; by vm_compute. Qed.
Print Assumptions C61_coherent.
Print Assumptions C61_lazy.

(** ** C62 *)
Theorem C62_config E args sel pool20 A pool dry c : String.length sel = 4%nat →
  get_config E args sel pool20 A pool dry = Ok c → right_config args sel pool20 A pool dry c.
Proof. exact (config_right E args sel pool20 A pool dry c). Qed.

(** It also meets the typing hypotheses of the persistence theorems. *)
Theorem C62_typed E args sel pool20 A pool dry c : String.length sel = 4%nat →
  ascii_only pool = true → (∀ x, ga_cp_size A = Some x → is_u64 x) → (∀ x f, args x = Some f → is_int64 f) →
  get_config E args sel pool20 A pool dry = Ok c → typed_config c.
Proof. exact (config_typed E args sel pool20 A pool dry c). Qed.

(** The initial fee need not be the one the pool was initialised with: a contract created by anybody in the same
    block, before the pool is initialised, decides it. *)
Theorem C62_fee_owner_refuted : ∃ E args sel p20 A pool c time data tail fee, get_config E args sel p20 A pool true = Ok c ∧
  String.length sel = 4%nat ∧ ga_block A = Some (time, [(None, data); (Some p20, sel +:+ tail)]) ∧ args tail = Some fee ∧ c_feepct c ≠ fee.
Proof. exact stranger_fee. Qed.
(** A missed slot where the deployment block is looked for crashes the start. *)
Theorem C62_missed_refuted : ∃ E args sel p20 A pool d, (∀ slot, ga_cblock A slot = Some None) ∧ get_config E args sel p20 A pool true = Die (Panic d).
Proof. exact missed_deployment. Qed.

Example C62_example : ∃ c, get_config honest read_fee "init" pool20 (deployment [(Some pool20, "init5"); (None, "abinit6")]) pool_str true = Ok c ∧
  c = Config Mainnet pool_str 12000001 12000001 7200 5 fees_str true 1000.
Proof. eexists. split; by vm_compute. Qed.
Print Assumptions C62_config.
Print Assumptions C62_typed.
Print Assumptions C62_fee_owner_refuted.
Print Assumptions C62_missed_refuted.
