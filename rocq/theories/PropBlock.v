(** Properties C20, C44, C46: what a block paid. *)
From Verif Require Import PatchProofs SlotProofs Samples.

(** ** C46 *)
Theorem C46_classification E s pool pool20 fb b :
  names pool20 pool → addrs20 fb → ordinary fb → summarize E s pool fb = Ok b →
  (sb_type b = MissedProposal ↔ fb_cblock fb = None) ∧
  (sb_type b = OkPoolProposal ↔
     fb_cblock fb ≠ None ∧ paid_pool pool20 fb ∧ ∃ a, exec_address (b_creds (fb_validator fb)) a) ∧
  (sb_type b = OkPoolProposalBlsKeys ↔
     fb_cblock fb ≠ None ∧ paid_pool pool20 fb ∧ ∀ a, ¬ exec_address (b_creds (fb_validator fb)) a) ∧
  (sb_type b = WrongFeeRecipient ↔ fb_cblock fb ≠ None ∧ ¬ paid_pool pool20 fb) ∧
  (∀ r a, mev_payment fb r a → sb_reward b = Some r ∧ sb_reward_type b = MevBlock) ∧
  (paid_pool pool20 fb → (∀ r a, ¬ mev_payment fb r a) → sb_reward_type b = VanilaBlock).
Proof. exact (classification E s pool pool20 fb b). Qed.

(** A block makes at most one MEV payment, so the cases exclude each other. *)
Theorem C46_one_payment fb r a r' a' : mev_payment fb r a → mev_payment fb r' a' → r = r' ∧ a = a'.
Proof. exact (mev_payment_fun fb r a r' a'). Qed.

(** The one block of mainnet that is not ordinary: whatever its last transaction pays to whom, it has this reward, paid to
    this address. *)
Theorem C46_patched E fb c p l t a b : fb_chain fb = 1%N → fb_cblock fb = Some c → cb_slot c = 10400574%N → payload_of fb p →
  p_txs p = l ++ [Some t] → tx_to t = Some a → tx_sender t = Some b →
  mev_reward E fb = Ok (177043568463114308%Z, true, "0xAdFb8D27671F14f297eE94135e266aAFf8752e35").
Proof. exact (patched_reward E fb c p l t a b). Qed.
(** It pays 5 wei. *)
Definition patched_block : fullblock := mev_block 10400574 1 5 (evs [] [] [] [] []).
Example C46_patched_example : ∃ c p t, fb_chain patched_block = 1%N ∧ fb_cblock patched_block = Some c ∧ cb_slot c = 10400574%N ∧ payload_of patched_block p ∧
  p_txs p = [] ++ [Some t] ∧ tx_to t = Some pool20 ∧ tx_sender t = Some (bytes 20 9) ∧ tx_value t = 5%Z.
Proof. do 3 eexists. split; [reflexivity|]. split; [reflexivity|]. split; [reflexivity|]. split; [by eexists|]. by repeat split. Qed.

(** A proposer whose fee recipient is the pool, in a block whose last transaction comes neither from the pool
    nor from the accepted builder, is never classified as wrong. *)
Theorem C46_honest_partial E s pool pool20 fb b p :
  names pool20 pool → addrs20 fb → ordinary fb → summarize E s pool fb = Ok b →
  payload_of fb p → p_fee_recipient p = pool20 →
  (∀ l t a, p_txs p = l ++ [Some t] → tx_sender t = Some a → a ≠ pool20 ∧ ¬ builder (fb_chain fb) a) →
  sb_type b ≠ WrongFeeRecipient.
Proof. exact (honest_not_wrong E s pool pool20 fb b p). Qed.

(** Without the condition on the builder it is false: a mainnet block to the pool whose last transaction happens
    to be an ordinary payment of the accepted builder counts as paying somebody else. *)
Theorem C46_honest_refuted : ∃ E s fb b p,
  addrs20 fb ∧ ordinary fb ∧ wf_env E ∧ summarize E s pool_str fb = Ok b ∧
  payload_of fb p ∧ p_fee_recipient p = pool20 ∧
  (∀ l t a, p_txs p = l ++ [Some t] → tx_sender t = Some a → a ≠ pool20) ∧
  sb_type b = WrongFeeRecipient.
Proof. exact builder_refutation. Qed.

Example C46_example_mev : names pool20 pool_str ∧ addrs20 (mev_block 12000002 1 100000 (evs [ether_ev 100000 12000002] [] [] [] [])) ∧
  ordinary (mev_block 12000002 1 100000 (evs [ether_ev 100000 12000002] [] [] [] [])) ∧
  mev_payment (mev_block 12000002 1 100000 (evs [ether_ev 100000 12000002] [] [] [] [])) 100000 pool20 ∧
  ∃ b, summarize honest (after Mainnet 12000001 1) pool_str (mev_block 12000002 1 100000 (evs [ether_ev 100000 12000002] [] [] [] [])) = Ok b ∧
    sb_type b = OkPoolProposal ∧ sb_reward b = Some 100000%Z ∧ sb_reward_type b = MevBlock.
Proof.
  split; [apply pool_names|]. split; [apply addrs20_sound; by vm_compute|].
  split; [by eapply ordinary_block|]. split; [apply mev_block_payment|].
  apply (ex_ok (λ b, _)). by vm_compute.
Qed.
Example C46_example_honest : ∃ b p, 
  summarize honest (after Mainnet 12000001 1) pool_str (vanilla_block 12000002 1 (evs [] [] [] [] [])) = Ok b ∧
  payload_of (vanilla_block 12000002 1 (evs [] [] [] [] [])) p ∧ p_fee_recipient p = pool20 ∧
  (∀ l t a, p_txs p = l ++ [Some t] → tx_sender t = Some a → a ≠ pool20 ∧ ¬ builder 1 a) ∧ sb_type b = OkPoolProposal.
Proof.
  destruct (ex_ok (λ b, sb_type b = OkPoolProposal)
    (summarize honest (after Mainnet 12000001 1) pool_str (vanilla_block 12000002 1 (evs [] [] [] [] [])))) as (b & Hb & Ht); [by vm_compute|].
  eexists b, _. split; [done|]. split; [eexists; done|]. split; [done|]. split; [|done].
  intros l t a H. apply (app_inj_2 [] l) in H as [_ [= <-]]; [|done]. intros [= <-]. split; [by vm_compute|].
  intros [_ [_ H]]. by vm_compute in H.
Qed.
Print Assumptions C46_patched.
Print Assumptions C46_classification.
Print Assumptions C46_one_payment.
Print Assumptions C46_honest_partial.
Print Assumptions C46_honest_refuted.

(** ** C44 *)
Theorem C44_priority_fees fb base txs rs : complete_block fb base txs rs → proposer_tip fb = Ok (TipOk (tips base txs rs)).
Proof. exact (vanilla_tip fb base txs rs). Qed.

Theorem C44_nonnegative base txs rs : Forall (λ t, base ≤ gas_price base t)%Z txs → (0 ≤ tips base txs rs)%Z.
Proof. exact (tips_nonneg base txs rs). Qed.

(** It is the reward recorded for a vanilla block that pays the pool. *)
Theorem C44_recorded E s pool pool20 fb b base txs rs :
  names pool20 pool → addrs20 fb → ordinary fb → complete_block fb base txs rs →
  paid_pool pool20 fb → (∀ r a, ¬ mev_payment fb r a) → summarize E s pool fb = Ok b →
  sb_reward b = Some (tips base txs rs) ∧ sb_reward_type b = VanilaBlock.
Proof. exact (summarize_vanilla E s pool pool20 fb b base txs rs). Qed.

(** Three transactions: legacy at price 12, dynamic-fee with tip 3, dynamic-fee capped at 11; base fee 10. *)
Definition fee_txs : list tx :=
  [ Tx (Some (bytes 20 5)) 1 0 12 0 0 (bytes 32 3) (Some (bytes 20 6));
    Tx (Some (bytes 20 5)) 1 2 0 3 99 (bytes 32 4) (Some (bytes 20 6));
    Tx None 1 3 0 3 11 (bytes 32 5) (Some (bytes 20 6)) ].
Definition fee_rs (n : N) : list receipt := [Receipt n (bytes 32 3) 21000; Receipt n (bytes 32 4) 30000; Receipt n (bytes 32 5) 40000].
Definition fee_block : fullblock := block 12000002 1 pool20 fee_txs (fee_rs 12000002) 91000 (evs [] [] [] [] []).
Example C44_example : complete_block fee_block 10 fee_txs (fee_rs 12000002) ∧
  tips 10 fee_txs (fee_rs 12000002) = (2 * 21000 + 3 * 30000 + 1 * 40000)%Z ∧
  names pool20 pool_str ∧ addrs20 fee_block ∧ ordinary fee_block ∧ Forall (λ t, 10 ≤ gas_price 10 t)%Z fee_txs ∧
  paid_pool pool20 fee_block ∧ (∀ r a, ¬ mev_payment fee_block r a).
Proof.
  assert (∀ r a, ¬ mev_payment fee_block r a) as Hno.
  { intros r a (p & t & l & snd & dst & (c & [= <-] & _ & _ & ->) & Ht & Hs & Hd & _).
    assert (Some t = Some (Tx None 1 3 0 3 11 (bytes 32 5) (Some (bytes 20 6)))) as [= ->].
    { apply (f_equal last) in Ht. rewrite stdpp.list.last_snoc in Ht. cbn in Ht. by injection Ht as <-. }
    done. }
  split.
  { split; [|repeat (constructor; [split; done|]); constructor|done].
    do 2 eexists. split; [done|]. split; [right; split; [by left|]; split; done|]. done. }
  split; [done|]. split; [apply pool_names|]. split; [apply addrs20_sound; by vm_compute|].
  split; [by eapply ordinary_block|]. split; [repeat (constructor; [by vm_compute|]); constructor|]. split; [|done].
  right. split; [done|]. eexists. split; [eexists; done|]. done.
Qed.
Print Assumptions C44_priority_fees.
Print Assumptions C44_nonnegative.
Print Assumptions C44_recorded.

(** ** C20 *)
(** The MEV payment credited to the proposer plus the donations are all the ether received, if only one event
    has the amount of the MEV payment; without an MEV payment to the pool every event is a donation. *)
Theorem C20_all_credited_partial E pool pool20 fb don :
  names pool20 pool → addrs20 fb → ordinary fb → get_donations E pool fb = Ok don → fb_cblock fb ≠ None →
  (∀ r, mev_payment fb r pool20 → length (filter (λ e, er_amount e = r) (ev_ether_received (fb_events fb))) = 1%nat →
     foldr Z.add 0%Z (er_amount <$> ev_ether_received (fb_events fb)) = (r + foldr Z.add 0 (er_amount <$> don))%Z) ∧
  ((∀ r, ¬ mev_payment fb r pool20) → don = ev_ether_received (fb_events fb)).
Proof. exact (donations_account E pool pool20 fb don). Qed.

(** A second deposit of the same amount as the MEV payment is credited to nobody, and from then on the off-chain
    reconciliation fails. *)
Theorem C20_all_credited_refuted : ∃ fb don o o',
  addrs20 fb ∧ ordinary fb ∧ mev_payment fb 100000 pool20 ∧ get_donations honest pool_str fb = Ok don ∧
  foldr Z.add 0%Z (er_amount <$> ev_ether_received (fb_events fb)) ≠ (100000 + foldr Z.add 0 (er_amount <$> don))%Z ∧
  offchain_reconciliation (or_st o) = true ∧ advance honest fb o = Done o' 12000002%N ∧ offchain_reconciliation (or_st o') = false.
Proof. exact twin_refutation. Qed.

Definition two_deposits : fullblock := mev_block 12000002 1 100000 (evs [ether_ev 100000 12000002; ether_ev 777 12000002] [] [] [] []).
Example C20_example : addrs20 two_deposits ∧ ordinary two_deposits ∧ mev_payment two_deposits 100000 pool20 ∧
  get_donations honest pool_str two_deposits = Ok [ether_ev 777 12000002] ∧
  length (filter (λ e, er_amount e = 100000%Z) (ev_ether_received (fb_events two_deposits))) = 1%nat.
Proof.
  split; [apply addrs20_sound; by vm_compute|]. split; [by eapply ordinary_block|]. split; [|by vm_compute].
  by apply mev_block_payment.
Qed.
Print Assumptions C20_all_credited_partial.
Print Assumptions C20_all_credited_refuted.
