(** C54, C58: blocks served by honest nodes are always processed. *)
From Verif Require Import Samples.

(** ** C58 *)
Theorem C58_slot E fb o pool20 : names pool20 (c_pool (or_cfg o)) → good_slot (or_cfg o) pool20 E fb → ready o (fb_duty_slot fb) →
  ∃ o', advance E fb o = Done o' (fb_duty_slot fb).
Proof. exact (good_advance E fb o pool20). Qed.

(** A whole chain: the oracle never stops, in whatever state the chain brings it. *)
Theorem C58_chain o l slot pool20 : names pool20 (c_pool (or_cfg o)) → ready o slot →
  Forall (λ x, good_slot (or_cfg o) pool20 x.1 x.2) l → consecutive slot l → (slot + N.of_nat (length l) < 2 ^ 64)%N →
  ∃ o', run o l o' ∧ st_next (or_st o') = (slot + N.of_nat (length l))%N.
Proof. exact (good_run o l slot pool20). Qed.

Example C58_example : names pool20 (c_pool (cfg_at Mainnet 12000001)) ∧ ready (new_oracle (cfg_at Mainnet 12000001)) 12000001 ∧
  Forall (λ x, good_slot (cfg_at Mainnet 12000001) pool20 x.1 x.2) (history 12000001) ∧ consecutive 12000001 (history 12000001).
Proof. split; [apply pool_names|]. split; [apply fresh_ready|]. split; [apply history_good|]. by repeat split. Qed.
Print Assumptions C58_slot.
Print Assumptions C58_chain.

(** ** C54
    The full claim (every network, every balance) is refuted below; what holds is that a block whose events are
    only donations is processed, and every donation recorded, on the networks with a fork table and with
    validators that have a balance. *)
Theorem C54_donation_partial E fb o pool20 : names pool20 (c_pool (or_cfg o)) → good_slot (or_cfg o) pool20 E fb → ready o (fb_duty_slot fb) →
  fb_cblock fb ≠ None → (∀ r, ¬ mev_payment fb r pool20) →
  ∃ o' n, advance E fb o = Done o' n ∧ st_donations (or_st o') = st_donations (or_st o) ++ ev_ether_received (fb_events fb).
Proof. exact (good_donation E fb o pool20). Qed.

(** All validators that take part have effective balance zero: the process exits. *)
Theorem C54_zero_balance_refuted : ∃ E o d, wf_env E ∧ run (new_oracle (cfg_at Mainnet 12000001)) (first_slot 12000001) o ∧
  advance E (donation_only 12000002) o = Dead d ∧ served (or_cfg o) pool20 (donation_only 12000002).
Proof. exact poor_refutation. Qed.

(** Goerli is missing from the fork tables: the process exits. *)
Theorem C54_goerli_refuted : ∃ o d, run (new_oracle (cfg_at Goerli 12000001)) (first_slot 12000001) o ∧
  advance honest (donation_only 12000002) o = Dead d ∧ served (or_cfg o) pool20 (donation_only 12000002).
Proof. exact goerli_refutation. Qed.

Example C54_example : ∃ o' n, advance honest (donation_only 12000007) (after_oracle Mainnet 12000001 6) = Done o' n ∧
  length (st_donations (or_st o')) = 3%nat.
Proof. apply (ex_done (λ o' n, _)). by vm_compute. Qed.
Print Assumptions C54_donation_partial.
Print Assumptions C54_zero_balance_refuted.
Print Assumptions C54_goerli_refuted.
