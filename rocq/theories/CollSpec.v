(** Vocabulary for the recorded collateral (C104). *)
From Verif Require Export Spec.

(** The collateral with which a validator that was unknown before the slot is recorded: that of a subscription
    event of its owner that reaches the required amount, or none, if it proposed to the pool or if it can have
    become known as the target of a consolidation. *)
Inductive first_collateral (fb : fullblock) (o o' : oracle) (i : N) : Z → Prop :=
| fc_paid e val : (e, val) ∈ zip (ev_subscribe (fb_events fb)) (fb_subs fb) → sub_id e = i →
    owned_by val (sub_sender e) → (st_coll (or_st o) ≤ sub_coll e)%Z → first_collateral fb o o' i (sub_coll e)
| fc_proposer b : st_proposed (or_st o') = st_proposed (or_st o) ++ [b] → sb_index b = i → sb_type b = OkPoolProposal →
    first_collateral fb o o' i 0
| fc_target : (st_next (or_st o) mod 1200 = 0)%N → first_collateral fb o o' i 0.

(** Nothing was paid, or it was paid in one of the recorded subscription events and is enough. *)
Definition paid_once (c : config) (s : ost) (i : N) (z : Z) : Prop :=
  z = 0%Z ∨ (c_coll c ≤ z)%Z ∧ ∃ e, e ∈ st_subs s ∧ sub_id e = i ∧ sub_coll e = z.

(** A subscriber by payment whose record shows what one of its payments was. *)
Definition shows_payment (s : ost) (i : N) (v : vinfo) : Prop :=
  v_sub v = Manual → ∃ e, e ∈ st_subs s ∧ sub_id e = i ∧ sub_coll e = v_coll v.
