(** Vocabulary for the theorems about the main loop. *)
From Verif Require Export MainLoop OnchainSpec.

(** ** What Go's types guarantee of the answers *)
Record typed_node (nd : node) : Prop := TypedNode {
  tn_duties : ∀ e l, nd_duties nd e = Some l → Forall (λ d, is_u64 (d_index d)) l;
  tn_block : ∀ slot c, nd_block nd slot = Some (Some c) → is_u64 (p_number (cb_payload c));
  tn_ether : ∀ n l, nd_ether nd n = Some l → Forall good_ether l;
  tn_subs : ∀ n l, nd_subs nd n = Some l → Forall good_sub l;
  tn_unsubs : ∀ n l, nd_unsubs nd n = Some l → Forall good_unsub l }.
(** The last clause is not a matter of types: slots never come near 2^64. *)
Record typed_answers (a : answers) : Prop := TypedAnswers {
  ta_env : wf_env (an_env a);
  ta_cons : typed_env (an_env a);
  ta_node : typed_node (an_node a);
  ta_final : ∀ f, an_final a = Some f → (f + 1 < two64)%N }.
(** Events of a deployment that only ever loads its own files. *)
Definition typed_event (e : event) : Prop :=
  match e with Start _ sync _ => sync = None | Tick a => typed_answers a | _ => True end.

(** ** Checkpoints *)
Definition checkpoint_slot (c0 : config) (k : N) : Prop := ∃ j, k = (c_dep_slot c0 + j * c_cp_size c0)%N.
(** The work [ops] of an uninterrupted deployment leads to this oracle, the recorded hash aside. *)
Definition lived (H : string → string) (c0 : config) (ops : list operation) (o : oracle) : Prop :=
  ∃ p, evolve H (new_oracle c0) ops p ∧ Forall typed_operation ops ∧ same_oracle p o.
(** In the course of [ops], [k] was the latest slot, it is a checkpoint slot, and there were validators to pay. *)
Definition passes (H : string → string) (c0 : config) (ops : list operation) (k : N) : Prop :=
  checkpoint_slot c0 k ∧
  ∃ l1 l2 p, ops = l1 ++ l2 ∧ evolve H (new_oracle c0) l1 p ∧ st_latest (or_st p) = k ∧ st_vals (or_st p) ≠ ∅.
(** A checkpoint slot was processed and is not frozen yet. *)
Definition in_window (c0 : config) (m : machine) : Prop :=
  (m_pc m = Processed ∨ m_pc m = Freezing) ∧ checkpoint_slot c0 (st_latest (or_st (m_or m))).
(** No signal arrives in that window. *)
Definition no_signal_in_window (sha H : string → string) (c0 : config) (l : list event) (L : life) : Prop :=
  ∀ l1 d l2 sent m, l = l1 ++ Signal d :: l2 → lifetime sha H c0 l1 L = (sent, Up m) → ¬ in_window c0 m.

(** The process goes on while the slot reported by the contract stays [s0]. *)
Definition goes_on (s0 : N) (e : event) : Prop :=
  match e with
  | Tick a => typed_answers a ∧ ∀ root os, an_onchain a = Some (root, os) → os = s0
  | Ask | Signal _ => True
  | _ => False
  end.
(** The process goes on while the contract reports anything but this root at this slot. *)
Definition never_consolidates (root : string) (slot : N) (e : event) : Prop :=
  match e with
  | Tick a => ∃ x, an_onchain a = Some x ∧ x ≠ (root, slot)
  | Ask | Signal _ => True
  | _ => False
  end.

(** What a slot can change: the validators, the pool's fees, the counters and the records. *)
Definition books (s : ost) :=
  (st_vals s, st_fees s, (st_latest s, st_latest_block s, st_next s), (st_subs s, st_unsubs s, st_ether s),
   (st_donations s, st_proposed s, st_missed s, st_wrong s)).
