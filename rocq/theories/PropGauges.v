(** What the gauges of the main loop tell: C106. *)
From Verif Require Export GaugesSamples.

(** ** C106: the gauges show where the oracle is *)

(** Missing: the gauges of a process that has not processed a slot yet are zero, and the distance is from the slot that was
    finalized when the last slot was processed (see below). Otherwise, through any life, whatever the files: slot and block
    are those of the state, and the distance has not wrapped. *)
Theorem C106_gauges_partial sha H c0 fs l m g : gauged sha H c0 l (Down fs, no_gauges) = (Up m, g) →
  (∃ m0, started_as sha H c0 (Down fs) l m0 ∧ books (or_st (m_or m0)) = books (or_st (m_or m)) ∧ g_distance g = 0%N ∧ g_slot g = 0%N ∧ g_block g = 0%N) ∨
  (∃ m1 f, processed_at sha H c0 (Down fs) l m1 f ∧ books (or_st (m_or m1)) = books (or_st (m_or m)) ∧ (st_latest (or_st (m_or m)) ≤ f)%N ∧
    ((f < two64)%N → g_distance g = float64 (f - st_latest (or_st (m_or m)))) ∧
    g_slot g = float64 (st_latest (or_st (m_or m))) ∧ g_block g = float64 (st_latest_block (or_st (m_or m)))).
Proof. exact (gauges_last sha H c0 fs l m g). Qed.
(** The gauges add nothing to the life and take nothing away. *)
Theorem C106_beside sha H c0 l x : (gauged sha H c0 l x).1 = (lifetime sha H c0 l x.1).2.
Proof. exact (gauged_life sha H c0 l x). Qed.
(** What is shown is the number itself up to 2^53, and never further away than one part in 2^53. *)
Theorem C106_rounding n : ((n < 2 ^ 53)%N → float64 n = n) ∧ near (float64 n) n.
Proof. exact (conj (float_exact n) (float_near n)). Qed.
(** The series of roots of an own deployment: each is a frozen checkpoint with its root, none occurs twice, so no slot has
    two roots; and every checkpoint that is frozen was there when the process started or is among them. *)
Theorem C106_known sha H c0 l m g : typed_config c0 → (0 < c_dep_slot c0)%N → Forall typed_event l → gauged sha H c0 l (Down ∅, no_gauges) = (Up m, g) →
  (∀ k r, (k, r) ∈ g_known g → ∃ c, st_committed (or_st (m_or m)) !! k = Some c ∧ oc_slot c = k ∧ oc_root c = r) ∧ NoDup (g_known g) ∧
  ∃ m0, started_as sha H c0 (Down ∅) l m0 ∧
    ∀ k c, st_committed (or_st (m_or m)) !! k = Some c → st_committed (or_st (m_or m0)) !! k = Some c ∨ (k, oc_root c) ∈ g_known g.
Proof. exact (known_roots sha H c0 l m g). Qed.
(** While the loop waits for its root, no gauge changes, however far the chain gets. *)
Theorem C106_waiting sha H c0 m c l g : m_pc m = Waiting c → Forall (never_consolidates (oc_root c) (oc_slot c)) l →
  ∃ m', gauged sha H c0 l (Up m, g) = (Up m', g) ∧ m_pc m' = Waiting c ∧ same_oracle (m_or m) (m_or m').
Proof. exact (waiting_gauges sha H c0 m c l g). Qed.
(** Nor while a node is not in sync. *)
Theorem C106_unsynced sha H c0 m a g : m_pc m = Begin → are_nodes_in_sync (an_exec a) (an_dist a) = Some false →
  gauged sha H c0 [Tick a] (Up m, g) = (Up m, g).
Proof. exact (unsynced_gauges sha H c0 m a g). Qed.

(** The life up to the first report, with its gauges. *)
Example C106_reported : ∃ m c g, gauged toy toy cfg_loop reported (Down ∅, no_gauges) = (Up m, g) ∧ m_pc m = Waiting c ∧ oc_root c ≠ "other" ∧
  st_latest (or_st (m_or m)) = 12000001%N ∧ g_slot g = 12000001%N ∧ g_distance g = 99%N ∧ fst <$> g_known g = [12000001%N].
Proof. exact reported_gauges. Qed.
(** As stated it is false. A process that was just started shows slot 0, whatever its state is. *)
Theorem C106_started_refuted : ∃ c0 l m g, typed_config c0 ∧ Forall typed_event l ∧ gauged toy toy c0 l (Down ∅, no_gauges) = (Up m, g) ∧
  st_latest (or_st (m_or m)) = 12000000%N ∧ g_slot g = 0%N.
Proof. exact started_zero. Qed.
(** And a process that waits for its root shows the same distance, here 99, whatever is finalized. *)
Theorem C106_distance_refuted f : ∃ m g, are_nodes_in_sync (an_exec (finality f)) (an_dist (finality f)) = Some true ∧ an_final (finality f) = Some f ∧
  gauged toy toy cfg_loop (reported ++ [Tick (finality f)]) (Down ∅, no_gauges) = (Up m, g) ∧ st_latest (or_st (m_or m)) = 12000001%N ∧ g_distance g = 99%N.
Proof. exact (distance_stale f). Qed.
(** A number that is not shown exactly. *)
Example C106_rounded : float64 (2 ^ 53 + 1) = (2 ^ 53)%N ∧ float64 (2 ^ 53 + 3) = (2 ^ 53 + 4)%N ∧ float64 (2 ^ 64 - 1) = (2 ^ 64)%N.
Proof. by vm_compute. Qed.
(** A node that is behind. *)
Example C106_behind : are_nodes_in_sync (Some false) (Some 6%N) = Some false ∧ m_pc (Machine Begin (new_oracle cfg_loop) empty_cache ∅) = Begin.
Proof. done. Qed.

Print Assumptions C106_gauges_partial.
Print Assumptions C106_beside.
Print Assumptions C106_rounding.
Print Assumptions C106_known.
Print Assumptions C106_waiting.
Print Assumptions C106_unsynced.
Print Assumptions C106_started_refuted.
Print Assumptions C106_distance_refuted.
