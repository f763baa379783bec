(** Concrete lives with gauges, used by PropGauges.v. *)
From Verif Require Export GaugesProofs LoopSamples.

(** The life up to the first report, with its gauges. *)
Definition gauged_test (P : machine → gauges → bool) (x : life * gauges) : bool := match x with (Up m, g) => P m g | _ => false end.
Lemma ex_gauged P x : gauged_test P x = true → ∃ m g, x = (Up m, g) ∧ P m g = true.
Proof. destruct x as [[fs|m] g]; [done|]. intros. by exists m, g. Qed.
Lemma reported_gauges : ∃ m c g, gauged toy toy cfg_loop reported (Down ∅, no_gauges) = (Up m, g) ∧ m_pc m = Waiting c ∧ oc_root c ≠ "other" ∧
  st_latest (or_st (m_or m)) = 12000001%N ∧ g_slot g = 12000001%N ∧ g_distance g = 99%N ∧ fst <$> g_known g = [12000001%N].
Proof.
  destruct (ex_gauged (λ m g, match m_pc m with Waiting c => negb (String.eqb (oc_root c) "other") | _ => false end && (st_latest (or_st (m_or m)) =? 12000001)%N &&
    (g_slot g =? 12000001)%N && (g_distance g =? 99)%N && bool_decide (fst <$> g_known g = [12000001%N])) (gauged toy toy cfg_loop reported (Down ∅, no_gauges)))
    as (m & g & Hg & Ht); [by vm_compute|].
  exists m. destruct (m_pc m) as [| | | | | |c|] eqn:Hpc; try discriminate Ht. exists c, g. split; [exact Hg|]. clear Hg.
  apply andb_prop in Ht as [[[[H1 H2]%andb_prop H3]%andb_prop H4]%andb_prop H5].
  split; [exact eq_refl|]. split; [apply negb_true_iff, String.eqb_neq in H1; exact H1|]. split; [by apply N.eqb_eq|]. split; [by apply N.eqb_eq|].
  split; [by apply N.eqb_eq|]. by apply bool_decide_eq_true in H5.
Qed.
(** As stated it is false. A process that was just started shows slot 0, whatever its state is. *)
Lemma started_zero : ∃ c0 l m g, typed_config c0 ∧ Forall typed_event l ∧ gauged toy toy c0 l (Down ∅, no_gauges) = (Up m, g) ∧
  st_latest (or_st (m_or m)) = 12000000%N ∧ g_slot g = 0%N.
Proof.
  exists cfg_loop, [Start honest None (Some 11999999%N)]. destruct (ex_gauged (λ m g, (st_latest (or_st (m_or m)) =? 12000000)%N && (g_slot g =? 0)%N)
    (gauged toy toy cfg_loop [Start honest None (Some 11999999%N)] (Down ∅, no_gauges))) as (m & g & Hg & Ht); [by vm_compute|].
  exists m, g. split; [exact cfg_loop_typed|]. split; [apply Forall_cons; split; [done|by apply Forall_nil]|]. split; [exact Hg|]. clear Hg.
  apply andb_prop in Ht as [H1 H2]. split; by apply N.eqb_eq.
Qed.
(** The contract reports another root, both nodes are in sync, and [f] is finalized. *)
Definition finality (f : N) : MainLoop.answers :=
  Answers honest (serving (sample_block 1)) (Some false) (Some 0%N) (Some f) false None (λ _, None) true (Some 0%N) (Some 1%N) (Some ("other", 12000001%N))
    (sends (Mined 1 false)) Written.
(** And a process that waits for its root shows the same distance, here 99, whatever is finalized. *)
Lemma distance_stale f : ∃ m g, are_nodes_in_sync (an_exec (finality f)) (an_dist (finality f)) = Some true ∧ an_final (finality f) = Some f ∧
  gauged toy toy cfg_loop (reported ++ [Tick (finality f)]) (Down ∅, no_gauges) = (Up m, g) ∧ st_latest (or_st (m_or m)) = 12000001%N ∧ g_distance g = 99%N.
Proof.
  destruct reported_gauges as (m & c & g & Hg & Hpc & Hr & Hla & _ & Hd & _).
  destruct (waiting_gauges toy toy cfg_loop m c [Tick (finality f)] g Hpc) as (m' & Hg' & _ & Hs).
  { apply Forall_cons. split; [|by apply Forall_nil]. exists ("other", 12000001%N). split; [reflexivity|]. intros E. apply Hr. by injection E. }
  exists m', g. split; [reflexivity|]. split; [reflexivity|]. split; [|split; [|exact Hd]].
  - unfold gauged in *. by rewrite fold_left_app, Hg.
  - by rewrite <-(proj1 (same_latest _ _ Hs)).
Qed.
