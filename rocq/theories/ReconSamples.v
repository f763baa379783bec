(** Processes that compare their state with the contract, used by PropBalance.v. *)
From Verif Require Import ApiSamples.
From Verif Require Export ReconProofs ShadowSamples.

(** The slot is the last finalized one, and the contract [P] is asked. *)
Definition compared (P : pool) (s : ost) (final : N) : MainLoop.answers :=
  Answers honest the_chain (Some false) (Some 0%N) (Some final) true (Some (received s - pl_paid P)%Z) (λ a, Some (claimed P a)) true (Some 0%N) (Some 1%N)
    (Some first_on) (sends (Mined 1 false)) Written.
Definition waits_test (k : N) (m : machine) : bool :=
  match m_pc m with Begin => true | _ => false end && (st_latest (or_st (m_or m)) =? k)%N && (k <? st_next (or_st (m_or m)))%N.
Lemma compared_compares P s k m : waits_test k m = true → compares (compared P s k) m.
Proof.
  intros [[Hp _]%andb_prop Hn%N.ltb_lt]%andb_prop. split; [by destruct (m_pc m)|]. split; [split; [done|by exists 0%N]|]. split; [|done]. by exists k.
Qed.
Lemma compared_tells P s k : contract_tells P s (compared P s k).
Proof. split; reflexivity. Qed.

(** The process of AgreeSamples.v that reported both checkpoints; the owner of validator 1 has claimed. *)
Definition second_on : string * N := ("0x00000000000000000000000000000c5906d9a985e815f1c180ec6dd1d77c6e56", 12000003%N).
Definition done_life : list event := steady ++ told_by honest the_chain first_on :: repeat (told_by honest the_chain second_on) 2.
Lemma done_ok : Forall (λ e, typed_event e ∧ watches the_chain honest e) done_life.
Proof. apply Forall_app. split; [exact steady_ok|]. apply Forall_cons. split; [apply told_ok; by left|apply told_many; by left]. Qed.
Definition done_test (sent : list (N * string)) (m : machine) : bool :=
  (length sent =? 2)%nat && waits_test 12000003 m && apart_test (to_lower (st_fees_addr (or_st (m_or m)))) (or_st (m_or m)) &&
  (received (or_st (m_or m)) =? 145787)%Z.
Lemma recon_instance : ∃ P m, operates toy toy cfg_loop the_chain honest 2 [7%N] P ∧ pl_paid P = 21666%Z ∧ crew toy toy cfg_loop the_chain honest (Up m) ∧
  (∀ k r, pl_report P = Some (k, r) → (k ≤ st_latest (or_st (m_or m)))%N) ∧ compares (compared P (or_st (m_or m)) 12000003) m ∧
  contract_tells P (or_st (m_or m)) (compared P (or_st (m_or m)) 12000003) ∧ fees_apart (or_st (m_or m)) ∧ received (or_st (m_or m)) = 145787%Z.
Proof.
  destruct contract_history as (P & root & _ & Ho & Hr & _ & _ & Hp & _).
  destruct (ex_life done_test toy toy cfg_loop done_life (Down ∅)) as (sent & m & Hl & Ht); [by vm_compute|].
  exists P, m. unfold done_test in Ht. apply andb_prop in Ht as [[[_ Hw]%andb_prop Ha]%andb_prop Hv%Z.eqb_eq].
  split; [exact Ho|]. split; [exact Hp|]. split; [exact (crew_lifetime _ _ _ _ _ _ _ _ _ (crew_empty _ _ _ _ _) done_ok Hl)|].
  split; [|split; [by apply compared_compares|split; [apply compared_tells|split; [by apply apart_sound|exact Hv]]]].
  intros k r Hk. rewrite Hr in Hk. injection Hk as <- _. unfold waits_test in Hw. apply andb_prop in Hw as [[_ Hw%N.eqb_eq]%andb_prop _]. lia.
Qed.

(** The operator's own validator withdraws to the fee recipient. *)
Definition early_life : list event :=
  Start honest None (Some 11999999%N) :: repeat (told_by honest the_chain nothing_yet) 6 ++ repeat (told_by honest the_chain shadow_on) 2.
Lemma early_ok : Forall (λ e, typed_event e ∧ watches the_chain honest e) early_life.
Proof. apply Forall_cons. split; [done|]. apply Forall_app. split; apply told_many; by left. Qed.
Definition early_test (sent : list (N * string)) (m : machine) : bool :=
  waits_test 12000001 m && match live toy toy cfg_shadow (Tick (compared new_pool (or_st (m_or m)) 12000001)) (Up m) with (None, Down _) => true | _ => false end.
Lemma cfg_shadow_typed : typed_config cfg_shadow.
Proof. by vm_compute. Qed.
Lemma owner_names : names (owner 1) (c_fees_addr cfg_shadow).
Proof. split; [done|by vm_compute]. Qed.
Lemma recon_refutation : ∃ c0 nd0 E0 P m a f20, typed_config c0 ∧ (0 < c_dep_slot c0)%N ∧ one_chain E0 ∧ sound_chain c0 nd0 E0 ∧ (0 ≤ c_feepct c0)%Z ∧
  names f20 (c_fees_addr c0) ∧ crew toy toy c0 nd0 E0 (Up m) ∧ operates toy toy c0 nd0 E0 1 [] P ∧
  (∀ k r, pl_report P = Some (k, r) → (k ≤ st_latest (or_st (m_or m)))%N) ∧ compares a m ∧ wf_env (an_env a) ∧ contract_tells P (or_st (m_or m)) a ∧
  ∃ fs, live toy toy c0 (Tick a) (Up m) = (None, Down fs).
Proof.
  destruct (ex_life early_test toy toy cfg_shadow early_life (Down ∅)) as (sent & m & Hl & Ht); [by vm_compute|].
  unfold early_test in Ht. apply andb_prop in Ht as [Hw Ht].
  exists cfg_shadow, the_chain, honest, new_pool, m, (compared new_pool (or_st (m_or m)) 12000001), (owner 1).
  split; [exact cfg_shadow_typed|]. split; [reflexivity|]. split; [exact honest_one|]. split; [exact shadow_sound|]. split; [discriminate|].
  split; [exact owner_names|]. split; [exact (crew_lifetime _ _ _ _ _ _ _ _ _ (crew_empty _ _ _ _ _) early_ok Hl)|].
  split; [apply operates_new|]. split; [discriminate|]. split; [by apply compared_compares|]. split; [apply honest_wf|]. split; [apply compared_tells|].
  destruct (live _ _ _ _ (Up m)) as [[x|] [fs|m']]; try discriminate Ht. by exists fs.
Qed.
