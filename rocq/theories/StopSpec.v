(** Vocabulary for the theorems about the end of the process and what it leaves. *)
From Verif Require Export LoopSpec.

(** Both clients are in sync. *)
Definition in_sync (a : answers) : Prop := an_exec a = Some false ∧ ∃ d, an_dist a = Some d ∧ (d ≤ 5)%N.
(** The addresses of 20 bytes that validators withdraw to, each once. *)
Definition withdrawal_list (s : ost) (l : list string) : Prop :=
  NoDup l ∧ ∀ a20, a20 ∈ l ↔ ∃ i v, st_vals s !! i = Some v ∧ names a20 (v_addr v).
(** The contract answers about each of [l], and has paid out [z] to them together. *)
Definition paid_to (cl : string → option Z) (l : list string) (z : Z) : Prop :=
  ∃ zs, Forall2 (λ a y, cl a = Some y) l zs ∧ z = foldr Z.add 0%Z zs.
(** The addresses that can claim: those that validators withdraw to and the fee recipient, each once. *)
Definition claimants (s : ost) (l : list string) : Prop :=
  NoDup l ∧ ∀ a20, a20 ∈ l ↔ names a20 (st_fees_addr s) ∨ ∃ i v, st_vals s !! i = Some v ∧ names a20 (v_addr v).
(** The loop waits for the next slot and compares with the contract. *)
Definition compares (a : answers) (m : machine) : Prop :=
  m_pc m = Begin ∧ in_sync a ∧ (∃ f, an_final a = Some f ∧ (f < st_next (or_st (m_or m)))%N) ∧ an_due a = true.
(** Why the process ends by itself. *)
Inductive ends_for (a : answers) (m : machine) : Prop :=
(** the state of synchronisation is unknown; *)
| for_status : m_pc m = Begin → an_exec a = None ∨ an_dist a = None → ends_for a m
(** the next finalized slot cannot be fetched or processed; *)
| for_slot f : m_pc m = Begin → in_sync a → an_final a = Some f → (st_next (or_st (m_or m)) ≤ f)%N →
    (∀ fb ca o' n, fetch_full_block (an_node a) (an_env a) (c_pool (or_cfg (m_or m))) false (st_next (or_st (m_or m))) (or_st (m_or m)) (m_cache m) = Ok (fb, ca) →
       advance (an_env a) fb (m_or m) ≠ Done o' n) → ends_for a m
(** the contract holds something else than is owed; *)
| for_assets b l z f20 zf : compares a m → an_balance a = Some b → withdrawal_list (or_st (m_or m)) l → paid_to (an_claimed a) l z →
    names f20 (st_fees_addr (or_st (m_or m))) → an_claimed a f20 = Some zf → owed (or_st (m_or m)) ≠ (b + z + zf)%Z → ends_for a m
(** a validator withdraws to the text of the fee recipient; *)
| for_twice l z i v : compares a m → withdrawal_list (or_st (m_or m)) l → paid_to (an_claimed a) l z →
    st_vals (or_st (m_or m)) !! i = Some v → v_addr v = st_fees_addr (or_st (m_or m)) → ends_for a m
(** the validators cannot be loaded again; *)
| for_validators : m_pc m = Processed → (st_latest (or_st (m_or m)) mod 1200 = 0)%N → an_refresh a = false → ends_for a m
(** the books do not balance at a checkpoint; *)
| for_books : m_pc m = Processed → ((st_latest (or_st (m_or m)) mod 1200 = 0)%N → an_refresh a = true) →
    (∃ j, st_latest (or_st (m_or m)) = (c_dep_slot (or_cfg (m_or m)) + j * c_cp_size (or_cfg (m_or m)))%N) →
    owed (or_st (m_or m)) ≠ received (or_st (m_or m)) → ends_for a m
(** a validator withdraws to the pool; *)
| for_owner : m_pc m = Freezing → withdraws_to (or_st (m_or m)) (to_lower (st_pool (or_st (m_or m)))) → ends_for a m
(** the contract cannot be asked for the own vote, or for the slot it has; *)
| for_vote c : m_pc m = Polling c → an_report a = None ∨ an_quorum a = None → ends_for a m
| for_onchain c : m_pc m = Resting c ∧ c_dry_run (or_cfg (m_or m)) = false ∨ m_pc m = Deciding c ∨ m_pc m = Waiting c →
    an_onchain a = None → ends_for a m
(** or a report fails for another reason than that its slot is not the next. *)
| for_report c root os e : m_pc m = Deciding c → c_dry_run (or_cfg (m_or m)) = false → an_onchain a = Some (root, os) →
    oc_slot c = u64_add os (c_cp_size (or_cfg (m_or m))) → (update_root (an_submit a) (oc_slot c) (oc_root c)).2 = Some e →
    (∀ x y, e ≠ x +:+ expected_error +:+ y) → ends_for a m.
(** The files in the folder. *)
Definition left_files (L : life) : files := match L with Down fs => fs | Up m => m_files m end.
(** The process is not started again. *)
Definition no_start (e : event) : Prop := match e with Start _ _ _ => False | _ => True end.
