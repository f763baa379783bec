(** What the status of a refusal should tell (C101). *)
From Verif Require Export ApiSpec.

(** The request itself is at fault: its parameter is not of the documented form, or names nothing that the oracle knows. *)
Definition ill_asked (r : request) (w : wire) (s : ost) : Prop :=
  match r with
  | GetRelays key => ¬ hex_text 96 key
  | GetValidator v => ¬ (dec_text v ∧ (dec_value v < 2 ^ 64)%N ∧ is_Some (st_vals s !! dec_value v))
  | GetByIndex v => ∀ is, asks v is → (100 < length is)%nat
  | GetByWithdrawal a => ¬ hex_text 40 (to_lower a)
  | GetProof a => ¬ hex_text 40 a ∨ ∃ root slot c, w_onchain w = Some (root, slot) ∧ st_committed s !! slot = Some c ∧ oc_root c = root ∧
      (oc_leafs c !! to_lower a = None ∨ oc_proofs c !! to_lower a = None)
  | _ => False
  end.
(** Something the answer needs is missing: a node, the contract or a relay did not answer, or the state is too young or does
    not have the checkpoint of the contract. *)
Definition lacks_input (r : request) (w : wire) (s : ost) : Prop :=
  match r with
  | GetStatus => w_chain w = None ∨ w_deposit w = None ∨ w_exec w = None ∨ (∀ d, w_sync w ≠ SyncAt d) ∨ w_final w = None ∨ w_onchain w = None
  | GetRelays _ => ∃ name, (name, RelayError) ∈ w_relays w
  | GetByWithdrawal _ => w_beacon w = None ∨ st_latest_block s = 0%N ∨
      w_subs w (u64_add (st_latest_block s) 1) = None ∨ w_unsubs w (u64_add (st_latest_block s) 1) = None
  | GetStatistics => (st_latest s < 216000)%N ∨ (st_latest_block s < 216000)%N
  | GetProof a => (∀ root slot c, ¬ (w_onchain w = Some (root, slot) ∧ st_committed s !! slot = Some c ∧ oc_root c = root)) ∨ w_claimed w (to_lower a) = None
  | _ => False
  end.
(** Each kind of answer and when it is due. *)
Inductive due (r : request) (w : wire) (s : ost) : reply body → Prop :=
  | due_later m : guarded r → ¬ keeps_up w s → due r w s (Refuse 503 m)
  | due_client m : (guarded r → keeps_up w s) → ill_asked r w s → due r w s (Refuse 400 m)
  | due_server m : (guarded r → keeps_up w s) → ¬ ill_asked r w s → lacks_input r w s → due r w s (Refuse 500 m)
  | due_answer b : (guarded r → keeps_up w s) → ¬ ill_asked r w s → ¬ lacks_input r w s ∨ b = BViews [] → due r w s (Answer b).
