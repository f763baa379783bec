(** Vocabulary of the theorems about checkpoint sync. *)
From Verif Require Export Sync LoopSpec.

(** The same deployment on both sides; only one of them may be in dry-run mode. *)
Definition same_setup (c c1 : config) : Prop :=
  c_network c1 = c_network c ∧ c_pool c1 = c_pool c ∧ c_dep_slot c1 = c_dep_slot c ∧ c_dep_block c1 = c_dep_block c ∧
  c_cp_size c1 = c_cp_size c ∧ c_feepct c1 = c_feepct c ∧ c_fees_addr c1 = c_fees_addr c ∧ c_coll c1 = c_coll c.
(** All checkpoints of a state are known to the contract, which is at [slot]. *)
Definition not_ahead (s : ost) (slot : N) : Prop := ∀ k, is_Some (st_committed s !! k) → (k ≤ slot)%N.
(** No copy that a process at [slot] would go back to is in the folder: the one of that slot and of the two
    checkpoints before. *)
Definition no_copies (fs : files) (slot cp : N) : Prop :=
  ∀ k, k ∈ [slot; u64_sub slot (u64 (cp * 1)); u64_sub slot (u64 (cp * 2))]%N → fs !! slot_path k = None.
(** The processes of one deployment, each started from nothing, from its own files, or from the state that another one
    of them serves at that time; signals come and states are served only at times allowed by [P]. *)
Inductive fleet (sha H : string → string) (c0 : config) (P : machine → Prop) : life → Prop :=
  | fleet_empty : fleet sha H c0 P (Down ∅)
  | fleet_event e L sent L' : fleet sha H c0 P L → typed_event e → (∀ d m, e = Signal d → L = Up m → P m) →
      live sha H c0 e L = (sent, L') → fleet sha H c0 P L'
  | fleet_sync L E m E' w r raw onchain sent L' : fleet sha H c0 P L → fleet sha H c0 P (Up m) → P m →
      serve sha E' GetState w (m_or m) = Ok r → sent_state r = Fetched 200 (Some raw) →
      live sha H c0 (Start E (Some raw) onchain) L = (sent, L') → fleet sha H c0 P L'.
