(** The documented paths of the service and what counting requests should give (C84, C85). *)
From Verif Require Export Http ApiSpec.

(** A part of a path between two slashes that stands for itself. *)
Definition no_slash (v : string) : Prop := "/"%char ∉ list_ascii_of_string v.
Definition segment (v : string) : Prop := v ≠ "" ∧ v ≠ "." ∧ v ≠ ".." ∧ no_slash v.
Fixpoint spelled_path (l : list string) : string :=
  match l with [] => "" | w :: l => "/" +:+ w +:+ spelled_path l end.
(** A path in canonical form: parts that stand for themselves, perhaps with a slash at the end. *)
Definition canonical (p : string) : Prop :=
  p = "/" ∨ ∃ l, l ≠ [] ∧ Forall segment l ∧ (p = spelled_path l ∨ p = spelled_path l +:+ "/").

(** README.md and api.go:55-77: the paths and what is asked with each. *)
Inductive documented : string → request → Prop :=
  | doc_root : documented "/" GetRoot
  | doc_status : documented "/status" GetStatus
  | doc_config : documented "/config" GetConfig
  | doc_relays v : segment v → documented ("/registeredrelays/" +:+ v) (GetRelays v)
  | doc_state : documented "/state" GetState
  | doc_validators : documented "/memory/validators" GetValidators
  | doc_validator v : segment v → documented ("/memory/validator/" +:+ v) (GetValidator v)
  | doc_by_index v : segment v → documented ("/memory/validatorsbyindex/" +:+ v) (GetByIndex v)
  | doc_by_withdrawal v : segment v → documented ("/memory/validators/" +:+ v) (GetByWithdrawal v)
  | doc_fees : documented "/memory/feesinfo" GetFees
  | doc_statistics : documented "/memory/statistics" GetStatistics
  | doc_all : documented "/memory/allblocks" GetAllBlocks
  | doc_proposed : documented "/memory/proposedblocks" GetProposed
  | doc_missed : documented "/memory/missedblocks" GetMissed
  | doc_wrong : documented "/memory/wrongfeeblocks" GetWrongFee
  | doc_donations : documented "/memory/donations" GetDonations
  | doc_proof v : segment v → documented ("/onchain/proof/" +:+ v) (GetProof v).

(** net/http: the status that is sent is the first one written; 200 if a body comes first, or nothing at all. *)
Definition sent_status (l : list write) : N :=
  match l with WHeader c :: _ => c | _ => 200%N end.
Definition sent_bytes (l : list write) : N :=
  foldr (λ x n, match x with WBody k => k + n | _ => n end)%N 0%N l.
(** No header is written after anything else. *)
Definition header_first (l : list write) : Prop := ∀ pre c post, l = pre ++ WHeader c :: post → pre = [].
(** The statuses that are answered without a handler: net/http and mux. *)
Inductive plain_status (m p : string) : N → Prop :=
  | plain_preflight : m = "OPTIONS" → plain_status m p 200
  | plain_moved : m ≠ "OPTIONS" → ¬ canonical p → plain_status m p 301
  | plain_unknown : m ≠ "OPTIONS" → canonical p → (∀ r, ¬ documented p r) → plain_status m p 404
  | plain_method r : m ≠ "OPTIONS" → m ≠ "GET" → documented p r → plain_status m p 405.
