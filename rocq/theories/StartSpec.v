(** Vocabulary of the theorems about the beginning of the process and the requests to the beacon node. *)
From Verif Require Export Startup Beacon LoopSpec.

(** [d] in_hex 20 bytes in hexadecimal, in any case. *)
Definition in_hex (a d : string) : Prop := String.length a = 20%nat ∧ to_lower d = hex_encode a.
(** The texts joined with commas. *)
Fixpoint joined (l : list string) : string :=
  match l with
  | [] => EmptyString
  | [x] => x
  | x :: l => x +:+ String "," (joined l)
  end.
(** Nothing in the text is a comma. *)
Fixpoint comma_free (s : string) : Prop := match s with EmptyString => True | String c s => c ≠ ","%char ∧ comma_free s end.
(** The flags make sense together: a key with its password exactly if not in dry-run mode, an address in hexadecimal, and
    a list of https urls. *)
Definition keyed (f : flags) : Prop :=
  (f_dry f = true ∧ f_key_file f = "" ∧ f_key_pass f = "") ∨ (f_dry f = false ∧ f_key_file f ≠ "" ∧ f_key_pass f ≠ "").
Definition addressed (f : flags) : Prop :=
  ∃ a d, in_hex a d ∧ (f_pool f = d ∨ f_pool f = "0x" +:+ d ∨ f_pool f = "0X" +:+ d).
Definition secure_url (parses : string → bool) (e : string) : Prop :=
  parses e = true ∧ comma_free e ∧ ∃ rest, e = "https://" +:+ rest.
Definition relayed (parses : string → bool) (f : flags) (l : list string) : Prop :=
  l ≠ [] ∧ f_relayers f = joined l ∧ Forall (secure_url parses) l.
Definition consistent (parses : string → bool) (f : flags) : Prop := keyed f ∧ addressed f ∧ ∃ l, relayed parses f l.

(** The process of this command line may report: its key is one of the oracle members and can pay for transactions. *)
Definition licensed (A : boot_answers) : Prop :=
  ∃ who members z, bo_key A = Some who ∧ bo_members A = Some members ∧ who ∈ members ∧ bo_balance A = Some z ∧ z ≠ 0%Z.
(** Both clients are on the same chain. *)
Definition same_chain_id (A : boot_answers) : Prop :=
  ∃ z n, co_chain (bo_connect A) = Some z ∧ co_deposit (bo_connect A) = Some n ∧ z = Z.of_N n.
(** Every call of the connection succeeded, up to the comparison of the two chains, and after it; a client that is still
    syncing is not asked for its header. *)
Definition asked_well (A : connect_answers) : Prop :=
  co_dial A = None ∧ (∃ z, co_chain A = Some z) ∧ co_client A = None ∧ ∃ n, co_deposit A = Some n.
Definition checked_well (A : connect_answers) : Prop :=
  (co_progress A = Some true ∨ (co_progress A = Some false ∧ co_header A = None)) ∧ co_syncing A = None ∧ co_contract A = None.
(** The same number on both chains. *)
Definition one_number (A : connect_answers) : Prop := ∃ z n, co_chain A = Some z ∧ co_deposit A = Some n ∧ z = Z.of_N n.
(** The names of the log levels. *)
Definition level_name (s : string) : Prop :=
  to_lower s = "panic" ∨ to_lower s = "fatal" ∨ to_lower s = "error" ∨ to_lower s = "warn" ∨ to_lower s = "warning" ∨
  to_lower s = "info" ∨ to_lower s = "debug" ∨ to_lower s = "trace".
(** The events of one process, from its start to its end. *)
Definition no_start (e : event) : Prop := match e with Start _ _ _ => False | _ => True end.

(** Every index of the map is that of its validator, and occurs once. *)
Definition indexed (l : list (N * bval)) : Prop := NoDup l.*1 ∧ Forall (λ kv, b_index kv.2 = kv.1) l.
(** The validator was activated after the genesis: the largest uint64 stands for a validator that is not activated yet. *)
Definition activated (v : bval) : Prop := b_activation v ≠ 0%N ∧ b_activation v ≠ 18446744073709551615%N.

(** The answer of a beacon node that knows of these pending consolidations. *)
Definition enc_pair (x : N * N) : json := JObj [("source_index", JStr (print_N x.1)); ("target_index", JStr (print_N x.2))].
Definition beacon_answer (version : string) (optimistic final : bool) (l : list (N * N)) : json :=
  JObj [("version", JStr version); ("execution_optimistic", JBool optimistic); ("finalized", JBool final); ("data", JArr (enc_pair <$> l))].
Definition uint64s (l : list (N * N)) : Prop := Forall (λ x, (x.1 < two64)%N ∧ (x.2 < two64)%N) l.
