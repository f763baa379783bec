(** C75-C79: the command line, the permission to report, the validators and the pending consolidations. *)
From Verif Require Export StartSamples.

(** ** C75 *)

(** The command line is accepted exactly if it is consistent: a keystore and its password, or dry-run mode without both;
    a pool address of 20 bytes in hexadecimal; and a list of https urls. *)
Theorem C75_accepted_iff parses f : f_version f = false → (∃ k, new_cli_config parses f = Accepted k) ↔ consistent parses f.
Proof. exact (cli_iff parses f). Qed.
(** What is accepted is what was given, and the relayers are the texts between the commas. *)
Theorem C75_accepted_is parses f k : f_version f = false → new_cli_config parses f = Accepted k →
  k_dry k = f_dry f ∧ k_key_file k = f_key_file f ∧ k_key_pass k = f_key_pass f ∧ k_retries k = f_retries f ∧
  k_consensus k = f_consensus f ∧ k_execution k = f_execution f ∧ k_pool k = f_pool f ∧ k_log_level k = f_log_level f ∧
  k_api_port k = f_api_port f ∧ k_metrics_port k = f_metrics_port f ∧ k_sync_url k = f_sync_url f ∧ relayed parses f (k_relayers k).
Proof. exact (cli_is parses f k). Qed.
Example C75_example : consistent any_url good_flags ∧
  new_cli_config any_url good_flags = Accepted (configured good_flags ["https://one.example"; "https://two.example"]).
Proof. exact (conj good_consistent good_accepted). Qed.
(** Refused: a keystore in dry-run mode, an unencrypted relayer, a relayer missing after a comma, an address one digit short. *)
Example C75_refusals : ∀ k, Accepted k ∉ [new_cli_config any_url (command true "key.json" "" pool_str "https://one.example");
  new_cli_config any_url (command true "" "" pool_str "http://one.example");
  new_cli_config any_url (command true "" "" pool_str "https://one.example,");
  new_cli_config any_url (command true "" "" "0x00112233445566778899aabbccddeeff0011223" "https://one.example")].
Proof. exact four_refused. Qed.

(** ** C76 *)

(** With an accepted pool address of 42 characters, the address used on the execution chain is the one that the text names,
    as the theorems about blocks assume. Missing: an accepted address without its prefix, see below. *)
Theorem C76_pool_named_partial parses f k : f_version f = false → new_cli_config parses f = Accepted k →
  String.length (k_pool k) = 42%nat → names (hex_to_address (k_pool k)) (k_pool k).
Proof. exact (accepted_names parses f k). Qed.
Example C76_example : names (hex_to_address (k_pool good_cli)) (k_pool good_cli) ∧ hex_to_address (k_pool good_cli) = pool20.
Proof. exact good_named. Qed.
(** An address without 0x is accepted, although with it no slot with a block can be processed. *)
Theorem C76_bare_address_refuted : ∃ parses f k, f_version f = false ∧ new_cli_config parses f = Accepted k ∧
  ∀ nd E all slot s ca c r, nd_block nd slot = Some (Some c) → String.length (p_fee_recipient (cb_payload c)) = 20%nat →
    fetch_full_block nd E (k_pool k) all slot s ca ≠ Ok r.
Proof. exact bare_dies. Qed.

(** ** C77 *)

(** The checks before the start pass exactly if the clients are connected and, unless in dry-run mode, the key is that of
    a member with a balance. *)
Theorem C77_checks_iff A k : may_report A k = Ok tt ↔ connect (bo_connect A) = (true, None) ∧ (k_dry k = false → licensed A).
Proof. exact (permitted_both A k). Qed.
(** A process that ever submits a root was not in dry-run mode, and passed these checks. *)
Theorem C77_reports_licensed sha H E args sel A k fs o c0 l : boot sha H E args sel A k fs = Ok o → Forall no_start l →
  (lifetime sha H c0 l (Up (Machine Begin o empty_cache fs))).1 ≠ [] → k_dry k = false ∧ licensed A.
Proof. exact (reports_entitled sha H E args sel A k fs o c0 l). Qed.
(** Both clients of a process that started are on the same chain. *)
Theorem C77_one_chain sha H E args sel A k fs o z : boot sha H E args sel A k fs = Ok o → co_chain (bo_connect A) = Some z →
  (0 ≤ z < 9223372036854775808)%Z → same_chain_id A.
Proof. exact (boot_chain sha H E args sel A k fs o z). Qed.
(** The connection is made exactly if every call succeeded and both clients name the same chain; a nil pointer without an error
    comes from two different chains, and only from them. *)
Theorem C77_connected A : (∀ z, co_chain A = Some z → 0 ≤ z < 9223372036854775808)%Z →
  ((∃ e, connect A = (true, e)) ↔ asked_well A ∧ one_number A ∧ checked_well A) ∧ (∀ e, connect A = (true, e) → e = None) ∧
  (connect A = (false, None) ↔ asked_well A ∧ ¬ one_number A).
Proof. exact (connect_spec A). Qed.
Example C77_connected_example : connect (bo_connect (member fees20 [pool20; fees20] 5)) = (true, None) ∧
  co_chain (bo_connect (member fees20 [pool20; fees20] 5)) ≠ None.
Proof. by vm_compute. Qed.
(** A process that started could write its log and was given the name of a log level, in any case; any other name ends it. *)
Theorem C77_level sha H E args sel A k fs :
  (∀ o, boot sha H E args sel A k fs = Ok o → bo_folder A = None ∧ level_name (k_log_level k)) ∧
  (¬ level_name (k_log_level k) → ∃ m, boot sha H E args sel A k fs = Die (Fatal m)).
Proof. exact (conj (boot_level sha H E args sel A k fs) (boot_unlevelled sha H E args sel A k fs)). Qed.
Example C77_level_example : level_name "Debug" ∧ ¬ level_name "verbose" ∧ level_name (k_log_level good_cli).
Proof. split; [do 6 right; by left|]. split; [intros H; vm_compute in H; intuition discriminate|]. apply level_spec. by vm_compute. Qed.
Example C77_example : ∃ o, boot toy toy honest read_fee "init" (member fees20 [pool20; fees20] 5) good_cli ∅ = Ok o ∧
  Forall no_start (ticks 6 nothing_yet 0) ∧
  (lifetime toy toy cfg_loop (ticks 6 nothing_yet 0) (Up (Machine Begin o empty_cache ∅))).1 ≠ [].
Proof. exact member_example. Qed.
Example C77_stranger : boot toy toy honest read_fee "init" (member fees20 [pool20] 5) good_cli ∅ = Die (Fatal "Pool address is not whitelisted").
Proof. exact stranger_refused. Qed.

(** ** C78 *)

(** The validators are loaded exactly if the last index is among them and one was activated after the genesis. *)
Theorem C78_loaded_iff vals : indexed vals → (∃ r, refresh_validators (Some vals) = Ok r) ↔
  (∃ v, ((N.of_nat (length vals) - 1)%N, v) ∈ vals) ∧ (∃ k v, (k, v) ∈ vals ∧ activated v).
Proof. exact (refresh_iff vals). Qed.
(** Then they are all kept, and the slot that is logged is the first of the latest activation epoch. *)
Theorem C78_loaded vals vals' i slot : indexed vals → refresh_validators (Some vals) = Ok (vals', i, slot) →
  vals' = vals ∧ i = (N.of_nat (length vals) - 1)%N ∧ (∃ v, (i, v) ∈ vals) ∧
  ∃ k v, (k, v) ∈ vals ∧ activated v ∧ slot = ((32 * b_activation v) mod two64)%N ∧
    ∀ k' v', (k', v') ∈ vals → activated v' → (b_activation v' ≤ b_activation v)%N.
Proof. exact (refreshed vals vals' i slot). Qed.
Example C78_example : indexed four ∧ refresh_validators (Some four) = Ok (four, 3%N, 1280%N).
Proof. exact (conj four_indexed eq_refl). Qed.
(** A chain with only validators of the genesis ends the process. *)
Theorem C78_genesis_refuted : ∃ vals d, indexed vals ∧ vals ≠ [] ∧ (∃ v, ((N.of_nat (length vals) - 1)%N, v) ∈ vals) ∧
  refresh_validators (Some vals) = Die (Fatal d).
Proof. exact genesis_only. Qed.

(** ** C79 *)

(** The pending consolidations are read from an answer exactly as the node wrote them, whatever follows. *)
Theorem C79_read version o f l rest : uint64s l →
  consolidations_of (Received 200 (compact (beacon_answer version o f l) +:+ rest)) = Some l.
Proof. exact (consolidations_read version o f l rest). Qed.
(** An answer that was cut short is not used. *)
Theorem C79_cut version o f l p x status : uint64s l → compact (beacon_answer version o f l) = p +:+ x → x ≠ "" →
  consolidations_of (Received status p) = None.
Proof. exact (consolidations_cut version o f l p x status). Qed.
Example C79_example : uint64s pairs ∧ consolidations_of (Received 200 (compact (beacon_answer "electra" false true pairs))) = Some pairs ∧
  consolidations_of (Received 503 (compact (beacon_answer "electra" false true pairs))) = None.
Proof. exact pairs_read. Qed.
(** An element that names no validator is taken for a consolidation of validator 0. *)
Theorem C79_element_refuted : ∃ l, ("data", JArr [JNull; JObj [("target_index", JStr "7")]; JObj [("source_index", JStr "5")]]) ∈ l ∧
  consolidations_of (Received 200 (compact (JObj l))) = Some [(0, 0); (0, 7); (5, 0)]%N.
Proof. eexists [_]. split; [left|]. by vm_compute. Qed.
(** An object without the consolidations is taken for an answer without any. *)
Theorem C79_error_refuted : ∃ l, (∀ j, ("data", j) ∉ l) ∧ consolidations_of (Received 200 (compact (JObj l))) = Some [].
Proof. exact error_read. Qed.
(** Without a limit the first answer that can be used is used, and the request is never given up; *)
Theorem C79_unlimited {A} (l : list (option A)) : attempts None l ≠ GaveUp ∧
  (∀ a, attempts None l = Got a ↔ ∃ fails more, l = fails ++ Some a :: more ∧ Forall (λ x, x = None) fails).
Proof. exact (unlimited l). Qed.
(** with a limit it is given up exactly when that many attempts failed. *)
Theorem C79_limited {A} n (l : list (option A)) : (n ≤ length l)%nat →
  (attempts (Some n) l = GaveUp ↔ Forall (λ x, x = None) (take n l)) ∧
  (∀ a, attempts (Some n) l = Got a ↔ ∃ fails more, l = fails ++ Some a :: more ∧ (length fails < n)%nat ∧ Forall (λ x, x = None) fails).
Proof. exact (limited n l). Qed.
Example C79_third : attempts None (consolidations_of <$> [NoConnection; Received 200 "{"; Received 200 "{""data"":[]}"; NoConnection]) = Got [] ∧
  attempts (Some 2%nat) (consolidations_of <$> [NoConnection; Received 200 "{"; Received 200 "{""data"":[]}"; NoConnection]) = GaveUp.
Proof. exact third_attempt. Qed.

Print Assumptions C75_accepted_iff.
Print Assumptions C75_accepted_is.
Print Assumptions C76_pool_named_partial.
Print Assumptions C76_bare_address_refuted.
Print Assumptions C77_checks_iff.
Print Assumptions C77_reports_licensed.
Print Assumptions C77_one_chain.
Print Assumptions C77_connected.
Print Assumptions C77_level.
Print Assumptions C78_loaded_iff.
Print Assumptions C78_loaded.
Print Assumptions C78_genesis_refuted.
Print Assumptions C79_read.
Print Assumptions C79_cut.
Print Assumptions C79_element_refuted.
Print Assumptions C79_error_refuted.
Print Assumptions C79_unlimited.
Print Assumptions C79_limited.
