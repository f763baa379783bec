(** Concrete command lines, starts and answers, used by the examples of PropStart.v. *)
From Verif Require Export StartProofs LoopSamples.

(** Any text is a url here; the checks of the flags come before. *)
Definition any_url (s : string) : bool := true.
Definition command (dry : bool) (key pass pool relayers : string) : flags :=
  Flags false dry key pass 0 "info" 7300 8008 "" "http://consensus:5052" "http://execution:8545" pool relayers.
Definition good_flags : flags := command false "key.json" "secret" pool_str "https://one.example,https://two.example".
Lemma good_accepted : new_cli_config any_url good_flags = Accepted (configured good_flags ["https://one.example"; "https://two.example"]).
Proof. by vm_compute. Qed.
Lemma good_consistent : consistent any_url good_flags.
Proof. apply cli_iff; [done|]. eexists. exact good_accepted. Qed.
(** The same address without its prefix. *)
Definition bare_flags : flags := command true "" "" (sdrop 2 pool_str) "https://one.example".
Lemma bare_accepted : new_cli_config any_url bare_flags = Accepted (configured bare_flags ["https://one.example"]).
Proof. by vm_compute. Qed.
Lemma bare_dies : ∃ parses f k, f_version f = false ∧ new_cli_config parses f = Accepted k ∧
  ∀ nd E all slot s ca c r, nd_block nd slot = Some (Some c) → String.length (p_fee_recipient (cb_payload c)) = 20%nat →
    fetch_full_block nd E (k_pool k) all slot s ca ≠ Ok r.
Proof.
  exists any_url, bare_flags, (configured bare_flags ["https://one.example"]). split; [done|]. split; [exact bare_accepted|].
  intros nd E all slot s ca c r Hb Hc. by eapply odd_pool.
Qed.

(** Both clients on mainnet, and a key that is among the members and has a balance. *)
Definition connected : connect_answers := ConnectAnswers None (Some 1%Z) None (Some 1%N) (Some false) None None None.
Definition member (who : string) (members : list string) (balance : Z) : boot_answers :=
  BootAnswers None (Some who) connected (Some members) (Some balance)
    (ConfigAnswers (Some 1%Z) (Some 1%N) (Some 1606824023%N) (Some 0%Z) (Some 12000001%Z) (Some (1606824023 + 12 * 12000001, [(Some pool20, "init7")])%N)
      (λ slot, Some (fb_cblock (foreign_block slot 9 no_events))) (Some 2%N) (Some fees20) (Some 1000%Z) (Some members) (Some 1%N))
    NoAnswer (Some 11999999%N).
Definition good_cli : cli := configured good_flags ["https://one.example"; "https://two.example"].
Definition boot_reports (r : res oracle) (l : list event) : bool :=
  match r with Ok o => match (lifetime toy toy cfg_loop l (Up (Machine Begin o empty_cache ∅))).1 with [] => false | _ => true end | Die _ => false end.
Lemma ex_boot r l : boot_reports r l = true → ∃ o, r = Ok o ∧ (lifetime toy toy cfg_loop l (Up (Machine Begin o empty_cache ∅))).1 ≠ [].
Proof. destruct r as [o|]; [|done]. intros H. exists o. split; [reflexivity|]. cbn in H. by destruct (lifetime _ _ _ _ _).1. Qed.
Lemma ticks_no_start n on i : Forall no_start (ticks n on i).
Proof. apply Forall_forall. intros e He%elem_of_list_In%repeat_spec. by subst e. Qed.
Lemma member_reports : ∃ o, boot toy toy honest read_fee "init" (member fees20 [pool20; fees20] 5) good_cli ∅ = Ok o ∧
  (lifetime toy toy cfg_loop (ticks 6 nothing_yet 0) (Up (Machine Begin o empty_cache ∅))).1 ≠ [].
Proof. apply ex_boot. by vm_compute. Qed.
Lemma stranger_refused : boot toy toy honest read_fee "init" (member fees20 [pool20] 5) good_cli ∅ = Die (Fatal "Pool address is not whitelisted").
Proof. by vm_compute. Qed.

(** Four validators: one from the genesis, two activated later, one waiting. *)
Definition validator (i epoch : N) : N * bval := (i, BVal i BActiveOngoing "" "" 32000000000 epoch).
Definition four : list (N * bval) := [validator 2 40; validator 0 0; validator 3 18446744073709551615; validator 1 7].
Lemma four_indexed : indexed four.
Proof. split; [apply (bool_decide_unpack _); vm_compute; exact I|]. unfold four. repeat (apply Forall_cons; split; [done|]). by apply Forall_nil. Qed.
Definition pairs : list (N * N) := [(11, 12); (7, 18446744073709551615)]%N.
Lemma pairs_uint64 : uint64s pairs.
Proof. unfold pairs. repeat (apply Forall_cons; split; [done|]). by apply Forall_nil. Qed.
Definition outcomes : list cli_result :=
  [new_cli_config any_url (command true "key.json" "" pool_str "https://one.example");
   new_cli_config any_url (command true "" "" pool_str "http://one.example");
   new_cli_config any_url (command true "" "" pool_str "https://one.example,");
   new_cli_config any_url (command true "" "" "0x00112233445566778899aabbccddeeff0011223" "https://one.example")].
Lemma four_refused : ∀ k, Accepted k ∉ outcomes.
Proof. intros k. unfold outcomes. rewrite !elem_of_cons. intros [H|[H|[H|[H|H]]]]; [vm_compute in H; discriminate H..|by apply elem_of_nil in H]. Qed.
Lemma good_named : names (hex_to_address (k_pool good_cli)) (k_pool good_cli) ∧ hex_to_address (k_pool good_cli) = pool20.
Proof. split; [|by vm_compute]. by apply (accepted_names any_url good_flags good_cli eq_refl good_accepted). Qed.
Lemma member_example : ∃ o, boot toy toy honest read_fee "init" (member fees20 [pool20; fees20] 5) good_cli ∅ = Ok o ∧
  Forall no_start (ticks 6 nothing_yet 0) ∧
  (lifetime toy toy cfg_loop (ticks 6 nothing_yet 0) (Up (Machine Begin o empty_cache ∅))).1 ≠ [].
Proof. destruct member_reports as (o & Hb & Hl). exists o. split; [exact Hb|]. split; [apply ticks_no_start|exact Hl]. Qed.
Lemma genesis_only : ∃ vals d, indexed vals ∧ vals ≠ [] ∧ (∃ v, ((N.of_nat (length vals) - 1)%N, v) ∈ vals) ∧
  refresh_validators (Some vals) = Die (Fatal d).
Proof.
  exists [validator 1 0; validator 0 0], "latestEpoch is 0".
  split; [split; [apply (bool_decide_unpack _); vm_compute; exact I|]; repeat (apply Forall_cons; split; [done|]); by apply Forall_nil|].
  split; [done|]. split; [|done]. exists (validator 1 0).2. apply elem_of_list_here.
Qed.
Lemma pairs_read : uint64s pairs ∧ consolidations_of (Received 200 (compact (beacon_answer "electra" false true pairs))) = Some pairs ∧
  consolidations_of (Received 503 (compact (beacon_answer "electra" false true pairs))) = None.
Proof. split; [exact pairs_uint64|]. split; by vm_compute. Qed.
Lemma error_read : ∃ l, (∀ j, ("data", j) ∉ l) ∧ consolidations_of (Received 200 (compact (JObj l))) = Some [].
Proof.
  exists [("code", JNum "503"); ("message", JStr "node is syncing")]. split; [|by vm_compute].
  intros j. rewrite !elem_of_cons. intros [H|[H|H]]; [discriminate H..|by apply elem_of_nil in H].
Qed.
Lemma third_attempt :
  attempts None (consolidations_of <$> [NoConnection; Received 200 "{"; Received 200 "{""data"":[]}"; NoConnection]) = Got [] ∧
  attempts (Some 2%nat) (consolidations_of <$> [NoConnection; Received 200 "{"; Received 200 "{""data"":[]}"; NoConnection]) = GaveUp.
Proof. split; by vm_compute. Qed.
