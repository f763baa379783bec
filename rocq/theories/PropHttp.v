(** Properties of the HTTP layer: C84, C85. *)
From Verif Require Import HttpProofs HttpSamples ApiSamples.

(** ** C84 *)

(** A GET reaches the handler of a documented path with the variable of the path, and nothing else reaches a handler. *)
Theorem C84_reaches p r : (∃ t, route "GET" p = Handle r t) ↔ documented p r.
Proof. exact (route_get p r). Qed.
Theorem C84_methods m p r t : route m p = Handle r t → m = "GET".
Proof. exact (route_methods m p r t). Qed.
(** So a documented path is answered by its handler, with other methods 405, and other paths in canonical form 404. *)
Theorem C84_answered sha E p r len w o rep : documented p r → serve sha E r w o = Ok rep →
  ∃ l, http sha E "GET" p len w o = Ok (FromHandler rep, Some l).
Proof. exact (http_answered sha E p r len w o rep). Qed.
Theorem C84_refused m p r : documented p r → m ≠ "GET" → m ≠ "OPTIONS" → route m p = NotAllowed.
Proof. exact (route_refused m p r). Qed.
Theorem C84_unknown m p : canonical p → (∀ r, ¬ documented p r) → m ≠ "OPTIONS" → route m p = NotFound.
Proof. exact (route_unknown m p). Qed.
(** Paths in another form, and only they, are redirected, once: to a path in canonical form. *)
Theorem C84_moved m p : m ≠ "OPTIONS" → (∃ q, route m p = Moved q) ↔ ¬ canonical p.
Proof. exact (moved_iff m p). Qed.
Theorem C84_moved_once m p q : route m p = Moved q → ¬ canonical p ∧ canonical q ∧ ∀ q', route m q ≠ Moved q'.
Proof. exact (route_moved m p q). Qed.
(** Whatever is not a GET of a documented path leaves the state of the oracle alone. *)
Theorem C84_unchanged sha m p w o : m ≠ "GET" ∨ (∀ r, ¬ documented p r) → after_http sha m p w o = o.
Proof. exact (http_unchanged sha m p w o). Qed.

(** All statuses that no handler chooses: 200 for a preflight, 301, 404 and 405 in these cases and no others. *)
Theorem C84_plain sha E m p len w o c : (∃ x, http sha E m p len w o = Ok (Plain c, x)) ↔ plain_status m p c.
Proof. exact (http_plain sha E m p len w o c). Qed.
Example C84_plain_example : plain_status "OPTIONS" "/state" 200 ∧ plain_status "GET" "/memory//validators" 301 ∧ plain_status "POST" "/status" 405.
Proof.
  split; [by apply plain_preflight|]. split; [apply plain_moved; [done|]; intros H%clean_fixed; vm_compute in H; discriminate H|].
  apply (plain_method _ _ GetStatus); [done..|constructor].
Qed.

Example C84_example : documented "/memory/validators/0x1111111111111111111111111111111111111111" (GetByWithdrawal "0x1111111111111111111111111111111111111111") ∧
  route "GET" "/memory/validators/0x1111111111111111111111111111111111111111" =
    Handle (GetByWithdrawal "0x1111111111111111111111111111111111111111") (Followed "/memory/validators/" "withdrawalAddress") ∧
  route "GET" "/memory/validators" = Handle GetValidators (Fixed "/memory/validators") ∧
  route "POST" "/state" = NotAllowed ∧ route "GET" "/memory/validators/" = NotFound ∧
  route "GET" "/memory//validator/7/../8/." = Moved "/memory/validator/8" ∧ route "GET" "/memory/validator/8" = Handle (GetValidator "8") (Followed "/memory/validator/" "valindex").
Proof.
  split; [|do 5 (split; [by vm_compute|]); by vm_compute].
  apply (doc_by_withdrawal "0x1111111111111111111111111111111111111111"). do 3 (split; [discriminate|]). apply no_slash_sforall. by vm_compute.
Qed.
Example C84_unknown_example : canonical "/memory/validators/" ∧ ∀ r, ¬ documented "/memory/validators/" r.
Proof.
  split; [apply clean_fixed; by vm_compute|]. intros r [t Ht]%route_get. revert Ht.
  assert (route "GET" "/memory/validators/" = NotFound) as -> by (by vm_compute). discriminate.
Qed.
Example C84_answered_example : ∃ rep, serve toy honest GetFees (plain_wire 12000010) (new_oracle (cfg_at Mainnet 12000001)) = Ok rep ∧
  documented "/memory/feesinfo" GetFees ∧
  http toy honest "GET" "/memory/feesinfo" (λ _, Some 99%N) (plain_wire 12000010) (new_oracle (cfg_at Mainnet 12000001)) =
    Ok (FromHandler rep, Some (200%N, "get", "/memory/feesinfo")).
Proof. eexists. split; [by vm_compute|]. split; [constructor|]. by vm_compute. Qed.
Print Assumptions C84_reaches.
Print Assumptions C84_methods.
Print Assumptions C84_answered.
Print Assumptions C84_refused.
Print Assumptions C84_unknown.
Print Assumptions C84_moved.
Print Assumptions C84_moved_once.
Print Assumptions C84_unchanged.
Print Assumptions C84_plain.

(** ** C85 *)

(** A request is counted if a handler answered it, under the status of the answer, the method get and one of the
    seventeen templates: no label is taken from the request. *)
Theorem C85_counted sha E m p len w o a c ml pl : http sha E m p len w o = Ok (a, Some (c, ml, pl)) →
  ∃ rep r t, a = FromHandler rep ∧ m = "GET" ∧ documented p r ∧ serve sha E r w o = Ok rep ∧ ml = "get" ∧ pl = template_text t ∧ t ∈ routes.*1 ∧
    (len rep ≠ None → c = reply_status rep).
Proof. exact (http_counted sha E m p len w o a c ml pl). Qed.
(** What is answered without a handler is not counted. *)
Theorem C85_uncounted sha E m p len w o a r : http sha E m p len w o = Ok (a, None) → ∃ code, a = Plain code ∧ ¬ (m = "GET" ∧ documented p r).
Proof. exact (http_never sha E m p len w o a r). Qed.
(** The writer in between passes the status and all bytes on, and records both; the status if no header is written late. *)
Theorem C85_passes_on l d : sent_bytes (delegate_all l d).2 = sent_bytes l ∧ (dg_wrote d = false → l ≠ [] → sent_status (delegate_all l d).2 = sent_status l).
Proof. exact (delegate_out l d). Qed.
Theorem C85_recorded l : header_first l → l ≠ [] → dg_status (delegate_all l new_delegator).1 = sent_status (delegate_all l new_delegator).2.
Proof. exact (counted_status l). Qed.
Theorem C85_bytes l : dg_written (delegate_all l new_delegator).1 = sent_bytes l.
Proof. exact (counted_bytes l). Qed.
(** But when the body cannot be written, the answer that was sent with status 200 is counted as one with 500. *)
Theorem C85_failed_refuted : ∃ sha E m p len w o rep l, http sha E m p len w o = Ok (FromHandler rep, Some (500%N, l.1, l.2)) ∧
  reply_status rep = 200%N ∧ sent_status (delegate_all (respond (reply_status rep) (len rep)) new_delegator).2 = 200%N.
Proof. exact failed_counted. Qed.
Example C85_example :
  (∃ msg, http toy honest "GET" "/memory/validator/abc" (λ _, Some 99%N) (plain_wire 12000005) (new_oracle (cfg_at Mainnet 12000001)) =
    Ok (FromHandler (Refuse 400 msg), Some (400%N, "get", "/memory/validator/{valindex}"))) ∧
  header_first (respond 404 (Some 10%N)) ∧ (delegate_all (respond 404 (Some 10%N)) new_delegator).1 = Delegator 404 10 true ∧
  delegate_all [WBody 3; WBody 4] new_delegator = (Delegator 200 7 true, [WHeader 200; WBody 3; WBody 4]) ∧
  http toy honest "POST" "/state" (λ _, Some 99%N) (plain_wire 0) (new_oracle (cfg_at Mainnet 12000001)) = Ok (Plain 405, None).
Proof.
  split; [eexists; by vm_compute|]. split.
  { intros [|x [|y [|z pre]]] c post H; try done. }
  split; [done|]. split; [done|]. by vm_compute.
Qed.
Print Assumptions C85_counted.
Print Assumptions C85_uncounted.
Print Assumptions C85_passes_on.
Print Assumptions C85_recorded.
Print Assumptions C85_bytes.
Print Assumptions C85_failed_refuted.
