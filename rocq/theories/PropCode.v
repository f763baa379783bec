(** Property C101: the status of an answer tells who is at fault. Each theorem is followed by a concrete instance of its
    hypotheses and by the list of its assumptions. *)
From Verif Require Import CodeProofs ApiSamples.

(** ** C101 *)
(** 503 exactly while the oracle does not keep up with the chain, 400 exactly for a request that is itself at fault, 500 exactly
    if something that the answer needs is missing, and otherwise the answer (an empty list of validators also when it is).
    Missing from the full property: requests for relays with a key that is not of the documented form. *)
Theorem C101_codes_partial sha E r w o x : (∀ f, w_final w = Some f → (f < 2 ^ 64)%N) → (st_latest (or_st o) + 64 < 2 ^ 64)%N →
  (∀ key, r = GetRelays key → hex_text 96 key) → serve sha E r w o = Ok x → due r w (or_st o) x.
Proof. exact (code_of sha E r w o x). Qed.
(** The cases exclude each other: at most one status is due. *)
Theorem C101_exclusive r w s c1 m1 c2 m2 : due r w s (Refuse c1 m1) → due r w s (Refuse c2 m2) → c1 = c2.
Proof. exact (due_code r w s c1 m1 c2 m2). Qed.
(** For a key of another form the server takes the blame. *)
Theorem C101_key_refuted : ∃ key, ¬ hex_text 96 key ∧ ∀ sha E w o, ∃ m, serve sha E (GetRelays key) w o = Ok (Refuse 500 m).
Proof.
  exists "0x12". split; [intros (b & [= <-] & Hl & _); discriminate Hl|]. intros sha E w o. eexists. reflexivity.
Qed.

(** Nodes that answer nothing. *)
Definition silent_wire : wire := Wire (Some 12000010%N) None (λ _, None) (λ _, None) (λ _, None) None None None None SyncError [].
Definition code (x : res (reply body)) : N := match x with Ok (Refuse c _) => c | Ok (Answer _) => 200 | Die _ => 0 end.
Example C101_example : ∃ o, run (new_oracle (cfg_at Mainnet 12000001)) (history 12000001) o ∧ (st_latest (or_st o) + 64 < 2 ^ 64)%N ∧
  (λ x : request * wire, code (serve toy honest x.1 x.2 o)) <$>
    [(GetStatus, plain_wire 12000010); (GetStatus, silent_wire); (GetValidator "1", plain_wire 12000010); (GetValidator "8", plain_wire 12000010);
     (GetValidator "1", plain_wire 12000071); (GetByIndex "1,", silent_wire); (GetByWithdrawal "0x11", silent_wire);
     (GetByWithdrawal "0x1111111111111111111111111111111111111111", silent_wire);
     (GetProof "0x1111111111111111111111111111111111111111", silent_wire); (GetProof "1111", silent_wire)] = [200; 500; 200; 400; 503; 400; 400; 500; 500; 400]%N.
Proof. apply (ex_run (λ o, _)). by vm_compute. Qed.
Print Assumptions C101_codes_partial.
Print Assumptions C101_exclusive.
Print Assumptions C101_key_refuted.
