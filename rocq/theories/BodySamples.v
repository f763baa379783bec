(** Concrete answers used by the examples of PropBody.v. *)
From Verif Require Import ApiProofs.
From Verif Require Export BodyProofs ApiSamples.

(** Durations in figures, one time for all relays, one balance for all validators. *)
Definition sample_beside : beside :=
  Beside (λ n, print_Z (n / 10 ^ 9) +:+ " seconds") (λ _, "1700000000") (λ _, 32000000123%N)
    (λ b, match b with BActiveOngoing => "Active_ongoing" | _ => "Unknown" end).
Definition line (s : string) : string := s +:+ String (ascii_of_N 10) "".
(** The text of the answer to a request. *)
Definition text_of (E : env) (r : request) (w : wire) (o : oracle) : option string :=
  match serve toy E r w o with Ok rep => Some (response_text sample_beside (e_mask E) rep) | Die _ => None end.

(** A subscription with a collateral of 2^53 + 1 wei. *)
Definition odd_history : list (env * fullblock) :=
  [(honest, foreign_block 12000001 9 (evs [] [sub_ev 1 9007199254740993 12000001] [] [] []))].
Lemma odd_operations : Forall wf_operation (operations odd_history).
Proof. apply operations_wf. unfold odd_history. repeat (apply Forall_cons; split; [split; [apply honest_wf|done]|]). done. Qed.

Definition odd_part (k : string) (j : json) : bool :=
  match j with
  | JObj l => existsb (λ kv, String.eqb kv.1 k && match kv.2 with JNum t => match whole t with Some z => (2 ^ 53 <? z)%Z && Z.odd z | None => false end | _ => false end) l
  | _ => false
  end.
Lemma odd_part_sound k j : odd_part k j = true → ∃ v, (k, v) ∈ parts "" j ∧ rounded v.
Proof.
  unfold odd_part. destruct j as [| | | | |l]; try done. rewrite existsb_exists.
  intros ([k' v] & Hin & H). cbn [fst snd] in H. apply andb_true_iff in H as [Hk Hv]. apply String.eqb_eq in Hk as ->.
  destruct v as [| |t| | |]; try done. destruct (whole t) as [z|] eqn:Hz; [|done]. apply andb_true_iff in Hv as [H1 H2].
  exists (JNum t). split.
  - cbn [parts]. right. apply elem_of_list_In in Hin. clear -Hin. induction l as [|x l IH]; [by apply elem_of_nil in Hin|].
    cbn [foldr]. apply elem_of_app. apply elem_of_cons in Hin as [<-|Hin]; [left; cbn; by left|]. right. by apply IH.
  - exists t, z. split; [done|]. split; [done|]. split; [by apply Z.ltb_lt|]. by apply Z.odd_spec.
Qed.
(** C97: the record of a single validator. *)
Lemma number_refutation : ∃ o w rep j k v, evolve toy (new_oracle (cfg_at Mainnet 12000001)) (operations odd_history) o ∧ wf_wire w ∧
  serve toy honest (GetValidator "1") w o = Ok (Answer rep) ∧ parse (response_text sample_beside (e_mask honest) (Answer rep)) = Some j ∧
  (k, v) ∈ parts "" j ∧ amount_key k = true ∧ rounded v.
Proof.
  destruct (ex_asked (λ b, match parse (response_text sample_beside (e_mask honest) (Answer b)) with Some j => odd_part "pending_rewards_wei" j = true | None => False end)
    (serve toy honest (GetValidator "1") (plain_wire 12000010)) toy (new_oracle (cfg_at Mainnet 12000001)) (operations odd_history) odd_operations)
    as (o & He & b & Hs & Hp); [by vm_compute|].
  destruct (parse (response_text sample_beside (e_mask honest) (Answer b))) as [j|] eqn:Hj; [|done].
  apply odd_part_sound in Hp as (v & Hv & Hr). exists o, (plain_wire 12000010), b, j, "pending_rewards_wei", v.
  split; [exact He|]. split; [apply plain_wire_wf|]. split; [exact Hs|]. split; [exact Hj|]. split; [exact Hv|]. split; [done|exact Hr].
Qed.
(** C97: nothing missing is null. *)
Lemma null_refutation : ∃ o w rep j, evolve toy (new_oracle (cfg_at Mainnet 12000001)) (operations odd_history) o ∧ wf_wire w ∧
  serve toy honest (GetByIndex "1") w o = Ok (Answer rep) ∧ parse (response_text sample_beside (e_mask honest) (Answer rep)) = Some j ∧
  ("not_found_validators", JNull) ∈ parts "" j.
Proof.
  destruct (ex_asked (λ b, match b with BFound _ m => m = [] | _ => False end)
    (serve toy honest (GetByIndex "1") (plain_wire 12000010)) toy (new_oracle (cfg_at Mainnet 12000001)) (operations odd_history) odd_operations)
    as (o & He & b & Hs & Hp); [by vm_compute|].
  destruct b as [| | | | | | |found m| | | | |]; try done. subst m.
  exists o, (plain_wire 12000010), (BFound found []), (body_json sample_beside (e_mask honest) (BFound found [])).
  split; [exact He|]. split; [apply plain_wire_wf|]. split; [exact Hs|]. split; [exact (parse_compact _ (wf_body _ _ _))|].
  cbn [body_json parts foldr fst snd enc_slice]. apply elem_of_cons. right. apply elem_of_app. right. by left.
Qed.

(** The contract is ahead of the finalized slot. *)
Lemma age_refutation : ∃ o w, run (new_oracle (cfg_at Mainnet 12000001)) (history 12000001) o ∧ wf_wire w ∧
  w_final w = Some 12000010%N ∧ w_onchain w = Some ("", 12000042%N) ∧
  client GetStatus 200 (default "" (text_of honest GetStatus w o)) = Some (TStatus (true, true, false)
    [12000006; 12000006; 375000; 12000010; 4; 12007242; 86784; 12000042; 18446744073709551232]%Z
    ["86784 seconds"; "-384 seconds"] (1, 1)%Z "0x00").
Proof.
  set (w := sample_wire 12000010 "" 12000042 [] [] sample_beacon []).
  destruct (ex_run (λ o, client GetStatus 200 (default "" (text_of honest GetStatus w o)) = Some (TStatus (true, true, false)
    [12000006; 12000006; 375000; 12000010; 4; 12007242; 86784; 12000042; 18446744073709551232]%Z
    ["86784 seconds"; "-384 seconds"] (1, 1)%Z "0x00")) (new_oracle (cfg_at Mainnet 12000001)) (history 12000001)) as (o & Hr & Ho); [by vm_compute|].
  exists o, w. split; [exact Hr|]. split; [by apply sample_wire_wf|]. split; [done|]. split; [done|exact Ho].
Qed.
