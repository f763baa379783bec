(** Properties C95-C97 and C107: the texts of the answers. Each theorem is followed by a concrete instance of its hypotheses
    and by the list of its assumptions. *)
From Verif Require Import BodySamples.

(** ** C95 *)
Theorem C95_read X sha E r w o rep : serve sha E r w o = Ok rep →
  client r (reply_status rep) (response_text X (e_mask E) rep) =
    Some (match rep with Answer b => facts X (e_mask E) b | Refuse c m => TRefused (Z.of_N c) m end).
Proof. exact (answer_read X sha E r w o rep). Qed.
Theorem C95_books X sha E r w o rep : plain_read r → serve sha E r w o = Ok rep →
  ∃ b, rep = Answer b ∧ reads sha o r b ∧ client r 200 (response_text X (e_mask E) rep) = Some (facts X (e_mask E) b).
Proof. exact (books_read X sha E r w o rep). Qed.
(** Four answers and a refusal, to the letter. *)
Definition letters (o : oracle) : Prop :=
  text_of honest GetFees (plain_wire 12000010) o = Some (line "{""pool_fee_percent"":700,""pool_fee_address"":""0xbbbbbbbbbbbbbbbbbbbbbbbbbbbbbbbbbbbbbbbb"",""pool_accumulated_fees"":""17852""}") ∧
  text_of honest GetMissed (plain_wire 12000010) o = Some (line "[{""slot"":12000005,""block"":0,""validator_index"":3,""validator_key"":""0x030303030303030303030303030303030303030303030303030303030303030303030303030303030303030303030303"",""block_type"":""missedproposal"",""reward_wei"":""0"",""reward_type"":""unknownrewardtype"",""withdrawal_address"":""0x1313131313131313131313131313131313131313""}]") ∧
  text_of honest GetDonations (plain_wire 12000010) o = Some (line "[{""amount_wei"":""777"",""block_number"":12000002,""tx_hash"":""0x0707070707070707070707070707070707070707070707070707070707070707"",""sender"":""0x0101010101010101010101010101010101010101""},{""amount_wei"":""5000"",""block_number"":12000004,""tx_hash"":""0x0707070707070707070707070707070707070707070707070707070707070707"",""sender"":""0x0101010101010101010101010101010101010101""}]") ∧
  text_of honest (GetValidator "1") (plain_wire 12000010) o = Some (line "{""status"":""active"",""accumulated_rewards_wei"":21666,""pending_rewards_wei"":27937,""collateral_wei"":1000,""withdrawal_address"":""0x1111111111111111111111111111111111111111"",""validator_index"":1,""validator_key"":""0x010101010101010101010101010101010101010101010101010101010101010101010101010101010101010101010101"",""subscription_type"":""manual""}") ∧
  text_of honest (GetValidator "77") (plain_wire 12000010) o = Some (line "{""code"":400,""message"":""could not find validator with index""}").
Example C95_example : ∃ o, run (new_oracle (cfg_at Mainnet 12000001)) (history 12000001) o ∧ letters o ∧
  plain_read GetFees ∧ plain_read GetMissed ∧ plain_read GetDonations.
Proof.
  destruct (ex_run letters (new_oracle (cfg_at Mainnet 12000001)) (history 12000001)) as (o & Hr & Hl); [by vm_compute|].
  exists o. split; [exact Hr|]. split; [exact Hl|]. unfold plain_read; split_and!; set_solver.
Qed.
(** Escaped characters are read as what they stand for, whatever the letters of the hex digits. Halves of pairs are left out. *)
Theorem C95_escapes big n rest : (n < 55296 ∨ 57344 ≤ n)%N → (n < 65536)%N →
  ∃ t, unescape ("u" +:+ hex4 big n +:+ rest) = Some (t, rest) ∧ code_point t = Some n.
Proof. intros _. exact (escape_read big n rest). Qed.
(** After a backslash there is one of eight characters, or u: nothing else is read. *)
Theorem C95_short c r x r' : c ≠ "u"%char → unescape (String c r) = Some (x, r') ↔ r' = r ∧ ∃ k, (c, k) ∈ short_escapes ∧ x = String (ascii_of_N k) "".
Proof. exact (short_read c r x r'). Qed.
(** After u there are four hex digits. *)
Theorem C95_four r : is_Some (unescape (String "u" r)) ↔
  ∃ a b c d r', r = String a (String b (String c (String d r'))) ∧ Forall (λ x, x ∈ list_ascii_of_string "0123456789abcdefABCDEF") [a; b; c; d].
Proof. exact (hex_refused r). Qed.
Example C95_digits : unescape "u00aFx" ≠ None ∧ unescape "u00aG" = None ∧ unescape "u12" = None.
Proof. by vm_compute. Qed.
Example C95_tab : unescape "tail" = Some (String (ascii_of_N 9) "", "ail") ∧ unescape "quit" = None.
Proof. repeat split. Qed.
(** Written as they are: all characters but the two of JSON itself and the three that HTML could take for its own. *)
Theorem C95_plain c : (32 ≤ N_of_ascii c)%N → escape (String c "") = String c "" ↔ c ∉ list_ascii_of_string "<>&""" ++ [ascii_of_N 92].
Proof. exact (escape_plain c). Qed.
Example C95_html : escape "a<b> & 'c'" = "a" +:+ String (ascii_of_N 92) "u003cb" +:+ String (ascii_of_N 92) "u003e " +:+ String (ascii_of_N 92) "u0026 'c'".
Proof. reflexivity. Qed.
(** A letter, a letter with an accent, the sign of the euro. *)
Example C95_euro : unescape "u0041b" = Some ("A", "b") ∧ hex4 true 233 = "00E9" ∧ code_point (utf8 233) = Some 233%N ∧
  hex4 false 8364 = "20ac" ∧ N_of_ascii <$> list_ascii_of_string (utf8 8364) = [226; 130; 172]%N.
Proof. repeat split. Qed.

Print Assumptions C95_read.
Print Assumptions C95_escapes.
Print Assumptions C95_plain.
Print Assumptions C95_short.
Print Assumptions C95_four.
Print Assumptions C95_books.

(** ** C96 *)
Theorem C96_claim X H sha cfg l o E a w rep addr bal root slot proof vals total claimed claimable pending :
  evolve H (new_oracle cfg) l o → wf_env E → serve sha E (GetProof a) w o = Ok rep →
  client (GetProof a) (reply_status rep) (response_text X (e_mask E) rep) =
    Some (TProof addr bal root slot proof vals total claimed claimable pending) →
  addr = to_lower a ∧ total = bal ∧ w_onchain w = Some (root, Z.to_N slot) ∧ w_claimed w addr = Some claimed ∧
  claimable = (bal - claimed)%Z ∧
  ∃ l1 E1 l2 o1, l = l1 ++ Freeze E1 :: l2 ∧ evolve H (new_oracle cfg) l1 o1 ∧ Z.of_N (st_latest (or_st o1)) = slot ∧
    (∀ i, Z.of_N i ∈ vals ↔ ∃ v, st_vals (or_st o1) !! i = Some v ∧ to_lower (v_addr v) = addr) ∧
    pending = vsum v_pend (filter (λ kv, to_lower (v_addr kv.2) = addr) (st_vals (or_st o1))) ∧
    ∃ a20, spells a20 addr ∧ entitled (or_st o1) a20 bal ∧
      (uint256 bal → ∃ pre root32 sibs, claim a20 bal pre ∧ root = "0x" +:+ hex_encode root32 ∧
        proof = (λ b, "0x" +:+ hex_encode b) <$> sibs ∧ proves H root32 sibs pre).
Proof. exact (claim_read X H sha cfg l o E a w rep addr bal root slot proof vals total claimed claimable pending). Qed.
(** The owner of validator 1, after the second checkpoint. *)
Definition proof_told (o : oracle) : Prop :=
  match serve toy backward (GetProof "0x1111111111111111111111111111111111111111") (proof_wire 12000002 o) o with
  | Ok rep => match client (GetProof "") (reply_status rep) (response_text sample_beside (e_mask backward) rep) with
              | Some (TProof a b _ s p v t c d e) =>
                  a = "0x1111111111111111111111111111111111111111" ∧ b = 21666%Z ∧ s = 12000002%Z ∧ length p = 2%nat ∧ v = [1%Z] ∧
                  t = 21666%Z ∧ c = 1000%Z ∧ d = 20666%Z
              | _ => False
              end
  | Die _ => False
  end.
Example C96_example : wf_env backward ∧ ∃ o, evolve toy (new_oracle (cfg_at Mainnet 12000001)) two_checkpoints o ∧ proof_told o.
Proof.
  split; [apply backward_wf|].
  destruct (ex_evolve proof_told toy (new_oracle (cfg_at Mainnet 12000001)) two_checkpoints two_checkpoints_wf) as (o & He & Ho); [by vm_compute|].
  exists o. split; [exact He|exact Ho].
Qed.
Print Assumptions C96_claim.

(** ** C97 *)
(** Full claim: in every answer each amount is a decimal number in a text, and no value is null. *)
Theorem C97_shape_partial X sha E r w o b : serve sha E r w o = Ok (Answer b) → r ≠ GetState → (∀ i, r ≠ GetValidator i) →
  ∃ j, parse (response_text X (e_mask E) (Answer b)) = Some j ∧
    (∀ k v, (k, v) ∈ parts "" j → amount_key k = true → amount_text v) ∧
    ((∀ i, r ≠ GetRelays i) → (∀ i, r ≠ GetByIndex i) → ∀ k, (k, JNull) ∉ parts "" j).
Proof. exact (answer_shape X sha E r w o b). Qed.
Theorem C97_amounts_refuted : ∃ o w rep j k v, evolve toy (new_oracle (cfg_at Mainnet 12000001)) (operations odd_history) o ∧ wf_wire w ∧
  serve toy honest (GetValidator "1") w o = Ok (Answer rep) ∧ parse (response_text sample_beside (e_mask honest) (Answer rep)) = Some j ∧
  (k, v) ∈ parts "" j ∧ amount_key k = true ∧ rounded v.
Proof. exact number_refutation. Qed.
Theorem C97_lists_refuted : ∃ o w rep j, evolve toy (new_oracle (cfg_at Mainnet 12000001)) (operations odd_history) o ∧ wf_wire w ∧
  serve toy honest (GetByIndex "1") w o = Ok (Answer rep) ∧ parse (response_text sample_beside (e_mask honest) (Answer rep)) = Some j ∧
  ("not_found_validators", JNull) ∈ parts "" j.
Proof. exact null_refutation. Qed.
(** The amounts in the list of missed blocks, the donations and the fees of C95_example are texts. *)
Definition texts_only (r : request) (o : oracle) : Prop :=
  match text_of honest r (plain_wire 12000010) o with
  | Some t => match parse t with
              | Some j => forallb (λ kv, negb (amount_key kv.1) || match kv.2 with JStr t => match whole t with Some _ => true | None => false end | _ => false end) (parts "" j) = true
                  ∧ (1 < length (filter (λ kv, amount_key kv.1 = true) (parts "" j)))%nat
              | None => False
              end
  | None => False
  end.
Example C97_example : ∃ o, run (new_oracle (cfg_at Mainnet 12000001)) (history 12000001) o ∧
  texts_only GetDonations o ∧ texts_only GetValidators o ∧ texts_only (GetByIndex "1,3") o.
Proof.
  destruct (ex_run (λ o, texts_only GetDonations o ∧ texts_only GetValidators o ∧ texts_only (GetByIndex "1,3") o)
    (new_oracle (cfg_at Mainnet 12000001)) (history 12000001)) as (o & Hr & Hl);
    [vm_compute; repeat split; try reflexivity; repeat constructor|].
  exists o. split; [exact Hr|exact Hl].
Qed.
Print Assumptions C97_shape_partial.
Print Assumptions C97_amounts_refuted.
Print Assumptions C97_lists_refuted.

(** ** C107 *)
(** Up to 292 years before or after. If the contract is ahead of the finalized slot, the words tell a negative age. Not
    true in general is that the age in seconds is the same number. *)
Theorem C107_durations_partial X sha E w o f root slot rep : serve sha E GetStatus w o = Ok rep → reply_status rep = 200%N →
  w_final w = Some f → w_onchain w = Some (root, slot) →
  (f < 2 ^ 63)%N → (slot < 2 ^ 63)%N → (c_cp_size (or_cfg o) < 2 ^ 63)%N →
  let left := Z.max 0 (Z.of_N slot + Z.of_N (c_cp_size (or_cfg o)) - Z.of_N f) in
  let age := (Z.of_N f - Z.of_N slot)%Z in
  (left ≤ 768614336)%Z → (Z.abs age ≤ 768614336)%Z →
  ∃ synced numbers chains deposit,
    client GetStatus 200 (response_text X (e_mask E) rep) =
      Some (TStatus synced numbers [bx_words X (slots_long left); bx_words X (slots_long age)] chains deposit) ∧
    numbers !! 6%nat = Some (left * 12)%Z ∧ numbers !! 8%nat = Some ((age * 12) mod 2 ^ 64)%Z.
Proof. exact (status_durations X sha E w o f root slot rep). Qed.
(** The contract is 32 slots ahead of the finalized slot: the words say minus 384 seconds, the number is near 2^64. *)
Theorem C107_age_refuted : ∃ o w, run (new_oracle (cfg_at Mainnet 12000001)) (history 12000001) o ∧ wf_wire w ∧
  w_final w = Some 12000010%N ∧ w_onchain w = Some ("", 12000042%N) ∧
  client GetStatus 200 (default "" (text_of honest GetStatus w o)) = Some (TStatus (true, true, false)
    [12000006; 12000006; 375000; 12000010; 4; 12007242; 86784; 12000042; 18446744073709551232]%Z
    ["86784 seconds"; "-384 seconds"] (1, 1)%Z "0x00").
Proof. exact age_refutation. Qed.
(** One slot above the limit of C107_durations_partial the words are wrong. *)
Example C107_limit : duration (768614336 * 12) = slots_long 768614336 ∧ duration (768614337 * 12) = (slots_long 768614337 - 2 ^ 64)%Z.
Proof. exact (conj eq_refl eq_refl). Qed.
Example C107_example : ∃ o, run (new_oracle (cfg_at Mainnet 12000001)) (history 12000001) o ∧
  match client GetStatus 200 (default "" (text_of honest GetStatus (sample_wire 12000010 "" 11995000 [] [] sample_beacon []) o)) with
  | Some (TStatus _ _ ws _ _) => ws = ["26280 seconds"; "60120 seconds"]
  | _ => False
  end.
Proof. apply (ex_run (λ o, _)). by vm_compute. Qed.
Print Assumptions C107_durations_partial.
Print Assumptions C107_age_refuted.
