(** A contract and its node for the examples of PropCall.v. *)
From Verif Require Export CallProofs ClaimSamples.
From Verif Require Import CheckpointProofs StringProofs.

(** A hash that tells the names of the views apart in its first four bytes. *)
Definition mark (s : string) : string := be_bytes 32 ((be_value s * 71563446777022297856526126342750658392501306254664949883333486863006233104021 + N.of_nat (String.length s)) mod (2 ^ 256)).
Lemma mark_length s : String.length (mark s) = 32%nat.
Proof. apply be_bytes_length. Qed.
Definition sample_holdings : holdings :=
  Holdings 12000002 (toy "root") [owner 1; owner 2; fees20] 2 1000 7200 12000001 700 fees20
    (λ a, if String.eqb a (owner 1) then 21666%Z else 0%Z) (λ a, toy a) (λ h, (12000002%N, 2%N)).
Definition sel4 (sig : string) : string := substring 0 4 (mark sig).
Definition word (n : N) : string := be_bytes 32 n.
Definition padded (a : string) : string := be_bytes 12 0 +:+ a.
(** The node's answers by selector. *)
Definition sample_answer (B : holdings) (d : string) (s : N) : option string :=
  if (s =? 279604563)%N then Some (word (bk_slot B))
  else if (s =? 2856406039)%N then Some (bk_root B)
  else if (s =? 1702846009)%N then
    Some (word 32 +:+ word (N.of_nat (length (bk_members B))) +:+ String.concat "" (padded <$> bk_members B))
  else if (s =? 4271441403)%N then Some (word (bk_quorum B))
  else if (s =? 623679693)%N then Some (word (Z.to_N (bk_coll B)))
  else if (s =? 3308072986)%N then Some (word (bk_size B))
  else if (s =? 2298006853)%N then Some (word (Z.to_N (bk_deployed B)))
  else if (s =? 1488980289)%N then Some (word (Z.to_N (bk_fee B)))
  else if (s =? 1893527107)%N then Some (padded (bk_recipient B))
  else if (s =? 545778527)%N then Some (word (Z.to_N (bk_claimed B (sdrop 16 d))))
  else if (s =? 2474665118)%N then Some (bk_voted B (sdrop 16 d))
  else if (s =? 2872427722)%N then Some (word (bk_reports B (sdrop 4 d)).1 +:+ word (bk_reports B (sdrop 4 d)).2)
  else None.
Definition sample_call (B : holdings) (d : string) : option string := sample_answer B d (be_value (substring 0 4 d)).
Lemma word_holds n : (n < 256 ^ 32)%N → number_word n (word n).
Proof. intros Hn. split; [apply be_bytes_length|]. by apply be_bytes_value. Qed.
Lemma word_u64 n : (n < two64)%N → uint64_word n (word n).
Proof. intros Hn. split; [done|]. apply word_holds. eapply N.lt_trans; [exact Hn|]. reflexivity. Qed.
Lemma word_u256 z : uint256 z → uint256_word z (word (Z.to_N z)).
Proof. intros Hz. split; [done|]. apply word_holds. unfold uint256 in Hz. change (256 ^ 32)%N with (Z.to_N (2 ^ 256)). lia. Qed.
Lemma padded_word a : String.length a = 20%nat → address_word a (padded a).
Proof. apply zero_address. Qed.
Lemma sel4_app sig w : substring 0 4 (sel4 sig +:+ w) = sel4 sig.
Proof.
  assert (String.length (sel4 sig) = 4%nat) as Hl.
  { apply (word_split 4). rewrite mark_length. lia. }
  pose proof (substring_app (sel4 sig) w) as Hs. by rewrite Hl in Hs.
Qed.
Lemma sel4_drop sig w : sdrop 4 (sel4 sig +:+ w) = w.
Proof.
  assert (String.length (sel4 sig) = 4%nat) as Hl by (apply (word_split 4); rewrite mark_length; lia).
  pose proof (sdrop_app (sel4 sig) w) as Hs. by rewrite Hl in Hs.
Qed.
Lemma sel4_arg sig a w : address_word a w → sdrop 16 (sel4 sig +:+ w) = a.
Proof.
  intros [Ha ->]. assert (String.length (sel4 sig) = 4%nat) as Hl by (apply (word_split 4); rewrite mark_length; lia).
  set (z := String.concat "" (replicate 12 (String zero ""))). assert (String.length (sel4 sig +:+ z) = 16%nat) as Hz by (rewrite string_length_app, Hl; done).
  pose proof (sdrop_app (sel4 sig +:+ z) a) as Hs. by rewrite Hz, string_app_assoc in Hs.
Qed.
Lemma sel4_value0 : be_value (sel4 "lastConsolidatedSlot()") = 279604563%N.
Proof. by vm_compute. Qed.
Lemma sel4_value1 : be_value (sel4 "rewardsRoot()") = 2856406039%N.
Proof. by vm_compute. Qed.
Lemma sel4_value2 : be_value (sel4 "getAllOracleMembers()") = 1702846009%N.
Proof. by vm_compute. Qed.
Lemma sel4_value3 : be_value (sel4 "quorum()") = 4271441403%N.
Proof. by vm_compute. Qed.
Lemma sel4_value4 : be_value (sel4 "subscriptionCollateral()") = 623679693%N.
Proof. by vm_compute. Qed.
Lemma sel4_value5 : be_value (sel4 "checkpointSlotSize()") = 3308072986%N.
Proof. by vm_compute. Qed.
Lemma sel4_value6 : be_value (sel4 "deploymentBlockNumber()") = 2298006853%N.
Proof. by vm_compute. Qed.
Lemma sel4_value7 : be_value (sel4 "poolFee()") = 1488980289%N.
Proof. by vm_compute. Qed.
Lemma sel4_value8 : be_value (sel4 "poolFeeRecipient()") = 1893527107%N.
Proof. by vm_compute. Qed.
Lemma sel4_value9 : be_value (sel4 "claimedBalance(address)") = 545778527%N.
Proof. by vm_compute. Qed.
Lemma sel4_value10 : be_value (sel4 "addressToVotedReportHash(address)") = 2474665118%N.
Proof. by vm_compute. Qed.
Lemma sel4_value11 : be_value (sel4 "reportHashToReport(bytes32)") = 2872427722%N.
Proof. by vm_compute. Qed.
#[local] Opaque mark sdrop.
(** Well-formed holdings are answered for. *)
Record typed_holdings (B : holdings) : Prop := TypedHoldings {
  th_slot : (bk_slot B < two64)%N; th_root : String.length (bk_root B) = 32%nat; th_members : Forall (λ a, String.length a = 20%nat) (bk_members B);
  th_count : (N.of_nat (length (bk_members B)) < 256 ^ 32)%N; th_quorum : (bk_quorum B < two64)%N; th_coll : uint256 (bk_coll B); th_size : (bk_size B < two64)%N;
  th_deployed : uint256 (bk_deployed B); th_fee : uint256 (bk_fee B); th_recipient : String.length (bk_recipient B) = 20%nat;
  th_claimed : ∀ a, uint256 (bk_claimed B a); th_voted : ∀ a, String.length (bk_voted B a) = 32%nat;
  th_reports : ∀ h, ((bk_reports B h).1 < two64)%N ∧ ((bk_reports B h).2 < two64)%N }.
Lemma sample_answers B : typed_holdings B → answered_by mark B (sample_call B).
Proof.
  intros [T1 T2 T3 T4 T5 T6 T7 T8 T9 T10 T11 T12 T13] v d Hd.
  inversion Hd as [s E|s E|s E|s E|s E|s E|s E|s E|s E|s a w E Hw|s a w E Hw|s h E Hh]; unfold selector in E; subst.
  - exists (word (bk_slot B)). split; [|fold (sel4 "lastConsolidatedSlot()"); rewrite <-(string_app_nil_r (sel4 "lastConsolidatedSlot()")); unfold sample_call; rewrite sel4_app, sel4_value0; reflexivity]. by apply output_slot, word_u64.
  - exists (bk_root B). split; [|fold (sel4 "rewardsRoot()"); rewrite <-(string_app_nil_r (sel4 "rewardsRoot()")); unfold sample_call; rewrite sel4_app, sel4_value1; reflexivity]. by apply output_root.
  - exists (word 32 +:+ word (N.of_nat (length (bk_members B))) +:+ String.concat "" (padded <$> bk_members B)). split; [|fold (sel4 "getAllOracleMembers()"); rewrite <-(string_app_nil_r (sel4 "getAllOracleMembers()")); unfold sample_call; rewrite sel4_app, sel4_value2; reflexivity]. apply (output_members B (word 32) (word (N.of_nat (length (bk_members B))))); [by apply word_holds|by apply word_holds|].
    apply Forall2_fmap_r, Forall_Forall2_diag. eapply Forall_impl; [exact T3|]. apply padded_word.
  - exists (word (bk_quorum B)). split; [|fold (sel4 "quorum()"); rewrite <-(string_app_nil_r (sel4 "quorum()")); unfold sample_call; rewrite sel4_app, sel4_value3; reflexivity]. by apply output_quorum, word_u64.
  - exists (word (Z.to_N (bk_coll B))). split; [|fold (sel4 "subscriptionCollateral()"); rewrite <-(string_app_nil_r (sel4 "subscriptionCollateral()")); unfold sample_call; rewrite sel4_app, sel4_value4; reflexivity]. by apply output_coll, word_u256.
  - exists (word (bk_size B)). split; [|fold (sel4 "checkpointSlotSize()"); rewrite <-(string_app_nil_r (sel4 "checkpointSlotSize()")); unfold sample_call; rewrite sel4_app, sel4_value5; reflexivity]. by apply output_size, word_u64.
  - exists (word (Z.to_N (bk_deployed B))). split; [|fold (sel4 "deploymentBlockNumber()"); rewrite <-(string_app_nil_r (sel4 "deploymentBlockNumber()")); unfold sample_call; rewrite sel4_app, sel4_value6; reflexivity]. by apply output_deployed, word_u256.
  - exists (word (Z.to_N (bk_fee B))). split; [|fold (sel4 "poolFee()"); rewrite <-(string_app_nil_r (sel4 "poolFee()")); unfold sample_call; rewrite sel4_app, sel4_value7; reflexivity]. by apply output_fee, word_u256.
  - exists (padded (bk_recipient B)). split; [|fold (sel4 "poolFeeRecipient()"); rewrite <-(string_app_nil_r (sel4 "poolFeeRecipient()")); unfold sample_call; rewrite sel4_app, sel4_value8; reflexivity]. by apply output_recipient, padded_word.
  - exists (word (Z.to_N (bk_claimed B a))). split; [by apply output_claimed, word_u256|]. unfold sample_call. fold (sel4 "claimedBalance(address)").
    rewrite sel4_app, sel4_value9. pose proof (sel4_arg "claimedBalance(address)" a w Hw) as Ea. cbn [sample_answer N.eqb Pos.eqb]. by rewrite Ea.
  - exists (bk_voted B a). split; [by apply output_voted|]. unfold sample_call. fold (sel4 "addressToVotedReportHash(address)").
    rewrite sel4_app, sel4_value10. pose proof (sel4_arg "addressToVotedReportHash(address)" a w Hw) as Ea. cbn [sample_answer N.eqb Pos.eqb]. by rewrite Ea.
  - exists (word (bk_reports B h).1 +:+ word (bk_reports B h).2). split; [apply output_report; apply word_u64, T13|]. unfold sample_call.
    fold (sel4 "reportHashToReport(bytes32)"). rewrite sel4_app, sel4_value11. cbn [sample_answer N.eqb Pos.eqb]. by rewrite sel4_drop.
Qed.
Lemma sample_holdings_typed : typed_holdings sample_holdings.
Proof.
  split; [reflexivity|apply toy_length|by repeat constructor|reflexivity|reflexivity|by split|reflexivity|by split|by split|reflexivity| |intros; apply toy_length|done].
  intros a. cbn [sample_holdings bk_claimed]. destruct (String.eqb a (owner 1)); by split.
Qed.
Lemma sample_answered : answered_by mark sample_holdings (sample_call sample_holdings).
Proof. apply sample_answers, sample_holdings_typed. Qed.
(** The same contract one report later. *)
Definition next_holdings : holdings :=
  Holdings 12000003 (toy "next") [owner 1; owner 2; fees20] 2 1000 7200 12000001 700 fees20 (λ _, 0%Z) (λ a, toy a) (λ h, (12000003%N, 1%N)).
Lemma next_answered : answered_by mark next_holdings (sample_call next_holdings).
Proof.
  apply sample_answers.
  split; [reflexivity|apply toy_length|by repeat constructor|reflexivity|reflexivity|by split|reflexivity|by split|by split|reflexivity|by split|intros; apply toy_length|done].
Qed.
(** The configuration read from it. *)
Definition called_config : config_answers :=
  ConfigAnswers (Some 1%Z) (Some 1%N) (Some 1606824023%N) (Some 0%Z) (Some 12000001%Z) (Some (1606824023 + 12 * 12000001, [(Some pool20, "init7")])%N)
    (λ slot, Some (fb_cblock (foreign_block slot 9 no_events))) (Some 7200%N) (Some fees20) (Some 1000%Z) (Some [owner 1; owner 2; fees20]) (Some 2%N).
Lemma called_reads : config_reads mark (sample_call sample_holdings) called_config.
Proof.
  destruct (views_read mark sample_holdings (sample_call sample_holdings) sample_answered) as (_ & _ & V3 & V4 & V5 & V6 & V7 & _ & V9 & _).
  unfold config_reads. rewrite V3, V4, V5, V6, V7, V9. clear. do 5 (split; [reflexivity|]). reflexivity.
Qed.
(** A contract that consolidated one report, and the nodes that ask it. *)
Definition asked_pool : pool := Pool [(1%N, 12000003%N, toy "next")] (Some (12000003%N, toy "next")) ∅ 0.
Lemma asked_kept : kept_by asked_pool next_holdings.
Proof. split; [done|]. intros a. done. Qed.
Definition asking_wire : wire :=
  Wire (Some 12000010%N) (ask_slot_and_root mark (sample_call next_holdings) (sample_call next_holdings))
    (λ a, ask_claimed mark (sample_call next_holdings) (hex_to_address a)) (λ _, Some []) (λ _, Some []) (Some sample_beacon)
    (Some 1%N) (Some (1%N, "0x00")) (Some true) (SyncAt 0) [].
