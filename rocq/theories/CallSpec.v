(** What the contract answers to view calls (C100). *)
From Verif Require Export Calls AbiSpec ClaimSpec.

(** What the contract stores, as far as the oracle asks for it. *)
Record holdings := Holdings {
  bk_slot : N; bk_root : string; bk_members : list string; bk_quorum : N; bk_coll : Z; bk_size : N; bk_deployed : Z; bk_fee : Z;
  bk_recipient : string; bk_claimed : string → Z; bk_voted : string → string; bk_reports : string → N * N }.
(** The views, contract/abi.abi, and their call data. *)
Inductive view_call := CSlot | CRoot | CMembers | CQuorum | CColl | CSize | CDeployed | CFee | CRecipient
| CClaimed (a20 : string) | CVoted (a20 : string) | CReport (h : string).
Definition selector (H : string → string) (sig s : string) : Prop := s = substring 0 4 (H sig).
Inductive view_data (H : string → string) : view_call → string → Prop :=
| data_slot s : selector H "lastConsolidatedSlot()" s → view_data H CSlot s
| data_root s : selector H "rewardsRoot()" s → view_data H CRoot s
| data_members s : selector H "getAllOracleMembers()" s → view_data H CMembers s
| data_quorum s : selector H "quorum()" s → view_data H CQuorum s
| data_coll s : selector H "subscriptionCollateral()" s → view_data H CColl s
| data_size s : selector H "checkpointSlotSize()" s → view_data H CSize s
| data_deployed s : selector H "deploymentBlockNumber()" s → view_data H CDeployed s
| data_fee s : selector H "poolFee()" s → view_data H CFee s
| data_recipient s : selector H "poolFeeRecipient()" s → view_data H CRecipient s
| data_claimed s a w : selector H "claimedBalance(address)" s → address_word a w → view_data H (CClaimed a) (s +:+ w)
| data_voted s a w : selector H "addressToVotedReportHash(address)" s → address_word a w → view_data H (CVoted a) (s +:+ w)
| data_report s h : selector H "reportHashToReport(bytes32)" s → String.length h = 32%nat → view_data H (CReport h) (s +:+ h).
(** The answers, in words. *)
Inductive view_output (B : holdings) : view_call → string → Prop :=
| output_slot w : uint64_word (bk_slot B) w → view_output B CSlot w
| output_root : String.length (bk_root B) = 32%nat → view_output B CRoot (bk_root B)
| output_members w1 w2 ws : number_word 32 w1 → number_word (N.of_nat (length (bk_members B))) w2 → Forall2 address_word (bk_members B) ws →
    view_output B CMembers (w1 +:+ w2 +:+ String.concat "" ws)
| output_quorum w : uint64_word (bk_quorum B) w → view_output B CQuorum w
| output_coll w : uint256_word (bk_coll B) w → view_output B CColl w
| output_size w : uint64_word (bk_size B) w → view_output B CSize w
| output_deployed w : uint256_word (bk_deployed B) w → view_output B CDeployed w
| output_fee w : uint256_word (bk_fee B) w → view_output B CFee w
| output_recipient w : address_word (bk_recipient B) w → view_output B CRecipient w
| output_claimed a w : uint256_word (bk_claimed B a) w → view_output B (CClaimed a) w
| output_voted a : String.length (bk_voted B a) = 32%nat → view_output B (CVoted a) (bk_voted B a)
| output_report h w1 w2 : uint64_word (bk_reports B h).1 w1 → uint64_word (bk_reports B h).2 w2 → view_output B (CReport h) (w1 +:+ w2).
(** The node answers with what the contract stores. *)
Definition answered_by (H : string → string) (B : holdings) (call : string → option string) : Prop :=
  ∀ v d, view_data H v d → ∃ out, view_output B v out ∧ call d = Some out.
(** The holdings of a contract with this history of reports and claims. *)
Definition kept_by (P : pool) (B : holdings) : Prop :=
  pl_report P = Some (bk_slot B, bk_root B) ∧ ∀ a20, bk_claimed B a20 = claimed P a20.
(** The requests of the configuration are answered by these calls. *)
Definition config_reads (H : string → string) (call : string → option string) (A : config_answers) : Prop :=
  ga_deployed A = ask_deployment H call ∧ ga_cp_size A = ask_size H call ∧ ga_fees_addr A = ask_recipient H call ∧
  ga_coll A = ask_collateral H call ∧ ga_members A = ask_members H call ∧ ga_quorum A = ask_quorum H call.
(** The elements of a list: each a word with an address. *)
Inductive elements_of : list string → string → Prop :=
| elements_nil r : elements_of [] r
| elements_cons p a l r : String.length p = 12%nat → String.length a = 20%nat → elements_of l r → elements_of (a :: l) ((p +:+ a) +:+ r).
