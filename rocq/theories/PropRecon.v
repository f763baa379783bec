(** C98: comparing with what the contract has paid out. *)
From Verif Require Import StopProofs LoopSamples.

(** ** C98: the comparison ends the process exactly if the contract and the books differ *)
(** Full statement: without the hypothesis [fees_apart]; it is refuted below. *)
Theorem C98_compare_partial sha H c0 l sent m a f20 L b z : typed_config c0 → (0 < c_dep_slot c0)%N → names f20 (c_fees_addr c0) →
  Forall typed_event l → lifetime sha H c0 l (Down ∅) = (sent, Up m) → typed_answers a → compares a m →
  fees_apart (or_st (m_or m)) → an_balance a = Some b → claimants (or_st (m_or m)) L → paid_to (an_claimed a) L z →
  (∃ x fs, live sha H c0 (Tick a) (Up m) = (x, Down fs)) ↔ owed (or_st (m_or m)) ≠ (b + z)%Z.
Proof. exact (compare_apart sha H c0 l sent m a f20 L b z). Qed.
(** What happens if a validator withdraws to the fee recipient: its claims count twice, or the process ends anyway. *)
Theorem C98_shared sha H c0 l sent m a f20 L b z zf : typed_config c0 → (0 < c_dep_slot c0)%N → names f20 (c_fees_addr c0) →
  Forall typed_event l → lifetime sha H c0 l (Down ∅) = (sent, Up m) → typed_answers a → compares a m →
  withdraws_to (or_st (m_or m)) (to_lower (c_fees_addr c0)) → an_balance a = Some b → claimants (or_st (m_or m)) L → paid_to (an_claimed a) L z →
  an_claimed a f20 = Some zf →
  (∃ x fs, live sha H c0 (Tick a) (Up m) = (x, Down fs)) ↔ to_lower (c_fees_addr c0) = c_fees_addr c0 ∨ owed (or_st (m_or m)) ≠ (b + z + zf)%Z.
Proof. exact (compare_shared sha H c0 l sent m a f20 L b z zf). Qed.

(** Slot 12000001, where validator [i] subscribes with 1000 wei, is the last finalized slot. The contract has [b], and has paid out
    what [cl] says. *)
Definition joins (i : N) : fullblock := foreign_block 12000001 9 (evs [] [sub_ev i 1000 12000001] [] [] []).
Definition compared (i : N) (b : Z) (cl : string → option Z) : MainLoop.answers :=
  Answers honest (serving (joins i)) (Some false) (Some 0%N) (Some 12000001%N) true (Some b) cl true (Some 0%N) (Some 1%N) (Some ("", 11999999%N))
    (sends (Mined 1 false)) Written.
Definition joined (i : N) : list event := Start honest None (Some 11999999%N) :: repeat (Tick (compared i 0 (λ _, None))) 7.
(** The fee recipient's text is [fees]; the oracle only watches. *)
Definition watching (fees : string) : config := Config Mainnet pool_str 12000001 100 2 700 fees true 1000.
Definition fees_upper : string := "0xBBBBBBBBBBBBBBBBBBBBBBBBBBBBBBBBBBBBBBBB".
Definition joined_test (fees : string) (i : N) (m : machine) : bool :=
  match m_pc m with Begin => true | _ => false end && (st_next (or_st (m_or m)) =? 12000002)%N && (owed (or_st (m_or m)) =? 1000)%Z &&
  String.eqb (st_fees_addr (or_st (m_or m))) fees && bool_decide (fmap (λ x, (x.1, v_addr x.2)) (map_to_list (st_vals (or_st (m_or m)))) = [(i, "0x" +:+ hex_encode (owner i))]).
Lemma joined_typed i : i ∈ [1%N; 171%N] → (∀ b cl, typed_answers (compared i b cl)) ∧ Forall typed_event (joined i).
Proof.
  intros Hi. assert (∀ b cl, typed_answers (compared i b cl)) as Ht.
  { intros b cl. split; [apply honest_wf|apply (honest_typed active_val)| |by intros f [= <-]]. cbn [an_node compared].
    apply serving_typed.
    - apply typed_sound. apply elem_of_cons in Hi as [->|Hi]; [by vm_compute|]. apply elem_of_list_singleton in Hi as ->. by vm_compute.
    - by intros c [= <-]. }
  split; [done|]. apply Forall_cons. split; [done|]. apply Forall_forall. intros e He%elem_of_list_In%repeat_spec. subst e. apply Ht.
Qed.
Lemma watching_typed fees : ascii_only fees = true → typed_config (watching fees).
Proof. intros Hf. by split. Qed.
Lemma upper_names : names fees20 fees_upper.
Proof. split; by vm_compute. Qed.
Lemma joined_life fees i : life_test (λ sent m, match sent with [] => joined_test fees i m | _ => false end) (lifetime toy toy (watching fees) (joined i) (Down ∅)) = true →
  ∃ m, lifetime toy toy (watching fees) (joined i) (Down ∅) = ([], Up m) ∧ st_fees_addr (or_st (m_or m)) = fees ∧ owed (or_st (m_or m)) = 1000%Z ∧
    (∀ b cl, compares (compared i b cl) m) ∧
    ∀ j a, (∃ v, st_vals (or_st (m_or m)) !! j = Some v ∧ v_addr v = a) ↔ j = i ∧ a = "0x" +:+ hex_encode (owner i).
Proof.
  intros (sent & m & Hl & Ht)%ex_life. destruct sent; [|discriminate Ht]. exists m. split; [exact Hl|]. clear Hl.
  apply andb_prop in Ht as [[[[Hpc Hn%N.eqb_eq]%andb_prop Ho%Z.eqb_eq]%andb_prop Hf%String.eqb_eq]%andb_prop Hv%bool_decide_eq_true].
  do 2 (split; [done|]). split.
  - intros b cl. split; [by destruct (m_pc m)|]. split; [by split; [|exists 0%N]|]. split; [|done]. exists 12000001%N. split; [done|]. by rewrite Hn.
  - intros j a. assert (∀ x, x ∈ [(i, "0x" +:+ hex_encode (owner i))] ↔ x = (i, "0x" +:+ hex_encode (owner i))) as Hs by (intros x; apply elem_of_list_singleton).
    revert Hs. rewrite <-Hv. generalize ("0x" +:+ hex_encode (owner i)). intros t Hs. split.
    + intros (v & Hi & <-). assert ((j, v_addr v) = (i, t)) as [= -> ->]; [|done]. apply Hs, elem_of_list_fmap. exists (j, v). split; [done|]. by apply elem_of_map_to_list.
    + intros [-> ->]. pose proof (proj2 (Hs (i, t)) eq_refl) as Hin. clear Hs. assert ((i, t) ∈ (λ x : N * vinfo, (x.1, v_addr x.2)) <$> map_to_list (st_vals (or_st (m_or m)))) as Hx by exact Hin.
      apply elem_of_list_fmap in Hx as ([k v] & [= -> ->] & Hk). exists v. split; [by apply elem_of_map_to_list|done].
Qed.
Lemma joined_claimants i fees f20 s l : names f20 fees → st_fees_addr s = fees → NoDup l →
  (∀ j a, (∃ v, st_vals s !! j = Some v ∧ v_addr v = a) ↔ j = i ∧ a = "0x" +:+ hex_encode (owner i)) →
  (∀ a, a ∈ l ↔ a = f20 ∨ a = owner i) → claimants s l.
Proof.
  intros Hn Hf Hd Hv Hl. assert (∀ a b : string, names a ("0x" +:+ hex_encode b) ↔ a = b ∧ String.length b = 20%nat) as Hnn.
  { intros a b. split.
    - intros [H1 H2]. change (to_lower ("0x" +:+ hex_encode b)) with ("0x" +:+ to_lower (hex_encode b)) in H2. injection H2 as H2.
      rewrite (to_lower_lower _ (hex_encode_lower b)) in H2. apply hex_encode_inj in H2 as ->. done.
    - intros [-> Hb]. split; [done|]. change (to_lower ("0x" +:+ hex_encode b)) with ("0x" +:+ to_lower (hex_encode b)). by rewrite (to_lower_lower _ (hex_encode_lower b)). }
  split; [done|]. intros a. rewrite Hl, Hf. split.
  - intros [->| ->]; [by left|]. right. destruct (proj2 (Hv i _) (conj eq_refl eq_refl)) as (v & Hi & Ev). exists i, v. split; [done|]. rewrite Ev. by apply Hnn.
  - intros [Hx|(j & v & Hj & Hx)].
    + left. apply hex_encode_inj. destruct Hx as [_ Hx], Hn as [_ Hn]. rewrite Hx in Hn. by injection Hn.
    + right. destruct (proj1 (Hv j (v_addr v))) as [-> Ev]; [by exists v|]. rewrite Ev in Hx. by apply Hnn in Hx as [-> _].
Qed.
(** Validator 1, whose owner has claimed 300 wei. *)
Definition owner_claimed (a : string) : option Z := if String.eqb a (owner 1) then Some 300%Z else Some 0%Z.
Example C98_example : ∃ m L, lifetime toy toy (watching fees_str) (joined 1) (Down ∅) = ([], Up m) ∧ Forall typed_event (joined 1) ∧
  fees_apart (or_st (m_or m)) ∧ claimants (or_st (m_or m)) L ∧ paid_to owner_claimed L 300 ∧ owed (or_st (m_or m)) = 1000%Z ∧
  (∀ b, typed_answers (compared 1 b owner_claimed) ∧ compares (compared 1 b owner_claimed) m).
Proof.
  destruct (joined_life fees_str 1) as (m & Hl & Hf & Ho & Hc & Hv); [by vm_compute|]. exists m, [fees20; owner 1]. split; [exact Hl|]. clear Hl.
  split; [apply joined_typed; left|]. split; [|split; [|split; [|split; [exact Ho|]]]].
  - intros (j & v & Hj & Ev). destruct (proj1 (Hv j (v_addr v))) as [-> Ex]; [by exists v|]. rewrite Ex, Hf in Ev. vm_compute in Ev. discriminate Ev.
  - eapply (joined_claimants 1 fees_str fees20); [exact fees_names|exact Hf| |exact Hv|].
    + apply NoDup_cons. split; [|apply NoDup_singleton]. intros E%elem_of_list_singleton. vm_compute in E. discriminate E.
    + intros a. rewrite elem_of_cons, elem_of_list_singleton. done.
  - exists [0%Z; 300%Z]. split; [|reflexivity]. repeat constructor; by vm_compute.
  - intros b. split; [apply joined_typed; left|apply Hc].
Qed.

(** The full statement fails twice. First, a validator that withdraws to the fee recipient ends the process, though the contract has all. *)
Theorem C98_same_text_refuted : ∃ l m a L b z, typed_config (watching fees_str) ∧ names fees20 fees_str ∧ Forall typed_event l ∧
  lifetime toy toy (watching fees_str) l (Down ∅) = ([], Up m) ∧ typed_answers a ∧ compares a m ∧
  an_balance a = Some b ∧ claimants (or_st (m_or m)) L ∧ paid_to (an_claimed a) L z ∧ owed (or_st (m_or m)) = (b + z)%Z ∧
  ∃ x fs, live toy toy (watching fees_str) (Tick a) (Up m) = (x, Down fs).
Proof.
  destruct (joined_life fees_str 171) as (m & Hl & Hf & Ho & Hc & Hv); [by vm_compute|].
  assert (claimants (or_st (m_or m)) [fees20]) as HL.
  { eapply (joined_claimants 171 fees_str fees20); [exact fees_names|exact Hf|apply NoDup_singleton|exact Hv|].
    intros a. rewrite elem_of_list_singleton. split; [by left|]. by intros [->| ->]. }
  assert (paid_to (λ _, Some 0%Z) [fees20] 0) as HP by (exists [0%Z]; split; [by repeat constructor|reflexivity]).
  destruct (joined_typed 171) as [T1 T2]; [right; left|].
  exists (joined 171), m, (compared 171 1000 (λ _, Some 0%Z)), [fees20], 1000%Z, 0%Z.
  split; [by apply watching_typed|]. split; [exact fees_names|]. split; [exact T2|]. split; [exact Hl|]. split; [apply T1|]. split; [apply Hc|].
  split; [reflexivity|]. split; [exact HL|]. split; [exact HP|]. split; [exact Ho|].
  apply (C98_shared toy toy (watching fees_str) (joined 171) [] m (compared 171 1000 (λ _, Some 0%Z)) fees20 [fees20] 1000 0 0
    (watching_typed fees_str eq_refl) eq_refl fees_names T2 Hl (T1 _ _) (Hc _ _)); [|reflexivity|exact HL|exact HP|reflexivity|left; by vm_compute].
  destruct (proj2 (Hv 171%N _) (conj eq_refl eq_refl)) as (v & Hi & Ev). exists 171%N, v. split; [exact Hi|]. rewrite Ev. by vm_compute.
Qed.
(** Second, written with capital letters as addresses are shown, the 100 wei that the fee recipient has claimed count twice. *)
Theorem C98_counted_twice_refuted : ∃ l m a L b z, typed_config (watching fees_upper) ∧ names fees20 fees_upper ∧ Forall typed_event l ∧
  lifetime toy toy (watching fees_upper) l (Down ∅) = ([], Up m) ∧ typed_answers a ∧ compares a m ∧
  an_balance a = Some b ∧ claimants (or_st (m_or m)) L ∧ paid_to (an_claimed a) L z ∧ owed (or_st (m_or m)) = (b + z)%Z ∧
  ∃ x fs, live toy toy (watching fees_upper) (Tick a) (Up m) = (x, Down fs).
Proof.
  destruct (joined_life fees_upper 171) as (m & Hl & Hf & Ho & Hc & Hv); [by vm_compute|].
  assert (claimants (or_st (m_or m)) [fees20]) as HL.
  { eapply (joined_claimants 171 fees_upper fees20); [exact upper_names|exact Hf|apply NoDup_singleton|exact Hv|].
    intros a. rewrite elem_of_list_singleton. split; [by left|]. by intros [->| ->]. }
  assert (paid_to (λ _, Some 100%Z) [fees20] 100) as HP by (exists [100%Z]; split; [by repeat constructor|reflexivity]).
  destruct (joined_typed 171) as [T1 T2]; [right; left|].
  exists (joined 171), m, (compared 171 900 (λ _, Some 100%Z)), [fees20], 900%Z, 100%Z.
  split; [by apply watching_typed|]. split; [exact upper_names|]. split; [exact T2|]. split; [exact Hl|]. split; [apply T1|]. split; [apply Hc|].
  split; [reflexivity|]. split; [exact HL|]. split; [exact HP|]. split; [exact Ho|].
  apply (C98_shared toy toy (watching fees_upper) (joined 171) [] m (compared 171 900 (λ _, Some 100%Z)) fees20 [fees20] 900 100 100
    (watching_typed fees_upper eq_refl) eq_refl upper_names T2 Hl (T1 _ _) (Hc _ _)); [|reflexivity|exact HL|exact HP|reflexivity|right; rewrite Ho; done].
  destruct (proj2 (Hv 171%N _) (conj eq_refl eq_refl)) as (v & Hi & Ev). exists 171%N, v. split; [exact Hi|]. rewrite Ev. by vm_compute.
Qed.
Print Assumptions C98_compare_partial.
Print Assumptions C98_shared.
Print Assumptions C98_same_text_refuted.
Print Assumptions C98_counted_twice_refuted.
