(** Concrete checkpoints used by the examples of PropMerkle.v. *)
From Verif Require Export CheckpointProofs Samples.

(** A cheap 32-byte hash for examples (the repository's Keccak roots are replayed separately). *)
Definition toy (s : string) : string :=
  be_bytes 32 ((be_value s * 2654435761 + N.of_nat (String.length s)) mod 2 ^ 256)%N.
Lemma toy_length s : String.length (toy s) = 32%nat.
Proof. apply be_bytes_length. Qed.

(** The validators of merklelizer_test.go:12-51 and 202-260. *)
Definition test_addr (d : string) : string := "0x" +:+ d +:+ "000000000000000000000000000000000000000".
Definition test_val (a : string) (z : Z) : vinfo := VInfo Active z 0 0 a 0 "" Manual.
Definition test_state (l : list (N * vinfo)) : ost :=
  set_vals (list_to_map l) (or_st (new_oracle (Config "" "" 0 0 0 0 (test_addr "0") true 0))).
Definition six_validators : ost := test_state
  [(0, test_val (test_addr "1") 10000); (1, test_val (test_addr "2") 20000); (2, test_val (test_addr "3") 30000);
   (3, test_val (test_addr "4") 40000); (4, test_val (test_addr "5") 50000); (5, test_val (test_addr "6") 60000)]%N.
Definition aa : string := "0xaa00000000000000000000000000000000000000".
Definition one_owner : ost := test_state
  [(0, test_val aa 30000); (1, test_val aa 60000); (2, test_val aa 10000);
   (3, test_val aa 20000); (4, test_val aa 40000); (5, test_val aa 50000)]%N.

(** Computable versions of the hypotheses. *)
Definition apart_test (a : string) (s : ost) : bool :=
  forallb (λ v, negb (String.eqb (to_lower (v_addr v)) a)) (map_to_list (st_vals s)).*2.
Lemma apart_sound a s : apart_test a s = true → ¬ withdraws_to s a.
Proof.
  unfold apart_test. rewrite forallb_forall. intros H (i & v & Hi & Ha).
  assert (v ∈ (map_to_list (st_vals s)).*2) as Hin by (apply vals_elem; eauto).
  apply elem_of_list_In, H in Hin. rewrite Ha, String.eqb_refl in Hin. done.
Qed.
Definition fits_test (s : ost) : bool :=
  forallb (λ v, (0 <=? v_acc v)%Z) (map_to_list (st_vals s)).*2 &&
  (vsum v_acc (st_vals s) <? 2 ^ 256)%Z && (0 <=? st_fees s)%Z && (st_fees s <? 2 ^ 256)%Z.
Lemma fits_sound s : fits_test s = true → fits s.
Proof.
  unfold fits_test. intros [[[H1 H2]%andb_prop H3]%andb_prop H4]%andb_prop.
  apply Z.ltb_lt in H2, H4. apply Z.leb_le in H3. apply fits_total; [|done|done].
  intros i v Hi. rewrite forallb_forall in H1. apply Z.leb_le, H1, elem_of_list_In, vals_elem. eauto.
Qed.

Lemma ex_snapshot (P : onchain_state → Prop) (x : res (option onchain_state)) :
  match x with Ok (Some c) => P c | _ => False end → ∃ c, x = Ok (Some c) ∧ P c.
Proof. destruct x as [[c|]|]; [eauto|done..]. Qed.

(** The operator runs a validator that withdraws to the fee address. *)
Definition fee_owner_history : list (env * fullblock) := (λ fb, (honest, fb)) <$>
  [ foreign_block 12000001 9 (evs [] [sub_ev 171 1000 12000001] [] [] []);
    mev_block 12000002 171 100000 (evs [ether_ev 100000 12000002] [] [] [] []) ].
Lemma shadow_refutation : ∃ l o, wf_envs l ∧ run (new_oracle (cfg_at Mainnet 12000001)) l o ∧
  st_fees (or_st o) = 7000%Z ∧ ∃ ls, aggregate honest (or_st o) = Ok ls ∧ ¬ NoDup (leaf_addr <$> ls) ∧
  ∀ H, ∃ c, snapshot H honest (or_st o) = Ok (Some c) ∧
    oc_leafs c !! to_lower (st_fees_addr (or_st o)) = Some (RawLeaf fees_str 94000).
Proof.
  destruct (ex_run (λ o, st_fees (or_st o) = 7000%Z ∧ st_fees_addr (or_st o) = fees_str ∧
    aggregate honest (or_st o) = Ok [RawLeaf fees_str 7000; RawLeaf fees_str 94000])
    (new_oracle (cfg_at Mainnet 12000001)) fee_owner_history) as (o & Hr & Hf & Hfa & Ha); [by vm_compute|].
  exists fee_owner_history, o. split; [by repeat (constructor; [apply honest_wf|])|].
  split; [exact Hr|]. split; [exact Hf|]. eexists. split; [exact Ha|]. split.
  - intros Hnd. cbn in Hnd. apply NoDup_cons in Hnd as [Hni _]. apply Hni. by left.
  - intros H. destruct (snapshot_spec H honest (or_st o) _ Ha) as [[Hl _]|(_ & c & Hs & _ & _ & _ & Hraw & _)]; [done|].
    exists c. split; [exact Hs|]. rewrite Hraw, Hfa. by vm_compute.
Qed.

(** A history with two checkpoints. *)
Definition two_checkpoints : list operation :=
  (match take 2 (history 12000001) with
   | [(E1, b1); (E2, b2)] => [Process E1 b1; Freeze honest; Process E2 b2; Freeze backward]
   | _ => []
   end).
Fixpoint evolve_fn (H : string → string) (o : oracle) (l : list operation) : option oracle :=
  match l with
  | [] => Some o
  | Process E fb :: l => match advance E fb o with Done o1 _ => evolve_fn H o1 l | _ => None end
  | Freeze E :: l => match freeze H E (or_st o) with Ok (s, _) => evolve_fn H (Oracle (or_cfg o) s) l | _ => None end
  end.
Definition wf_operation (op : operation) : Prop :=
  match op with Process E fb => wf_env E ∧ fb_duty_slot fb ≠ 0%N | Freeze E => wf_env E end.
Lemma evolve_fn_evolve H o l o' : Forall wf_operation l → evolve_fn H o l = Some o' → evolve H o l o'.
Proof.
  intros Hw. revert o. induction Hw as [|[E fb|E] l Hop _ IH]; intros o; cbn.
  - intros [= ->]. constructor.
  - destruct (advance E fb o) eqn:Ha; [|done..]. intros He. destruct Hop. econstructor; eauto.
  - destruct (freeze H E (or_st o)) as [[s b]|] eqn:Hf; [|done]. intros He. econstructor; eauto.
Qed.
Lemma ex_evolve (P : oracle → Prop) H o l : Forall wf_operation l →
  match evolve_fn H o l with Some o' => P o' | None => False end → ∃ o', evolve H o l o' ∧ P o'.
Proof. intros Hw. destruct (evolve_fn H o l) eqn:E; [|done]. intros Hp. eexists. split; [by apply evolve_fn_evolve|done]. Qed.

Definition claim_test (H : string → string) (s : ost) (a20 : string) (z : Z) (n : nat) : bool :=
  let l := RawLeaf ("0x" +:+ hex_encode a20) z in
  match aggregate honest s with
  | Ok ls =>
      match tree_proof H (leaf_hash H <$> ls) (leaf_hash H l) with
      | Some p =>
          String.eqb (climb H (leaf_hash H l) p) (tree_root H (leaf_hash H <$> ls)) &&
          forallb (λ b, (String.length b =? 32)%nat) p && (length p =? n)%nat && (String.length a20 =? 20)%nat &&
          String.eqb (leaf_preimage l) (a20 +:+ sol_uint256 z) && (be_value (sol_uint256 z) =? Z.to_N z)%N &&
          (0 <=? z)%Z && (2 <=? length ls)%nat
      | None => false
      end
  | Die _ => false
  end.
Lemma claim_instance H s a20 z n : fits s → claim_test H s a20 z n = true →
  ∃ c ls ps root ins pre p, snapshot H honest s = Ok (Some c) ∧
    aggregate honest s = Ok ls ∧ preimages ls ps ∧ merkle H (H <$> ps) root ins ∧
    claim a20 z pre ∧ Forall (λ b, String.length b = 32%nat) p ∧ length p = n ∧
    (∃ r, oc_root c = "0x" +:+ hex_encode r ∧ proves H r p pre).
Proof.
  intros Hfit. unfold claim_test. destruct (aggregate honest s) as [ls|] eqn:Ha; [|done].
  destruct (tree_proof _ _ _) as [p|] eqn:Hp; [|done].
  intros [[[[[[[Hc Hf]%andb_prop Hn]%andb_prop H20]%andb_prop Hpre]%andb_prop Hz]%andb_prop H0]%andb_prop H2]%andb_prop.
  apply Nat.leb_le in H2. apply String.eqb_eq in Hc, Hpre. apply Nat.eqb_eq in Hn, H20. apply N.eqb_eq in Hz. apply Z.leb_le in H0.
  destruct (snapshot_spec H honest s ls Ha) as [[Hl _]|(_ & c & Hs & _ & _ & Hr & _)]; [lia|].
  destruct (snapshot_tree H honest s c honest_wf Hfit Hs) as (ls' & ps & root & ins & Ha' & Hps & Hm & Hroot).
  assert (ls' = ls) as -> by congruence.
  exists c, ls, ps, root, ins, (leaf_preimage (RawLeaf ("0x" +:+ hex_encode a20) z)), p.
  do 4 (split; [done|]). split; [|split; [|split; [done|]]].
  - rewrite Hpre. exists (sol_uint256 z). split; [done|]. split; [apply sol_uint256_length|]. rewrite Hz. split; [lia|done].
  - rewrite forallb_forall in Hf. apply Forall_forall. intros x Hx. apply Nat.eqb_eq, Hf. by apply elem_of_list_In.
  - eexists. split; [exact Hr|exact Hc].
Qed.
