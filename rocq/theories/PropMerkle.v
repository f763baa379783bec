(** Properties C21-C28 and C39: leaves, trees, proofs and checkpoints. Each theorem is followed by a concrete
    instance of its hypotheses and by the list of its assumptions. *)
From Verif Require Import MerkleSamples.

(** ** C21 *)
Theorem C21_leaves E s ls : wf_env E → aggregate E s = Ok ls →
  ∃ rest, ls = RawLeaf (to_lower (st_fees_addr s)) (st_fees s) :: rest ∧
    increasing (leaf_addr <$> rest) ∧
    (∀ a, a ∈ leaf_addr <$> rest ↔ withdraws_to s a) ∧
    (∀ l, l ∈ rest → leaf_bal l = published (leaf_addr l) s) ∧
    (∀ l, l ∈ ls → to_lower (leaf_addr l) = leaf_addr l ∧ is_hex_address (leaf_addr l) = true) ∧
    foldr (λ l z, leaf_bal l + z)%Z 0%Z ls = (vsum v_acc (st_vals s) + st_fees s)%Z.
Proof. exact (aggregate_spec E s ls). Qed.
Theorem C21_total E s f20 : wf_env E → wf_records s → pool_apart s → names f20 (st_fees_addr s) →
  ∃ ls, aggregate E s = Ok ls.
Proof. exact (leaves_total E s f20). Qed.

(** Six validators, one owner: merklelizer_test.go:202-260. *)
Example C21_example : wf_env honest ∧ aggregate honest one_owner = Ok [RawLeaf (test_addr "0") 0; RawLeaf aa 210000].
Proof. split; [apply honest_wf|]. by vm_compute. Qed.
(** The end of the sample history. *)
Example C21_total_example : wf_env backward ∧ wf_records (after Mainnet 12000001 6) ∧ pool_apart (after Mainnet 12000001 6) ∧
  names fees20 (st_fees_addr (after Mainnet 12000001 6)) ∧
  aggregate backward (after Mainnet 12000001 6) = Ok
    [RawLeaf fees_str 17852; RawLeaf "0x1111111111111111111111111111111111111111" 21666;
     RawLeaf "0x1212121212121212121212121212121212121212" 0; RawLeaf "0x1313131313131313131313131313131313131313" 0;
     RawLeaf "0x1515151515151515151515151515151515151515" 15624].
Proof.
  split; [apply backward_wf|]. split.
  { exact (run_records _ _ _ (history_envs 12000001 6) (after_run Mainnet 12000001 6 eq_refl) (fresh_records _)). }
  split; [apply apart_sound; by vm_compute|]. split; [|by vm_compute]. split; [done|]. by vm_compute.
Qed.
Print Assumptions C21_leaves.
Print Assumptions C21_total.

(** ** C22 *)
Theorem C22_leaves E1 E2 s : wf_env E1 → wf_env E2 → aggregate E1 s = aggregate E2 s.
Proof. exact (aggregate_same E1 E2 s). Qed.
Theorem C22_checkpoint H E1 E2 s : wf_env E1 → wf_env E2 → freeze H E1 s = freeze H E2 s.
Proof. exact (freeze_same H E1 E2 s). Qed.
Example C22_example : wf_env honest ∧ wf_env backward ∧
  e_iter honest (st_vals one_owner) = rev (e_iter backward (st_vals one_owner)) ∧
  (fst <$> e_iter honest (st_vals one_owner)) ≠ (fst <$> e_iter backward (st_vals one_owner)) ∧
  ∃ s', freeze toy honest one_owner = Ok s' ∧ s'.2 = true.
Proof.
  split; [apply honest_wf|]. split; [apply backward_wf|]. split; [cbn; by rewrite rev_involutive|].
  split; [by vm_compute|]. apply (ex_ok (λ s', _)). by vm_compute.
Qed.
Print Assumptions C22_leaves.
Print Assumptions C22_checkpoint.

(** ** C23 *)
(** What holds: when no validator withdraws to the fee recipient, leaves are distinct and each address's stored
    leaf carries all that it is owed. Missing from the full property: that this is always so. *)
Theorem C23_distinct_partial E s ls : wf_env E → fees_apart s → aggregate E s = Ok ls → NoDup (leaf_addr <$> ls).
Proof. exact (leaves_distinct E s ls). Qed.
Theorem C23_full_balance_partial H E s c a : wf_env E → fees_apart s → snapshot H E s = Ok (Some c) →
  (a = to_lower (st_fees_addr s) → oc_leafs c !! a = Some (RawLeaf a (st_fees s))) ∧
  (withdraws_to s a → oc_leafs c !! a = Some (RawLeaf a (published a s))).
Proof. exact (full_balance H E s c a). Qed.
(** The operator's validator withdraws to the fee address: two leaves with that address, and the stored one
    does not include the 7000 wei of fees. *)
Theorem C23_refuted : ∃ l o, wf_envs l ∧ run (new_oracle (cfg_at Mainnet 12000001)) l o ∧
  st_fees (or_st o) = 7000%Z ∧ ∃ ls, aggregate honest (or_st o) = Ok ls ∧ ¬ NoDup (leaf_addr <$> ls) ∧
  ∀ H, ∃ c, snapshot H honest (or_st o) = Ok (Some c) ∧
    oc_leafs c !! to_lower (st_fees_addr (or_st o)) = Some (RawLeaf fees_str 94000).
Proof. exact shadow_refutation. Qed.
Example C23_example : wf_env honest ∧ fees_apart (after Mainnet 12000001 6) ∧
  ∃ c, snapshot toy honest (after Mainnet 12000001 6) = Ok (Some c) ∧ oc_leafs c !! fees_str = Some (RawLeaf fees_str 17852).
Proof.
  split; [apply honest_wf|]. split; [apply apart_sound; by vm_compute|]. apply (ex_snapshot (λ c, _)). by vm_compute.
Qed.
Print Assumptions C23_distinct_partial.
Print Assumptions C23_full_balance_partial.
Print Assumptions C23_refuted.

(** ** C24 *)
Theorem C24_stored_proofs H E s c a l : wf_env E → fits s → snapshot H E s = Ok (Some c) → oc_leafs c !! a = Some l →
  leaf_addr l = a ∧
  ∃ a20 pre root p, spells a20 a ∧ claim a20 (leaf_bal l) pre ∧ oc_root c = "0x" +:+ hex_encode root ∧
    oc_proofs c !! a = Some ((λ b, "0x" +:+ hex_encode b) <$> p) ∧ proves H root p pre.
Proof. exact (stored_proofs H E s c a l). Qed.
(** Exactly the fee recipient and the withdrawal addresses have a leaf. *)
Theorem C24_addresses H E s c a : wf_env E → snapshot H E s = Ok (Some c) →
  is_Some (oc_leafs c !! a) ↔ a = to_lower (st_fees_addr s) ∨ withdraws_to s a.
Proof. exact (stored_addresses H E s c a). Qed.
(** Freezing succeeds as soon as there is a validator. *)
Theorem C24_freezes H E s f20 : wf_env E → wf_records s → pool_apart s → names f20 (st_fees_addr s) →
  ∃ s', freeze H E s = Ok (s', bool_decide (st_vals s ≠ ∅)).
Proof. exact (freeze_total H E s f20). Qed.
(** The balances of a reachable state fit in the contract's uint256, if the pool received less than 2^256 wei. *)
Theorem C24_fits c l o : wf_envs l → wf_blocks (c_pool c) l → sound_blocks (c_network c) (c_pool c) l → (0 ≤ c_feepct c)%Z →
  run (new_oracle c) l o → (received (or_st o) < 2 ^ 256)%Z → fits (or_st o).
Proof. exact (fits_run c l o). Qed.
(** Five leaves: the last one has proof of three siblings, the first of which is itself. *)
Example C24_example : wf_env honest ∧ fits (after Mainnet 12000001 6) ∧
  ∃ c, snapshot toy honest (after Mainnet 12000001 6) = Ok (Some c) ∧
    oc_leafs c !! "0x1515151515151515151515151515151515151515" = Some (RawLeaf "0x1515151515151515151515151515151515151515" 15624) ∧
    (length <$> oc_proofs c !! "0x1515151515151515151515151515151515151515") = Some 3%nat.
Proof.
  split; [apply honest_wf|]. split; [apply fits_sound; by vm_compute|]. apply (ex_snapshot (λ c, _)). by vm_compute.
Qed.
(** The Keccak root of merklelizer_test.go:47 (seven leaves) and :256 (two leaves). *)
Example C24_keccak_seven : ∃ ls, aggregate honest six_validators = Ok ls ∧
  hex_encode (tree_root keccak256 (leaf_hash keccak256 <$> ls)) = "7c58e94268a0d3d89578d2e90e483e3d53a3cb26315852d1544a5a386c83335e".
Proof. apply (ex_ok (λ ls, _)). by vm_compute. Qed.
Example C24_keccak_two : ∃ ls, aggregate honest one_owner = Ok ls ∧
  hex_encode (tree_root keccak256 (leaf_hash keccak256 <$> ls)) = "c1d127273fc365b0201e71a3622f1b459b31473366dda390b4044c7257706885".
Proof. apply (ex_ok (λ ls, _)). by vm_compute. Qed.
Print Assumptions C24_stored_proofs.
Print Assumptions C24_addresses.
Print Assumptions C24_freezes.
Print Assumptions C24_fits.

(** ** C25 *)
(** The stored root is the Merkle root over the hashed claims of the ledger; [ps] and [ins] are everything that
    is hashed to compute it. *)
Theorem C25_root H E s c : wf_env E → fits s → snapshot H E s = Ok (Some c) →
  ∃ ls ps root ins, aggregate E s = Ok ls ∧ preimages ls ps ∧ merkle H (H <$> ps) root ins ∧ oc_root c = "0x" +:+ hex_encode root.
Proof. exact (snapshot_tree H E s c). Qed.
(** A proof, of any length, for an amount that the ledger does not give to the address contains a collision with
    one of the inputs that the oracle hashed. *)
Theorem C25_sound H E s c ls ps root ins a20 z pre p :
  (∀ x, String.length (H x) = 32%nat) → wf_env E → fits s → snapshot H E s = Ok (Some c) →
  aggregate E s = Ok ls → preimages ls ps → merkle H (H <$> ps) root ins →
  claim a20 z pre → Forall (λ b, String.length b = 32%nat) p →
  (∃ r, oc_root c = "0x" +:+ hex_encode r ∧ proves H r p pre) →
  entitled s a20 z ∨ collision H (claim_inputs H pre p) (ps ++ ins).
Proof. exact (only_entitled H E s c ls ps root ins a20 z pre p). Qed.
(** The hash function of the program satisfies the hypothesis. *)
Theorem C25_keccak s : String.length (keccak256 s) = 32%nat.
Proof. exact (keccak256_length s). Qed.
Example C25_example : (∀ x, String.length (toy x) = 32%nat) ∧ wf_env honest ∧ fits (after Mainnet 12000001 6) ∧
  ∃ c ls ps root ins pre p, snapshot toy honest (after Mainnet 12000001 6) = Ok (Some c) ∧
    aggregate honest (after Mainnet 12000001 6) = Ok ls ∧ preimages ls ps ∧ merkle toy (toy <$> ps) root ins ∧
    claim (owner 1) 21666 pre ∧ Forall (λ b, String.length b = 32%nat) p ∧ length p = 3%nat ∧
    (∃ r, oc_root c = "0x" +:+ hex_encode r ∧ proves toy r p pre).
Proof.
  assert (fits (after Mainnet 12000001 6)) as Hfit by (apply fits_sound; by vm_compute).
  split; [exact toy_length|]. split; [exact honest_wf|]. split; [exact Hfit|].
  apply (claim_instance toy _ (owner 1) 21666 3 Hfit). by vm_compute.
Qed.
Print Assumptions C25_root.
Print Assumptions C25_sound.
Print Assumptions C25_keccak.

(** ** C26 *)
(** From the first slot on: whatever has been frozen stays, through any further slots and checkpoints. *)
Theorem C26_immutable H cfg l1 o1 l2 o2 k c : evolve H (new_oracle cfg) l1 o1 → evolve H o1 l2 o2 →
  st_committed (or_st o1) !! k = Some c → st_committed (or_st o2) !! k = Some c.
Proof. exact (λ H1 H2, proj2 (evolve_sound H o1 l2 o2 H2 (proj1 (evolve_sound H _ l1 o1 H1 (sound_new H cfg)))) k c). Qed.
(** Freezing changes nothing but the checkpoint of the current slot. *)
Theorem C26_freeze_frame H E s s' b : freeze H E s = Ok (s', b) → ∃ m, s' = set_committed m s ∧
  ∀ k, k ≠ st_latest s → m !! k = st_committed s !! k.
Proof. exact (freeze_only H E s s' b). Qed.
(** Two checkpoints, with a reward in between; the first keeps its balances. *)
Example C26_example : ∃ o, evolve toy (new_oracle (cfg_at Mainnet 12000001)) two_checkpoints o ∧
  (oc_slot <$> st_committed (or_st o) !! 12000001%N) = Some 12000001%N ∧
  (oc_slot <$> st_committed (or_st o) !! 12000002%N) = Some 12000002%N ∧
  ((λ c, v_acc <$> oc_vals c !! 1%N) <$> st_committed (or_st o) !! 12000001%N) = Some (Some 0%Z) ∧
  (v_acc <$> st_vals (or_st o) !! 1%N) = Some 21666%Z.
Proof.
  apply (ex_evolve (λ o, _)).
  - repeat (constructor; [first [split; [apply honest_wf|done]|apply honest_wf|apply backward_wf]|]). done.
  - by vm_compute.
Qed.
Print Assumptions C26_immutable.
Print Assumptions C26_freeze_frame.

(** ** C27 *)
Theorem C27_latest s keys : checkpoint_keys s keys →
  match latest_committed_state keys s with
  | Some c => ∃ k, st_committed s !! k = Some c ∧ ∀ k' c', st_committed s !! k' = Some c' → (k' ≤ k)%N
  | None => st_committed s = ∅
  end.
Proof. exact (latest_state_spec s keys). Qed.
Theorem C27_any_order s k1 k2 : checkpoint_keys s k1 → checkpoint_keys s k2 →
  latest_committed_state k1 s = latest_committed_state k2 s.
Proof. exact (latest_state_same s k1 k2). Qed.
Definition some_checkpoints : ost :=
  set_committed {[ 7%N := OnchainState 7 "" "0x07" ∅ ∅ ∅; 9%N := OnchainState 9 "" "0x09" ∅ ∅ ∅; 8%N := OnchainState 8 "" "0x08" ∅ ∅ ∅ ]} one_owner.
Example C27_example : checkpoint_keys some_checkpoints [9; 7; 8]%N ∧
  (oc_slot <$> latest_committed_state [9; 7; 8]%N some_checkpoints) = Some 9%N.
Proof.
  split; [|by vm_compute].
  apply NoDup_Permutation; [repeat constructor; set_solver|apply NoDup_fst_map_to_list|].
  intros x. rewrite (keys_elem some_checkpoints _ x (Permutation_refl _)). unfold some_checkpoints. cbn.
  rewrite <-insert_empty, !lookup_insert_is_Some', lookup_empty, is_Some_alt. set_solver.
Qed.
Print Assumptions C27_latest.
Print Assumptions C27_any_order.

(** ** C28 *)
Theorem C28_checkpoint o : (st_latest (or_st o) < 18446744073709551616)%N → (0 < c_cp_size (or_cfg o))%N →
  (0 < st_latest (or_st o))%N → (c_dep_slot (or_cfg o) ≤ st_latest (or_st o))%N →
  ∃ b, is_checkpoint o = Ok (Some b) ∧
    (b = true ↔ ∃ k, st_latest (or_st o) = c_dep_slot (or_cfg o) + k * c_cp_size (or_cfg o))%N.
Proof. exact (is_checkpoint_spec o). Qed.
Theorem C28_error o : is_checkpoint o = Ok None ↔
  st_latest (or_st o) = 0%N ∨ (st_latest (or_st o) < c_dep_slot (or_cfg o))%N.
Proof. exact (is_checkpoint_error o). Qed.
Theorem C28_fresh cfg : (0 < c_dep_slot cfg < 18446744073709551616)%N → is_checkpoint (new_oracle cfg) = Ok None.
Proof. exact (fresh_no_checkpoint cfg). Qed.
(** With 7200-slot checkpoints from slot 12000001 on: slot 12007201 is one, 12007202 is not. *)
Example C28_example : let o slot := Oracle (cfg_at Mainnet 12000001) (set_slots slot 0 (slot + 1) (after Mainnet 12000001 6)) in
  is_checkpoint (o 12007201%N) = Ok (Some true) ∧ is_checkpoint (o 12007202%N) = Ok (Some false) ∧
  is_checkpoint (new_oracle (cfg_at Mainnet 12000001)) = Ok None.
Proof. by vm_compute. Qed.
Print Assumptions C28_checkpoint.
Print Assumptions C28_error.
Print Assumptions C28_fresh.

(** ** C39 *)
Theorem C39_nothing_committed s root slot keys : checkpoint_keys s keys → st_committed s = ∅ → String.length root = 66%nat →
  ∃ b, in_sync keys s root slot = Ok (Some b) ∧ (b = true ↔ to_lower root = default_root).
Proof. exact (in_sync_none s root slot keys). Qed.
Theorem C39_verdict s root slot keys k c : checkpoint_keys s keys → st_committed s !! k = Some c →
  (∀ k' c', st_committed s !! k' = Some c' → (k' ≤ k)%N) → String.length root = String.length (oc_root c) →
  ∃ v, in_sync keys s root slot = Ok v ∧
    (v = Some true ↔ to_lower root = to_lower (oc_root c) ∧ slot = k) ∧
    (v = Some false ↔ to_lower root ≠ to_lower (oc_root c) ∧ slot ≠ k) ∧
    (v = None ↔ (to_lower root = to_lower (oc_root c) ∧ slot ≠ k) ∨ (to_lower root ≠ to_lower (oc_root c) ∧ slot = k)).
Proof. exact (in_sync_some s root slot keys k c). Qed.
Example C39_example : 
  in_sync [] one_owner default_root 3 = Ok (Some true) ∧
  in_sync [9; 7; 8]%N some_checkpoints "0x09" 9 = Ok (Some true) ∧
  in_sync [9; 7; 8]%N some_checkpoints "0x09" 8 = Ok None ∧
  in_sync [9; 7; 8]%N some_checkpoints "0x08" 9 = Ok None ∧
  in_sync [9; 7; 8]%N some_checkpoints "0x08" 8 = Ok (Some false).
Proof. by vm_compute. Qed.
Print Assumptions C39_nothing_committed.
Print Assumptions C39_verdict.
