(** Property C105: the amounts of different accounts are different objects in memory. *)
From Verif Require Import PointersSpec PointersProofs Samples.

(** A block, processed in memory, does what the model with values says, leaves the amounts apart from each other and from
    everybody else's, and does not touch what belongs to somebody else, the amounts of the block's own events included. *)
Theorem C105_block R E fb c h : apart R h →
  match h_advance E fb c h, advance E fb (Oracle c (view h)) with
  | Done (c', h') (n, p), Done o n' => o = Oracle c' (view h') ∧ n = n' ∧
      apart (λ l, R l ∨ brought p l) h' ∧ keeps R h h' ∧ as_came h' p E fb c (view h)
  | Fail (c', h') e, Fail o e' => o = Oracle c' (view h') ∧ e = e' ∧ apart R h' ∧ keeps R h h'
  | Dead d, Dead d' => d = d'
  | _, _ => False
  end.
Proof. exact (step_like R E fb c h). Qed.

(** A state read from the file, or a new one, starts with all amounts apart. *)
Theorem C105_load s : view (h_load s) = s ∧ apart (λ _, False) (h_load s).
Proof. exact (load_exact s). Qed.

(** After any number of blocks the values are those of the model with values, the amounts are apart, and what came with
    each of the blocks is still what it was when it came. *)
Theorem C105_history c s l ps c' h' : h_run (c, h_load s) l ps (c', h') →
  run (Oracle c s) l (Oracle c' (view h')) ∧
  apart (λ a, ∃ p, p ∈ ps ∧ brought p a) h' ∧
  ∀ k E fb p, l !! k = Some (E, fb) → ps !! k = Some p → ∃ c0 s0, run (Oracle c s) (take k l) (Oracle c0 s0) ∧ as_came h' p E fb c0 s0.
Proof. exact (load_run c s l ps c' h'). Qed.

(** Every execution of the model with values is one in memory. *)
Theorem C105_every c s l c' s' : run (Oracle c s) l (Oracle c' s') → ∃ ps h', h_run (c, h_load s) l ps (c', h') ∧ view h' = s'.
Proof. exact (load_back c s l c' s'). Qed.

(** Making the leaves of the tree changes no amount, no later block changes the leaves, and no two leaves are one object. *)
Theorem C105_leaves R E h : wf_env E → apart R h →
  match h_leafs E h, collect (e_iter E (st_vals (view h))).*2 [] with
  | Ok (ls, f, h'), Ok out => out = leafs_at h' ls ∧ deref h' f = st_fees (view h) ∧ view h' = view h ∧
      apart (λ l, R l ∨ l = f ∨ l ∈ ls.*2) h' ∧ keeps R h h' ∧ NoDup (f :: ls.*2)
  | Die d, Die d' => d = d'
  | _, _ => False
  end.
Proof. exact (leafs_like R E h). Qed.

(** The whole sample history in memory. *)
Example C105_example : ∃ ps h', h_run (cfg_at Mainnet 12000001, h_load (or_st (new_oracle (cfg_at Mainnet 12000001)))) (take 3 (history 12000001)) ps
    (or_cfg (after_oracle Mainnet 12000001 3), h') ∧
  pend_of (view h') 1 = pend_of (after Mainnet 12000001 3) 1 ∧ is_Some (pend_of (after Mainnet 12000001 3) 1).
Proof.
  pose proof (after_run Mainnet 12000001 3 eq_refl) as H. apply (run_pair _ _ _) in H.
  destruct (C105_every _ _ _ _ _ H) as (ps & h' & H1 & H2). exists ps, h'. split; [exact H1|]. rewrite H2. split; [done|]. vm_compute. by eexists.
Qed.

(** Two validators whose pending rewards are one object: that is not apart, and a reward of one is a reward of both. *)
Definition two_on_one : hst :=
  h_vals {[ 1%N := HInfo Active 1 2 3 "a" 1 "k" Manual; 2%N := HInfo Active 4 2 3 "b" 2 "q" Manual ]}
    (HSt {[ 5%N := 10%Z ]} 6 ∅ 0 (or_st (new_oracle (cfg_at Mainnet 12000001)))).
Example C105_shared : ¬ apart (λ _, False) two_on_one ∧
  match h_inc_pend 1 5 two_on_one with Ok h => pend_of (view h) 2 = Some 10%Z | Die _ => False end ∧
  match inc_pend 1 10 (view two_on_one) with Ok s => pend_of s 2 = Some 0%Z | Die _ => False end.
Proof.
  split; [intros Ha; by discriminate (ap_own _ _ Ha (OwnPend 1) (OwnPend 2) 2%N)|]. split; by vm_compute.
Qed.

(** Validator 1 has exited and consolidates into the unknown validator 7: 7 takes over the very object of 1, and 1 gets
    another one. *)
Definition leaving : hst := h_load (set_vals {[ 1%N := VInfo Active 20 1000 0 "0xaa" 1 "k" Manual ]} (or_st (new_oracle (cfg_at Mainnet 12000001)))).
Example C105_moved : apart (λ _, False) leaving ∧
  match h_cleanup_one (honest_env exited_val []) 12000000 {[ 1%N := 7%N ]} (exited_val 1) 0 leaving with
  | Done h 0%Z => hi_pend <$> hs_vals h !! 7%N = hi_pend <$> hs_vals leaving !! 1%N ∧
      hi_pend <$> hs_vals h !! 1%N ≠ hi_pend <$> hs_vals leaving !! 1%N ∧
      pend_of (view h) 7 = Some 1000%Z ∧ pend_of (view h) 1 = Some 0%Z
  | _ => False
  end.
Proof. split; [exact (proj2 (C105_load _))|]. vm_compute. done. Qed.

(** Two validators of one owner and one of another: two leaves, made of new objects. *)
Definition three : hst := h_load (set_vals {[ 1%N := VInfo Active 20 0 0 "0xaa" 1 "k" Manual; 2%N := VInfo Active 30 0 0 "0xAA" 2 "k" Manual;
  3%N := VInfo Active 7 0 0 "0xbb" 3 "k" Manual ]} (or_st (new_oracle (cfg_at Mainnet 12000001)))).
Example C105_two_leaves : wf_env honest ∧ apart (λ _, False) three ∧
  match h_leafs honest three with
  | Ok (ls, f, h) => (λ x, (leaf_addr x, leaf_bal x)) <$> leafs_at h ls = [("0xaa", 50); ("0xbb", 7)]%Z ∨ (λ x, (leaf_addr x, leaf_bal x)) <$> leafs_at h ls = [("0xbb", 7); ("0xaa", 50)]%Z
  | Die _ => False
  end.
Proof. split; [exact honest_wf|]. split; [exact (proj2 (C105_load _))|]. vm_compute. auto. Qed.

Print Assumptions C105_block.
Print Assumptions C105_load.
Print Assumptions C105_history.
Print Assumptions C105_every.
Print Assumptions C105_leaves.
