(** Properties C01-C08: accounting and sharing. Each theorem is followed by a concrete instance of its
    hypotheses and by the list of its assumptions. *)
From Verif Require Import RunProofs LifeProofs Samples.

(** A mainnet deployment after the Electra fork; the sample history runs. *)
Definition c_new : config := cfg_at Mainnet 12000001.
Definition h_new : list (env * fullblock) := history 12000001.

(** ** C01 *)
Theorem C01_conservation c l o : wf_envs l → wf_blocks (c_pool c) l → run (new_oracle c) l o →
  owed (or_st o) = received (or_st o) ∧ offchain_reconciliation (or_st o) = true.
Proof. exact (conservation c l o). Qed.

Lemma h_new_wf : wf_envs h_new ∧ wf_blocks (c_pool c_new) h_new.
Proof.
  split; [by repeat (constructor; [apply honest_wf|])|].
  repeat (apply Forall_cons; split; [split; [by intros ?| |by intros slot l i [= <-] ?%not_elem_of_nil]|]); [..|done].
  all: intros x rcp H1 H2; vm_compute in H1; try discriminate; injection H1 as <- <-; vm_compute; lia.
Qed.
(** Three subscriptions accepted, one too poor, an MEV block with a donation, a vanilla block by an outsider,
    a forfeit, a missed slot, a ban: 150787 wei in, 150787 wei owed. *)
Example C01_example : ∃ o, wf_envs h_new ∧ wf_blocks (c_pool c_new) h_new ∧ run (new_oracle c_new) h_new o ∧
  owed (or_st o) = 150787%Z ∧ size (st_vals (or_st o)) = 4%nat.
Proof.
  exists (after_oracle Mainnet 12000001 6). split; [apply h_new_wf|]. split; [apply h_new_wf|].
  split; [exact (after_run Mainnet 12000001 6 eq_refl)|]. by vm_compute.
Qed.
Print Assumptions C01_conservation.

(** ** C02 *)
Theorem C02_exact_split E net r s s' : wf_env E → increase_all E net r s = Ok s' →
  ∃ sh part, s' = credited sh part s ∧ (zsum sh + part)%Z = r ∧
    (∀ i, is_Some (sh !! i) → ∃ v, st_vals s !! i = Some v ∧ earning v) ∧
    (earners s = ∅ → sh = ∅ ∧ part = r).
Proof. exact (exact_split E net r s s'). Qed.

(** Balances 2, 3 and 4 ether: 9300 wei to share after the 7% cut; shares 2066, 3100, 4133 and one wei of dust. *)
Example C02_example : ∃ s', increase_all honest Mainnet 10000 (after Mainnet 12000001 1) = Ok s' ∧
  pend_of s' 1 = Some 3066%Z ∧ pend_of s' 2 = Some 4100%Z ∧ pend_of s' 3 = Some 5133%Z ∧
  (st_fees s' - st_fees (after Mainnet 12000001 1) = 701)%Z.
Proof. apply (ex_ok (λ s', _)). by vm_compute. Qed.
Print Assumptions C02_exact_split.

(** ** C03 *)
Theorem C03_electra_proportional E net r s s' bal : wf_env E → balances E (st_next s) bal →
  era net (st_next s) Electra → earners s ≠ ∅ → increase_all E net r s = Ok s' →
  let cut := pool_cut s r in
  let T := earners_total bal s in
  (0 < T)%Z ∧
  (∀ i v, st_vals s !! i = Some v → earning v →
     st_vals s' !! i = Some (set_pend (v_pend v + (r - cut) * bal i / T) v)) ∧
  (st_fees s + cut ≤ st_fees s' < st_fees s + cut + n_earners s)%Z.
Proof. exact (electra_split_spec E net r s s' bal). Qed.

Theorem C03_electra_monotone E net r s s' bal : wf_env E → balances E (st_next s) bal → era net (st_next s) Electra →
  (0 ≤ r)%Z → (0 ≤ st_feepct s ≤ 10000)%Z → increase_all E net r s = Ok s' →
  ∀ i j v w v' w', st_vals s !! i = Some v → earning v → st_vals s !! j = Some w → earning w →
    st_vals s' !! i = Some v' → st_vals s' !! j = Some w' → (bal i ≤ bal j)%Z →
    (v_pend v' - v_pend v ≤ v_pend w' - v_pend w)%Z.
Proof. exact (electra_monotone E net r s s' bal). Qed.

Example C03_example : let s := after Mainnet 12000001 1 in
  wf_env honest ∧ balances honest (st_next s) (λ i, Z.of_N (eth_of i)) ∧ era Mainnet (st_next s) Electra ∧
  earners s ≠ ∅ ∧ (0 ≤ st_feepct s ≤ 10000)%Z ∧
  ∃ s', increase_all honest Mainnet 10000 s = Ok s' ∧ pend_of s' 1 = Some 3066%Z ∧ pend_of s' 3 = Some 5133%Z.
Proof.
  split; [apply honest_wf|]. split; [apply honest_balances|]. split; [by apply era_method; vm_compute|].
  split; [apply some_earners; by vm_compute|]. split; [by vm_compute|]. apply (ex_ok (λ s', _)). by vm_compute.
Qed.
Print Assumptions C03_electra_proportional.
Print Assumptions C03_electra_monotone.

(** ** C04 *)
Theorem C04_equal_split_fork1 E net r s s' : wf_env E → era net (st_next s) Fork1 → earners s ≠ ∅ →
  increase_all E net r s = Ok s' →
  let cut := pool_cut s r in
  (∀ i v, st_vals s !! i = Some v → earning v →
     st_vals s' !! i = Some (set_pend (v_pend v + (r - cut) / n_earners s) v)) ∧
  st_fees s' = (st_fees s + cut + (r - cut) mod n_earners s)%Z ∧
  (st_fees s + cut ≤ st_fees s' < st_fees s + cut + n_earners s)%Z.
Proof. exact (equal_split_fork1 E net r s s'). Qed.

Theorem C04_equal_split_prefork1 E net r s s' : wf_env E → era net (st_next s) PreFork1 → earners s ≠ ∅ →
  increase_all E net r s = Ok s' →
  ∃ per, (∀ i v, st_vals s !! i = Some v → earning v → st_vals s' !! i = Some (set_pend (v_pend v + per) v)) ∧
   (per * n_earners s + (st_fees s' - st_fees s) = r)%Z ∧
   (st_fees s + pool_cut s r ≤ st_fees s' < st_fees s + pool_cut s r + 10000 + n_earners s)%Z.
Proof. exact (equal_split_pre E net r s s'). Qed.

(** Three subscribers share 10000 wei: 3100 each and 700 for the pool after fork 1. *)
Example C04_example_fork1 : let s := after Mainnet 10188221 1 in
  wf_env honest ∧ era Mainnet (st_next s) Fork1 ∧ earners s ≠ ∅ ∧
  ∃ s', increase_all honest Mainnet 10000 s = Ok s' ∧ pend_of s' 1 = Some 4100%Z ∧ (st_fees s' - st_fees s = 700)%Z.
Proof.
  split; [apply honest_wf|]. split; [by apply era_method; vm_compute|].
  split; [apply some_earners; by vm_compute|]. apply (ex_ok (λ s', _)). by vm_compute.
Qed.
Example C04_example_prefork1 : let s := after Mainnet 9000001 1 in
  wf_env honest ∧ era Mainnet (st_next s) PreFork1 ∧ earners s ≠ ∅ ∧
  ∃ s', increase_all honest Mainnet 10001 s = Ok s' ∧ pend_of s' 1 = Some 3867%Z ∧ (st_fees s' - st_fees s = 1400)%Z.
Proof.
  split; [apply honest_wf|]. split; [by apply era_method; vm_compute|].
  split; [apply some_earners; by vm_compute|]. apply (ex_ok (λ s', _)). by vm_compute.
Qed.
Print Assumptions C04_equal_split_fork1.
Print Assumptions C04_equal_split_prefork1.

(** ** C05 *)
Theorem C05_shares_nonneg E net r s s' : wf_env E → sane_balances E → ¬ era net (st_next s) PreFork1 →
  (0 ≤ r)%Z → (0 ≤ st_feepct s)%Z → increase_all E net r s = Ok s' →
  ∃ sh part, s' = credited sh part s ∧ (0 ≤ part)%Z ∧ (∀ i z, sh !! i = Some z → 0 ≤ z)%Z.
Proof. exact (shares_nonneg E net r s s'). Qed.

Example C05_example : let s := after Mainnet 12000001 1 in
  wf_env honest ∧ sane_balances honest ∧ ¬ era Mainnet (st_next s) PreFork1 ∧ (0 ≤ st_feepct s)%Z ∧
  ∃ s', increase_all honest Mainnet 1 s = Ok s' ∧ st_fees s' = (st_fees s + 1)%Z.
Proof.
  split; [apply honest_wf|]. split; [apply honest_sane|].
  split; [by intros H%era_method; vm_compute in H|]. split; [by vm_compute|]. apply (ex_ok (λ s', _)). by vm_compute.
Qed.
Print Assumptions C05_shares_nonneg.

(** The claim fails before fork 1: sharing one wei takes 233 wei from each of the three subscribers. *)
Theorem C05_prefork1_refuted : ∃ l o, wf_envs l ∧ run (new_oracle (cfg_at Mainnet 9000001)) l o ∧
  ∃ s', increase_all honest Mainnet 1 (or_st o) = Ok s' ∧ pend_of (or_st o) 1 = Some 1000%Z ∧ pend_of s' 1 = Some 767%Z.
Proof.
  exists (take 1 (history 9000001)), (after_oracle Mainnet 9000001 1). split; [apply history_envs|].
  split; [exact (after_run Mainnet 9000001 1 eq_refl)|]. apply (ex_ok (λ s', _)). by vm_compute.
Qed.
Print Assumptions C05_prefork1_refuted.

(** ** C06 *)
Theorem C06_monotone o l o' : wf_envs l → sound_blocks (c_network (or_cfg o)) (c_pool (or_cfg o)) l →
  pend_nonneg (or_st o) → (0 ≤ st_feepct (or_st o))%Z → run o l o' →
  grows (or_st o) (or_st o') ∧ pend_nonneg (or_st o') ∧ (0 ≤ st_feepct (or_st o'))%Z.
Proof. exact (run_grows o l o'). Qed.

Theorem C06_published_monotone o l o' a : wf_envs l → sound_blocks (c_network (or_cfg o)) (c_pool (or_cfg o)) l →
  pend_nonneg (or_st o) → (0 ≤ st_feepct (or_st o))%Z → run o l o' →
  (published a (or_st o) ≤ published a (or_st o'))%Z.
Proof. exact (run_published o l o' a). Qed.

Lemma h_new_sound : sound_blocks Mainnet (c_pool c_new) h_new.
Proof.
  repeat (apply Forall_cons; split;
    [split; [apply honest_sane|split; [apply nonneg_test_sound; by vm_compute|by intros H%era_method; vm_compute in H]]|]).
  done.
Qed.
Example C06_example : ∃ o, wf_envs h_new ∧ sound_blocks Mainnet (c_pool c_new) h_new ∧ run (new_oracle c_new) h_new o ∧
  pend_nonneg (or_st (new_oracle c_new)) ∧ published ("0x" +:+ hex_encode (owner 1)) (or_st o) = 21666%Z.
Proof.
  exists (after_oracle Mainnet 12000001 6). split; [apply h_new_wf|]. split; [apply h_new_sound|].
  split; [exact (after_run Mainnet 12000001 6 eq_refl)|]. split; [intros i v H; exfalso; exact (lookup_empty_Some i v H)|]. by vm_compute.
Qed.
Print Assumptions C06_monotone.
Print Assumptions C06_published_monotone.

(** ** C07 *)
Theorem C07_accumulated_sources E fb o o' n i : wf_env E → advance E fb o = Done o' n →
  (fb_duty_index fb = i ∧ ∃ b, st_proposed (or_st o') = st_proposed (or_st o) ++ [b] ∧ sb_index b = i ∧ sb_type b = OkPoolProposal) ∨
  ∃ L, L `sublist_of` zip (ev_subscribe (fb_events fb)) (fb_subs fb) ∧
    Forall (λ x, sub_id x.1 = i ∧ owned_by x.2 (sub_sender x.1)) L ∧
    acc_of (or_st o') i = (acc_of (or_st o) i + foldr Z.add 0 ((λ x, sub_coll x.1) <$> L))%Z.
Proof. exact (advance_acc E fb o o' n i). Qed.

(** A second deposit by a subscribed validator is returned: its accumulated rewards rise by the deposit. *)
Example C07_example : ∃ o' n,
  advance honest (foreign_block 12000002 9 (evs [] [sub_ev 1 55 12000002] [] [] [])) (after_oracle Mainnet 12000001 1) = Done o' n ∧
  acc_of (after Mainnet 12000001 1) 1 = 0%Z ∧ acc_of (or_st o') 1 = 55%Z.
Proof. apply (ex_done (λ o' n, _)). by vm_compute. Qed.
Print Assumptions C07_accumulated_sources.

(** ** C08 *)
Theorem C08_only_earners E net r s s' i v : wf_env E → increase_all E net r s = Ok s' →
  st_vals s !! i = Some v → ¬ earning v → st_vals s' !! i = Some v.
Proof. exact (share_not_earning E net r s s' i v). Qed.
Theorem C08_untracked E net r s s' i : wf_env E → increase_all E net r s = Ok s' →
  st_vals s !! i = None → st_vals s' !! i = None.
Proof. exact (share_untracked E net r s s' i). Qed.

(** Validator 3 is banned in the last block; a donation afterwards changes validator 1 but not 3. *)
Example C08_example : let s := after Mainnet 12000001 6 in 
  (∃ v, st_vals s !! 3%N = Some v ∧ ¬ earning v) ∧
  ∃ s', increase_all honest Mainnet 10000 s = Ok s' ∧ pend_of s 1 ≠ pend_of s' 1 ∧ pend_of s 3 = pend_of s' 3.
Proof.
  split; [apply (ex_lookup (λ v, ¬ earning v)); vm_compute; by intros [H|H]|]. apply (ex_ok (λ s', _)). by vm_compute.
Qed.
Print Assumptions C08_only_earners.
Print Assumptions C08_untracked.
