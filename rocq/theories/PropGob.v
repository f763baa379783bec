(** The copies of the validators: C103. *)
From Verif Require Import GobProofs MerkleSamples.

(** Whatever order the runtime takes the entries in, the copy made with gob is the map. *)
Theorem C103_copy (m : gmap N vinfo) l : l ≡ₚ map_to_list m → (N.of_nat (size m) < two64)%N → (∀ k v, m !! k = Some v → is_u64 k ∧ copyable v) →
  deep_copy l ∅ = Some m.
Proof. exact (copy_empty m l). Qed.
(** Copied into a map that is not empty, the entries it had under other keys stay. *)
Theorem C103_into (m m0 : gmap N vinfo) l : l ≡ₚ map_to_list m → (N.of_nat (size m) < two64)%N → (∀ k v, m !! k = Some v → is_u64 k ∧ copyable v) →
  deep_copy l m0 = Some (m ∪ m0).
Proof. exact (copy_ok m m0 l). Qed.
(** So the validators of a frozen checkpoint are the copy that FreezeCheckpoint makes. *)
Theorem C103_frozen H E s s' l : freeze H E s = Ok (s', true) → l ≡ₚ map_to_list (st_vals s) → (N.of_nat (size (st_vals s)) < two64)%N →
  (∀ k v, st_vals s !! k = Some v → is_u64 k ∧ copyable v) →
  ∃ c, st_committed s' !! st_latest s = Some c ∧ deep_copy l ∅ = Some (oc_vals c).
Proof. exact (freeze_copies H E s s' l). Qed.

(** A validator with every field set, with large, zero and negative amounts, and one with zero values everywhere. *)
Definition copied : list (N * vinfo) :=
  [(300%N, VInfo RedCard (2 ^ 70) 0 (-5) "0x0102" 300 "0xabcdef" Auto); (0%N, VInfo UnknownState 0 0 0 "" 0 "" Manual)].
Example C103_example : (λ m : gmap N vinfo, (m !! 300%N, m !! 0%N, size m)) <$> deep_copy (reverse copied) ∅ =
  Some (Some (VInfo RedCard (2 ^ 70) 0 (-5) "0x0102" 300 "0xabcdef" Auto), Some (VInfo UnknownState 0 0 0 "" 0 "" Manual), 2%nat).
Proof. vm_compute. reflexivity. Qed.
(** The bytes of the second one: three amounts of one byte each, and the end. *)
Example C103_bytes : list_ascii_of_string (gob_validator (VInfo UnknownState 0 0 0 "" 0 "" Manual)) = (ascii_of_N <$> [2; 1; 2; 1; 1; 2; 1; 1; 2; 0]%N).
Proof. reflexivity. Qed.
Lemma amount_small n : (n < 2 ^ 80)%N → (n < 256 ^ (2 ^ 32))%N.
Proof. intros Hn. eapply N.lt_le_trans; [exact Hn|]. change 256%N with (2 ^ 8)%N. rewrite <-N.pow_mul_r. apply N.pow_le_mono_r; done. Qed.
Example C103_hypotheses : Forall (λ kv, is_u64 kv.1 ∧ copyable kv.2) copied.
Proof.
  repeat (apply Forall_cons; split); [| |done]; (split; [done|]); (split; [by apply amount_small|]); (split; [by apply amount_small|]); (split; [by apply amount_small|]); done.
Qed.
(** A checkpoint with six validators. *)
Example C103_frozen_example : (∃ s', freeze toy honest six_validators = Ok (s', true)) ∧
  ∀ k v, st_vals six_validators !! k = Some v → is_u64 k ∧ copyable v.
Proof.
  split.
  - destruct (ex_snapshot (λ c, True) (snapshot toy honest six_validators)) as (c & Hc & _); [by vm_compute|]. unfold freeze. rewrite Hc. by eexists.
  - intros k v Hv. unfold six_validators, test_state in Hv. cbn [set_vals st_vals] in Hv. apply elem_of_list_to_map_2 in Hv.
    repeat (apply elem_of_cons in Hv as [Hv|Hv]; [injection Hv as -> ->; (split; [done|]); (split; [by apply amount_small|]);
      (split; [by apply amount_small|]); (split; [by apply amount_small|]); done|]). by apply elem_of_nil in Hv.
Qed.
(** Amounts written by another version are refused. *)
Example C103_version : (λ n, gob_read_big (String (byte n) "a")) <$> [0; 1; 2; 3; 4; 5]%N = [None; None; Some 97%Z; Some (-97)%Z; None; None].
Proof. reflexivity. Qed.

Print Assumptions C103_copy.
Print Assumptions C103_into.
Print Assumptions C103_frozen.
