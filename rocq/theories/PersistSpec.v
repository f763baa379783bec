(** Vocabulary for the statements about saving and loading, independent of the encoder and the loader. *)
From Verif Require Export Types Spec MerkleSpec Persist.

(** Texts made of 7-bit characters: addresses, keys, hashes and network names are. *)
Definition ascii_char (c : ascii) : bool := (N_of_ascii c <? 128)%N.
Definition ascii_only (s : string) : bool := sforall ascii_char s.
(** The range of Go's uint64 and int. *)
Definition is_u64 (n : N) : Prop := (n < two64)%N.
Definition is_int64 (z : Z) : Prop := (-9223372036854775808 ≤ z < 9223372036854775808)%Z.

(** What Go's types already guarantee of the values of each struct: fixed-size byte arrays and machine integers. [T] is
    asked of every text. *)
Section shape.
  Context (T : string → Prop).
  Definition good_log (x : rawlog) : Prop :=
    String.length (l_addr x) = 20%nat ∧ Forall (λ t, String.length t = 32%nat) (l_topics x) ∧ is_u64 (l_block x) ∧
    String.length (l_tx x) = 32%nat ∧ is_u64 (l_txindex x) ∧ String.length (l_blockhash x) = 32%nat ∧ is_u64 (l_index x).
  Definition good_sub (x : ev_sub) : Prop := String.length (sub_sender x) = 20%nat ∧ is_u64 (sub_id x) ∧ good_log (sub_log x).
  Definition good_unsub (x : ev_unsub) : Prop := String.length (uns_sender x) = 20%nat ∧ is_u64 (uns_id x) ∧ good_log (uns_log x).
  Definition good_ether (x : ev_ether) : Prop := String.length (er_sender x) = 20%nat ∧ good_log (er_log x).
  Definition good_block (x : sblock) : Prop :=
    is_u64 (sb_slot x) ∧ is_u64 (sb_block x) ∧ is_u64 (sb_index x) ∧ T (sb_key x) ∧ T (sb_withdrawal x).
  Definition good_vinfo (x : vinfo) : Prop := T (v_addr x) ∧ is_u64 (v_index x) ∧ T (v_key x).
  Definition good_rawleaf (x : rawleaf) : Prop := T (leaf_addr x).
  Definition good_onchain (x : onchain_state) : Prop :=
    is_u64 (oc_slot x) ∧ T (oc_txhash x) ∧ T (oc_root x) ∧
    (∀ k v, oc_vals x !! k = Some v → is_u64 k ∧ good_vinfo v) ∧
    (∀ k v, oc_leafs x !! k = Some v → T k ∧ good_rawleaf v) ∧
    (∀ k l, oc_proofs x !! k = Some l → T k ∧ Forall T l).
  Definition shaped (x : ost) : Prop :=
    (T (st_hash x) ∧ T (st_pool x) ∧ T (st_network x) ∧ T (st_fees_addr x)) ∧
    (is_u64 (st_latest x) ∧ is_u64 (st_latest_block x) ∧ is_u64 (st_next x) ∧ is_u64 (st_cp_size x) ∧ is_u64 (st_dep_block x) ∧
     is_u64 (st_dep_slot x) ∧ is_int64 (st_feepct x)) ∧
    (∀ k v, st_vals x !! k = Some v → is_u64 k ∧ good_vinfo v) ∧
    (∀ k c, st_committed x !! k = Some c → is_u64 k ∧ good_onchain c) ∧
    Forall good_sub (st_subs x) ∧ Forall good_unsub (st_unsubs x) ∧ Forall good_ether (st_ether x) ∧
    Forall good_ether (st_donations x) ∧ Forall good_block (st_proposed x) ∧ Forall good_block (st_missed x) ∧
    Forall good_block (st_wrong x).
End shape.
Definition any_text (s : string) : Prop := True.
Definition ascii_text (s : string) : Prop := ascii_only s = true.
(** A state within the ranges of Go's types. *)
Definition in_range : ost → Prop := shaped any_text.
(** The same, with all texts 7-bit. *)
Definition saveable : ost → Prop := shaped ascii_text.

(** ** What Go's types guarantee of the inputs *)

Definition typed_config (c : config) : Prop :=
  (ascii_only (c_network c) = true ∧ ascii_only (c_pool c) = true ∧ ascii_only (c_fees_addr c) = true) ∧
  is_u64 (c_dep_slot c) ∧ is_u64 (c_dep_block c) ∧ is_u64 (c_cp_size c) ∧ is_int64 (c_feepct c).
Record typed_block (fb : fullblock) : Prop := TypedBlock {
  ty_index : is_u64 (fb_duty_index fb);
  ty_number : ∀ n, get_number fb = Ok n → is_u64 n;
  ty_subs : Forall good_sub (ev_subscribe (fb_events fb));
  ty_unsubs : Forall good_unsub (ev_unsubscribe (fb_events fb));
  ty_ether : Forall good_ether (ev_ether_received (fb_events fb)) }.
(** The indices in the pending consolidations told by the beacon node are uint64. *)
Definition typed_env (E : env) : Prop :=
  ∀ slot l, e_cons E slot = Some l → Forall (λ x, is_u64 x.1 ∧ is_u64 x.2) l.
Definition typed_operation (x : operation) : Prop :=
  match x with Process E fb => typed_env E ∧ typed_block fb | Freeze E => True end.

(** ** Hashes, contents, parameters *)

(** SHA-256 has 32 bytes. *)
Definition digest (sha : string → string) : Prop := ∀ x, String.length (sha x) = 32%nat.
(** Equal apart from the recorded hash. *)
Definition same_content (a b : ost) : Prop := set_hash "" a = set_hash "" b.
Definition same_oracle (a b : oracle) : Prop := or_cfg a = or_cfg b ∧ same_content (or_st a) (or_st b).
(** The state was made under this configuration, the fee aside. *)
Record same_params (s : ost) (c : config) : Prop := SameParams {
  sp_network : st_network s = c_network c; sp_pool : st_pool s = c_pool c; sp_fees_addr : st_fees_addr s = c_fees_addr c;
  sp_coll : st_coll s = c_coll c; sp_cp_size : st_cp_size s = c_cp_size c;
  sp_dep_block : st_dep_block s = c_dep_block c; sp_dep_slot : st_dep_slot s = c_dep_slot c }.
(** [fee] is in force at [slot] for a deployment that began with [fee0]: the entry with the greatest slot up to
    [slot], if there is one. *)
Definition fee_in_force (net : string) (fee0 : Z) (slot : N) (fee : Z) : Prop :=
  (fee = fee0 ∧ ∀ k z, fee_schedule net !! k = Some z → (slot < k)%N) ∨
  ∃ k, fee_schedule net !! k = Some fee ∧ (k ≤ slot)%N ∧
    ∀ k' z, fee_schedule net !! k' = Some z → (k' ≤ slot)%N → (k' ≤ k)%N.

(** ** Lives with interruptions *)

(** What happens to a deployment: it processes slots and freezes checkpoints, its hash is asked for (the API does),
    or it saves, is stopped, and a new process with the initial configuration starts from the files. *)
Inductive happening :=
  | Step (x : operation)
  | Rehash
  | Restart (E : env) (save_slot : bool) (onchain : N) (fs : files).
Inductive lives (sha H : string → string) (c0 : config) : oracle → list happening → oracle → Prop :=
| lives_nil o : lives sha H c0 o [] o
| lives_step o x o1 l o2 : evolve H o [x] o1 → lives sha H c0 o1 l o2 → lives sha H c0 o (Step x :: l) o2
| lives_hash o l o2 : lives sha H c0 (Oracle (or_cfg o) (hash_state sha (or_st o))) l o2 → lives sha H c0 o (Rehash :: l) o2
| lives_restart o E b slot fs o1 l o2 : wf_env E →
    (∀ k, is_Some (st_committed (or_st o) !! k) → (k ≤ slot)%N) →
    startup sha H E None (Some slot) (save sha b o fs).2 c0 = Ok o1 → lives sha H c0 o1 l o2 →
    lives sha H c0 o (Restart E b slot fs :: l) o2.
(** The work done, interruptions left out. *)
Definition work (l : list happening) : list operation := omap (λ h, match h with Step x => Some x | _ => None end) l.
