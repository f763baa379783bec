(** Vocabulary of the theorems about the HTTP service. *)
From Verif Require Export MerkleSpec Api.

(** ** Texts *)

(** One of 0-9, a-f, A-F; one of 0-9. *)
Definition hex_char (c : ascii) : Prop := c ∈ list_ascii_of_string "0123456789abcdefABCDEF".
Definition dec_char (c : ascii) : Prop := c ∈ list_ascii_of_string "0123456789".
(** 0x followed by [n] hex digits. *)
Definition hex_text (n : nat) (v : string) : Prop :=
  ∃ body, v = "0x" +:+ body ∧ String.length body = n ∧ Forall hex_char (list_ascii_of_string body).
(** A non-empty text of decimal digits, and its value. *)
Definition dec_text (v : string) : Prop := v ≠ "" ∧ Forall dec_char (list_ascii_of_string v).
Definition dec_value (v : string) : N := fold_left (λ a c, 10 * a + (N_of_ascii c - 48))%N (list_ascii_of_string v) 0%N.

(** ** What an endpoint needs *)

(** All subscribed validators hold a red card, and there is one. *)
Definition only_red (s : ost) : Prop :=
  (∃ i, subscribed s i) ∧ ∀ i v, st_vals s !! i = Some v → ¬ earning v.

(** A validator whose subscription was just seen is missing from the map of beacon validators, although it is tracked and
    the deposit comes from its owner. *)
Definition unknown_subscriber (w : wire) (o : oracle) : Prop :=
  ∃ subs e v, w_subs w (u64_add (st_latest_block (or_st o)) 1) = Some subs ∧ e ∈ subs ∧
    st_vals (or_st o) !! sub_id e = Some v ∧ beacon w !! sub_id e = None.

(** When a request may stay without an answer. *)
Definition trouble (r : request) (w : wire) (o : oracle) : Prop :=
  match r with
  | GetStatistics => only_red (or_st o)
  | GetByWithdrawal _ => unknown_subscriber w o
  | GetStatus => w_sync w = SyncNothing
  | _ => False
  end.

(** Senders and fee recipients are addresses, of 20 bytes; entries of the validators map are under their own index. *)
Record wf_wire (w : wire) : Prop := WfWire {
  ww_subs : ∀ n l e, w_subs w n = Some l → e ∈ l → String.length (sub_sender e) = 20%nat;
  ww_unsubs : ∀ n l e, w_unsubs w n = Some l → e ∈ l → String.length (uns_sender e) = 20%nat;
  ww_relays : ∀ name f, (name, RelayFee f) ∈ w_relays w → String.length f = 20%nat;
  ww_beacon : ∀ i b, beacon w !! i = Some b → b_index b = i }.

(** The endpoints that only answer when the oracle keeps up with the chain. *)
Definition guarded (r : request) : Prop :=
  match r with GetStatistics | GetValidators | GetValidator _ | GetByWithdrawal _ | GetProof _ => True | _ => False end.
(** The oracle is at most 64 slots behind the finalized slot, and not ahead of it. *)
Definition keeps_up (w : wire) (s : ost) : Prop := ∃ f, w_final w = Some f ∧ (st_latest s ≤ f ≤ st_latest s + 64)%N.

(** ** Answers *)

(** What the oracle will say about a validator, in the words of the API: untracked if it has no record. *)
Definition shown (s : ost) (i : N) : vstatus := default Untracked (v_status <$> st_vals s !! i).

(** What a validator has pending; nothing if it has no record. *)
Definition pending_at (s : ost) (i : N) : Z := default 0%Z (v_pend <$> st_vals s !! i).

(** The beacon validators that withdraw to the 20 bytes [a]. *)
Definition withdrawing (bs : gmap N bval) (a : string) (i : N) : Prop :=
  ∃ b, bs !! i = Some b ∧ exec_address (b_creds b) a.

(** The validators map knows every tracked validator, with the withdrawal address that the oracle has on record. *)
Definition up_to_date (bs : gmap N bval) (s : ost) : Prop :=
  (∀ i b, bs !! i = Some b → b_index b = i) ∧
  ∀ i v, st_vals s !! i = Some v → ∃ a, withdrawing bs a i ∧ v_addr v = "0x" +:+ hex_encode a.

(** A slot in which validators only ask to join or to leave (and ether may arrive): nobody is banned or unbanned, no
    periodic cleanup, and the block does not pay the pool. [bs] are the validators of the beacon chain. *)
Record only_requests (pool20 : string) (bs : gmap N bval) (fb : fullblock) : Prop := OnlyRequests {
  oq_bans : ev_bans (fb_events fb) = [] ∧ ev_unbans (fb_events fb) = [];
  oq_slot : (fb_duty_slot fb mod 1200 ≠ 0)%N;
  oq_paid : ¬ paid_pool pool20 fb;
  oq_addrs : addrs20 fb; oq_ordinary : ordinary fb;
  oq_subs : fb_subs fb = (λ e, bs !! sub_id e) <$> ev_subscribe (fb_events fb);
  oq_unsubs : fb_unsubs fb = (λ e, bs !! uns_id e) <$> ev_unsubscribe (fb_events fb);
  oq_senders : Forall (λ e, String.length (sub_sender e) = 20%nat) (ev_subscribe (fb_events fb)) ∧
    Forall (λ e, String.length (uns_sender e) = 20%nat) (ev_unsubscribe (fb_events fb)) }.

(** The requests in a list of blocks. *)
Definition all_subs (l : list (env * fullblock)) : list ev_sub := l ≫= λ x, ev_subscribe (fb_events x.2).
Definition all_unsubs (l : list (env * fullblock)) : list ev_unsub := l ≫= λ x, ev_unsubscribe (fb_events x.2).

(** None of the proposers of these blocks is subscribed in [s], and none asks to join in them. *)
Definition outsiders (s : ost) (l : list (env * fullblock)) : Prop :=
  ∀ x, x ∈ l → ¬ subscribed s (fb_duty_index x.2) ∧ ∀ e, e ∈ all_subs l → sub_id e ≠ fb_duty_index x.2.

(** The block numbers on the events rise from block to block, starting above [n]. *)
Inductive rising : N → list (env * fullblock) → Prop :=
| rising_nil n : rising n []
| rising_idle n x l : ev_subscribe (fb_events x.2) = [] → ev_unsubscribe (fb_events x.2) = [] → rising n l → rising n (x :: l)
| rising_next n k x l : (n < k)%N →
    Forall (λ e, l_block (sub_log e) = k) (ev_subscribe (fb_events x.2)) →
    Forall (λ e, l_block (uns_log e) = k) (ev_unsubscribe (fb_events x.2)) → rising k l → rising n (x :: l).

(** Number of validators with a status. *)
Definition with_status (st : vstatus) (s : ost) : N := N.of_nat (size (filter (λ kv, v_status kv.2 = st) (st_vals s))).

(** The effective balance that a validator counts with: none unless it is active or carded and on the beacon chain. *)
Definition effective (bs : gmap N bval) (v : vinfo) : Z :=
  match v_status v with
  | Active | YellowCard | RedCard => default 0%Z ((λ b, Z.of_N (b_effbal b)) <$> bs !! v_index v)
  | _ => 0%Z
  end.

(** After an optional bound. *)
Definition after_bound (from : option N) (n : N) : Prop := match from with None => True | Some k => (k < n)%N end.
Global Instance after_bound_dec from n : Decision (after_bound from n).
Proof. destruct from; cbn; apply _. Defined.
(** The blocks that pool validators proposed after slot [from], and rewards of blocks. *)
Definition pool_blocks (from : option N) (s : ost) : list sblock :=
  filter (λ b, sb_type b = OkPoolProposal ∧ after_bound from (sb_slot b)) (st_proposed s).
Definition rewards_of (l : list sblock) : list Z := (λ b, default 0%Z (sb_reward b)) <$> l.
(** The donations logged after block [from]. *)
Definition donated_after (from : option N) (s : ost) : list Z :=
  er_amount <$> filter (λ e, after_bound from (l_block (er_log e))) (st_donations s).
Definition sum_of (l : list Z) : Z := foldr Z.add 0%Z l.

(** The text asks for these validators: their indices in decimal, separated by commas. *)
Definition asks (v : string) (is : list N) : Prop :=
  is ≠ [] ∧ ∃ ts, v = String.concat "," ts ∧ Forall2 (λ t i, dec_text t ∧ dec_value t = i ∧ (i < 2 ^ 64)%N) ts is.

(** The view of a tracked validator that the beacon chain knows. *)
Definition tracked_view (bs : gmap N bval) (s : ost) (i : N) (x : view) : Prop :=
  st_vals s !! i = Some (vw_info x) ∧ bs !! i = Some (vw_beacon x).

(** Views ordered by index, each validator once. *)
Definition by_rising_index (l : list view) : Prop :=
  StronglySorted (λ a b, v_index (vw_info a) < v_index (vw_info b))%N l.

(** The endpoints that show a part of the books as it is: the pool's fee, recipient and fees; the recorded blocks (all of
    them: paid, then missed, then with a wrong fee recipient); the donations; the configuration; and the whole state,
    whose own field holds the hash of its other fields. *)
Inductive reads (sha : string → string) (o : oracle) : request → body → Prop :=
| reads_fees : reads sha o GetFees (BFees (st_feepct (or_st o)) (st_fees_addr (or_st o)) (st_fees (or_st o)))
| reads_all : reads sha o GetAllBlocks (BBlocks (st_proposed (or_st o) ++ st_missed (or_st o) ++ st_wrong (or_st o)))
| reads_proposed : reads sha o GetProposed (BBlocks (st_proposed (or_st o)))
| reads_missed : reads sha o GetMissed (BBlocks (st_missed (or_st o)))
| reads_wrong : reads sha o GetWrongFee (BBlocks (st_wrong (or_st o)))
| reads_donations : reads sha o GetDonations (BDonations (st_donations (or_st o)))
| reads_config : reads sha o GetConfig (BConfig (or_cfg o))
| reads_state s : st_hash s = "0x" +:+ hex_encode (sha (marshal (set_hash "" (or_st o)))) → set_hash "" s = set_hash "" (or_st o) →
    reads sha o GetState (BState s).
(** These requests. *)
Definition plain_read (r : request) : Prop :=
  r ∈ [GetFees; GetAllBlocks; GetProposed; GetMissed; GetWrongFee; GetDonations; GetConfig; GetState].
