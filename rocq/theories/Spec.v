(** Vocabulary of the theorem statements. It refers to the data types and to the observable functions of the
    oracle (processing a slot, reconciling, saving, …) but not to the helpers that implement them. *)
From Verif Require Export Advance.

(** ** What is assumed of the environment *)

(** The Go runtime visits every entry of a map exactly once, in any order. The beacon node's answer to
    getSetOfValidators is a Go map whose keys are the validators' own indices, and holds exactly the validators
    asked for (GetSetOfValidators, onchain.go:336-379, checks that none is missing; that nothing extra is
    returned is trusted). *)
Record wf_env (E : env) : Prop := WfEnv {
  wf_iter : ∀ m, e_iter E m ≡ₚ map_to_list m;
  wf_vals_nodup : ∀ req slot r, e_vals E req slot = Some r → NoDup r.*1;
  wf_vals_index : ∀ req slot r k v, e_vals E req slot = Some r → (k, v) ∈ r → b_index v = k;
  wf_vals_exact : ∀ req slot r k, e_vals E req slot = Some r → (k ∈ r.*1 ↔ k ∈ req) }.

(** Two oracles that follow the same chain: their Go runtimes may iterate in different orders, but the beacon
    chain gives both the same facts. *)
Record same_chain (E1 E2 : env) : Prop := SameChain {
  sc_vals : ∀ req1 req2 slot, req1 ≡ₚ req2 →
    match e_vals E1 req1 slot, e_vals E2 req2 slot with
    | Some r1, Some r2 => r1 ≡ₚ r2
    | None, None => True
    | _, _ => False
    end;
  sc_cons : ∀ slot, e_cons E1 slot = e_cons E2 slot;
  sc_mask : e_mask E1 = e_mask E2 }.

(** ** Sums *)

(** Sum of [f] over the tracked validators. *)
Definition vsum (f : vinfo → Z) (m : gmap N vinfo) : Z := foldr Z.add 0%Z (f <$> (map_to_list m).*2).

(** Sum of the values of a map of amounts. *)
Definition zsum (m : gmap N Z) : Z := foldr Z.add 0%Z (map_to_list m).*2.

(** Everything the oracle owes. *)
Definition owed (s : ost) : Z := (vsum v_acc (st_vals s) + vsum v_pend (st_vals s) + st_fees s)%Z.

(** Everything the pool has received, as recorded in the audit logs. *)
Definition received (s : ost) : Z :=
  (foldr Z.add 0 (er_amount <$> st_ether s)
   + foldr Z.add 0 (sub_coll <$> st_subs s)
   + foldr Z.add 0 ((λ b, default 0 (sb_reward b)) <$>
                    filter (λ b, sb_reward_type b = VanilaBlock) (st_proposed s)))%Z.

(** ** Sharing *)

(** The validators that take part in sharing. *)
Definition earning (v : vinfo) : Prop := v_status v = Active ∨ v_status v = YellowCard.

Global Instance earning_dec v : Decision (earning v).
Proof. unfold earning. apply _. Defined.

(** The tracked validators that take part in sharing, how many, and the total of a quantity over them. *)
Definition earners (s : ost) : gmap N vinfo := filter (λ kv, earning kv.2) (st_vals s).
Definition n_earners (s : ost) : Z := Z.of_nat (size (earners s)).
Definition earners_total (bal : N → Z) (s : ost) : Z := foldr Z.add 0%Z (bal <$> (map_to_list (earners s)).*1).

(** The forks of each network: slot of fork 1 and slot of Electra, if scheduled. *)
Definition forks : list (string * (N * option N)) :=
  [("mainnet", (10188220%N, Some 11649024%N)); ("hoodi", (1%N, Some 65536%N)); ("holesky", (2720632%N, None))].

(** Which sharing rule applies at a slot. *)
Inductive era (net : string) (slot : N) : method → Prop :=
| era_electra f g : (net, (f, Some g)) ∈ forks → (g ≤ slot)%N → era net slot Electra
| era_fork1 f og : (net, (f, og)) ∈ forks → (f ≤ slot)%N → (∀ g, og = Some g → (slot < g)%N) → era net slot Fork1
| era_pre f og : (net, (f, og)) ∈ forks → (slot < f)%N → era net slot PreFork1.

(** The beacon node reports effective balance [bal i] gwei for validator [i], whatever the request; balances
    fit in an int64 (the real maximum is 2048 ether, about 2^41 gwei). *)
Definition balances (E : env) (slot : N) (bal : N → Z) : Prop :=
  ∀ req r k v, e_vals E req slot = Some r → (k, v) ∈ r →
    bal k = Z.of_N (b_effbal v) ∧ (Z.of_N (b_effbal v) < 9223372036854775808)%Z.
Definition sane_balances (E : env) : Prop :=
  ∀ req slot r k v, e_vals E req slot = Some r → (k, v) ∈ r → (Z.of_N (b_effbal v) < 9223372036854775808)%Z.

(** The pool's cut of an amount. *)
Definition pool_cut (s : ost) (r : Z) : Z := (r * st_feepct s / 10000)%Z.

(** The state after adding [sh i] to the pending rewards of each validator [i] that has an entry in [sh], and
    [part] to the pool fees; nothing else changes. *)
Definition credited (sh : gmap N Z) (part : Z) (s : ost) : ost :=
  set_fees (st_fees s + part) (set_vals
    (map_imap (λ i v, Some (set_pend (v_pend v + default 0%Z (sh !! i)) v)) (st_vals s)) s).

(** ** Executions *)

(** Processing a list of blocks, each in its own environment, without any error. *)
Inductive run : oracle → list (env * fullblock) → oracle → Prop :=
| run_nil o : run o [] o
| run_cons o E fb o1 n l o2 : advance E fb o = Done o1 n → run o1 l o2 → run o ((E, fb) :: l) o2.

(** All environments of an execution are well formed. *)
Definition wf_envs (l : list (env * fullblock)) : Prop := Forall (λ x, wf_env x.1) l.

(** ** What the chain guarantees about a block (hypotheses of the accounting theorem) *)

(** A missed slot carries no ether; when the block's MEV payment went to the pool at most one EtherReceived
    event has that amount; nobody consolidates into themselves. *)
Record wf_block (E : env) (pool : string) (fb : fullblock) : Prop := WfBlock {
  wb_missed : fb_cblock fb = None → ev_ether_received (fb_events fb) = [];
  wb_mev : ∀ r rcp, mev_reward E fb = Ok (r, true, rcp) → equals rcp pool = Ok true →
    (length (filter (λ e, er_amount e = r) (ev_ether_received (fb_events fb))) ≤ 1)%nat;
  wb_cons : ∀ slot l i, e_cons E slot = Some l → (i, i) ∉ l }.

(** All blocks of an execution are sane for the pool. *)
Definition wf_blocks (pool : string) (l : list (env * fullblock)) : Prop := Forall (λ x, wf_block x.1 pool x.2) l.

(** ** Addresses *)

Definition lower_hex_char (c : ascii) : Prop :=
  let n := N_of_ascii c in ((48 ≤ n ∧ n ≤ 57) ∨ (97 ≤ n ∧ n ≤ 102))%N.

(** 0x followed by 40 lowercase hex digits. *)
Definition lower_address (a : string) : Prop :=
  ∃ body, a = "0x" +:+ body ∧ String.length body = 40 ∧ Forall lower_hex_char (list_ascii_of_string body).

(** ** Signs *)

(** No negative amount enters with this block. *)
Record nonneg_block (E : env) (pool : string) (fb : fullblock) : Prop := NonnegBlock {
  nb_subs : Forall (λ x, 0 ≤ sub_coll x)%Z (ev_subscribe (fb_events fb));
  nb_ether : Forall (λ x, 0 ≤ er_amount x)%Z (ev_ether_received (fb_events fb));
  nb_reward : ∀ s b r, summarize E s pool fb = Ok b → sb_reward b = Some r → (0 ≤ r)%Z }.

(** No pending balance is negative. *)
Definition pend_nonneg (s : ost) : Prop := ∀ i v, st_vals s !! i = Some v → (0 ≤ v_pend v)%Z.

(** The part of a validator record that identifies it. *)
Definition same_identity (v v' : vinfo) : Prop :=
  v_index v' = v_index v ∧ v_addr v' = v_addr v ∧ v_key v' = v_key v.

(** The cumulative balance published for address [a]: the accumulated rewards of all validators withdrawing to
    it, whatever the capitalisation. *)
Definition published (a : string) (s : ost) : Z :=
  vsum v_acc (filter (λ kv, to_lower (v_addr kv.2) = to_lower a) (st_vals s)).

(** From fork 1 on, with sane balances and no negative amounts. *)
Definition sound_blocks (net pool : string) (l : list (env * fullblock)) : Prop :=
  Forall (λ x, sane_balances x.1 ∧ nonneg_block x.1 pool x.2 ∧ ¬ era net (fb_duty_slot x.2) PreFork1) l.

(** A record carries its own index and a lowercase withdrawal address. *)
Definition wf_record (i : N) (v : vinfo) : Prop := v_index v = i ∧ lower_address (v_addr v).
Definition wf_records (s : ost) : Prop := ∀ i v, st_vals s !! i = Some v → wf_record i v.

(** Validator [i] is banned. *)
Definition banned (s : ost) (i : N) : Prop := ∃ v, st_vals s !! i = Some v ∧ v_status v = Banned.

(** Nothing that was earned is lost: accumulated rewards and fees only grow, no validator is dropped. *)
Record grows (s s' : ost) : Prop := Grows {
  gr_fees : (st_fees s ≤ st_fees s')%Z;
  gr_old : ∀ i v, st_vals s !! i = Some v → ∃ v', st_vals s' !! i = Some v' ∧ (v_acc v ≤ v_acc v')%Z;
  gr_new : ∀ i v', st_vals s !! i = None → st_vals s' !! i = Some v' → (0 ≤ v_acc v')%Z }.

(** ** Withdrawal credentials *)

(** [k] zero bytes. *)
Definition zeros (k : nat) : string := string_of_list_ascii (repeat (ascii_of_N 0) k).

(** Credentials [c] designate the execution address [a] (20 bytes): one byte 01 or 02, eleven zero bytes, [a]. *)
Definition exec_address (c a : string) : Prop :=
  String.length a = 20%nat ∧
  (c = String (ascii_of_N 1) (zeros 11 +:+ a) ∨ c = String (ascii_of_N 2) (zeros 11 +:+ a)).

(** The 32 bytes of BLS credentials start with 00. *)
Definition bls_creds (c : string) : Prop := String.length c = 32%nat ∧ ∃ r, c = String (ascii_of_N 0) r.

(** ** Subscriptions *)

(** The five statuses a tracked validator can have. *)
Definition known_status (st : vstatus) : Prop :=
  st = Active ∨ st = YellowCard ∨ st = RedCard ∨ st = NotSubscribed ∨ st = Banned.
Definition known_statuses (s : ost) : Prop := ∀ i v, st_vals s !! i = Some v → known_status (v_status v).

(** Validator [i] is subscribed: active or carded. *)
Definition subscribed (s : ost) (i : N) : Prop :=
  ∃ v, st_vals s !! i = Some v ∧ (v_status v = Active ∨ v_status v = YellowCard ∨ v_status v = RedCard).

(** The beacon chain lets a validator join: it is active or waiting for activation. *)
Definition may_join (v : bval) : Prop :=
  b_status v = BActiveOngoing ∨ b_status v = BPendingQueued ∨ b_status v = BPendingInitialized.

(** The sender of a request for a validator owns its withdrawal address. *)
Definition owned_by (val : option bval) (sender : string) : Prop :=
  ∃ v, val = Some v ∧ exec_address (b_creds v) sender.

(** The request is about the validator it came with, and its sender is an address (20 bytes). *)
Definition wf_request (i : N) (sender : string) (val : option bval) : Prop :=
  String.length sender = 20%nat ∧ ∀ v, val = Some v → b_index v = i.

(** Where a deposit goes: the documented decision table. *)
Inductive verdict := ToPool | ToAccumulated | ToPending.
Inductive deposit (s : ost) (i : N) (sender : string) (coll : Z) (val : option bval) : verdict → Prop :=
| dep_stranger : ¬ owned_by val sender → deposit s i sender coll val ToPool
| dep_exiting v : val = Some v → ¬ may_join v → deposit s i sender coll val ToPool
| dep_again v : val = Some v → may_join v → owned_by val sender → subscribed s i ∨ banned s i →
    deposit s i sender coll val ToAccumulated
| dep_poor v : val = Some v → may_join v → owned_by val sender → ¬ subscribed s i → ¬ banned s i → (coll < st_coll s)%Z →
    deposit s i sender coll val ToPool
| dep_ok v : val = Some v → may_join v → owned_by val sender → ¬ subscribed s i → ¬ banned s i → (st_coll s ≤ coll)%Z →
    deposit s i sender coll val ToPending.

(** The state with the record of [i] replaced. *)
Definition with_val (i : N) (v : vinfo) (s : ost) : ost := set_vals (<[i := v]> (st_vals s)) s.

(** What each verdict does to the books: exactly one balance rises, by exactly the deposit. *)
Inductive deposited (s : ost) (i : N) (coll : Z) (val : option bval) : verdict → ost → Prop :=
| ded_pool : deposited s i coll val ToPool (set_fees (st_fees s + coll) s)
| ded_acc w : st_vals s !! i = Some w →
    deposited s i coll val ToAccumulated (with_val i (set_acc (v_acc w + coll) w) s)
| ded_old w : st_vals s !! i = Some w →
    deposited s i coll val ToPending
      (with_val i (set_status Active (set_sub Manual (set_pend (v_pend w + coll) w))) s)
| ded_new v a : st_vals s !! i = None → val = Some v → exec_address (b_creds v) a →
    deposited s i coll val ToPending
      (with_val i (VInfo Active 0 coll coll ("0x" +:+ hex_encode a) i ("0x" +:+ hex_encode (b_pubkey v)) Manual) s).

(** ** Forfeiting *)

(** Validator [i] ends with status [st] and nothing pending; what it had pending is shared exactly between
    other earning validators ([sh]) and the pool ([part]); nothing else changes. *)
Definition forfeited (i : N) (st : vstatus) (s s' : ost) : Prop :=
  ∃ v sh part, st_vals s !! i = Some v ∧ (zsum sh + part)%Z = v_pend v ∧
    (∀ j, is_Some (sh !! j) → j ≠ i ∧ ∃ w, st_vals s !! j = Some w ∧ earning w) ∧
    s' = with_val i (set_status st (set_pend 0 v)) (credited sh part s).

(** No banned validator holds pending rewards. *)
Definition banned_empty (s : ost) : Prop := ∀ i v, st_vals s !! i = Some v → v_status v = Banned → v_pend v = 0%Z.

(** Accumulated rewards of [i], 0 when it is not tracked. *)
Definition acc_of (s : ost) (i : N) : Z := default 0%Z (v_acc <$> st_vals s !! i).

(** ** The state diagram of the specification (spec/states.png in the repository), with the two administrative
    events that the contract added later (ban, unban). Pairs not drawn leave the status as it is. *)
Definition diagram : list (vstatus * vevent * vstatus) :=
  [ (NotSubscribed, ManualSubscription, Active); (NotSubscribed, AutoSubscription, Active);
    (Active, ProposalOk, Active); (Active, ProposalMissed, YellowCard);
    (Active, ProposalWrongFee, Banned); (Active, Unsubscribe, NotSubscribed);
    (YellowCard, ProposalOk, Active); (YellowCard, ProposalMissed, RedCard);
    (YellowCard, ProposalWrongFee, Banned); (YellowCard, Unsubscribe, NotSubscribed);
    (RedCard, ProposalOk, YellowCard); (RedCard, ProposalMissed, RedCard);
    (RedCard, ProposalWrongFee, Banned); (RedCard, Unsubscribe, NotSubscribed);
    (Active, ManualBan, Banned); (YellowCard, ManualBan, Banned); (RedCard, ManualBan, Banned);
    (Banned, ManualUnban, Active) ].

Inductive moves (st : vstatus) (e : vevent) : vstatus → Prop :=
| moves_edge st' : (st, e, st') ∈ diagram → moves st e st'
| moves_stay : (∀ st', (st, e, st') ∉ diagram) → moves st e st.

(** What can make validator [i] move in the slot of block [fb]: an event of that kind for it, its own proposal
    or missed proposal, or the periodic cleanup, which unsubscribes. *)
Definition occurs (fb : fullblock) (i : N) (e : vevent) : Prop :=
  match e with
  | ManualSubscription => ∃ x, x ∈ ev_subscribe (fb_events fb) ∧ sub_id x = i
  | Unsubscribe => (∃ x, x ∈ ev_unsubscribe (fb_events fb) ∧ uns_id x = i) ∨ (fb_duty_slot fb mod 1200 = 0)%N
  | ManualBan => ∃ x, x ∈ ev_bans (fb_events fb) ∧ ban_id x = i
  | ManualUnban => ∃ x, x ∈ ev_unbans (fb_events fb) ∧ ban_id x = i
  | ProposalMissed => fb_duty_index fb = i ∧ fb_cblock fb = None
  | ProposalOk | AutoSubscription | ProposalWrongFee => fb_duty_index fb = i ∧ fb_cblock fb ≠ None
  | UnknownEvent => False
  end.

(** The status of [i]; a validator that is not tracked counts as not subscribed. *)
Definition status (s : ost) (i : N) : vstatus := default NotSubscribed (v_status <$> st_vals s !! i).

(** ** What a block paid *)

(** [str] is the hex form of the 20 bytes [a], in any capitalisation. *)
Definition names (a str : string) : Prop := String.length a = 20%nat ∧ to_lower str = "0x" +:+ hex_encode a.

(** [p] is the execution payload of the block. *)
Definition payload_of (fb : fullblock) (p : payload) : Prop :=
  ∃ c, fb_cblock fb = Some c ∧ cb_version c ≠ VEmpty ∧ cb_version c ≠ VAltair ∧ p = cb_payload c.

(** Every address in the block has 20 bytes. *)
Record addrs20 (fb : fullblock) : Prop := Addrs20 {
  a20_fee : ∀ p, payload_of fb p → String.length (p_fee_recipient p) = 20%nat;
  a20_to : ∀ p t a, payload_of fb p → Some t ∈ p_txs p → tx_to t = Some a → String.length a = 20%nat;
  a20_from : ∀ p t a, payload_of fb p → Some t ∈ p_txs p → tx_sender t = Some a → String.length a = 20%nat;
  a20_log : ∀ e, e ∈ ev_ether_received (fb_events fb) → String.length (l_addr (er_log e)) = 20%nat }.

(** Not the one mainnet block with a hard-coded reward (block.go:30-33). *)
Definition ordinary (fb : fullblock) : Prop :=
  fb_chain fb = 1%N → ∀ c, fb_cblock fb = Some c → cb_slot c ≠ 10400574%N.

(** The one builder whose address is accepted although it is not the fee recipient (mainnet only). *)
Definition builder (chain : N) (a : string) : Prop :=
  chain = 1%N ∧ names a "0xae0A3D884E746599BD6C893a674E556C36a47f1e".

(** Address [a] received the block's MEV payment of [r] wei: the last transaction of the block is sent by the
    block's fee recipient or by the accepted builder, carries [r], and goes to [a]; when the pool contract logged
    an EtherReceived of that amount, its emitter counts as the receiver. *)
Definition receiver (evs : list ev_ether) (r : Z) (dst a : string) : Prop :=
  (∃ l1 e l2, evs = l1 ++ e :: l2 ∧ er_amount e = r ∧ (∀ x, x ∈ l1 → er_amount x ≠ r) ∧ a = l_addr (er_log e)) ∨
  ((∀ x, x ∈ evs → er_amount x ≠ r) ∧ a = dst).
Definition mev_payment (fb : fullblock) (r : Z) (a : string) : Prop :=
  ∃ p t l snd dst, payload_of fb p ∧ p_txs p = l ++ [Some t] ∧ tx_sender t = Some snd ∧ tx_to t = Some dst ∧
    (snd = p_fee_recipient p ∨ builder (fb_chain fb) snd) ∧ tx_value t = r ∧
    receiver (ev_ether_received (fb_events fb)) r dst a.

(** The block paid the pool: by its MEV payment, or by its fee recipient if it makes no MEV payment. *)
Definition paid_pool (pool20 : string) (fb : fullblock) : Prop :=
  (∃ r, mev_payment fb r pool20) ∨
  ((∀ r a, ¬ mev_payment fb r a) ∧ ∃ p, payload_of fb p ∧ p_fee_recipient p = pool20).

(** ** Priority fees *)

(** The price a transaction paid per gas, given the block's base fee. *)
Definition gas_price (base : Z) (t : tx) : Z :=
  if (tx_type t <=? 1)%N then tx_gas_price t else Z.min (tx_tip_cap t + base) (tx_fee_cap t).

(** Value of little-endian bytes. *)
Definition le_value (l : list N) : Z := foldr (λ x a, Z.of_N x + 256 * a)%Z 0%Z l.

(** [base] is the base fee per gas recorded in the block: bytes before Deneb, a 256-bit number since. *)
Definition base_fee_of (c : cblock) (base : Z) : Prop :=
  ((cb_version c = VBellatrix ∨ cb_version c = VCapella) ∧ base = le_value (p_base_le (cb_payload c))) ∨
  ((cb_version c = VDeneb ∨ cb_version c = VElectra ∨ cb_version c = VFulu) ∧
   base = Z.of_N (p_base_u256 (cb_payload c)) ∧ (p_base_u256 (cb_payload c) < 2 ^ 256)%N).

(** The proposer's tips: what transactions paid above the base fee. *)
Definition tips (base : Z) (txs : list tx) (rs : list receipt) : Z :=
  foldr Z.add 0%Z (zip_with (λ t r, (gas_price base t - base) * Z.of_N (rc_gas r))%Z txs rs).

(** A block with its header and receipts, as the execution client serves them: the header repeats the base fee,
    receipts match transactions one to one, all transaction types are known, gas adds up and fits. *)
Record complete_block (fb : fullblock) (base : Z) (txs : list tx) (rs : list receipt) : Prop := CompleteBlock {
  co_block : ∃ c h, fb_cblock fb = Some c ∧ base_fee_of c base ∧ p_txs (cb_payload c) = Some <$> txs ∧
    fb_header fb = Some h ∧ h_base_fee h = base ∧ fb_receipts fb = Some rs ∧
    Z.of_N (p_gas_used (cb_payload c)) = foldr Z.add 0%Z ((λ r, Z.of_N (rc_gas r)) <$> rs);
  co_match : Forall2 (λ t r, tx_hash t = rc_tx r ∧ (tx_type t ≤ 4)%N) txs rs;
  co_small : (foldr Z.add 0 ((λ r, Z.of_N (rc_gas r)) <$> rs) < 9223372036854775808)%Z }.

(** ** Contract parameters *)

(** The fee schedule of each network: from this slot on, this fee. *)
Definition schedule : list (string * N * Z) := [("mainnet", 14082460%N, 500%Z); ("hoodi", 2801050%N, 500%Z)].

(** The parameters other than the fee that a block announces, at most once each, are the configured ones. *)
Record announces (c : config) (ev : events) : Prop := Announces {
  an_one : (length (ev_fee_recipient ev) ≤ 1 ∧ length (ev_checkpoint_size ev) ≤ 1 ∧ length (ev_collateral ev) ≤ 1)%nat;
  an_recipient : ∀ a l, (a, l) ∈ ev_fee_recipient ev → names a (c_fees_addr c);
  an_size : ∀ n l, (n, l) ∈ ev_checkpoint_size ev → n = c_cp_size c;
  an_coll : ∀ z l, (z, l) ∈ ev_collateral ev → z = c_coll c }.

(** The same block without those announcements. *)
Definition without_params (fb : fullblock) : fullblock :=
  let e := fb_events fb in
  FullBlock (fb_duty_slot fb) (fb_duty_index fb) (fb_duty_pubkey fb) (fb_validator fb) (fb_cblock fb) (fb_header fb) (fb_receipts fb)
    (Events (ev_ether_received e) (ev_subscribe e) (ev_unsubscribe e) (ev_pool_fee e) [] [] [] (ev_bans e) (ev_unbans e) (ev_others e))
    (fb_subs fb) (fb_unsubs fb) (fb_chain fb).

(** The oracle with another fee, in both places where it is kept. *)
Definition with_fee (z : Z) (o : oracle) : oracle := Oracle (cset_feepct z (or_cfg o)) (set_feepct z (or_st o)).

(** A block without any event that concerns validators or money. *)
Definition quiet (fb : fullblock) : Prop :=
  let e := fb_events fb in
  ev_ether_received e = [] ∧ ev_subscribe e = [] ∧ ev_unsubscribe e = [] ∧ ev_pool_fee e = [] ∧ ev_bans e = [] ∧ ev_unbans e = [].

(** The block number the counters show after a slot. *)
Definition shown_block (fb : fullblock) (old : N) : N :=
  match fb_cblock fb with None => old | Some c => p_number (cb_payload c) end.

(** Where the record [b] of a slot is filed: lists of proposed, missed and wrong-fee blocks. *)
Inductive filed (pool20 : string) (fb : fullblock) (s : ost) (b : sblock) : list sblock → list sblock → list sblock → Prop :=
| filed_paid : fb_cblock fb ≠ None → paid_pool pool20 fb → filed pool20 fb s b [b] [] []
| filed_missed : fb_cblock fb = None → subscribed s (fb_duty_index fb) → filed pool20 fb s b [] [b] []
| filed_wrong : fb_cblock fb ≠ None → ¬ paid_pool pool20 fb → subscribed s (fb_duty_index fb) → filed pool20 fb s b [] [] [b]
| filed_nowhere : fb_cblock fb = None ∨ ¬ paid_pool pool20 fb → ¬ subscribed s (fb_duty_index fb) → filed pool20 fb s b [] [] [].

(** ** Blocks that are always processed *)

(** The beacon node answers every question; no validator it reports has a zero effective balance (or one beyond
    int64); and consolidations go to validators with execution credentials, as the beacon chain requires. *)
Record responsive (E : env) : Prop := Responsive {
  re_vals : ∀ req slot, e_vals E req slot ≠ None;
  re_cons : ∀ slot, e_cons E slot ≠ None;
  re_balance : ∀ req slot r k v, e_vals E req slot = Some r → (k, v) ∈ r → (0 < b_effbal v < 9223372036854775808)%N;
  re_target : ∀ slot l a t req r v, e_cons E slot = Some l → (a, t) ∈ l → e_vals E req slot = Some r → (t, v) ∈ r →
    ∃ w, exec_address (b_creds v) w }.

(** All logs of a block carry its number. *)
Definition same_number (bn : N) (ev : events) : Prop :=
  Forall (λ x, l_block (er_log x) = bn) (ev_ether_received ev) ∧
  Forall (λ x, l_block (sub_log x) = bn) (ev_subscribe ev) ∧
  Forall (λ x, l_block (uns_log x) = bn) (ev_unsubscribe ev) ∧
  Forall (λ x, l_block (ban_log x) = bn) (ev_bans ev) ∧
  Forall (λ x, l_block (ban_log x) = bn) (ev_unbans ev).

(** A block as honest nodes serve it to an oracle configured with [c]: either missed, or complete with its
    transactions decoded and, if it paid the pool by MEV, with the contract's event; every request comes with the
    validator it is about; contract parameters are as configured and the fee changes as scheduled. *)
Record served (c : config) (pool20 : string) (fb : fullblock) : Prop := Served {
  se_creds : String.length (b_creds (fb_validator fb)) = 32%nat;
  se_chain : fb_chain fb ∈ [1; 17000; 560048]%N;
  se_block : fb_cblock fb = None ∨ ∃ base txs rs, complete_block fb base txs rs ∧ Forall (λ t, is_Some (tx_sender t)) txs;
  se_mev : ∀ r, mev_payment fb r pool20 → ∃ e, e ∈ ev_ether_received (fb_events fb) ∧ er_amount e = r;
  se_subs : Forall2 (λ x v, wf_request (sub_id x) (sub_sender x) v) (ev_subscribe (fb_events fb)) (fb_subs fb);
  se_unsubs : Forall2 (λ x v, wf_request (uns_id x) (uns_sender x) v) (ev_unsubscribe (fb_events fb)) (fb_unsubs fb);
  se_number : ∃ bn, same_number bn (fb_events fb);
  se_params : announces c (fb_events fb);
  se_fee : ev_pool_fee (fb_events fb) = [] ∨
    ∃ z l, ev_pool_fee (fb_events fb) = [(z, l)] ∧ (c_network c, fb_duty_slot fb, z) ∈ schedule }.

(** The oracle waits for this slot, knows its network, has passed fork 1, has a fee between 0 and 100%, and no
    validator has negative pending rewards. *)
Record ready (o : oracle) (slot : N) : Prop := Ready {
  rd_slot : st_next (or_st o) = slot;
  rd_latest : st_next (or_st o) = u64_add (st_latest (or_st o)) 1;
  rd_era : era (c_network (or_cfg o)) slot Fork1 ∨ era (c_network (or_cfg o)) slot Electra;
  rd_fee : (0 ≤ st_feepct (or_st o) ≤ 10000)%Z;
  rd_addr : ∃ f20, names f20 (c_fees_addr (or_cfg o));
  rd_pend : pend_nonneg (or_st o) }.

(** One slot of a chain followed through honest nodes, for an oracle configured with [c]. *)
Record good_slot (c : config) (pool20 : string) (E : env) (fb : fullblock) : Prop := GoodSlot {
  gs_env : wf_env E; gs_node : responsive E;
  gs_addrs : addrs20 fb; gs_ordinary : ordinary fb; gs_served : served c pool20 fb; gs_signs : nonneg_block E (c_pool c) fb;
  gs_era : era (c_network c) (fb_duty_slot fb) Fork1 ∨ era (c_network c) (fb_duty_slot fb) Electra }.

(** Consecutive slots starting at [slot]. *)
Fixpoint consecutive (slot : N) (l : list (env * fullblock)) : Prop :=
  match l with [] => True | x :: l => fb_duty_slot x.2 = slot ∧ consecutive (slot + 1) l end.

(** ** Cleanup *)

(** The beacon chain reports the validator as active. *)
Definition on_duty (v : bval) : Prop :=
  b_status v = BActiveOngoing ∨ b_status v = BActiveExiting ∨ b_status v = BActiveSlashed.
Global Instance on_duty_dec v : Decision (on_duty v).
Proof. unfold on_duty. apply _. Defined.

(** The tracked validators that the answer [r] reports as not active and that have pending rewards. *)
Definition gone (r : list (N * bval)) (s : ost) : gmap N vinfo :=
  filter (λ kv, Exists (λ x, x.1 = kv.1 ∧ ¬ on_duty x.2) r ∧ v_pend kv.2 ≠ 0%Z) (st_vals s).

(** The validator that [i] consolidates into: the last entry for [i] in the beacon chain's list. *)
Definition target (pcs : list (N * N)) (i : N) : option N := snd <$> last (filter (λ c, c.1 = i) pcs).

(** Rewards that reach [t] by consolidation, and rewards that are shared again: those of validators that do not
    consolidate, or consolidate into a banned validator. *)
Definition inflow (pcs : list (N * N)) (r : list (N * bval)) (s : ost) (t : N) : Z :=
  vsum v_pend (filter (λ kv, target pcs kv.1 = Some t) (gone r s)).
Definition left_over (pcs : list (N * N)) (r : list (N * bval)) (s : ost) : Z :=
  vsum v_pend (filter (λ kv, target pcs kv.1 = None ∨ status s <$> target pcs kv.1 = Some Banned) (gone r s)).

(** The state after moving the pending rewards of inactive validators, before sharing what is left over. *)
Record cleaned (E : env) (slot : N) (pcs : list (N * N)) (r : list (N * bval)) (s s1 : ost) : Prop := Cleaned {
  cl_gone : ∀ i v, gone r s !! i = Some v →
    ∃ st, st_vals s1 !! i = Some (set_pend 0 (set_status st v)) ∧ moves (v_status v) Unsubscribe st;
  cl_kept : ∀ i v, st_vals s !! i = Some v → gone r s !! i = None → v_status v ≠ Banned →
    st_vals s1 !! i = Some (set_pend (v_pend v + inflow pcs r s i) v);
  cl_banned : ∀ i v, st_vals s !! i = Some v → gone r s !! i = None → v_status v = Banned → st_vals s1 !! i = Some v;
  cl_new : ∀ i j v, st_vals s !! i = None → gone r s !! j = Some v → target pcs j = Some i →
    ∃ resp tv w, e_vals E [i] slot = Some resp ∧ (i, tv) ∈ resp ∧ exec_address (b_creds tv) w ∧
      st_vals s1 !! i = Some (VInfo NotSubscribed 0 (inflow pcs r s i) 0 ("0x" +:+ hex_encode w) i ("0x" +:+ hex_encode (b_pubkey tv)) Manual);
  cl_none : ∀ i, st_vals s !! i = None → (∀ j v, gone r s !! j = Some v → target pcs j ≠ Some i) → st_vals s1 !! i = None;
  cl_rest : s1 = set_vals (st_vals s1) s }.

(** No consolidation leads to a validator that is reported inactive. *)
Definition unchained (pcs : list (N * N)) (r : list (N * bval)) : Prop :=
  ∀ i t v, (i, t) ∈ pcs → (t, v) ∈ r → on_duty v.

(** The same, whenever the oracle asks. *)
Definition settled (E : env) : Prop :=
  ∀ slot pcs req r, e_cons E slot = Some pcs → e_vals E req slot = Some r → unchained pcs r.

(** Two oracles process the same blocks, each with its own node and Go runtime. *)
Definition same_history (l1 l2 : list (env * fullblock)) : Prop :=
  Forall2 (λ x y, same_chain x.1 y.1 ∧ x.2 = y.2) l1 l2.

(** The consolidations the oracle acts on: none before Electra. *)
Definition acts_on (E : env) (slot : N) (og : option N) (pcs : list (N * N)) : Prop :=
  match og with
  | Some g => if decide (slot < g)%N then pcs = [] else e_cons E slot = Some pcs
  | None => e_cons E slot = Some pcs
  end.

(** The beacon node reports the same facts about a validator whatever the request. *)
Definition steady (E : env) (slot : N) : Prop :=
  ∀ req1 req2 r1 r2 k v1 v2, e_vals E req1 slot = Some r1 → e_vals E req2 slot = Some r2 →
    (k, v1) ∈ r1 → (k, v2) ∈ r2 → v1 = v2.
