(** Proofs of C82 and C83. *)
From Verif Require Export AbiSpec.
From Verif Require Import CheckpointProofs OnchainProofs.

(** ** Words *)
Lemma word_number_value w : word_number w = be_value w.
Proof. done. Qed.
Lemma substring_app w r : substring 0 (String.length w) (w +:+ r) = w.
Proof. induction w as [|c w IH]; [by destruct r|]. change ((String c w) +:+ r) with (String c (w +:+ r)). cbn [substring String.length]. by rewrite IH. Qed.
Lemma address_word_length a w : address_word a w → String.length w = 32%nat.
Proof. intros [Ha ->]. rewrite string_length_app, Ha. done. Qed.
Lemma address_word_read a w : address_word a w → sdrop 12 w = a.
Proof. intros [Ha ->]. exact (sdrop_app (String.concat "" (replicate 12 (String zero ""))) a). Qed.
Lemma unpack_word p ps w r : String.length w = 32%nat →
  unpack (p :: ps) (w +:+ r) = (v ← read_param p w; vs ← unpack ps r; Some (v :: vs)).
Proof.
  intros Hw. cbn [unpack]. rewrite string_length_app, Hw. destruct (Nat.ltb_spec (32 + String.length r) 32); [lia|].
  rewrite <- Hw, substring_app, sdrop_app. done.
Qed.
Lemma unpack_last p w : String.length w = 32%nat → unpack [p] w = (v ← read_param p w; Some [v]).
Proof. intros Hw. rewrite <- (string_app_nil_r w) at 1. by rewrite unpack_word. Qed.
Lemma read_address a w : address_word a w → read_param PAddress w = Some (VAddress a).
Proof. intros Ha. unfold read_param. by rewrite (address_word_read a w). Qed.
Lemma read_uint256 z w : uint256_word z w → read_param PUint256 w = Some (VBig z).
Proof. intros [Hz [_ Hw]]. unfold read_param. rewrite word_number_value, Hw, Z2N.id; [done|]. apply Hz. Qed.
Lemma read_uint64 n w : uint64_word n w → read_param PUint64 w = Some (VUint64 n).
Proof. intros [Hn [_ Hw]]. unfold read_param. cbv zeta. rewrite word_number_value, Hw. destruct (N.ltb_spec n two64); [done|]. unfold is_u64 in Hn. lia. Qed.
Lemma uint256_word_length z w : uint256_word z w → String.length w = 32%nat. Proof. by intros [_ [? _]]. Qed.
Lemma uint64_word_length z w : uint64_word z w → String.length w = 32%nat. Proof. by intros [_ [? _]]. Qed.
Ltac words := repeat first
  [ erewrite unpack_word by eauto using address_word_length, uint256_word_length, uint64_word_length
  | erewrite unpack_last by eauto using address_word_length, uint256_word_length, uint64_word_length
  | erewrite read_address by eassumption | erewrite read_uint256 by eassumption | erewrite read_uint64 by eassumption ].

(** ** Logs *)
Definition value_of (e : emitted) : list aval :=
  match e with
  | EEther a z => [VAddress a; VBig z] | ESub a z i => [VAddress a; VBig z; VUint64 i] | EUnsub a i => [VAddress a; VUint64 i]
  | EFee z => [VBig z] | ERecipient a => [VAddress a] | ESize n => [VUint64 n] | EColl z => [VBig z] | EBan i => [VUint64 i] | EUnban i => [VUint64 i]
  end.
Definition kind_of (e : emitted) : kind :=
  match e with
  | EEther _ _ => KEther | ESub _ _ _ => KSub | EUnsub _ _ => KUnsub | EFee _ => KFee | ERecipient _ => KRecipient
  | ESize _ => KSize | EColl _ => KColl | EBan _ => KBan | EUnban _ => KUnban
  end.
Global Instance kind_eq : EqDecision kind.
Proof. solve_decision. Defined.
Lemma logged_kind e k d : logged e k d → k = kind_of e.
Proof. by destruct 1. Qed.
Lemma logged_unpack e k d : logged e k d → unpack (params k) d = Some (value_of e).
Proof. destruct 1; cbn [params]; words; done. Qed.
Lemma logged_data e k d : logged e k d → String.eqb d "" = false.
Proof.
  intros Hl. destruct (String.eqb_spec d "") as [->|]; [|done]. apply logged_unpack in Hl. destruct k; discriminate.
Qed.
Lemma unpack_event H e k l : logged e k (l_data l) → l_topics l = [H (signature k)] → unpack_log H k l = Some (value_of e).
Proof.
  intros Hl Ht. unfold unpack_log. rewrite Ht, String.eqb_refl. cbn [negb]. rewrite (logged_data e k) by done. by apply logged_unpack.
Qed.

Lemma word_split (n : nat) : ∀ d, (n ≤ String.length d)%nat → d = substring 0 n d +:+ sdrop n d ∧ String.length (substring 0 n d) = n.
Proof.
  induction n as [|n IH]; intros d Hd; [by destruct d|]. destruct d as [|c d]; cbn in Hd; [lia|]. destruct (IH d) as [H1 H2]; [lia|].
  cbn [substring sdrop String.length]. split; [|by rewrite H2]. change (String c (substring 0 n d) +:+ sdrop n d) with (String c (substring 0 n d +:+ sdrop n d)). by rewrite <-H1.
Qed.
Lemma be_value_bound w : (be_value w < 256 ^ N.of_nat (String.length w))%N.
Proof.
  rewrite <- length_list_ascii. unfold be_value. induction (list_ascii_of_string w) as [|c l IH] using rev_ind; [done|].
  rewrite fold_left_app, app_length. cbn [fold_left length]. rewrite Nat.add_1_r, Nat2N.inj_succ, N.pow_succ_r'. pose proof (N_of_ascii_lt c). lia.
Qed.
Lemma read_holds p v w : String.length w = 32%nat → read_param p w = Some v ↔ holds p v w.
Proof.
  intros Hw. split.
  - destruct p; unfold read_param; cbv zeta.
    + intros [= <-]. destruct (word_split 12 w) as [H1 H2]; [lia|]. rewrite H1 at 2. apply holds_address; [done|]. assert (String.length (substring 0 12 w +:+ sdrop 12 w) = 32%nat) as Hx by by rewrite <-H1.
      rewrite string_length_app, H2 in Hx. lia.
    + intros [= <-]. apply holds_big. split; [|split; [done|by rewrite N2Z.id]]. pose proof (be_value_bound w) as Hb. rewrite Hw in Hb. split; [lia|].
      change (2 ^ 256)%Z with (Z.of_N (256 ^ N.of_nat 32)). rewrite word_number_value. lia.
    + destruct (N.ltb_spec (word_number w) two64) as [Hlt|]; [|done]. intros [= <-]. apply holds_uint64. by split.
  - destruct 1 as [q a Hq Ha|z w Hz|n w Hn]; [|by apply read_uint256|by apply read_uint64]. unfold read_param. rewrite <-Hq. by rewrite sdrop_app.
Qed.
Lemma holds_length p v w : holds p v w → String.length w = 32%nat.
Proof. destruct 1 as [q a Hq Ha|z w Hz|n w Hn]; [by rewrite string_length_app, Hq, Ha|by eapply uint256_word_length|by eapply uint64_word_length]. Qed.
Lemma unpack_holds ps : ∀ d vs, unpack ps d = Some vs ↔ holds_all ps vs d.
Proof.
  induction ps as [|p ps IH]; intros d vs; cbn [unpack].
  - split; [intros [= <-]; constructor|]. intros Hx. by inversion Hx.
  - destruct (Nat.ltb_spec (String.length d) 32) as [Hlt|Hge]; split.
    + done.
    + inversion 1 as [|? v w ? vs' r Hh Hr]. subst. apply holds_length in Hh. rewrite string_length_app in Hlt. lia.
    + destruct (word_split 32 d Hge) as [H1 H2]. destruct (read_param p (substring 0 32 d)) as [v|] eqn:Hv; [|done]. cbn [mbind option_bind].
      destruct (unpack ps (sdrop 32 d)) as [vs'|] eqn:Hu; [|done]. intros [= <-]. rewrite H1. constructor; [by apply read_holds|by apply IH].
    + inversion 1 as [|? v w ? vs' r Hh Hr E1 E2 E3]. subst. pose proof (holds_length _ _ _ Hh) as Hw.
      rewrite <-Hw, substring_app, sdrop_app. apply (read_holds _ _ _ Hw) in Hh as ->. apply IH in Hr as ->. done.
Qed.
Lemma unpack_log_iff H k l vs : unpack_log H k l = Some vs ↔ l_topics l = [H (signature k)] ∧
  (l_data l = "" ∧ vs = zero_value <$> params k ∨ l_data l ≠ "" ∧ holds_all (params k) vs (l_data l)).
Proof.
  unfold unpack_log. destruct (l_topics l) as [|t [|t' ts]]; [split; [done|by intros [? _]]| |split; [done|by intros [? _]]].
  destruct (String.eqb_spec t (H (signature k))) as [->|Hne]; cbn [negb]; [|split; [done|intros [[= ?] _]; congruence]].
  destruct (String.eqb_spec (l_data l) "") as [->|Hd].
  - assert (unset <$> params k = zero_value <$> params k) as -> by by destruct k. split.
    + intros [= <-]. split; [done|]. by left.
    + intros [_ [[_ ->]|[? _]]]; done.
  - rewrite unpack_holds. split; [intros ?; split; [done|by right]|]. by intros [_ [[? _]|[_ ?]]].
Qed.

Lemma deliver_found {A} H pool20 k (conv : list aval → rawlog → option A) (pick : emitted → rawlog → option A) ls es :
  apart H → (∀ e l, kind_of e = k → conv (value_of e) l = pick e l ∧ is_Some (pick e l)) → (∀ e l, kind_of e ≠ k → pick e l = None) →
  tells H pool20 ls es → deliver H k conv (found pool20 ls (H (signature k))) = Ok (omap (λ x, pick x.1 x.2) es).
Proof.
  intros Ha Hk Hn. unfold found. induction 1 as [|l ls es Hl _ IH|l e ls es Hp Hl _ IH]; [done|..].
  - rewrite filter_cons_False; [exact IH|]. intros [H1 H2]. destruct Hl as [Hl|Hl]; [done|]. by apply (Hl k).
  - destruct Hl as (k' & Hl & Ht). pose proof (logged_kind _ _ _ Hl) as He. cbn [omap list_omap fst snd].
    destruct (decide (kind_of e = k)) as [Hd|Hd].
    + assert (k' = k) as -> by congruence. rewrite filter_cons_True by (split; [done|by rewrite Ht]).
      cbn [deliver]. rewrite (unpack_event H e) by done. destruct (Hk e l Hd) as [-> [a Hx]]. rewrite Hx, IH. done.
    + rewrite filter_cons_False; [by rewrite Hn|]. intros [_ H2]. rewrite Ht in H2. injection H2 as H2. apply Ha in H2. congruence.
Qed.
Lemma ethers_found H pool20 ls es : apart H → tells H pool20 ls es →
  get_events H KEther as_ether (Some (found pool20 ls (H (signature KEther)))) = Ok (Some (ethers es)).
Proof.
  intros Ha Ht. cbn [get_events].
  rewrite (deliver_found H pool20 KEther as_ether (λ e l, match e with EEther a z => Some (EvEther a z l) | _ => None end) ls es Ha); [done|..|done].
  - intros [] l; try discriminate; cbn; eauto.
  - intros [] l; done.
Qed.
Lemma subs_found H pool20 ls es : apart H → tells H pool20 ls es →
  get_events H KSub as_sub (Some (found pool20 ls (H (signature KSub)))) = Ok (Some (subs es)).
Proof.
  intros Ha Ht. cbn [get_events].
  rewrite (deliver_found H pool20 KSub as_sub (λ e l, match e with ESub a z i => Some (EvSub a z i l) | _ => None end) ls es Ha); [done|..|done].
  - intros [] l; try discriminate; cbn; eauto.
  - intros [] l; done.
Qed.
Lemma unsubs_found H pool20 ls es : apart H → tells H pool20 ls es →
  get_events H KUnsub as_unsub (Some (found pool20 ls (H (signature KUnsub)))) = Ok (Some (unsubs es)).
Proof.
  intros Ha Ht. cbn [get_events].
  rewrite (deliver_found H pool20 KUnsub as_unsub (λ e l, match e with EUnsub a i => Some (EvUnsub a i l) | _ => None end) ls es Ha); [done|..|done].
  - intros [] l; try discriminate; cbn; eauto.
  - intros [] l; done.
Qed.
Lemma all_found H pool20 ls es : apart H → tells H pool20 ls es →
  read_events H (λ t, Some (found pool20 ls t)) = Ok (all_events es).
Proof.
  intros Ha Ht. unfold read_events. cbv zeta. rewrite (ethers_found H pool20 ls es), (subs_found H pool20 ls es), (unsubs_found H pool20 ls es) by done. cbn [rbind must get_events].
  rewrite (deliver_found H pool20 KFee as_big (λ e l, match e with EFee z => Some (z, l) | _ => None end) ls es Ha); [|by intros [] l; try discriminate; cbn; eauto|by intros [] l|done].
  cbn [rbind must].
  rewrite (deliver_found H pool20 KRecipient as_address (λ e l, match e with ERecipient a => Some (a, l) | _ => None end) ls es Ha); [|by intros [] l; try discriminate; cbn; eauto|by intros [] l|done].
  cbn [rbind must].
  rewrite (deliver_found H pool20 KSize as_uint64 (λ e l, match e with ESize n => Some (n, l) | _ => None end) ls es Ha); [|by intros [] l; try discriminate; cbn; eauto|by intros [] l|done].
  cbn [rbind must].
  rewrite (deliver_found H pool20 KColl as_big (λ e l, match e with EColl z => Some (z, l) | _ => None end) ls es Ha); [|by intros [] l; try discriminate; cbn; eauto|by intros [] l|done].
  cbn [rbind must].
  rewrite (deliver_found H pool20 KBan as_ban (λ e l, match e with EBan i => Some (EvBan i l) | _ => None end) ls es Ha); [|by intros [] l; try discriminate; cbn; eauto|by intros [] l|done].
  cbn [rbind must].
  rewrite (deliver_found H pool20 KUnban as_ban (λ e l, match e with EUnban i => Some (EvBan i l) | _ => None end) ls es Ha); [|by intros [] l; try discriminate; cbn; eauto|by intros [] l|done].
  done.
Qed.
Lemma fetch_reads H logs nd n ev : reads H logs nd → read_events H (logs n) = Ok ev ↔ fetch_events nd n = Ok ev.
Proof.
  intros [R1 R2 R3 R4 R5 R6 R7 R8 R9]. unfold read_events, fetch_events. cbv zeta.
  rewrite R1, R2, R3, R4, R5, R6, R7, R8, R9. done.
Qed.
Lemma fetch_found H pool20 blocks logs nd n es : apart H → reads H logs nd → (∀ t, logs n t = Some (found pool20 (blocks n) t)) →
  tells H pool20 (blocks n) es → fetch_events nd n = Ok (all_events es).
Proof.
  intros Ha Hr Hl Ht. apply (fetch_reads H logs); [done|]. unfold read_events. rewrite !Hl. by apply (all_found H pool20 (blocks n)).
Qed.

(** ** Logs that cannot be read *)
Lemma deliver_cut {A} H k (conv : list aval → rawlog → option A) pre l post es :
  unpack_log H k l = None → deliver H k conv pre = Ok es → Forall (λ x, is_Some (unpack_log H k x)) pre →
  deliver H k conv (pre ++ l :: post) = Ok es.
Proof.
  intros Hl. revert es. induction pre as [|x pre IH]; intros es Hd Hp.
  - cbn [deliver app] in *. rewrite Hl. exact Hd.
  - apply Forall_cons in Hp as [[vs Hx] Hp]. cbn [deliver app] in *. rewrite Hx in *. destruct (conv vs x); [|done].
    destruct (deliver H k conv pre) as [es'|]; [|done]. cbn [rbind] in Hd. injection Hd as <-. by rewrite (IH es').
Qed.

(** ** The initial fee *)
Lemma unpack_init data coll fee a size q r : init_call data coll fee a size q → init_fee (data +:+ r) = Some (int64_of_big fee).
Proof.
  destruct 1. unfold init_fee, init_params. rewrite !string_app_assoc. words. done.
Qed.
Lemma int64_range z : is_int64 (int64_of_big z).
Proof.
  unfold is_int64, int64_of_big. assert (-9223372036854775808 ≤ int64_of_u64 (u64 (Z.abs_N z)) < 9223372036854775808)%Z as Hr.
  { unfold int64_of_u64, u64. assert (Z.abs_N z mod two64 < two64)%N as Hm by (apply N.mod_lt; discriminate).
    revert Hm. generalize (Z.abs_N z mod two64)%N. unfold two64. intros n Hm. destruct (N.ltb_spec n 9223372036854775808); lia. }
  cbv zeta. destruct (z <? 0)%Z; [|done]. destruct (Z.eqb_spec (int64_of_u64 (u64 (Z.abs_N z))) (-9223372036854775808)); lia.
Qed.
Lemma init_fee_range data z : init_fee data = Some z → is_int64 z.
Proof.
  unfold init_fee. destruct (unpack _ _) as [[|x [|y [|[] l]]]|]; try discriminate. intros [= <-]. apply int64_range.
Qed.

(** ** The deployment block *)
Lemma find_initialize_first sel data r code fee : String.length sel = 4%nat → init_fee (data +:+ r) = Some fee →
  (∀ p t, code +:+ sel +:+ data +:+ r = p +:+ sel +:+ t → String.length p < String.length code → init_fee t = None) →
  find_initialize init_fee sel (code +:+ sel +:+ data +:+ r) = Some fee.
Proof.
  intros Hsel Hf. induction code as [|c code IH]; intros Hno.
  - change ("" +:+ sel +:+ data +:+ r) with (sel +:+ data +:+ r).
    destruct (sel +:+ data +:+ r) as [|c s] eqn:He; [by destruct sel|]. cbn [find_initialize].
    assert (has_prefix (String c s) sel = true) as -> by (apply has_prefix_app; eauto).
    rewrite <- He, <- Hsel, sdrop_app, Hf. done.
  - change (String c code +:+ sel +:+ data +:+ r) with (String c (code +:+ sel +:+ data +:+ r)) in *. cbn [find_initialize].
    assert (find_initialize init_fee sel (code +:+ sel +:+ data +:+ r) = Some fee) as IH'.
    { apply IH. intros p t Hp Hl. apply (Hno (String c p) t); [|cbn [String.length]; lia].
      change (String c p +:+ sel +:+ t) with (String c (p +:+ sel +:+ t)). by rewrite Hp. }
    destruct (has_prefix _ sel) eqn:Hp; [|done]. apply has_prefix_app in Hp as [t Ht]. rewrite Ht, <- Hsel, sdrop_app.
    rewrite (Hno "" t); [done|exact Ht|cbn [String.length]; lia].
Qed.
Lemma find_initialize_none sel d : String.length sel = 4%nat → (∀ p t, d = p +:+ sel +:+ t → init_fee t = None) → find_initialize init_fee sel d = None.
Proof.
  intros Hsel. induction d as [|c d IH]; intros Hno; [done|]. cbn [find_initialize].
  assert (find_initialize init_fee sel d = None) as IH'.
  { apply IH. intros p t ->. by apply (Hno (String c p) t). }
  destruct (has_prefix _ sel) eqn:Hp; [|done]. apply has_prefix_app in Hp as [t Ht]. rewrite Ht, <- Hsel, sdrop_app.
  by rewrite (Hno "" t).
Qed.
Lemma decode_carried sel pool20 pre tx post data coll fee a size q : String.length sel = 4%nat → Forall (silent sel pool20) pre →
  carries sel pool20 data tx → init_call data coll fee a size q → is_int64 fee →
  decode_initial_fee init_fee sel pool20 (pre ++ tx :: post) = Some fee.
Proof.
  intros Hsel Hpre Htx Hcall Hfee. assert (∀ r, init_fee (data +:+ r) = Some fee) as Hr.
  { intros r. rewrite (unpack_init data coll fee a size q) by done. by rewrite big_int64. }
  induction Hpre as [|[to d] pre Hs _ IH].
  - cbn [app]. destruct Htx as [[r ->]|(code & r & -> & Hno)]; cbn [decode_initial_fee].
    + destruct (Nat.ltb_spec (String.length (sel +:+ data +:+ r)) 4); [rewrite string_length_app in *; lia|].
      assert (has_prefix (sel +:+ data +:+ r) sel = true) as -> by (apply has_prefix_app; eauto).
      rewrite String.eqb_refl. cbn [andb]. rewrite <- Hsel, sdrop_app. apply Hr.
    + destruct (Nat.ltb_spec (String.length (code +:+ sel +:+ data +:+ r)) 4); [rewrite !string_length_app in *; lia|].
      by rewrite (find_initialize_first sel data r code fee).
  - cbn [app decode_initial_fee]. destruct (Nat.ltb_spec (String.length d) 4); [done|]. unfold silent in Hs. cbn in Hs.
    destruct to as [b|].
    + destruct (String.eqb_spec b pool20) as [->|]; cbn [andb]; [|done]. destruct Hs as [|Hs]; [done|].
      destruct (has_prefix d sel) eqn:Hp; [|done]. apply has_prefix_app in Hp as [t ->]. by destruct (Hs t).
    + by rewrite find_initialize_none.
Qed.
Lemma config_fee E args sel pool20 A pool dry c time txs fee : get_config E args sel pool20 A pool dry = Ok c → ga_block A = Some (time, txs) →
  decode_initial_fee args sel pool20 txs = Some fee → c_feepct c = fee.
Proof.
  unfold get_config. intros H Hb Hd.
  destruct (ga_exec_chain A) as [exec|]; cbn [must rbind] in H; [|done].
  destruct (ga_cons_chain A) as [cons|]; cbn [must rbind] in H; [|done].
  destruct (negb _); [done|].
  destruct (network_of cons) as [net|]; cbn [must rbind] in H; [|done].
  destruct (ga_genesis A) as [genesis|]; cbn [must rbind] in H; [|done].
  destruct (ga_balance A); cbn [must rbind] in H; [|done].
  destruct (ga_deployed A) as [deployed|]; cbn [must rbind] in H; [|done].
  rewrite Hb in H. cbn [must rbind] in H.
  destruct (ga_cblock A _) as [cb|]; cbn [must rbind] in H; [|done].
  destruct (get_number _) as [n|]; cbn [rbind] in H; [|done].
  destruct (negb _); [done|]. rewrite Hd in H. cbn [must rbind] in H.
  destruct (ga_cp_size A) as [size|]; cbn [must rbind] in H; [|done].
  destruct (ga_fees_addr A) as [addr|]; cbn [must rbind] in H; [|done].
  destruct (ga_coll A) as [coll|]; cbn [must rbind] in H; [|done].
  destruct (ga_members A); cbn [must rbind] in H; [|done].
  destruct (ga_quorum A); cbn [must rbind] in H; [|done].
  injection H as <-. done.
Qed.
Lemma config_carried E sel pool20 A pool dry c time pre tx post data coll fee a size q : String.length sel = 4%nat →
  get_config E init_fee sel pool20 A pool dry = Ok c → ga_block A = Some (time, pre ++ tx :: post) → Forall (silent sel pool20) pre →
  carries sel pool20 data tx → init_call data coll fee a size q → is_int64 fee → c_feepct c = fee.
Proof. intros. eapply config_fee; [done|done|]. by eapply decode_carried. Qed.
Lemma config_typed_abi E sel pool20 A pool dry c : String.length sel = 4%nat →
  ascii_only pool = true → (∀ x, ga_cp_size A = Some x → is_u64 x) → get_config E init_fee sel pool20 A pool dry = Ok c → typed_config c.
Proof. intros. eapply config_typed; eauto. apply init_fee_range. Qed.

(** ** Through the fetch *)
Lemma fetch_abi nd E pool all slot s ca fb ca' H pool20 blocks logs es p : apart H → reads H logs nd →
  (∀ n t, logs n t = Some (found pool20 (blocks n) t)) →
  fetch_full_block nd E pool all slot s ca = Ok (fb, ca') → payload_of fb p → tells H pool20 (blocks (p_number p)) es →
  ¬ (nd_chain nd = 1 ∧ slot = 10400574)%N → fb_events fb = all_events es.
Proof.
  intros Ha Hr Hl Hf Hp Ht Hx.
  apply fetch_split in Hf as (d & v & b & Hd & Hs & Hv & Hi & Hb & Hf). cbv zeta in Hf. destruct b as [c|].
  2:{ subst fb. destruct Hp as (? & ? & _); done. }
  apply fetch_proposed_split in Hf as (fb1 & n & ev & fb2 & su & un & prop & rew & H1 & H2 & H3 & H4 & H5 & H6 & H7 & H8 & H9 & H10).
  apply set_consensus_spec in H1 as (Hcs & Hcp & Hcv & ->).
  destruct (set_events_spec _ _ _ _ H3 H5) as (Hlog & ev' & -> & Hes & Heu & Hev).
  assert (get_number (set_request_validators su un (with_events (FullBlock slot (d_index d) (d_key d) v (Some c) None None no_events [] [] (nd_chain nd)) ev')) = Ok n) as Hn by exact H3.
  assert (∃ h rs, fb = FullBlock slot (d_index d) (d_key d) v (Some c) h rs ev' su un (nd_chain nd)) as (h & rs & ->).
  { destruct (all || _).
    - destruct H10 as (txs & h & rs & _ & _ & Hset). apply (set_header_spec _ _ _ _ n) in Hset as [Hh ->]; [|done].
      by exists (Some h), (Some rs).
    - subst fb. by exists None, None. }
  cbn in *. assert (n = p_number p) as ->.
  { destruct Hp as (c' & Hc & _ & _ & ->). cbn in Hc. injection Hc as <-. unfold get_number, get_payload in H3. cbn in H3. destruct (cb_version c); try done; by injection H3 as <-. }
  rewrite (fetch_found H pool20 blocks logs nd (p_number p) es) in H4 by done. injection H4 as <-.
  apply Hev. intros [Hc1 Hc2]. rewrite H2 in Hc2. injection Hc2 as ->. by apply Hx.
Qed.
