(** What a block paid, how it is classified, and the vanilla reward. *)
From Verif Require Export LifeProofs.

(** ** Addresses *)
Lemma names_length a str : names a str → String.length str = 42%nat.
Proof. intros [Hb Hs]. rewrite <-(to_lower_length str), Hs, string_length_app, hex_encode_length, Hb. done. Qed.
Lemma names_fun a b str : names a str → names b str → a = b.
Proof. intros [_ Ha] [_ Hb]. rewrite Ha in Hb. by apply app_prefix_inj, hex_encode_inj in Hb. Qed.
Lemma equals_names x a b str : to_lower x = "0x" +:+ hex_encode a → names b str → String.length a = 20%nat →
  equals x str = Ok (bool_decide (a = b)).
Proof.
  intros Hx Hn Ha. pose proof (names_length _ _ Hn) as Hl. destruct Hn as [Hb Hs]. unfold equals.
  rewrite <-(to_lower_length x), Hx, Hl, string_length_app, hex_encode_length, Ha. cbn [String.length Nat.mul Nat.add Nat.eqb].
  rewrite Hs. f_equal. destruct (bool_decide_reflect (a = b)) as [->|Hn]; [apply String.eqb_refl|].
  apply String.eqb_neq. intros H. by apply app_prefix_inj, hex_encode_inj in H.
Qed.
Lemma names_equals mask a b str : names b str → String.length a = 20%nat →
  equals (addr_string mask a) str = Ok (bool_decide (a = b)).
Proof. apply equals_names, to_lower_addr. Qed.
Lemma names_equals_lower mask a b str : names b str → String.length a = 20%nat →
  equals (to_lower (addr_string mask a)) str = Ok (bool_decide (a = b)).
Proof. apply equals_names. by rewrite to_lower_addr, to_lower_hex. Qed.
Lemma equals_addrs m1 m2 a b : String.length a = 20%nat → String.length b = 20%nat →
  equals (addr_string m1 a) (addr_string m2 b) = Ok (bool_decide (a = b)).
Proof. intros Ha Hb. apply names_equals; [|done]. split; [done|apply to_lower_addr]. Qed.

(** The 20 bytes of the accepted builder. *)
Definition builder20 : string := string_of_list_ascii (ascii_of_N <$>
  [0xae; 0x0a; 0x3d; 0x88; 0x4e; 0x74; 0x65; 0x99; 0xbd; 0x6c; 0x89; 0x3a; 0x67; 0x4e; 0x55; 0x6c; 0x36; 0xa4; 0x7f; 0x1e])%N.
Lemma builder_names : names builder20 "0xae0A3D884E746599BD6C893a674E556C36a47f1e".
Proof. split; by vm_compute. Qed.
Lemma builder_iff chain a : builder chain a ↔ chain = 1%N ∧ a = builder20.
Proof.
  split.
  - intros [-> H]. split; [done|]. eapply names_fun; [exact H|exact builder_names].
  - intros [-> ->]. split; [done|exact builder_names].
Qed.
Lemma is_in_whitelist E chain wl a : String.length a = 20%nat → whitelisted_builders chain = Some wl →
  ∃ x, is_in (addr_string (e_mask E) a) wl = Ok x ∧ (x = true ↔ builder chain a).
Proof.
  intros Ha. unfold whitelisted_builders. destruct (N.eqb_spec chain MainnetChainId) as [->|Hn].
  - intros [= <-]. cbn [is_in]. rewrite (names_equals _ _ _ _ builder_names Ha). cbn [rbind].
    destruct (bool_decide_reflect (a = builder20)) as [Heq|Hne]; eexists; (split; [reflexivity|]); rewrite builder_iff; naive_solver.
  - assert (¬ builder chain a) as Hb. { rewrite builder_iff. intros [-> _]. done. }
    destruct (_ =? _)%N; [intros [= <-]; cbn; eexists; split; [done|]; naive_solver|].
    destruct (_ =? _)%N; [intros [= <-]; cbn; eexists; split; [done|]; naive_solver|done].
Qed.

(** ** The payload *)
Lemma get_payload_spec fb p : get_payload fb = Ok p ↔ payload_of fb p.
Proof.
  unfold get_payload, need_cblock, payload_of. destruct (fb_cblock fb) as [c|]; cbn [rbind].
  - destruct (cb_version c) eqn:Hv; split; intros H; try discriminate; try (destruct H as (c' & [= <-] & ? & ? & ->); congruence);
      injection H as <-; exists c; by rewrite Hv.
  - split; [done|]. by intros (c & ? & _).
Qed.
Lemma payload_fun fb p q : payload_of fb p → payload_of fb q → p = q.
Proof. rewrite <-!get_payload_spec. congruence. Qed.

Lemma last_snoc {A} (l : list A) x : head (rev l) = Some x ↔ ∃ l', l = l' ++ [x].
Proof.
  split.
  - destruct (rev l) as [|y l'] eqn:H; [done|]. intros [= ->]. exists (rev l'). rewrite <-(rev_involutive l), H. done.
  - intros [l' ->]. by rewrite rev_app_distr.
Qed.

(** ** MEV payments *)
Lemma find_receiver evs r dst :
  match List.find (λ e, (er_amount e =? r)%Z) evs with
  | Some e => e ∈ evs ∧ ∀ a, receiver evs r dst a ↔ a = l_addr (er_log e)
  | None => ∀ a, receiver evs r dst a ↔ a = dst
  end.
Proof.
  induction evs as [|e evs IH]; cbn [List.find].
  - intros a. split; [|intros ->; right; split; [intros x Hx; by apply not_elem_of_nil in Hx|done]].
    intros [(l1 & e & l2 & H & _)|[_ ->]]; [by destruct l1|done].
  - destruct (Z.eqb_spec (er_amount e) r) as [Hr|Hr].
    + split; [left|]. intros a. split.
      * intros [([|x l1] & e' & l2 & H & He & Hn & ->)|[H _]].
        -- by injection H as <- _.
        -- injection H as <- ->. destruct (Hn e); [left|done].
        -- destruct (H e); [left|done].
      * intros ->. left. exists [], e, evs. split; [done|]. split; [done|]. split; [|done]. intros x Hx. by apply not_elem_of_nil in Hx.
    + assert (∀ a, receiver (e :: evs) r dst a ↔ receiver evs r dst a) as Hcons.
      { intros a. split.
        - intros [([|x l1] & e' & l2 & H & He & Hn & ->)|[H ->]].
          + injection H as -> _. done.
          + injection H as -> ->. left. exists l1, e', l2. do 3 (split; [first [done|intros y Hy; apply Hn; by right]|]). done.
          + right. split; [|done]. intros y Hy. apply H. by right.
        - intros [(l1 & e' & l2 & -> & He & Hn & ->)|[H ->]].
          + left. exists (e :: l1), e', l2. split; [done|]. split; [done|]. split; [|done].
            intros y [->|Hy]%elem_of_cons; [done|by apply Hn].
          + right. split; [|done]. intros y [->|Hy]%elem_of_cons; [done|by apply H]. }
      destruct (List.find _ evs) as [x|].
      * destruct IH as [Hin IH]. split; [by right|]. intros a. by rewrite Hcons.
      * intros a. by rewrite Hcons.
Qed.

Lemma mev_payment_fun fb r a r' a' : mev_payment fb r a → mev_payment fb r' a' → r = r' ∧ a = a'.
Proof.
  intros (p & t & l & snd & dst & Hp & Ht & Hs & Hd & Hb & <- & Hr) (p' & t' & l' & snd' & dst' & Hp' & Ht' & Hs' & Hd' & Hb' & <- & Hr').
  pose proof (payload_fun _ _ _ Hp Hp') as <-. rewrite Ht in Ht'. apply app_inj_tail in Ht' as [_ Ht']. injection Ht' as <-.
  split; [done|]. rewrite Hd in Hd'. injection Hd' as <-.
  pose proof (find_receiver (ev_ether_received (fb_events fb)) (tx_value t) dst) as Hf.
  destruct (List.find _ _).
  - destruct Hf as [_ Hf]. apply Hf in Hr, Hr'. congruence.
  - apply Hf in Hr, Hr'. congruence.
Qed.

Lemma mev_reward_spec E fb r m rcp : addrs20 fb → ordinary fb → mev_reward E fb = Ok (r, m, rcp) →
  if m then ∃ a, mev_payment fb r a ∧ String.length a = 20%nat ∧ rcp = to_lower (addr_string (e_mask E) a)
  else ∀ r a, ¬ mev_payment fb r a.
Proof.
  intros [Hfee Hto Hfrom Hlog] Hord. unfold mev_reward, get_txs, get_fee_recipient.
  destruct (get_payload fb) as [p|] eqn:Hp; [|discriminate]. cbn [rbind].
  apply get_payload_spec in Hp.
  destruct (head (rev (p_txs p))) as [ot|] eqn:Hlast.
  2:{ intros [= <- <- <-] r0 a (p' & t & l & ? & ? & Hp' & Ht & _). pose proof (payload_fun _ _ _ Hp Hp') as <-.
      assert (head (rev (p_txs p)) = Some (Some t)) as H; [|congruence]. apply last_snoc. by exists l. }
  destruct ot as [t|]; [|discriminate].
  apply last_snoc in Hlast as [l Hl].
  assert (Some t ∈ p_txs p) as Hin by (rewrite Hl; apply elem_of_app; right; left).
  assert (∀ r a, mev_payment fb r a → ∃ snd dst, tx_sender t = Some snd ∧ tx_to t = Some dst ∧
    (snd = p_fee_recipient p ∨ builder (fb_chain fb) snd)) as Hinv.
  { intros r0 a (p' & t' & l' & snd & dst & Hp' & Ht & Hs & Hd & Hb & _). pose proof (payload_fun _ _ _ Hp Hp') as <-.
    rewrite Hl in Ht. apply app_inj_tail in Ht as [_ Ht]. injection Ht as <-. eauto. }
  destruct (tx_to t) as [dst|] eqn:Hd.
  2:{ intros [= <- <- <-] r0 a H. apply Hinv in H as (? & ? & _ & ? & _). done. }
  destruct (tx_sender t) as [snd|] eqn:Hs; [|discriminate].
  destruct (whitelisted_builders (fb_chain fb)) as [wl|] eqn:Hwl; [|discriminate].
  destruct (if (fb_chain fb =? MainnetChainId)%N then _ else _) as [exc|] eqn:Hexc; [|discriminate]. cbn [rbind].
  assert (exc = false) as ->.
  { destruct (N.eqb_spec (fb_chain fb) MainnetChainId) as [Hc|]; [|by injection Hexc as <-].
    destruct Hp as (c & Hcb & _ & _ & _). specialize (Hord Hc c Hcb).
    unfold get_slot, need_cblock in Hexc. rewrite Hcb in Hexc. cbn [rbind] in Hexc.
    destruct (cb_version c); cbn [rbind] in Hexc; try discriminate;
    destruct (N.eqb_spec (cb_slot c) exception_slot); try done; by injection Hexc as <-. }
  assert (String.length snd = 20%nat) as Hs20 by (by eapply Hfrom).
  assert (String.length dst = 20%nat) as Hd20 by (by eapply Hto).
  rewrite equals_addrs by (done || by eapply Hfee). cbn [rbind].
  destruct (is_in_whitelist E _ _ snd Hs20 Hwl) as (x & Hx & Hbx).
  assert (∃ y, (if bool_decide (p_fee_recipient p = snd) then Ok true else is_in (addr_string (e_mask E) snd) wl) = Ok y ∧
    (y = true ↔ snd = p_fee_recipient p ∨ builder (fb_chain fb) snd)) as (y & -> & Hy).
  { destruct (bool_decide_reflect (p_fee_recipient p = snd)) as [He|He].
    - exists true. split; [done|]. split; [by left|done].
    - exists x. split; [done|]. rewrite Hbx. split; [by right|]. intros [->|]; done. }
  cbn [rbind].
  destruct y.
  2:{ intros [= <- <- <-] r0 a H. apply Hinv in H as (snd' & dst' & [= <-] & _ & H). by apply Hy in H. }
  pose proof (find_receiver (ev_ether_received (fb_events fb)) (tx_value t) dst) as Hf.
  destruct (List.find _ _) as [e|].
  - intros [= <- <- <-]. destruct Hf as [He Hf]. exists (l_addr (er_log e)). split; [|split; [by apply Hlog|done]].
    exists p, t, l, snd, dst. do 4 (split; [done|]). split; [by apply Hy|]. split; [done|]. by apply Hf.
  - intros [= <- <- <-]. exists dst. split; [|done].
    exists p, t, l, snd, dst. do 4 (split; [done|]). split; [by apply Hy|]. split; [done|]. by apply Hf.
Qed.

(** ** Classification *)
Lemma sent_reward_spec E pool pool20 sub fb rw ok rt : names pool20 pool → addrs20 fb → ordinary fb →
  sent_reward E pool sub fb = Ok (rw, ok, rt) →
  (ok = true ↔ paid_pool pool20 fb) ∧
  (∀ r a, mev_payment fb r a → rw = Some r ∧ rt = MevBlock) ∧
  ((∀ r a, ¬ mev_payment fb r a) → rt ≠ MevBlock ∧ (ok = true → rt = VanilaBlock)).
Proof.
  intros Hpool H20 Hord. unfold sent_reward.
  destruct (mev_reward E fb) as [[[r m] rcp]|] eqn:Hm; [|discriminate]. cbn [rbind].
  apply mev_reward_spec in Hm; [|done..]. destruct m.
  - destruct Hm as (a & Ha & Hl & ->). rewrite (names_equals_lower _ _ _ _ Hpool Hl). cbn [rbind].
    intros [= <- <- <-]. split; [|split].
    + rewrite bool_decide_eq_true. split; [intros ->; left; eauto|].
      intros [(r' & Hr')|[Hno _]]; [by destruct (mev_payment_fun _ _ _ _ _ Ha Hr')|by destruct (Hno _ _ Ha)].
    + intros r' a' H'. by destruct (mev_payment_fun _ _ _ _ _ Ha H') as [-> _].
    + intros Hno. by destruct (Hno _ _ Ha).
  - unfold get_fee_recipient. destruct (get_payload fb) as [p|] eqn:Hp; [|discriminate]. cbn [rbind].
    apply get_payload_spec in Hp. rewrite (names_equals _ _ _ _ Hpool) by (by eapply a20_fee). cbn [rbind].
    assert (bool_decide (p_fee_recipient p = pool20) = true ↔ paid_pool pool20 fb) as Hpp.
    { rewrite bool_decide_eq_true. split; [intros He; right; eauto|].
      intros [(r' & Hr')|[_ (p' & Hp' & He)]]; [by destruct (Hm _ _ Hr')|]. by rewrite (payload_fun _ _ _ Hp Hp'). }
    destruct (bool_decide (p_fee_recipient p = pool20) || sub) eqn:Hor.
    + destruct (proposer_tip fb) as [tp|]; [|discriminate]. cbn [rbind].
      destruct tp; [|intros [= <- <- <-]|discriminate]; [intros [= <- <- <-]|]; (split; [done|]); (split; [|done]); intros r' a' H'; by destruct (Hm _ _ H').
    + intros [= <- <- <-]. apply orb_false_iff in Hor as [Hor _]. rewrite Hor in Hpp. split; [done|].
      split; [|done]. intros r' a' H'; by destruct (Hm _ _ H').
Qed.

Lemma classification E s pool pool20 fb b : names pool20 pool → addrs20 fb → ordinary fb →
  summarize E s pool fb = Ok b →
  (sb_type b = MissedProposal ↔ fb_cblock fb = None) ∧
  (sb_type b = OkPoolProposal ↔ fb_cblock fb ≠ None ∧ paid_pool pool20 fb ∧ ∃ a, exec_address (b_creds (fb_validator fb)) a) ∧
  (sb_type b = OkPoolProposalBlsKeys ↔ fb_cblock fb ≠ None ∧ paid_pool pool20 fb ∧ ∀ a, ¬ exec_address (b_creds (fb_validator fb)) a) ∧
  (sb_type b = WrongFeeRecipient ↔ fb_cblock fb ≠ None ∧ ¬ paid_pool pool20 fb) ∧
  (∀ r a, mev_payment fb r a → sb_reward b = Some r ∧ sb_reward_type b = MevBlock) ∧
  (paid_pool pool20 fb → (∀ r a, ¬ mev_payment fb r a) → sb_reward_type b = VanilaBlock).
Proof.
  intros Hpool H20 Hord Hs. pose proof (summarize_missed _ _ _ _ _ Hs) as Hmiss. split; [done|].
  unfold summarize in Hs. destruct (withdrawal_and_type (fb_validator fb)) as [[wa wt]|] eqn:Hw; [|discriminate]. cbn [rbind] in Hs.
  assert (String.length (b_creds (fb_validator fb)) = 32%nat) as Hlen.
  { unfold withdrawal_and_type in Hw. rewrite hex_encode_length in Hw.
    destruct (Nat.eqb_spec (2 * String.length (b_creds (fb_validator fb))) 64); [lia|discriminate]. }
  assert (wt ≠ BlsWithdrawal ↔ ∃ a, exec_address (b_creds (fb_validator fb)) a) as Hwt.
  { split.
    - intros Hne. assert (get_compatible_address_byte (b_creds (fb_validator fb)) = Some wa) as Hc by (apply withdrawal_agree; [done|eauto]).
      apply compatible_iff in Hc as (a & ? & _). by exists a.
    - intros (a & Ha) ->. assert (get_compatible_address_byte (b_creds (fb_validator fb)) = Some ("0x" +:+ hex_encode a)) as Hc by (apply compatible_iff; eauto).
      apply withdrawal_agree in Hc as (t & Ht & Hc); [|done]. congruence. }
  destruct (fb_cblock fb) as [c|] eqn:Hcb.
  2:{ injection Hs as <-. cbn.
      assert (∀ p, ¬ payload_of fb p) as Hnp by (intros p (c & ? & _); congruence).
      assert (∀ r a, ¬ mev_payment fb r a) as Hnm by (intros r a (p & ? & ? & ? & ? & Hp & _); by eapply Hnp).
      split; [naive_solver|]. split; [naive_solver|]. split; [naive_solver|]. split.
      - intros r a H. by destruct (Hnm _ _ H).
      - intros [(r & H)|[_ (p & Hp & _)]]; [by destruct (Hnm _ _ H)|by destruct (Hnp _ Hp)]. }
  destruct (get_proposer fb) as [prop|]; [|discriminate]. cbn [rbind] in Hs.
  destruct (sent_reward E pool (is_subscribed s prop) fb) as [[[rw ok] rt]|] eqn:Hsr; [|discriminate]. cbn [rbind] in Hs.
  destruct (get_number fb) as [n|]; [|discriminate]. cbn [rbind] in Hs. injection Hs as <-. cbn.
  apply (sent_reward_spec _ _ pool20) in Hsr as (Hok & Hmev & Hnomev); [|done..].
  assert (Some c ≠ None) as Hc by done.
  split.
  { destruct ok.
    - destruct wt; (split; [intros H; first [discriminate|split; [done|split; [by apply Hok|by apply Hwt]]]|intros (_ & _ & H); apply Hwt in H; try done]).
    - split; [done|]. intros (_ & H & _). apply Hok in H. done. }
  split.
  { destruct ok.
    - destruct wt; (split; [intros H; try discriminate H|intros (_ & _ & H); try done]).
      + split; [done|]. split; [by apply Hok|]. intros a Ha. by apply Hwt; [by exists a|].
      + exfalso. assert (Eth1Withdrawal ≠ BlsWithdrawal) as (a & Ha)%Hwt by done. by eapply H.
      + exfalso. assert (ElectraWithdrawal ≠ BlsWithdrawal) as (a & Ha)%Hwt by done. by eapply H.
    - split; [done|]. intros (_ & H & _). apply Hok in H. done. }
  split.
  { destruct ok.
    - split; [by destruct wt|]. intros [_ H]. destruct H. by apply Hok.
    - split; [|done]. intros _. split; [done|]. intros H%Hok. done. }
  split; [done|]. intros Hp%Hok Hno. by apply Hnomev.
Qed.

(** ** Donations *)
Lemma donations_spec E pool pool20 fb don : names pool20 pool → addrs20 fb → ordinary fb → get_donations E pool fb = Ok don →
  (fb_cblock fb = None → don = []) ∧
  (∀ r, mev_payment fb r pool20 → don = filter (λ e, er_amount e ≠ r) (ev_ether_received (fb_events fb)) ∧
     ∃ e, e ∈ ev_ether_received (fb_events fb) ∧ er_amount e = r) ∧
  (fb_cblock fb ≠ None → (∀ r, ¬ mev_payment fb r pool20) → don = ev_ether_received (fb_events fb)).
Proof.
  intros Hpool H20 Hord. unfold get_donations. destruct (fb_cblock fb) as [c|] eqn:Hcb.
  2:{ intros [= <-]. split; [done|]. split; [|done]. intros r (p & ? & ? & ? & ? & (c & ? & _) & _). congruence. }
  destruct (mev_reward E fb) as [[[r m] rcp]|] eqn:Hm; [|discriminate]. cbn [rbind].
  apply mev_reward_spec in Hm; [|done..].
  assert (∃ mine, (if m then equals rcp pool else Ok false) = Ok mine ∧
    (mine = true → mev_payment fb r pool20) ∧ (mine = false → ∀ r, ¬ mev_payment fb r pool20)) as (mine & -> & Ht & Hf).
  { destruct m.
    - destruct Hm as (a & Ha & Hl & ->). rewrite (names_equals_lower _ _ _ _ Hpool Hl). eexists. split; [done|].
      split; [intros ->%bool_decide_eq_true; done|]. intros Hn%bool_decide_eq_false r' H'.
      by destruct (mev_payment_fun _ _ _ _ _ Ha H').
    - exists false. split; [done|]. split; [done|]. intros _ r'. apply Hm. }
  cbn [rbind]. destruct mine; cbn [negb].
  - specialize (Ht eq_refl). destruct (existsb _ _) eqn:Hex; [|discriminate]. intros [= <-]. split; [done|]. split.
    + intros r' H'. destruct (mev_payment_fun _ _ _ _ _ Ht H') as [<- _]. split; [done|].
      apply existsb_exists in Hex as (e & He & Heq). exists e. split; [by apply elem_of_list_In|]. by apply Z.eqb_eq.
    + intros _ Hno. by destruct (Hno r).
  - intros [= <-]. split; [done|]. split; [|done]. intros r' H'. by destruct (Hf eq_refl r').
Qed.

Lemma filter_split r evs : foldr Z.add 0%Z (er_amount <$> evs) =
  (foldr Z.add 0 (er_amount <$> filter (λ e, er_amount e ≠ r) evs) + r * Z.of_nat (length (filter (λ e, er_amount e = r) evs)))%Z.
Proof.
  induction evs as [|e evs IH]; cbn [fmap list_fmap foldr]; [cbn; lia|]. rewrite IH.
  destruct (decide (er_amount e = r)) as [Hr|Hr].
  - rewrite (filter_cons_False (λ e, er_amount e ≠ r)) by (intros H; by apply H). rewrite filter_cons_True by done. cbn [length]. lia.
  - rewrite (filter_cons_True (λ e, er_amount e ≠ r)) by done. rewrite filter_cons_False by done. cbn [fmap list_fmap foldr]. lia.
Qed.

(** Every received event is the credited MEV payment or a donation. *)
Lemma donations_account E pool pool20 fb don : names pool20 pool → addrs20 fb → ordinary fb →
  get_donations E pool fb = Ok don → fb_cblock fb ≠ None →
  (∀ r, mev_payment fb r pool20 → length (filter (λ e, er_amount e = r) (ev_ether_received (fb_events fb))) = 1%nat →
     foldr Z.add 0%Z (er_amount <$> ev_ether_received (fb_events fb)) = (r + foldr Z.add 0 (er_amount <$> don))%Z) ∧
  ((∀ r, ¬ mev_payment fb r pool20) → don = ev_ether_received (fb_events fb)).
Proof.
  intros Hpool H20 Hord Hd Hcb. apply (donations_spec _ _ pool20) in Hd as (_ & H1 & H2); [|done..]. split.
  - intros r Hr Hlen. destruct (H1 r Hr) as [-> _]. rewrite (filter_split r), Hlen. lia.
  - by apply H2.
Qed.

(** ** Priority fees *)
Lemma set_bytes_rev l : set_bytes (rev l) = le_value l.
Proof.
  unfold set_bytes. rewrite <-fold_left_rev_right, rev_involutive. unfold le_value. induction l as [|x l IH]; [done|]. cbn [foldr fold_right]. rewrite IH. lia.
Qed.
Lemma le_bytes_value k n : (n < 256 ^ N.of_nat k)%N → le_value (le_bytes k n) = Z.of_N n.
Proof.
  revert n. induction k as [|k IH]; intros n Hn.
  - cbn in *. lia.
  - cbn [le_bytes le_value foldr]. fold (le_value (le_bytes k (n / 256)%N)). rewrite IH.
    + pose proof (N.div_mod n 256). lia.
    + apply N.div_lt_upper_bound; [done|]. rewrite Nat2N.inj_succ, N.pow_succ_r' in Hn. lia.
Qed.
Lemma base_fee_spec fb c base : fb_cblock fb = Some c → base_fee_of c base →
  ∃ le, get_base_fee fb = Ok le ∧ set_bytes (rev le) = base.
Proof.
  intros Hc H. unfold get_base_fee, need_cblock. rewrite Hc. cbn [rbind].
  destruct H as [[[->| ->] ->]|[[->|[->| ->]] [-> Hlt]]]; eexists; (split; [reflexivity|]); rewrite set_bytes_rev; try done;
    rewrite rev_involutive; by apply le_bytes_value.
Qed.
Lemma int64_small n : (n < 9223372036854775808)%N → int64_of_u64 n = Z.of_N n.
Proof. unfold int64_of_u64. intros H. by rewrite (proj2 (N.ltb_lt _ _) H). Qed.
Lemma tx_fee_spec base t g : (tx_type t ≤ 4)%N → (g < 9223372036854775808)%N → tx_fee base t g = Some (gas_price base t * Z.of_N g)%Z.
Proof.
  intros Ht Hg. unfold tx_fee, gas_price. rewrite int64_small by done. unfold sum_and_saturate.
  assert (∀ a b c, (if (c <=? a + b)%Z then c else (a + b)%Z) = Z.min (a + b) c) as Hmin.
  { intros a b c. destruct (Z.leb_spec c (a + b)); lia. }
  rewrite Hmin.
  assert (tx_type t = 0 ∨ tx_type t = 1 ∨ tx_type t = 2 ∨ tx_type t = 3 ∨ tx_type t = 4)%N as H by lia.
  destruct H as [->|[->|[->|[->| ->]]]]; done.
Qed.
Lemma gas_nonneg rs : (0 ≤ foldr Z.add 0 ((λ r, Z.of_N (rc_gas r)) <$> rs))%Z.
Proof. induction rs as [|r rs IH]; cbn; lia. Qed.
Lemma tips_loop_spec base txs rs acc : Forall2 (λ t r, tx_hash t = rc_tx r ∧ (tx_type t ≤ 4)%N) txs rs →
  (foldr Z.add 0 ((λ r, Z.of_N (rc_gas r)) <$> rs) < 9223372036854775808)%Z →
  tips_loop base (Some <$> txs) rs acc =
  TipOk (acc + tips base txs rs + base * foldr Z.add 0 ((λ r, Z.of_N (rc_gas r)) <$> rs))%Z.
Proof.
  intros H. revert acc. induction H as [|t r txs rs [Hh Ht] Hall IH]; intros acc Hlt.
  - cbn. f_equal. lia.
  - cbn [fmap list_fmap foldr] in Hlt. pose proof (gas_nonneg rs).
    cbn [fmap list_fmap tips_loop]. rewrite (proj2 (String.eqb_eq _ _) Hh). cbn [negb].
    rewrite tx_fee_spec by (done || lia). rewrite IH by lia. f_equal. unfold tips. cbn [zip_with foldr fmap list_fmap]. lia.
Qed.
Lemma vanilla_tip fb base txs rs : complete_block fb base txs rs → proposer_tip fb = Ok (TipOk (tips base txs rs)).
Proof.
  intros [(c & h & Hc & Hb & Htx & Hh & Hhb & Hr & Hg) Hm Hs].
  assert (get_payload fb = Ok (cb_payload c)) as Hp.
  { apply get_payload_spec. exists c. split; [done|]. destruct Hb as [[[H|H] _]|[[H|[H|H]] _]]; rewrite H; done. }
  destruct (base_fee_spec fb c base Hc Hb) as (le & Hle & Hle').
  unfold proposer_tip, get_txs. rewrite Hr, Hh, Hp. cbn [rbind]. rewrite Htx, fmap_length.
  rewrite (Forall2_length _ _ _ Hm), Nat.eqb_refl. cbn [negb]. rewrite Hle. cbn [rbind].
  rewrite Hhb, tips_loop_spec by done. cbn [rbind]. rewrite Hle'. rewrite int64_small by lia. f_equal. f_equal. rewrite Hg. lia.
Qed.
Lemma tips_nonneg base txs rs : Forall (λ t, base ≤ gas_price base t)%Z txs → (0 ≤ tips base txs rs)%Z.
Proof.
  intros H. revert rs. induction H as [|t txs Ht _ IH]; intros [|r rs]; unfold tips; cbn [zip_with foldr]; try lia.
  specialize (IH rs). unfold tips in IH. nia.
Qed.
Lemma summarize_vanilla E s pool pool20 fb b base txs rs : names pool20 pool → addrs20 fb → ordinary fb →
  complete_block fb base txs rs → paid_pool pool20 fb → (∀ r a, ¬ mev_payment fb r a) →
  summarize E s pool fb = Ok b → sb_reward b = Some (tips base txs rs) ∧ sb_reward_type b = VanilaBlock.
Proof.
  intros Hpool H20 Hord Hcb Hpp Hno Hs.
  pose proof (classification _ _ _ _ _ _ Hpool H20 Hord Hs) as (_ & _ & _ & _ & _ & Hv). split; [|by apply Hv].
  pose proof (vanilla_tip _ _ _ _ Hcb) as Htip.
  unfold summarize in Hs. destruct (withdrawal_and_type (fb_validator fb)) as [[wa wt]|] eqn:Hw; [|discriminate]. cbn [rbind] in Hs.
  destruct Hcb as [(c & h & Hc & _) _ _]. rewrite Hc in Hs.
  destruct (get_proposer fb) as [prop|]; [|discriminate]. cbn [rbind] in Hs.
  destruct (sent_reward E pool (is_subscribed s prop) fb) as [[[rw ok] rt]|] eqn:Hsr; [|discriminate]. cbn [rbind] in Hs.
  destruct (get_number fb) as [n|]; [|discriminate]. cbn [rbind] in Hs. injection Hs as <-. cbn.
  pose proof (sent_reward_spec _ _ _ _ _ _ _ _ Hpool H20 Hord Hsr) as (Hok & _ & _).
  unfold sent_reward in Hsr. destruct (mev_reward E fb) as [[[r m] rcp]|] eqn:Hm; [|discriminate]. cbn [rbind] in Hsr.
  apply mev_reward_spec in Hm; [|done..]. destruct m; [destruct Hm as (a & Ha & _); by destruct (Hno _ _ Ha)|].
  destruct (get_fee_recipient E fb); [|discriminate]. cbn [rbind] in Hsr. destruct (equals a pool) as [e|]; [|discriminate]. cbn [rbind] in Hsr.
  destruct (e || _); [|injection Hsr as <- <- <-; apply Hok in Hpp; done].
  rewrite Htip in Hsr. cbn [rbind] in Hsr. by injection Hsr as <- _ _.
Qed.
