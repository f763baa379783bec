(** Proofs of C92. *)
From Verif Require Export RlpProofs.
From Verif Require Import LoopProofs.
From Verif Require Import StringProofs CheckpointProofs AbiProofs.

Lemma written t : body t (unsigned t) → (N.of_nat (String.length (tx_bytes t)) < two64)%N → transmits t (tx_bytes t).
Proof.
  intros Hb Hl. destruct (signature_of t) as [[v r] s] eqn:Hs. unfold tx_bytes in *. rewrite signature_same, Hs, announced_prefix in *.
  eexists (unsigned t), v, r, s, (of_number v), (of_number r), (of_number s), _.
  split; [done|]. split; [done|]. do 3 (split; [apply of_number_writes|]). split; [|reflexivity]. apply encode_wire. rewrite string_length_app in Hl. lia.
Qed.
Lemma number_size n : (n < 2 ^ 256)%N → (String.length (encode_item (of_number n)) ≤ 41)%nat.
Proof.
  intros Hn. pose proof (short_bytes_length n 32 Hn) as Hl. unfold of_number. rewrite encode_str, string_length_app.
  destruct (own_prefix _); [cbn; lia|]. pose proof (put_head_length false (short_bytes n) ltac:(unfold two64; lia)). lia.
Qed.
Lemma str_size s k : (String.length s ≤ k)%nat → (k ≤ 1000)%nat → (String.length (encode_item (Str s)) ≤ k + 9)%nat.
Proof.
  intros Hs Hk. rewrite encode_str, string_length_app. destruct (own_prefix s); [cbn; lia|].
  pose proof (put_head_length false s ltac:(unfold two64; lia)). lia.
Qed.
Lemma list_size l k : Forall (λ i, (String.length (encode_item i) ≤ k)%nat) l → (String.length (encodes l) ≤ length l * k)%nat.
Proof.
  induction 1 as [|i l Hi _ IH]; [cbn; lia|]. cbn [encodes foldr length]. fold (encodes l). rewrite string_length_app. lia.
Qed.
Lemma tx_size t v r s : signature_of t = (v, r, s) → (String.length (encodes (unsigned t ++ [of_number v; of_number r; of_number s])) ≤ 1000)%nat →
  (N.of_nat (String.length (tx_bytes t)) < 2 ^ 63)%N.
Proof.
  intros Hs Hl. unfold tx_bytes. rewrite signature_same, Hs, string_length_app, encode_seq, string_length_app.
  pose proof (put_head_length true (encodes (unsigned t ++ [of_number v; of_number r; of_number s])) ltac:(unfold two64; lia)).
  assert (String.length (type_prefix t) ≤ 1)%nat by (by destruct t; cbn; lia). lia.
Qed.
Lemma submit_data_spec H slot root : is_u64 slot → String.length root = 32%nat → calls_submit H (submit_data H slot root) slot root.
Proof.
  intros Hs Hr. exists (be_bytes 32 slot). split; [|done]. split; [apply be_bytes_length|]. apply be_bytes_value.
  eapply N.lt_le_trans; [exact Hs|]. done.
Qed.
Lemma substring_short n s : (String.length (substring 0 n s) ≤ n)%nat.
Proof. revert s. induction n as [|n IH]; intros [|c s]; cbn; try lia. specialize (IH s). lia. Qed.
Lemma submit_data_size H slot root : String.length root = 32%nat → (String.length (submit_data H slot root) ≤ 68)%nat.
Proof.
  intros Hr. unfold submit_data. rewrite !string_length_app, be_bytes_length, Hr. pose proof (substring_short 4 (H "submitReport(uint64,bytes32)")). lia.
Qed.
Lemma genuine_small r s : genuine r s → (r < 2 ^ 256)%N ∧ (s < 2 ^ 256)%N.
Proof.
  intros [[_ Hr] [_ Hs]]. split; [etransitivity; [exact Hr|done]|]. eapply N.le_lt_trans; [exact Hs|done].
Qed.
Lemma same_unsigned H t t' chain : unsigned t = unsigned t' → type_prefix t = type_prefix t' → H (sign_bytes chain t) = H (sign_bytes chain t') :> string.
Proof. intros Hu Ht. unfold sign_bytes. by rewrite Hu, Ht. Qed.

Theorem submit_spec H rec sign updater A pool20 slot root t : key_of rec sign updater → sane_answers A → String.length pool20 = 20%nat →
  is_u64 slot → String.length root = 32%nat → t = submit_tx H sign A pool20 slot root →
  transmits t (tx_bytes t) ∧ signed H rec (hd_network A) t updater ∧
  (∃ data, brings t pool20 0 data ∧ calls_submit H data slot root) ∧
  (∀ base, hd_base A = Some base → paid_per_gas (Z.of_N base) t = Z.of_N (base + hd_tip A)) ∧
  (∀ chain a, chain ≠ hd_network A → ¬ signed H rec chain t a).
Proof.
  intros Hk (Hn & Hg & Hnet & Htip & Hprice & Hbase) Hp Hs Hr ->.
  pose proof (submit_data_size H slot root Hr) as Hd. pose proof (submit_data_spec H slot root Hs Hr) as Hcall.
  assert (∀ x, (x < 2 ^ 128)%N → (x < 2 ^ 256)%N) as Hbig by (intros x Hx; etransitivity; [exact Hx|done]).
  assert (∀ x, is_u64 x → (x < 2 ^ 256)%N) as Hu by (intros x Hx; etransitivity; [exact Hx|done]).
  assert (hd_network A < 2 ^ 256)%N as Hnb by (etransitivity; [apply Hnet|done]).
  unfold submit_tx. cbv zeta. set (data := submit_data H slot root) in *. clearbody data.
  assert (String.length (encode_item (Str data)) ≤ 77)%nat as Hdl by (apply (str_size data 68); [done|lia]).
  assert (String.length (encode_item (Str pool20)) ≤ 77)%nat as Hpl by (pose proof (str_size pool20 20 ltac:(lia) ltac:(lia)); lia).
  assert (∀ x, (x < 2 ^ 256)%N → (String.length (encode_item (of_number x)) ≤ 77)%nat) as Hx by (intros x Hx; pose proof (number_size x Hx); lia).
  destruct (hd_base A) as [base|].
  - specialize (Hbase base eq_refl). set (t0 := DynamicTx _ _ _ _ _ _ _ data [] 0 0 0). destruct (Hk (H (sign_bytes None t0))) as (r & s & y & -> & Hy & Hge & Hrec).
    destruct (genuine_small r s Hge) as [Hr256 Hs256]. pose proof (small_two y Hy) as Hy2.
    set (t := DynamicTx _ _ _ _ _ _ _ data [] y r s).
    assert (N.of_nat (String.length (tx_bytes t)) < 2 ^ 63)%N as Hlen.
    { apply (tx_size t y r s); [done|]. etransitivity; [apply (list_size _ 77)|cbn; lia].
      cbn [t unsigned app]. repeat (apply Forall_cons; split; [first [exact Hdl|exact Hpl|apply Hx; first [done|by apply Hu|by apply Hbig|lia]|(vm_compute; lia)]|]). by apply Forall_nil. }
    assert (body t (unsigned t)) as Hb.
    { subst t. cbn [unsigned]. unfold of_access, of_to. cbn [fmap list_fmap]. constructor; try apply of_number_writes; try done. }
    assert (transmits t (tx_bytes t)) as Ht by (apply written; [done|unfold two64; lia]).
    split; [done|]. split.
    { destruct (messages (hd_network A) t (tx_bytes t) Ht Hlen ltac:(unfold is_u64, two64; lia)) as [Hm _].
      eapply signed_typed; [reflexivity|reflexivity|exact Hy|done|exact Hm|]. by rewrite (same_unsigned H t t0 None). }
    split; [exists data; split; [constructor|done]|]. split.
    { intros b [= ->]. cbn [paid_per_gas t]. subst t. cbn [paid_per_gas]. lia. }
    intros chain a Hc. apply other_chain; [|done]. intros c [= <-]. done.
  - set (t0 := Legacy _ _ _ _ _ data 0 0 0). destruct (Hk (H (sign_bytes (Some (hd_network A)) t0))) as (r & s & y & -> & Hy & Hge & Hrec).
    destruct (genuine_small r s Hge) as [Hr256 Hs256]. pose proof (small_two y Hy) as Hy2.
    set (t := Legacy _ _ _ _ _ data _ r s).
    assert (N.of_nat (String.length (tx_bytes t)) < 2 ^ 63)%N as Hlen.
    { eapply (tx_size t); [reflexivity|]. etransitivity; [apply (list_size _ 77)|cbn; lia].
      cbn [t unsigned app]. repeat (apply Forall_cons; split; [first [exact Hdl|exact Hpl|apply Hx; first [done|by apply Hu|by apply Hbig|lia]|(vm_compute; lia)]|]). by apply Forall_nil. }
    assert (body t (unsigned t)) as Hb.
    { subst t. cbn [unsigned]. unfold of_to. constructor; try apply of_number_writes; done. }
    assert (transmits t (tx_bytes t)) as Ht by (apply written; [done|unfold two64; lia]).
    split; [done|]. split.
    { destruct (messages (hd_network A) t (tx_bytes t) Ht Hlen ltac:(unfold is_u64, two64; lia)) as [_ Hm].
      eapply signed_eip155; [reflexivity|reflexivity|exact Hy|lia|done|exact Hm|]. by rewrite (same_unsigned H t t0 (Some (hd_network A))). }
    split; [exists data; split; [constructor|done]|]. split; [done|].
    intros chain a Hc. apply other_chain; [done|]. intros _. exists (hd_network A), y, r, s. split; [done|]. split; [done|]. cbn. f_equal. f_equal. lia.
Qed.
Lemma calls_inj H slot root slot' root' data : calls_submit H data slot root → calls_submit H data slot' root' → slot = slot' ∧ root = root'.
Proof.
  intros (w & [Hw Hv] & Hr & ->) (w' & [Hw' Hv'] & Hr' & Hd).
  apply string_app_inj_l in Hd as [_ Hd]; [|done]. apply string_app_inj_l in Hd as [<- <-]; [|congruence]. split; [congruence|done].
Qed.
Lemma submit_reported H rec sign updater A pool20 S slot root slot' bytes e : key_of rec sign updater → sane_answers A →
  String.length pool20 = 20%nat → is_u64 slot → update_root S slot root = (Some (slot', bytes), e) →
  (root = hex_encode bytes ∨ root = "0x" +:+ hex_encode bytes) ∧
  ∃ data, brings (submit_tx H sign A pool20 slot' bytes) pool20 0 data ∧ calls_submit H data slot bytes.
Proof.
  intros Hk HA Hp Hs Hu.
  apply update_sends in Hu as (-> & Hb & Hr).
  split; [tauto|]. by destruct (submit_spec H rec sign updater A pool20 slot bytes _ Hk HA Hp Hs Hb eq_refl) as (_ & _ & Hd & _).
Qed.
