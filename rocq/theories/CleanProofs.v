(** Cleanup in closed form, and independence of map order. *)
From Verif Require Export LiveProofs.

Lemma target_spec pcs i : source_to_target pcs !! i = target pcs i.
Proof.
  unfold source_to_target, target. induction pcs as [|[a b] l IH] using rev_ind; [done|].
  rewrite fold_left_app. cbn [fold_left fst snd]. rewrite filter_app.
  destruct (decide (a = i)) as [->|Hne].
  - rewrite lookup_insert. rewrite (filter_cons_True _ (i, b)) by done. rewrite filter_nil. by rewrite stdpp.list.last_snoc.
  - rewrite lookup_insert_ne by done. rewrite (filter_cons_False _ (a, b)) by done. rewrite filter_nil, app_nil_r. done.
Qed.
Lemma target_in pcs i t : target pcs i = Some t → (i, t) ∈ pcs.
Proof. rewrite <-target_spec. apply source_target. Qed.

Lemma on_duty_spec v : bstate_is_active (b_status v) = bool_decide (on_duty v).
Proof.
  destruct (decide (on_duty v)) as [H|H].
  - rewrite bool_decide_eq_true_2 by done. unfold on_duty in H. by destruct H as [-> |[-> | ->]].
  - rewrite bool_decide_eq_false_2 by done. unfold on_duty in H. destruct (b_status v); done || naive_solver.
Qed.

Lemma gone_lookup r s i v : gone r s !! i = Some v ↔ st_vals s !! i = Some v ∧ (∃ b, (i, b) ∈ r ∧ ¬ on_duty b) ∧ v_pend v ≠ 0%Z.
Proof.
  unfold gone. rewrite map_filter_lookup_Some. cbn [fst snd]. rewrite Exists_exists. split.
  - intros (H1 & ([k b] & Hin & Hk & Hb) & H3). cbn in *. subst. split; [done|]. split; [by exists b|done].
  - intros (H1 & (b & Hin & Hb) & H3). split; [done|]. split; [|done]. by exists (i, b).
Qed.
Lemma gone_nil s : gone [] s = ∅.
Proof. apply map_eq. intros i. rewrite lookup_empty. destruct (gone [] s !! i) as [v|] eqn:H; [|done]. apply gone_lookup in H as (_ & (b & Hb & _) & _). by apply elem_of_nil in Hb. Qed.

(** One step that does something. *)
Definition clean_val (pcs : list (N * N)) (s : ost) (k : N) (vi : vinfo) (new : N → vinfo) (i : N) : option vinfo :=
  if decide (i = k) then Some (set_pend 0 (set_status (fsm (v_status vi) Unsubscribe) vi))
  else match st_vals s !! i with
       | Some w => Some (if decide (target pcs k = Some i ∧ v_status w ≠ Banned) then set_pend (v_pend w + v_pend vi) w else w)
       | None => if decide (target pcs k = Some i) then Some (new i) else None
       end.
Definition new_val (p : Z) (t : N) (tv : bval) (w : string) : vinfo :=
  VInfo NotSubscribed 0 p 0 ("0x" +:+ hex_encode w) t ("0x" +:+ hex_encode (b_pubkey tv)) Manual.

Lemma status_banned s i : is_banned s i = bool_decide (status s i = Banned).
Proof.
  unfold is_banned, status. destruct (st_vals s !! i) as [v|]; cbn; [|by rewrite bool_decide_eq_false_2].
  destruct (v_status v); cbn; (by rewrite bool_decide_eq_false_2) || by rewrite bool_decide_eq_true_2.
Qed.
Lemma reset_inv i s s' : reset_pend i s = Ok s' → ∃ v, st_vals s !! i = Some v ∧ s' = set_vals (<[i := set_pend 0 v]> (st_vals s)) s.
Proof. apply upd_val_inv. Qed.

Lemma cleanup_one_gone E slot pcs v vi d s s' d' : wf_env E →
  ¬ on_duty v → st_vals s !! b_index v = Some vi → v_pend vi ≠ 0%Z → target pcs (b_index v) ≠ Some (b_index v) →
  cleanup_one E slot (source_to_target pcs) v d s = Done s' d' →
  ∃ new, (∀ i, st_vals s' !! i = clean_val pcs s (b_index v) vi new i) ∧ s' = set_vals (st_vals s') s ∧
    (∀ t, target pcs (b_index v) = Some t → st_vals s !! t = None →
       ∃ resp tv w, e_vals E [t] slot = Some resp ∧ (t, tv) ∈ resp ∧ exec_address (b_creds tv) w ∧ new t = new_val (v_pend vi) t tv w) ∧
    d' = (d + if decide (target pcs (b_index v) = None ∨ status s <$> target pcs (b_index v) = Some Banned) then v_pend vi else 0)%Z.
Proof.
  intros W Hd Hv Hp Hself. unfold cleanup_one. rewrite on_duty_spec, bool_decide_eq_false_2 by done. rewrite Hv.
  rewrite (proj2 (Z.eqb_neq _ _) Hp). rewrite target_spec. set (k := b_index v) in *.
  set (s1 := advance_fsm k Unsubscribe s). set (vi1 := set_status (fsm (v_status vi) Unsubscribe) vi).
  assert (s1 = set_vals (<[k := vi1]> (st_vals s)) s) as Hs1 by (unfold s1, advance_fsm; by rewrite Hv).
  assert (∀ (x : ost) y s2, reset_pend k x = Ok s2 → x = set_vals y s → y !! k = Some vi1 →
     (s2 = set_vals (<[k := set_pend 0 vi1]> y) s)) as Hreset.
  { intros x y s2 (u & Hu & ->)%reset_inv -> Hy. cbn in Hu. rewrite Hy in Hu. injection Hu as <-. done. }
  assert (∀ t, t ≠ k → st_vals s1 !! t = st_vals s !! t) as Hne by (intros t Ht; rewrite Hs1; cbn; by rewrite lookup_insert_ne).
  destruct (target pcs k) as [t|] eqn:Ht.
  2:{ destruct (reset_pend k s1) as [s2|] eqn:Hr; [|done]. intros [= <- <-].
      exists (λ _, vi). apply (Hreset _ _ _ Hr) in Hs1 as Hr2; [|by rewrite lookup_insert]. subst s2. cbn [st_vals set_vals].
      split; [|split; [done|split; [done|by rewrite decide_True by (by left)]]].
      intros i. unfold clean_val. rewrite Ht. rewrite insert_insert. destruct (decide (i = k)) as [->|Hi]; [by rewrite lookup_insert|].
      rewrite lookup_insert_ne by done. rewrite (decide_False (P := None = Some i)) by done.
      destruct (st_vals s !! i) as [w|]; [|done]. by rewrite decide_False by naive_solver. }
  assert (t ≠ k) as Htk by congruence.
  unfold cleanup_consolidate. unfold is_tracked. rewrite Hne by done. rewrite !status_banned.
  assert (status s1 t = status s t) as -> by (unfold status; by rewrite Hne).
  destruct (st_vals s !! t) as [w|] eqn:Hw; cbn [andb negb fmap option_fmap option_map default].
  - change (status s <$> Some t) with (Some (status s t)).
    assert (status s t = v_status w) as Hst by (unfold status; by rewrite Hw). rewrite Hst.
    destruct (decide (v_status w = Banned)) as [Hb|Hb].
    + rewrite !bool_decide_eq_true_2 by done. cbn [negb].
      destruct (reset_pend k s1) as [s2|] eqn:Hr; [|done]. intros [= <- <-].
      exists (λ _, vi). apply (Hreset _ _ _ Hr) in Hs1 as Hr2; [|by rewrite lookup_insert]. subst s2. cbn [st_vals set_vals].
      split; [|split; [done|split]].
      * intros i. unfold clean_val. rewrite Ht. rewrite insert_insert. destruct (decide (i = k)) as [->|Hi]; [by rewrite lookup_insert|].
        rewrite lookup_insert_ne by done. destruct (decide (i = t)) as [->|Hit].
        -- rewrite Hw. rewrite decide_False; [done|]. naive_solver.
        -- destruct (st_vals s !! i) as [u|]; [rewrite decide_False; [done|naive_solver]|rewrite decide_False; [done|naive_solver]].
      * intros t' [= <-]. by rewrite Hw.
      * rewrite decide_True by (right; by rewrite Hb). done.
    + rewrite !bool_decide_eq_false_2 by done. cbn [negb].
      destruct (inc_pend t (v_pend vi) s1) as [s2|] eqn:Hi; [|done].
      unfold inc_pend, upd_val in Hi. rewrite (Hne t Htk), Hw in Hi. injection Hi as <-.
      destruct (reset_pend k _) as [s2|] eqn:Hr; [|done]. intros [= <- <-].
      set (w' := set_pend (v_pend w + v_pend vi) w) in *.
      pose proof (Hreset _ (<[t := w']> (<[k := vi1]> (st_vals s))) _ Hr) as Hr2. feed specialize Hr2.
      { rewrite Hs1. done. }
      { rewrite lookup_insert_ne by done. by rewrite lookup_insert. }
      subst s2. exists (λ _, vi). cbn [st_vals set_vals]. split; [|split; [done|split]].
      * intros i. unfold clean_val. rewrite Ht. destruct (decide (i = k)) as [->|Hik]; [by rewrite lookup_insert|].
        rewrite lookup_insert_ne by done. destruct (decide (i = t)) as [->|Hit].
        -- rewrite lookup_insert, Hw. by rewrite decide_True.
        -- rewrite !lookup_insert_ne by done. destruct (st_vals s !! i) as [u|]; rewrite decide_False; done || naive_solver.
      * intros t' [= <-]. by rewrite Hw.
      * rewrite decide_False; [lia|]. intros [?|[= H]]; done.
  - destruct (e_vals E [t] slot) as [resp|] eqn:Hresp; [|done].
    destruct (list_to_map resp !! t) as [tv|] eqn:Htv; [|done].
    destruct (get_compatible_address_byte (b_creds tv)) as [wa|] eqn:Hwa; [|done].
    apply compatible_iff in Hwa as (a & Ha & ->).
    destruct (reset_pend k _) as [s2|] eqn:Hr; [|done]. intros [= <- <-].
    set (n := new_val (v_pend vi) t tv a).
    pose proof (Hreset _ (<[t := n]> (<[k := vi1]> (st_vals s))) _ Hr) as Hr2. feed specialize Hr2.
    { rewrite Hs1. done. }
    { rewrite lookup_insert_ne by done. by rewrite lookup_insert. }
    subst s2. exists (λ _, n). cbn [st_vals set_vals]. split; [|split; [done|split]].
    + intros i. unfold clean_val. rewrite Ht. destruct (decide (i = k)) as [->|Hik]; [by rewrite lookup_insert|].
      rewrite lookup_insert_ne by done. destruct (decide (i = t)) as [->|Hit].
      * rewrite lookup_insert, Hw. by rewrite decide_True.
      * rewrite !lookup_insert_ne by done. destruct (st_vals s !! i) as [u|]; rewrite decide_False; done || naive_solver.
    + intros t' [= <-] _. exists resp, tv, a. split; [done|]. split; [by apply elem_of_list_to_map_2|]. done.
    + rewrite decide_False; [lia|]. intros [?|[= H]]; [done|]. unfold status in H. by rewrite Hw in H.
Qed.

(** ** The loop *)
Lemma gone_skip k v r s : (on_duty v ∨ ∀ w, st_vals s !! k = Some w → v_pend w = 0%Z) → k ∉ r.*1 → gone ((k, v) :: r) s = gone r s.
Proof.
  intros Hs Hk. apply map_eq. intros i. apply option_eq. intros w. rewrite !gone_lookup. split; intros (H1 & (b & Hb & Hd) & H3).
  - split; [done|]. split; [|done]. exists b. split; [|done]. apply elem_of_cons in Hb as [[= -> ->]|Hb]; [|done].
    destruct Hs as [|Hs]; [done|]. by rewrite (Hs w) in H3.
  - split; [done|]. split; [|done]. exists b. split; [by right|done].
Qed.
Lemma gone_step k v vi r s s1 : ¬ on_duty v → st_vals s !! k = Some vi → v_pend vi ≠ 0%Z → k ∉ r.*1 →
  (∀ i b, (i, b) ∈ r → ¬ on_duty b → st_vals s1 !! i = st_vals s !! i) →
  gone ((k, v) :: r) s = <[k := vi]> (gone r s1) ∧ gone r s1 !! k = None.
Proof.
  intros Hd Hv Hp Hk Hsame. split.
  - apply map_eq. intros i. apply option_eq. intros w. rewrite lookup_insert_Some, !gone_lookup. split.
    + intros (H1 & (b & Hb & Hd') & H3). destruct (decide (k = i)) as [->|Hne]; [left; split; congruence|].
      right. split; [done|]. apply elem_of_cons in Hb as [[= -> ->]|Hb]; [done|]. rewrite (Hsame i b) by done. eauto.
    + intros [[-> <-]|[Hne (H1 & (b & Hb & Hd') & H3)]].
      * split; [done|]. split; [|done]. exists v. split; [by left|done].
      * rewrite (Hsame i b) in H1 by done. split; [done|]. split; [|done]. exists b. split; [by right|done].
  - destruct (gone r s1 !! k) eqn:Hg; [|done]. apply gone_lookup in Hg as (_ & (b & Hb & _) & _). destruct Hk.
    apply elem_of_list_fmap. by exists (k, b).
Qed.
Lemma vsum_filter_insert (P : N * vinfo → Prop) `{∀ x, Decision (P x)} f m k v : m !! k = None →
  vsum f (filter P (<[k := v]> m)) = (vsum f (filter P m) + if decide (P (k, v)) then f v else 0)%Z.
Proof.
  intros Hk. destruct (decide (P (k, v))) as [Hp|Hp].
  - rewrite map_filter_insert_True by done. rewrite vsum_insert_new; [lia|]. apply map_filter_lookup_None. by left.
  - rewrite map_filter_insert_False by done. rewrite delete_notin by done. lia.
Qed.
Lemma set_pend_id v : set_pend (v_pend v) v = v.
Proof. by destruct v. Qed.
Lemma set_vals_twice m m' s : set_vals m (set_vals m' s) = set_vals m s.
Proof. by destruct s. Qed.
Lemma set_vals_id s : set_vals (st_vals s) s = s.
Proof. by destruct s. Qed.
Lemma fsm_unsub_banned st : fsm st Unsubscribe = Banned ↔ st = Banned.
Proof. by destruct st. Qed.

Lemma loop_char E slot pcs r d s s' d' : wf_env E → NoDup r.*1 → (∀ k v, (k, v) ∈ r → b_index v = k) →
  (∀ k, k ∈ r.*1 → is_Some (st_vals s !! k)) → unchained pcs r →
  cleanup_loop E slot (source_to_target pcs) r d s = Done s' d' →
  cleaned E slot pcs r s s' ∧ d' = (d + left_over pcs r s)%Z.
Proof.
  intros W. revert d s. induction r as [|[k v] r IH]; intros d s Hnd Hidx Htr Hun; cbn [cleanup_loop].
  { intros [= <- <-]. assert (gone [] s = ∅) as Hg by apply gone_nil. split.
    - split; unfold inflow; rewrite ?Hg.
      + intros i v H. by rewrite lookup_empty in H.
      + intros i v Hv _ _. rewrite map_filter_empty, vsum_empty, Z.add_0_r, set_pend_id. done.
      + done.
      + intros i j v _ H. by rewrite lookup_empty in H.
      + done.
      + by rewrite set_vals_id.
    - unfold left_over. rewrite Hg, map_filter_empty, vsum_empty. lia. }
  rewrite fmap_cons in Hnd. cbn in Hnd. apply NoDup_cons in Hnd as [Hk Hnd].
  assert (b_index v = k) as Hvk by (apply Hidx; by left).
  destruct (Htr k) as [vi Hvi]; [rewrite fmap_cons; by left|].
  assert (∀ k v, (k, v) ∈ r → b_index v = k) as Hidx' by (intros; apply Hidx; by right).
  assert (unchained pcs r) as Hun' by (intros i t w Hit Hw; eapply Hun; [done|by right]).
  destruct (cleanup_one E slot (source_to_target pcs) (k, v).2 d s) as [s1 d1| |] eqn:H1; [|done..]. cbn [snd] in H1. intros Hl.
  destruct (decide (on_duty v ∨ v_pend vi = 0%Z)) as [Hskip|Hgo].
  { assert (s1 = s ∧ d1 = d) as [-> ->].
    { unfold cleanup_one in H1. rewrite on_duty_spec in H1. destruct (bool_decide_reflect (on_duty v)) as [|Hnd']; [by injection H1|].
      rewrite Hvk, Hvi in H1. destruct Hskip as [|Hz]; [done|]. rewrite Hz in H1. cbn in H1. by injection H1. }
    assert (gone ((k, v) :: r) s = gone r s) as Hg.
    { apply gone_skip; [|done]. destruct Hskip as [|Hz]; [by left|right]. intros w. rewrite Hvi. by intros [= <-]. }
    apply IH in Hl as [[A1 A2 A3 A4 A5 A6] ->]; [|done|done| |done].
    - split; [|unfold left_over; by rewrite Hg]. split; unfold inflow; rewrite ?Hg; done.
    - intros j Hj. apply Htr. rewrite fmap_cons. by right. }
  assert (¬ on_duty v ∧ v_pend vi ≠ 0%Z) as [Hnd' Hp] by (split; intros ?; apply Hgo; auto). clear Hgo.
  rewrite <-Hvk in Hvi.
  apply (cleanup_one_gone E slot pcs v vi) in H1 as (new & Hlk & Hset & Hnew & ->); [|done..|].
  2:{ intros Ht. apply target_in in Ht. rewrite Hvk in Ht. apply Hnd'. eapply Hun; [exact Ht|by left]. }
  rewrite Hvk in *.
  assert (∀ i b, (i, b) ∈ r → i ≠ k) as Hink.
  { intros i b Hb ->. apply Hk. apply elem_of_list_fmap. by exists (k, b). }
  assert (∀ i b, (i, b) ∈ r → ¬ on_duty b → st_vals s1 !! i = st_vals s !! i) as Hsame.
  { intros i b Hb Hdb. rewrite Hlk. unfold clean_val. rewrite decide_False by (by eapply Hink).
    assert (target pcs k ≠ Some i) as Hti. { intros Ht%target_in. apply Hdb. eapply Hun; [exact Ht|by right]. }
    destruct (st_vals s !! i); rewrite decide_False; done || naive_solver. }
  destruct (gone_step k v vi r s s1) as [Hg Hgk]; [done..|].
  assert (∀ j, j ∈ r.*1 → is_Some (st_vals s1 !! j)) as Htr'.
  { intros j Hj. destruct (Htr j) as [w Hw]; [rewrite fmap_cons; by right|]. rewrite Hlk. unfold clean_val.
    rewrite decide_False. 2:{ intros ->. done. } rewrite Hw. by eexists. }
  apply IH in Hl as [[A1 A2 A3 A4 A5 A6] ->]; [|done..]. clear IH.
  assert (∀ i, inflow pcs ((k, v) :: r) s i = inflow pcs r s1 i + if decide (target pcs k = Some i) then v_pend vi else 0)%Z as Hin.
  { intros i. unfold inflow. rewrite Hg. by rewrite (vsum_filter_insert (λ kv, target pcs kv.1 = Some i)). }
  assert (∀ i, status s1 i = Banned ↔ status s i = Banned) as Hban.
  { intros i. unfold status. rewrite Hlk. unfold clean_val. destruct (decide (i = k)) as [->|Hik].
    - rewrite Hvi. cbn. apply fsm_unsub_banned.
    - destruct (st_vals s !! i) as [w|] eqn:Hw; cbn.
      + by destruct (decide _).
      + destruct (decide (target pcs k = Some i)) as [Ht|]; [|done]. destruct (Hnew i Ht Hw) as (? & ? & ? & _ & _ & _ & ->). done. }
  assert (∀ kv, (target pcs kv = None ∨ status s1 <$> target pcs kv = Some Banned) ↔ (target pcs kv = None ∨ status s <$> target pcs kv = Some Banned)) as Hbt.
  { intros j. destruct (target pcs j) as [t|]; cbn; [|naive_solver]. split; intros [?|[= H]]; try done; right; f_equal; by apply Hban. }
  split.
  2:{ unfold left_over. rewrite Hg. rewrite (vsum_filter_insert (λ kv, target pcs kv.1 = None ∨ status s <$> target pcs kv.1 = Some Banned)) by done.
      cbn [fst].
      assert (filter (λ kv, target pcs kv.1 = None ∨ status s1 <$> target pcs kv.1 = Some Banned) (gone r s1) =
        filter (λ kv, target pcs kv.1 = None ∨ status s <$> target pcs kv.1 = Some Banned) (gone r s1)) as ->; [|lia].
      apply map_filter_strong_ext. intros i x. cbn. by rewrite Hbt. }
  assert (∀ i, i ≠ k → gone ((k, v) :: r) s !! i = gone r s1 !! i) as Hgi by (intros i Hi; by rewrite Hg, lookup_insert_ne).
  split.
  - intros i w. rewrite Hg. rewrite lookup_insert_Some. intros [[<- <-]|[Hne Hgw]].
    + exists (fsm (v_status vi) Unsubscribe). split; [|by apply moves_fsm].
      pose proof (Hlk k) as Hs1k. unfold clean_val in Hs1k. rewrite decide_True in Hs1k by done.
      assert (inflow pcs r s1 k = 0%Z) as Hz.
      { unfold inflow. assert (filter (λ kv, target pcs kv.1 = Some k) (gone r s1) = ∅) as ->; [|apply vsum_empty].
        apply map_eq. intros j. rewrite lookup_empty. destruct (filter _ _ !! j) as [x|] eqn:Hx; [|done].
        apply map_filter_lookup_Some in Hx as [_ Ht]. cbn in Ht. apply target_in in Ht. destruct Hnd'. eapply Hun; [exact Ht|by left]. }
      destruct (decide (fsm (v_status vi) Unsubscribe = Banned)) as [Hb|Hb].
      * by rewrite (A3 k _ Hs1k).
      * rewrite (A2 k _ Hs1k) by done. rewrite Hz. done.
    + pose proof Hgw as Hgw'. apply gone_lookup in Hgw' as (Hw & (b & Hb & Hdb) & Hpw). rewrite (Hsame i b) in Hw by done.
      exact (A1 i w Hgw).
  - intros i w Hw Hgn Hnb. rewrite Hin.
    destruct (decide (i = k)) as [->|Hik]; [by rewrite Hg, lookup_insert in Hgn|].
    rewrite Hgi in Hgn by done. pose proof (Hlk i) as Hs1i. unfold clean_val in Hs1i. rewrite decide_False, Hw in Hs1i by done.
    destruct (decide (target pcs k = Some i)) as [Ht|Ht].
    + rewrite decide_True in Hs1i by done. rewrite (A2 i _ Hs1i) by done. cbn. f_equal. rewrite (Z.add_comm (inflow _ _ _ _)), Z.add_assoc. by destruct w.
    + rewrite decide_False in Hs1i by naive_solver. rewrite (A2 i _ Hs1i) by done. by rewrite Z.add_0_r.
  - intros i w Hw Hgn Hb.
    destruct (decide (i = k)) as [->|Hik]; [by rewrite Hg, lookup_insert in Hgn|].
    rewrite Hgi in Hgn by done. pose proof (Hlk i) as Hs1i. unfold clean_val in Hs1i. rewrite decide_False, Hw in Hs1i by done.
    rewrite decide_False in Hs1i by naive_solver. by apply A3.
  - intros i j w Hi Hgj Ht. assert (i ≠ k) as Hik by congruence. rewrite Hin.
    pose proof (Hlk i) as Hs1i. unfold clean_val in Hs1i. rewrite decide_False, Hi in Hs1i by done.
    destruct (decide (target pcs k = Some i)) as [Hti|Hti].
    + destruct (Hnew i Hti Hi) as (resp & tv & a & Hr & Htv & Ha & Hn). rewrite Hn in Hs1i.
      exists resp, tv, a. do 3 (split; [done|]).
      assert (gone r s1 !! i = None) as Hgi0.
      { destruct (gone r s1 !! i) eqn:Hgg; [|done]. apply gone_lookup in Hgg as (_ & (b & Hb & _) & _).
        destruct (Htr i) as [? Hx]; [rewrite fmap_cons; right; apply elem_of_list_fmap; by exists (i, b)|]. congruence. }
      rewrite (A2 i _ Hs1i Hgi0) by done. unfold new_val, set_pend. cbn. do 2 f_equal. lia.
    + rewrite Z.add_0_r. apply (A4 i j w); [done| |done]. rewrite Hg in Hgj. rewrite lookup_insert_ne in Hgj; [done|]. congruence.
  - intros i Hi Hno. assert (i ≠ k) as Hik by congruence.
    pose proof (Hlk i) as Hs1i. unfold clean_val in Hs1i. rewrite decide_False, Hi in Hs1i by done.
    rewrite decide_False in Hs1i. 2:{ apply (Hno k vi). by rewrite Hg, lookup_insert. }
    apply A5; [done|]. intros j w Hj. apply (Hno j w). rewrite Hg. rewrite lookup_insert_ne; [done|]. congruence.
  - rewrite A6, Hset. by rewrite !set_vals_twice.
Qed.
