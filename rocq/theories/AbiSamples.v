(** Identifiers, logs and call data used by PropAbi.v. *)
From Verif Require Import AbiProofs ApiProofs OnchainSamples MerkleSamples Keccak.

(** The identifiers of the events as contract.go states them: lines 1672, 1943, 3040, 3308, 3443, 3577, 3711, 3845, 4113. *)
Definition event_id (k : kind) : string :=
  match k with
  | KEther => "1e57e3bb474320be3d2c77138f75b7c3941292d647f5f9634e33a8e94e0e069b"
  | KSub => "1094f8cfeb6abd0fd67e4ce1e1d3999c0176a4d8c7f8325e3ecddb5a1249fde9"
  | KUnsub => "5a984d13ffecb21f69de43956dcd971abcff8e187fac09a0ce3209562da14e0a"
  | KFee => "19d74da91b7de020180f04c1c60faba431bd76ecf962935e6f65ecbf0223ecfc"
  | KRecipient => "ae901f1a96a9fc6852e6b162ea0b9887c37b667fb5d2d925b6e4a607aac0bf62"
  | KSize => "8e0e8e986a04eea90f6e33488f9756f53cb482049ca8269e6864c797b8bcae6e"
  | KColl => "db50d3f51ff6294ba829f0d7f6b99b5b606a52807d5106ef44151d9297720217"
  | KBan => "b6978e4c15338f096fdd02b00c667cb63eeedd4df4f2243213e9371dbc5d1ca7"
  | KUnban => "aa0f7dc1145b1a2a0195373eca47d4c7a42be75b0579288456153a416494a581"
  end.
Lemma event_ids k : hex_encode (keccak256 (signature k)) = event_id k.
Proof. destruct k; by vm_compute. Qed.
Lemma keccak_apart : apart keccak256.
Proof.
  intros k k' He. apply (f_equal hex_encode) in He. rewrite !event_ids in He.
  destruct k, k'; first [reflexivity|exfalso; revert He; cbn [event_id]; discriminate].
Qed.
Lemma toy_apart : apart toy.
Proof. intros k k' He. destruct k, k'; first [reflexivity|exfalso; revert He; vm_compute; discriminate]. Qed.

(** ** A block with logs of the pool and of others *)
Definition word (n : N) : string := be_bytes 32 n.
Definition pad12 : string := String.concat "" (replicate 12 (String zero "")).
Definition pool_log (addr : string) (topics : list string) (data : string) : rawlog :=
  RawLog addr topics data 12000001 (bytes 32 1) 0 (bytes 32 2) 0 false.
Definition donor : string := bytes 20 77.
Definition donation : rawlog := pool_log pool20 [toy (signature KEther)] ((pad12 +:+ donor) +:+ word 7).
Definition stranger_log : rawlog := pool_log donor [toy (signature KEther)] "not an event".
Definition claim_log : rawlog := pool_log pool20 [toy "ClaimRewards(address,address,uint256)"] (word 1).
Definition subscription : rawlog := pool_log pool20 [toy (signature KSub)] ((pad12 +:+ bytes 20 1) +:+ word 1000 +:+ word 1).
Definition new_fee : rawlog := pool_log pool20 [toy (signature KFee)] (word 500).
Definition some_logs : list rawlog := [donation; stranger_log; claim_log; subscription; new_fee].
Definition some_events : list (emitted * rawlog) :=
  [(EEther donor 7, donation); (ESub (bytes 20 1) 1000 1, subscription); (EFee 500, new_fee)].
Lemma some_tells : tells toy pool20 some_logs some_events.
Proof.
  apply tells_event; [done| |apply tells_other; [|apply tells_other; [|apply tells_event; [done| |apply tells_event; [done| |apply tells_nil]]]]].
  - exists KEther. split; [|done]. apply log_ether; [by split|]. split; [done|]. split; by vm_compute.
  - left. by intros He%(f_equal (String.get 0)).
  - right. intros k. destruct k; vm_compute; discriminate.
  - exists KSub. split; [|done]. apply log_sub; [by split|..]; (split; [done|]); split; by vm_compute.
  - exists KFee. split; [|done]. apply log_fee. split; [done|]. split; by vm_compute.
Qed.

(** The node that serves [fb], its events read from logs. *)
Definition logging (fb : fullblock) (es : list (emitted * rawlog)) : node :=
  let nd := serving fb in let ev := all_events es in
  Node (nd_chain nd) (nd_duties nd) (nd_vals nd) (nd_block nd)
    (λ _, Some (ev_ether_received ev)) (λ _, Some (ev_subscribe ev)) (λ _, Some (ev_unsubscribe ev))
    (λ _, Some (ev_pool_fee ev)) (λ _, Some (ev_fee_recipient ev)) (λ _, Some (ev_checkpoint_size ev))
    (λ _, Some (ev_collateral ev)) (λ _, Some (ev_bans ev)) (λ _, Some (ev_unbans ev)) (nd_header nd) (nd_receipt nd).
Definition some_block : fullblock := foreign_block 12000001 9 no_events.
Lemma logging_reads : reads toy (λ _ t, Some (found pool20 some_logs t)) (logging some_block some_events).
Proof. split; intros n; by vm_compute. Qed.

(** ** Logs that cannot be read *)
Definition cut_log : rawlog := pool_log pool20 [toy (signature KEther)] (word 1).
Lemma unreadable_hides : ∃ pre e l, logged e KEther (l_data l) ∧ l_topics l = [toy (signature KEther)] ∧
  get_events toy KEther as_ether (Some [pre; l]) = Ok (Some []).
Proof.
  exists cut_log, (EEther donor 7), donation. split; [|split; [done|by vm_compute]].
  apply log_ether; [by split|]. split; [done|]. split; by vm_compute.
Qed.

(** ** Deployments *)
Definition sel : string := String "021" (String "030" (String "077" (String "061" ""))).
Definition init_data (fee : N) : string :=
  (pad12 +:+ donor) +:+ word 1000 +:+ word fee +:+ (pad12 +:+ fees20) +:+ word 7200 +:+ word 2.
Lemma init_data_call : init_call (init_data 900) 1000 900 fees20 7200 2.
Proof. apply (call donor); [by split| | |by split|..]; (split; [done|]); split; by vm_compute. Qed.
Definition proxy_code : string := "creation code" +:+ sel +:+ "short".
Fixpoint spots (f : string → bool) (d : string) (k : nat) {struct k} : bool :=
  match k with
  | O => true
  | S k => (if has_prefix d sel then f (sdrop 4 d) else true) && match d with "" => true | String _ d => spots f d k end
  end.
Lemma spots_all f d k p t : spots f d k = true → d = p +:+ sel +:+ t → String.length p < k → f t = true.
Proof.
  revert d p. induction k as [|k IH]; intros d p Hs Hd Hk; [lia|]. cbn [spots] in Hs. apply andb_prop in Hs as [H1 H2].
  destruct p as [|c p].
  - assert (has_prefix d sel = true) as Hp by (apply has_prefix_app; eauto). rewrite Hp in H1. subst d. exact H1.
  - subst d. change (String c p +:+ sel +:+ t) with (String c (p +:+ sel +:+ t)) in H2. apply (IH (p +:+ sel +:+ t) p); [done|done|].
    cbn [String.length] in Hk. lia.
Qed.
Definition deploying : list deploy_tx :=
  [(Some donor, sel +:+ init_data 100); (Some pool20, "call"); (None, proxy_code +:+ sel +:+ init_data 900 +:+ "rest"); (Some pool20, sel +:+ init_data 800)].
Lemma deploying_silent : Forall (silent sel pool20) (take 2 deploying).
Proof.
  repeat (apply Forall_cons; split); [..|by apply Forall_nil].
  - left. by intros He%(f_equal (String.get 0)).
  - right. intros t He%(f_equal (String.get 0)). done.
Qed.
Lemma deploying_carries : carries sel pool20 (init_data 900) (None, proxy_code +:+ sel +:+ init_data 900 +:+ "rest").
Proof.
  right. exists proxy_code, "rest". split; [done|]. intros p t Hp Hl.
  pose proof (spots_all (λ x, match init_fee x with None => true | _ => false end) (proxy_code +:+ sel +:+ init_data 900 +:+ "rest") (String.length proxy_code) p t) as Hs.
  cbv beta in Hs. destruct (init_fee t); [|done]. discriminate Hs; [by vm_compute|exact Hp|exact Hl].
Qed.
