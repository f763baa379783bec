(** What the contract logs, and what reading it should give (C82, C83). *)
From Verif Require Export Abi PersistSpec MerkleSpec OnchainSpec.

(** A word of 32 bytes that holds a number, or an address (20 bytes after twelve zero bytes). *)
Definition number_word (n : N) (w : string) : Prop := String.length w = 32%nat ∧ be_value w = n.
Definition address_word (a20 w : string) : Prop := String.length a20 = 20%nat ∧ w = String.concat "" (replicate 12 (String zero "")) +:+ a20.
Definition uint256_word (z : Z) (w : string) : Prop := uint256 z ∧ number_word (Z.to_N z) w.
Definition uint64_word (n : N) (w : string) : Prop := is_u64 n ∧ number_word n w.

(** An event of the contract, and the data that it is logged with. *)
Inductive emitted :=
| EEther (a : string) (z : Z) | ESub (a : string) (z : Z) (i : N) | EUnsub (a : string) (i : N) | EFee (z : Z) | ERecipient (a : string)
| ESize (n : N) | EColl (z : Z) | EBan (i : N) | EUnban (i : N).
Inductive logged : emitted → kind → string → Prop :=
| log_ether a z w1 w2 : address_word a w1 → uint256_word z w2 → logged (EEther a z) KEther (w1 +:+ w2)
| log_sub a z i w1 w2 w3 : address_word a w1 → uint256_word z w2 → uint64_word i w3 → logged (ESub a z i) KSub (w1 +:+ w2 +:+ w3)
| log_unsub a i w1 w2 : address_word a w1 → uint64_word i w2 → logged (EUnsub a i) KUnsub (w1 +:+ w2)
| log_fee z w : uint256_word z w → logged (EFee z) KFee w
| log_recipient a w : address_word a w → logged (ERecipient a) KRecipient w
| log_size n w : uint64_word n w → logged (ESize n) KSize w
| log_coll z w : uint256_word z w → logged (EColl z) KColl w
| log_ban i w : uint64_word i w → logged (EBan i) KBan w
| log_unban i w : uint64_word i w → logged (EUnban i) KUnban w.

(** The hash tells the nine kinds apart. *)
Definition apart (H : string → string) : Prop := ∀ k k', H (signature k) = H (signature k') → k = k'.
(** A log of the pool is one of these events, or of another kind. *)
Definition log_of (H : string → string) (l : rawlog) (e : option emitted) : Prop :=
  match e with
  | Some e => ∃ k, logged e k (l_data l) ∧ l_topics l = [H (signature k)]
  | None => ∀ k, head (l_topics l) ≠ Some (H (signature k))
  end.
(** A list of logs, and the events of the pool among them. Logs of other contracts may look like anything. *)
Inductive tells (H : string → string) (pool20 : string) : list rawlog → list (emitted * rawlog) → Prop :=
| tells_nil : tells H pool20 [] []
| tells_other l ls es : l_addr l ≠ pool20 ∨ log_of H l None → tells H pool20 ls es → tells H pool20 (l :: ls) es
| tells_event l e ls es : l_addr l = pool20 → log_of H l (Some e) → tells H pool20 ls es → tells H pool20 (l :: ls) ((e, l) :: es).
(** eth_getLogs: the logs of an address whose first topic is this one. *)
Definition wanted (pool20 topic : string) (l : rawlog) : Prop := l_addr l = pool20 ∧ head (l_topics l) = Some topic.
Global Instance wanted_dec pool20 topic l : Decision (wanted pool20 topic l).
Proof. unfold wanted. apply _. Defined.
Definition found (pool20 : string) (ls : list rawlog) (topic : string) : list rawlog := filter (wanted pool20 topic) ls.

(** The events of each kind, in order. *)
Definition ethers (es : list (emitted * rawlog)) : list ev_ether := omap (λ x, match x.1 with EEther a z => Some (EvEther a z x.2) | _ => None end) es.
Definition subs (es : list (emitted * rawlog)) : list ev_sub := omap (λ x, match x.1 with ESub a z i => Some (EvSub a z i x.2) | _ => None end) es.
Definition unsubs (es : list (emitted * rawlog)) : list ev_unsub := omap (λ x, match x.1 with EUnsub a i => Some (EvUnsub a i x.2) | _ => None end) es.
Definition all_events (es : list (emitted * rawlog)) : events :=
  Events (ethers es) (subs es) (unsubs es)
    (omap (λ x, match x.1 with EFee z => Some (z, x.2) | _ => None end) es)
    (omap (λ x, match x.1 with ERecipient a => Some (a, x.2) | _ => None end) es)
    (omap (λ x, match x.1 with ESize n => Some (n, x.2) | _ => None end) es)
    (omap (λ x, match x.1 with EColl z => Some (z, x.2) | _ => None end) es)
    (omap (λ x, match x.1 with EBan i => Some (EvBan i x.2) | _ => None end) es)
    (omap (λ x, match x.1 with EUnban i => Some (EvBan i x.2) | _ => None end) es) [].

(** A word that holds a value of a parameter: the first twelve bytes of an address do not matter. *)
Inductive holds : param → aval → string → Prop :=
| holds_address p a : String.length p = 12%nat → String.length a = 20%nat → holds PAddress (VAddress a) (p +:+ a)
| holds_big z w : uint256_word z w → holds PUint256 (VBig z) w
| holds_uint64 n w : uint64_word n w → holds PUint64 (VUint64 n) w.
(** Data that begin with words for these values. *)
Inductive holds_all : list param → list aval → string → Prop :=
| holds_nil r : holds_all [] [] r
| holds_cons p v w ps vs r : holds p v w → holds_all ps vs r → holds_all (p :: ps) (v :: vs) (w +:+ r).
(** The zero value of a parameter's type. *)
Definition zero_value (p : param) : aval :=
  match p with PAddress => VAddress (String.concat "" (replicate 20 (String zero ""))) | PUint256 => VNil | PUint64 => VUint64 0 end.

(** A node whose answers to the event requests are read from logs of blocks. *)
Record reads (H : string → string) (logs : N → string → option (list rawlog)) (nd : node) : Prop := Reads {
  rd_ether : ∀ n, get_events H KEther as_ether (logs n (H (signature KEther))) = Ok (nd_ether nd n);
  rd_subs : ∀ n, get_events H KSub as_sub (logs n (H (signature KSub))) = Ok (nd_subs nd n);
  rd_unsubs : ∀ n, get_events H KUnsub as_unsub (logs n (H (signature KUnsub))) = Ok (nd_unsubs nd n);
  rd_fee : ∀ n, get_events H KFee as_big (logs n (H (signature KFee))) = Ok (nd_fee nd n);
  rd_recipient : ∀ n, get_events H KRecipient as_address (logs n (H (signature KRecipient))) = Ok (nd_recipient nd n);
  rd_size : ∀ n, get_events H KSize as_uint64 (logs n (H (signature KSize))) = Ok (nd_size nd n);
  rd_coll : ∀ n, get_events H KColl as_big (logs n (H (signature KColl))) = Ok (nd_coll nd n);
  rd_bans : ∀ n, get_events H KBan as_ban (logs n (H (signature KBan))) = Ok (nd_bans nd n);
  rd_unbans : ∀ n, get_events H KUnban as_ban (logs n (H (signature KUnban))) = Ok (nd_unbans nd n) }.

(** The call data of initialize after the selector. *)
Inductive init_call : string → Z → Z → string → N → N → Prop :=
| call gov coll fee a size q w1 w2 w3 w4 w5 w6 : address_word gov w1 → uint256_word coll w2 → uint256_word fee w3 → address_word a w4 →
    uint64_word size w5 → uint64_word q w6 → init_call (w1 +:+ w2 +:+ w3 +:+ w4 +:+ w5 +:+ w6) coll fee a size q.
(** A transaction of the deployment block that carries no readable call of initialize of the pool: one to another
    address, one to the pool with other data, or a creation in whose data nothing after a selector can be read. *)
Definition silent (sel pool20 : string) (tx : deploy_tx) : Prop :=
  match tx.1 with
  | Some a => a ≠ pool20 ∨ ∀ t, tx.2 ≠ sel +:+ t
  | None => ∀ p t, tx.2 = p +:+ sel +:+ t → init_fee t = None
  end.
(** A transaction that carries the call with the arguments [data]: on the pool, or, as the first that can be read, in
    the data of a creation (a proxy that calls initialize). *)
Definition carries (sel pool20 data : string) (tx : deploy_tx) : Prop :=
  (∃ r, tx = (Some pool20, sel +:+ data +:+ r)) ∨
  (∃ code r, tx = (None, code +:+ sel +:+ data +:+ r) ∧
     ∀ p t, code +:+ sel +:+ data +:+ r = p +:+ sel +:+ t → String.length p < String.length code → init_fee t = None).
