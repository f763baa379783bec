(** The wire format of transactions (Yellow Paper appendix B, EIP-2718, 2930, 1559, 4844, 7702) and their signatures
    (EIP-155), for C89 to C91. *)
From Verif Require Export Rlp Submit AbiSpec.

(** The prefix of a content: of a list if [l], of a string otherwise. *)
Inductive heads : bool → string → string → Prop :=
| heads_byte c : (N_of_ascii c < 128)%N → heads false (String c "") ""
| heads_short (l : bool) b : (String.length b ≤ 55)%nat → (∀ c, l = false → b = String c "" → 128 ≤ N_of_ascii c)%N →
    heads l b (String (ascii_of_N ((if l then 192 else 128) + N.of_nat (String.length b))) "")
| heads_long (l : bool) b w : (55 < String.length b)%nat → be_value w = N.of_nat (String.length b) → (∀ r, w ≠ String zero r) →
    (String.length w ≤ 8)%nat →
    heads l b (String (ascii_of_N ((if l then 247 else 183) + N.of_nat (String.length w))) w).
(** The bytes of a value, and of several in a row. *)
Inductive wire : item → string → Prop :=
| wire_str s h : heads false s h → wire (Str s) (h +:+ s)
| wire_seq l b h : wires l b → heads true b h → wire (Seq l) (h +:+ b)
with wires : list item → string → Prop :=
| wires_nil : wires [] ""
| wires_cons i l a b : wire i a → wires l b → wires (i :: l) (a +:+ b).

(** A number, in as many bytes as needed. *)
Definition writes (n : N) (i : item) : Prop := ∃ w, i = Str w ∧ be_value w = n ∧ ∀ r, w ≠ String zero r.
(** An access list: addresses, each with keys. *)
Definition lists (p : string * list string) (i : item) : Prop :=
  String.length p.1 = 20%nat ∧ Forall (λ k, String.length k = 32%nat) p.2 ∧ i = Seq [Str p.1; Seq (Str <$> p.2)].
(** An authorization to set code. *)
Definition authorizes (a : auth) (i : item) : Prop :=
  String.length (au_addr a) = 20%nat ∧ is_u64 (au_nonce a) ∧ (au_chain a < 2 ^ 256)%N ∧ (au_v a < 256)%N ∧ (au_r a < 2 ^ 256)%N ∧ (au_s a < 2 ^ 256)%N ∧
  ∃ c n v r s, i = Seq [c; Str (au_addr a); n; v; r; s] ∧ writes (au_chain a) c ∧ writes (au_nonce a) n ∧ writes (au_v a) v ∧
    writes (au_r a) r ∧ writes (au_s a) s.
(** The destination, empty for a contract creation. *)
Definition directs (t : option string) (i : item) : Prop :=
  match t with Some a => String.length a = 20%nat ∧ i = Str a | None => i = Str "" end.

(** The fields of a transaction before its signature, and the limits they have. *)
Inductive body : txdata → list item → Prop :=
| body_legacy n p g t x d v r s in' ip ig it ix : is_u64 n → is_u64 g → writes n in' → writes p ip → writes g ig → directs t it → writes x ix →
    body (Legacy n p g t x d v r s) [in'; ip; ig; it; ix; Str d]
| body_access c n p g t x d al v r s ic in' ip ig it ix ial : is_u64 n → is_u64 g → writes c ic → writes n in' → writes p ip → writes g ig →
    directs t it → writes x ix → Forall2 lists al ial →
    body (AccessTx c n p g t x d al v r s) [ic; in'; ip; ig; it; ix; Str d; Seq ial]
| body_dynamic c n p q g t x d al v r s ic in' ip iq ig it ix ial : is_u64 n → is_u64 g → writes c ic → writes n in' → writes p ip → writes q iq →
    writes g ig → directs t it → writes x ix → Forall2 lists al ial →
    body (DynamicTx c n p q g t x d al v r s) [ic; in'; ip; iq; ig; it; ix; Str d; Seq ial]
| body_blob c n p q g t x d al bc bs v r s ic in' ip iq ig ix ial ibc : is_u64 n → is_u64 g →
    Forall (λ m, m < 2 ^ 256)%N [c; p; q; x; bc; v; r; s] → String.length t = 20%nat → Forall (λ k, String.length k = 32%nat) bs →
    writes c ic → writes n in' → writes p ip → writes q iq → writes g ig → writes x ix → Forall2 lists al ial → writes bc ibc →
    body (BlobTx c n p q g t x d al bc bs v r s) [ic; in'; ip; iq; ig; Str t; ix; Str d; Seq ial; ibc; Seq (Str <$> bs)]
| body_setcode c n p q g t x d al aus v r s ic in' ip iq ig ix ial iau : is_u64 n → is_u64 g →
    Forall (λ m, m < 2 ^ 256)%N [c; p; q; x; v; r; s] → String.length t = 20%nat →
    writes c ic → writes n in' → writes p ip → writes q iq → writes g ig → writes x ix → Forall2 lists al ial → Forall2 authorizes aus iau →
    body (SetCodeTx c n p q g t x d al aus v r s) [ic; in'; ip; iq; ig; Str t; ix; Str d; Seq ial; Seq iau].
(** The byte that announces the type: none for a legacy transaction. *)
Definition announced (t : txdata) : string :=
  match t with
  | Legacy _ _ _ _ _ _ _ _ _ => "" | AccessTx _ _ _ _ _ _ _ _ _ _ _ => String "001" "" | DynamicTx _ _ _ _ _ _ _ _ _ _ _ _ => String "002" ""
  | BlobTx _ _ _ _ _ _ _ _ _ _ _ _ _ _ => String "003" "" | SetCodeTx _ _ _ _ _ _ _ _ _ _ _ _ _ => String "004" ""
  end.
(** The three numbers of the signature. *)
Definition signature_of (t : txdata) : N * N * N :=
  match t with
  | Legacy _ _ _ _ _ _ v r s => (v, r, s) | AccessTx _ _ _ _ _ _ _ _ v r s => (v, r, s) | DynamicTx _ _ _ _ _ _ _ _ _ v r s => (v, r, s)
  | BlobTx _ _ _ _ _ _ _ _ _ _ _ v r s => (v, r, s) | SetCodeTx _ _ _ _ _ _ _ _ _ _ v r s => (v, r, s)
  end.
(** The chain that a typed transaction names. *)
Definition typed_chain (t : txdata) : option N :=
  match t with
  | Legacy _ _ _ _ _ _ _ _ _ => None | AccessTx c _ _ _ _ _ _ _ _ _ _ => Some c | DynamicTx c _ _ _ _ _ _ _ _ _ _ _ => Some c
  | BlobTx c _ _ _ _ _ _ _ _ _ _ _ _ _ => Some c | SetCodeTx c _ _ _ _ _ _ _ _ _ _ _ _ => Some c
  end.
(** The bytes of a transaction in a block. *)
Definition transmits (t : txdata) (raw : string) : Prop :=
  ∃ b v r s iv ir is e, body t b ∧ signature_of t = (v, r, s) ∧ writes v iv ∧ writes r ir ∧ writes s is ∧
    wire (Seq (b ++ [iv; ir; is])) e ∧ raw = announced t +:+ e.

(** What an account signs: without a chain, or (legacy) with one. *)
Definition message (chain : option N) (t : txdata) (m : string) : Prop :=
  ∃ b e, body t b ∧ m = announced t +:+ e ∧
    match chain with
    | None => wire (Seq b) e
    | Some c => ∃ ic, writes c ic ∧ wire (Seq (b ++ [ic; Str ""; Str ""])) e
    end.
(** A signature that the network accepts: S in the lower half. *)
Definition genuine (r s : N) : Prop := (0 < r < curve_order)%N ∧ (0 < s ≤ curve_order / 2)%N.
(** [a] signed [t] for this chain: EIP-155 or without a chain if legacy, with its chain if typed. *)
Inductive signed (H : string → string) (rec : string → N → N → N → option string) (chain : N) (t : txdata) (a : string) : Prop :=
| signed_homestead v r s y m : typed_chain t = None → signature_of t = (v, r, s) → y ∈ [0; 1]%N → v = (27 + y)%N → genuine r s →
    message None t m → rec (H m) y r s = Some a → signed H rec chain t a
| signed_eip155 v r s y m : typed_chain t = None → signature_of t = (v, r, s) → y ∈ [0; 1]%N → v = (35 + 2 * chain + y)%N → genuine r s →
    message (Some chain) t m → rec (H m) y r s = Some a → signed H rec chain t a
| signed_typed v r s m : typed_chain t = Some chain → signature_of t = (v, r, s) → v ∈ [0; 1]%N → genuine r s →
    message None t m → rec (H m) v r s = Some a → signed H rec chain t a.

(** ** Blocks of raw transactions *)

(** The transactions of a block are those written in [raws]. *)
Definition holds_raw (H : string → string) (rec : string → N → N → N → option string) (fb : fullblock) (raws : list string) : Prop :=
  ∀ p, payload_of fb p → p_txs p = view_tx H rec (fb_chain fb) <$> raws.
(** A transaction to an account, with an amount. *)
Inductive sends : txdata → string → N → Prop :=
| sends_legacy n p g a x d v r s : sends (Legacy n p g (Some a) x d v r s) a x
| sends_access c n p g a x d al v r s : sends (AccessTx c n p g (Some a) x d al v r s) a x
| sends_dynamic c n p q g a x d al v r s : sends (DynamicTx c n p q g (Some a) x d al v r s) a x
| sends_blob c n p q g a x d al bc bs v r s : sends (BlobTx c n p q g a x d al bc bs v r s) a x
| sends_setcode c n p q g a x d al aus v r s : sends (SetCodeTx c n p q g a x d al aus v r s) a x.
(** An MEV payment, in terms of the bytes of the last transaction. *)
Definition pays_mev (H : string → string) (rec : string → N → N → N → option string) (fb : fullblock) (raws : list string) (z : Z) (a : string) : Prop :=
  ∃ p pre raw t snd dst x, payload_of fb p ∧ raws = pre ++ [raw] ∧ transmits t raw ∧ signed H rec (fb_chain fb) t snd ∧ sends t dst x ∧
    (snd = p_fee_recipient p ∨ builder (fb_chain fb) snd) ∧ Z.of_N x = z ∧ receiver (ev_ether_received (fb_events fb)) z dst a.
(** What a transaction pays per gas: its price, or its tip on top of the base fee up to its cap. *)
Definition paid_per_gas (base : Z) (t : txdata) : Z :=
  match t with
  | Legacy _ p _ _ _ _ _ _ _ => Z.of_N p | AccessTx _ _ p _ _ _ _ _ _ _ _ => Z.of_N p
  | DynamicTx _ _ p q _ _ _ _ _ _ _ _ => Z.min (Z.of_N p + base) (Z.of_N q)
  | BlobTx _ _ p q _ _ _ _ _ _ _ _ _ _ => Z.min (Z.of_N p + base) (Z.of_N q)
  | SetCodeTx _ _ p q _ _ _ _ _ _ _ _ _ => Z.min (Z.of_N p + base) (Z.of_N q)
  end.
(** A block with these transactions, with its header and receipts as the execution client serves them: each receipt has
    the hash of the bytes of its transaction. *)
Record served_block (H : string → string) (fb : fullblock) (base : Z) (raws : list string) (ts : list txdata) (rs : list receipt) : Prop := ServedBlock {
  sv_block : ∃ c h, fb_cblock fb = Some c ∧ base_fee_of c base ∧
    fb_header fb = Some h ∧ h_base_fee h = base ∧ fb_receipts fb = Some rs ∧
    Z.of_N (p_gas_used (cb_payload c)) = foldr Z.add 0%Z ((λ r, Z.of_N (rc_gas r)) <$> rs);
  sv_txs : Forall2 transmits ts raws;
  sv_match : Forall2 (λ raw r, rc_tx r = H raw) raws rs;
  sv_small : (foldr Z.add 0 ((λ r, Z.of_N (rc_gas r)) <$> rs) < 9223372036854775808)%Z }.

(** ** Reports *)

(** The call submitReport(slot, root). *)
Definition calls_submit (H : string → string) (data : string) (slot : N) (root : string) : Prop :=
  ∃ w, number_word slot w ∧ String.length root = 32%nat ∧ data = substring 0 4 (H "submitReport(uint64,bytes32)") +:+ (w +:+ root).
(** The data of a transaction to [a] with amount [x]. *)
Inductive brings : txdata → string → N → string → Prop :=
| brings_legacy n p g a x d v r s : brings (Legacy n p g (Some a) x d v r s) a x d
| brings_dynamic c n p q g a x d al v r s : brings (DynamicTx c n p q g (Some a) x d al v r s) a x d.
(** A key whose signatures are recovered as those of [a]. *)
Definition key_of (rec : string → N → N → N → option string) (sign : string → N * N * N) (a : string) : Prop :=
  ∀ h, ∃ r s y, sign h = (r, s, y) ∧ y ∈ [0; 1]%N ∧ genuine r s ∧ rec h y r s = Some a.
(** Answers that fit the wire format. *)
Definition sane_answers (A : head_answers) : Prop :=
  is_u64 (hd_nonce A) ∧ is_u64 (hd_gas A) ∧ (0 < hd_network A < 2 ^ 62)%N ∧ (hd_tip A < 2 ^ 128)%N ∧ (hd_price A < 2 ^ 128)%N ∧
  ∀ base, hd_base A = Some base → (base < 2 ^ 128)%N.
