(** Reading a raw transaction: utils.DecodeTx and utils.GetTxSender, with the parts of go-ethereum v1.15.7 they call
    (rlp, core/types). *)
From Verif Require Export Abi.

(** ** Recursive length prefix *)

(** A value: a string of bytes or a list of values. utils/utils.go:30-37. *)
Inductive item := Str (s : string) | Seq (l : list item).
(** The byte with a number. utils/utils.go:30-37. *)
Definition byte (n : N) : ascii := ascii_of_N n.
(** Whether a string starts with a zero byte. utils/utils.go:30-37. *)
Definition leading_zero (s : string) : bool := match s with String c _ => (N_of_ascii c =? 0)%N | "" => false end.
(** Stream.readUint and readKind (rlp/decode.go) of a size written in [k] bytes: it has no leading zero and is at least
    56. Gives the size and what follows. utils/utils.go:32. *)
Definition read_size (k : nat) (s : string) : option (N * string) :=
  if (String.length s <? k)%nat then None else
  let w := substring 0 k s in
  if leading_zero w || (word_number w <? 56)%N then None else Some (word_number w, sdrop k s).
(** Stream.readKind (rlp/decode.go): whether a list follows, whether the value is its own prefix, its size, and the
    rest. utils/utils.go:32. *)
Definition read_kind (s : string) : option (bool * bool * N * string) :=
  match s with
  | "" => None
  | String c r =>
      let b := N_of_ascii c in
      if (b <? 128)%N then Some (false, true, 1%N, s)
      else if (b <? 184)%N then Some (false, false, b - 128, r)%N
      else if (b <? 192)%N then '(n, r) ← read_size (N.to_nat (b - 183)) r; Some (false, false, n, r)
      else if (b <? 248)%N then Some (true, false, b - 192, r)%N
      else '(n, r) ← read_size (N.to_nat (b - 247)) r; Some (true, false, n, r)
  end.
(** Whether a string is one byte that is its own prefix. utils/utils.go:32. *)
Definition own_prefix (s : string) : bool := match s with String c "" => (N_of_ascii c <? 128)%N | _ => false end.
(** The first value: whether it is a list, its content, and what follows. It must fit, and a byte that is its own prefix
    may not have another one (ErrValueTooLarge, ErrElemTooLarge, ErrCanonSize). utils/utils.go:32. *)
Definition split_item (s : string) : option (bool * string * string) :=
  '(l, own, n, r) ← read_kind s;
  if (N.of_nat (String.length r) <? n)%N then None else
  let body := substring 0 (N.to_nat n) r in
  if negb l && negb own && own_prefix body then None else Some (l, body, sdrop (N.to_nat n) r).
(** The values one after the other. Simplification: the stream of go-ethereum reads values as the fields of the struct
    ask for them, here all are read before (the same inputs are refused, since every value is a field or part of one);
    [fuel] bounds the number of values and the depth, the length of the string suffices. utils/utils.go:32. *)
Fixpoint items (fuel : nat) (s : string) {struct fuel} : option (list item) :=
  match s with
  | "" => Some []
  | _ =>
      match fuel with
      | O => None
      | S fuel =>
          '(l, body, rest) ← split_item s;
          i ← (if (l : bool) then Seq <$> items fuel body else Some (Str body));
          is ← items fuel rest; Some (i :: is)
      end
  end.
(** rlp.DecodeBytes of a struct: one list and nothing behind it. utils/utils.go:32. *)
Definition fields (s : string) : option (list item) :=
  match items (String.length s) s with Some [Seq l] => Some l | _ => None end.

(** ** Fields *)

(** Stream.uint, decodeBigInt, ReadUint256 (rlp/decode.go): a number of at most [k] bytes without leading zero, zero
    being the empty string; without [k] it is not bounded. utils/utils.go:32. *)
Definition as_number (k : option nat) (i : item) : option N :=
  match i with
  | Seq _ => None
  | Str s =>
      if leading_zero s then None
      else if match k with Some k => (k <? String.length s)%nat | None => false end then None
      else Some (word_number s)
  end.
(** []byte. utils/utils.go:32. *)
Definition as_bytes (i : item) : option string := match i with Str s => Some s | Seq _ => None end.
(** common.Address and common.Hash: exactly [k] bytes. utils/utils.go:32. *)
Definition as_fixed (k : nat) (i : item) : option string :=
  match i with Str s => if (String.length s =? k)%nat then Some s else None | Seq _ => None end.
(** A *common.Address tagged rlp:"nil": the empty string is nil, a contract creation. utils/utils.go:32. *)
Definition as_to (i : item) : option (option string) :=
  match i with Str "" => Some None | _ => Some <$> as_fixed 20 i end.
(** A slice. utils/utils.go:32. *)
Definition as_slice {A} (f : item → option A) (i : item) : option (list A) :=
  match i with Seq l => mapM f l | Str _ => None end.
(** types.AccessTuple: an address and its storage keys. utils/utils.go:32. *)
Definition as_tuple (i : item) : option (string * list string) :=
  match i with Seq [a; ks] => a ← as_fixed 20 a; ks ← as_slice (as_fixed 32) ks; Some (a, ks) | _ => None end.
(** types.SetCodeAuthorization. utils/utils.go:32. *)
Record auth := Auth { au_chain : N; au_addr : string; au_nonce : N; au_v : N; au_r : N; au_s : N }.
(** Its reading, with a V of one byte. utils/utils.go:32. *)
Definition as_auth (i : item) : option auth :=
  match i with
  | Seq [c; a; n; v; r; s] =>
      c ← as_number (Some 32%nat) c; a ← as_fixed 20 a; n ← as_number (Some 8%nat) n;
      v ← as_number (Some 1%nat) v; r ← as_number (Some 32%nat) r; s ← as_number (Some 32%nat) s; Some (Auth c a n v r s)
  | _ => None
  end.

(** ** Transactions *)

(** types.LegacyTx, AccessListTx, DynamicFeeTx, BlobTx, SetCodeTx, with the three numbers of the signature last.
    utils/utils.go:31. *)
Inductive txdata :=
| Legacy (nonce price gas : N) (to : option string) (value : N) (data : string) (v r s : N)
| AccessTx (chain nonce price gas : N) (to : option string) (value : N) (data : string)
    (al : list (string * list string)) (v r s : N)
| DynamicTx (chain nonce tip cap gas : N) (to : option string) (value : N) (data : string)
    (al : list (string * list string)) (v r s : N)
| BlobTx (chain nonce tip cap gas : N) (to : string) (value : N) (data : string)
    (al : list (string * list string)) (blobcap : N) (blobs : list string) (v r s : N)
| SetCodeTx (chain nonce tip cap gas : N) (to : string) (value : N) (data : string)
    (al : list (string * list string)) (auths : list auth) (v r s : N).

(** The fields of a legacy transaction. utils/utils.go:32. *)
Definition as_legacy (l : list item) : option txdata :=
  match l with
  | [n; p; g; t; x; d; v; r; s] =>
      n ← as_number (Some 8%nat) n; p ← as_number None p; g ← as_number (Some 8%nat) g; t ← as_to t;
      x ← as_number None x; d ← as_bytes d;
      v ← as_number None v; r ← as_number None r; s ← as_number None s; Some (Legacy n p g t x d v r s)
  | _ => None
  end.
(** Of type 1. utils/utils.go:32. *)
Definition as_access (l : list item) : option txdata :=
  match l with
  | [c; n; p; g; t; x; d; al; v; r; s] =>
      c ← as_number None c; n ← as_number (Some 8%nat) n; p ← as_number None p; g ← as_number (Some 8%nat) g; t ← as_to t;
      x ← as_number None x; d ← as_bytes d; al ← as_slice as_tuple al;
      v ← as_number None v; r ← as_number None r; s ← as_number None s; Some (AccessTx c n p g t x d al v r s)
  | _ => None
  end.
(** Of type 2. utils/utils.go:32. *)
Definition as_dynamic (l : list item) : option txdata :=
  match l with
  | [c; n; p; q; g; t; x; d; al; v; r; s] =>
      c ← as_number None c; n ← as_number (Some 8%nat) n; p ← as_number None p; q ← as_number None q;
      g ← as_number (Some 8%nat) g; t ← as_to t;
      x ← as_number None x; d ← as_bytes d; al ← as_slice as_tuple al;
      v ← as_number None v; r ← as_number None r; s ← as_number None s; Some (DynamicTx c n p q g t x d al v r s)
  | _ => None
  end.
(** Of type 3: the numbers are 256-bit, the destination is not optional. Simplification: the form with the blobs
    themselves, [[fields, blobs, ...]], that travels between nodes but is in no block, is refused here. utils/utils.go:32. *)
Definition as_blob (l : list item) : option txdata :=
  match l with
  | [c; n; p; q; g; t; x; d; al; bc; bs; v; r; s] =>
      c ← as_number (Some 32%nat) c; n ← as_number (Some 8%nat) n; p ← as_number (Some 32%nat) p; q ← as_number (Some 32%nat) q;
      g ← as_number (Some 8%nat) g; t ← as_fixed 20 t;
      x ← as_number (Some 32%nat) x; d ← as_bytes d; al ← as_slice as_tuple al;
      bc ← as_number (Some 32%nat) bc; bs ← as_slice (as_fixed 32) bs;
      v ← as_number (Some 32%nat) v; r ← as_number (Some 32%nat) r; s ← as_number (Some 32%nat) s;
      Some (BlobTx c n p q g t x d al bc bs v r s)
  | _ => None
  end.
(** Of type 4. utils/utils.go:32. *)
Definition as_setcode (l : list item) : option txdata :=
  match l with
  | [c; n; p; q; g; t; x; d; al; aus; v; r; s] =>
      c ← as_number (Some 32%nat) c; n ← as_number (Some 8%nat) n; p ← as_number (Some 32%nat) p; q ← as_number (Some 32%nat) q;
      g ← as_number (Some 8%nat) g; t ← as_fixed 20 t;
      x ← as_number (Some 32%nat) x; d ← as_bytes d; al ← as_slice as_tuple al; aus ← as_slice as_auth aus;
      v ← as_number (Some 32%nat) v; r ← as_number (Some 32%nat) r; s ← as_number (Some 32%nat) s;
      Some (SetCodeTx c n p q g t x d al aus v r s)
  | _ => None
  end.
(** DecodeTx, utils/utils.go:30-37, with Transaction.UnmarshalBinary and decodeTyped (core/types/transaction.go). *)
Definition decode_tx (raw : string) : option txdata :=
  match raw with
  | "" => None
  | String c rest =>
      let b := N_of_ascii c in
      if (127 <? b)%N then l ← fields raw; as_legacy l
      else if (String.length raw <=? 1)%nat then None
      else if (b =? 1)%N then l ← fields rest; as_access l
      else if (b =? 2)%N then l ← fields rest; as_dynamic l
      else if (b =? 3)%N then l ← fields rest; as_blob l
      else if (b =? 4)%N then l ← fields rest; as_setcode l
      else None
  end.

(** ** Writing *)

(** The bytes of a number without leading zero (rlp/encbuffer.go). block.go:496. *)
Definition short_bytes (n : N) : string := be_bytes (N.to_nat ((N.size n + 7) / 8)) n.
(** puthead (rlp/encode.go): the prefix of a content. block.go:496. *)
Definition put_head (l : bool) (body : string) : string :=
  let n := N.of_nat (String.length body) in
  if (n <? 56)%N then String (byte ((if l then 192 else 128) + n)) ""
  else let w := short_bytes n in String (byte ((if l then 247 else 183) + N.of_nat (String.length w))) w.
(** The encoding of a value. block.go:496. *)
Fixpoint encode_item (i : item) : string :=
  match i with
  | Str s => if own_prefix s then s else put_head false s +:+ s
  | Seq l => let body := foldr (λ i acc, encode_item i +:+ acc) "" l in put_head true body +:+ body
  end.
(** Numbers, destinations, access lists and authorizations as values. block.go:496. *)
Definition of_number (n : N) : item := Str (short_bytes n).
Definition of_to (t : option string) : item := Str (match t with Some a => a | None => "" end).
Definition of_access (al : list (string * list string)) : item := Seq ((λ p, Seq [Str p.1; Seq (Str <$> p.2)]) <$> al).
Definition of_auth (a : auth) : item :=
  Seq [of_number (au_chain a); Str (au_addr a); of_number (au_nonce a); of_number (au_v a); of_number (au_r a); of_number (au_s a)].
(** The fields before the signature. block.go:496. *)
Definition unsigned (t : txdata) : list item :=
  match t with
  | Legacy n p g t x d _ _ _ => [of_number n; of_number p; of_number g; of_to t; of_number x; Str d]
  | AccessTx c n p g t x d al _ _ _ => [of_number c; of_number n; of_number p; of_number g; of_to t; of_number x; Str d; of_access al]
  | DynamicTx c n p q g t x d al _ _ _ =>
      [of_number c; of_number n; of_number p; of_number q; of_number g; of_to t; of_number x; Str d; of_access al]
  | BlobTx c n p q g t x d al bc bs _ _ _ =>
      [of_number c; of_number n; of_number p; of_number q; of_number g; Str t; of_number x; Str d; of_access al; of_number bc; Seq (Str <$> bs)]
  | SetCodeTx c n p q g t x d al aus _ _ _ =>
      [of_number c; of_number n; of_number p; of_number q; of_number g; Str t; of_number x; Str d; of_access al; Seq (of_auth <$> aus)]
  end.
(** Transaction.RawSignatureValues: V, R, S. utils/utils.go:42. *)
Definition signature_values (t : txdata) : N * N * N :=
  match t with
  | Legacy _ _ _ _ _ _ v r s | AccessTx _ _ _ _ _ _ _ _ v r s | DynamicTx _ _ _ _ _ _ _ _ _ v r s
  | BlobTx _ _ _ _ _ _ _ _ _ _ _ v r s | SetCodeTx _ _ _ _ _ _ _ _ _ _ v r s => (v, r, s)
  end.
(** Transaction.Type. block.go:504. *)
Definition type_of (t : txdata) : N :=
  match t with
  | Legacy _ _ _ _ _ _ _ _ _ => 0 | AccessTx _ _ _ _ _ _ _ _ _ _ _ => 1 | DynamicTx _ _ _ _ _ _ _ _ _ _ _ _ => 2
  | BlobTx _ _ _ _ _ _ _ _ _ _ _ _ _ _ => 3 | SetCodeTx _ _ _ _ _ _ _ _ _ _ _ _ _ => 4
  end%N.
(** The byte before the fields of a typed transaction. block.go:496. *)
Definition type_prefix (t : txdata) : string := if (type_of t =? 0)%N then "" else String (byte (type_of t)) "".
(** What Transaction.Hash hashes: the fields, encoded again. block.go:496, onchain.go:557. *)
Definition tx_bytes (t : txdata) : string :=
  let '(v, r, s) := signature_values t in
  type_prefix t +:+ encode_item (Seq (unsigned t ++ [of_number v; of_number r; of_number s])).

(** ** The sender *)

(** The order of secp256k1, crypto.S256().Params().N. utils/utils.go:42. *)
Definition curve_order : N := 0xFFFFFFFFFFFFFFFFFFFFFFFFFFFFFFFEBAAEDCE6AF48A03BBFD25E8CD0364141.
(** crypto.ValidateSignatureValues with homestead = true. utils/utils.go:42. *)
Definition valid_signature (v r s : N) : bool :=
  (1 <=? r)%N && (1 <=? s)%N && (s <=? curve_order / 2)%N && (r <? curve_order)%N && (s <? curve_order)%N && ((v =? 0)%N || (v =? 1)%N).
(** recoverPlain (core/types/transaction_signing.go). [rec] is crypto.Ecrecover followed by the address of the key: the
    hash, the parity, R and S give an account or an error. utils/utils.go:42. *)
Definition recover_plain (rec : string → N → N → N → option string) (h : string) (vb : Z) (r s : N) : option string :=
  if (256 <=? Z.abs vb)%Z then None else
  let v := Z.to_N ((Z.abs vb - 27) mod 256)%Z in
  if valid_signature v r s then rec h v r s else None.
(** isProtectedV (core/types/transaction.go): whether the V of a legacy transaction contains a chain. utils/utils.go:42. *)
Definition is_protected (v : N) : bool := negb ((v =? 27) || (v =? 28) || (v =? 1) || (v =? 0))%N.
(** Transaction.ChainId; of a legacy transaction deriveChainId, which for V of 64 bits wraps around. utils/utils.go:42. *)
Definition chain_of (t : txdata) : N :=
  match t with
  | Legacy _ _ _ _ _ _ v _ _ =>
      if (v <? two64)%N then if (v =? 27)%N || (v =? 28)%N then 0%N else ((v + two64 - 35) mod two64 / 2)%N
      else ((v - 35) / 2)%N
  | AccessTx c _ _ _ _ _ _ _ _ _ _ | DynamicTx c _ _ _ _ _ _ _ _ _ _ _
  | BlobTx c _ _ _ _ _ _ _ _ _ _ _ _ _ | SetCodeTx c _ _ _ _ _ _ _ _ _ _ _ _ => c
  end.
(** What is signed: Signer.Hash of HomesteadSigner (no [chain]), EIP155Signer and modernSigner, before hashing.
    utils/utils.go:42. *)
Definition sign_bytes (chain : option N) (t : txdata) : string :=
  type_prefix t +:+ encode_item (Seq (unsigned t ++ match chain with Some c => [of_number c; Str ""; Str ""] | None => [] end)).
(** GetTxSender, utils/utils.go:39-48: types.Sender with LatestSignerForChainID. [H] is Keccak-256. Simplification: the
    panic of newModernSigner for chain 0 is an error here; both end the process (block.go:336-339). *)
Definition get_sender (H : string → string) (rec : string → N → N → N → option string) (chain : N) (t : txdata) : option string :=
  if (chain =? 0)%N then None else
  let '(v, r, s) := signature_values t in
  match t with
  | Legacy _ _ _ _ _ _ _ _ _ =>
      if negb (is_protected v) then recover_plain rec (H (sign_bytes None t)) (Z.of_N v) r s
      else if negb (chain_of t =? chain)%N then None
      else recover_plain rec (H (sign_bytes (Some chain) t)) (Z.of_N v - 2 * Z.of_N chain - 8) r s
  | _ =>
      if negb (chain_of t =? chain)%N then None
      else recover_plain rec (H (sign_bytes None t)) (Z.of_N v + 27) r s
  end.

(** ** The transaction as block.go and onchain.go see it *)

(** Transaction.To. block.go:332. *)
Definition to_of (t : txdata) : option string :=
  match t with
  | Legacy _ _ _ t _ _ _ _ _ | AccessTx _ _ _ _ t _ _ _ _ _ _ | DynamicTx _ _ _ _ _ t _ _ _ _ _ _ => t
  | BlobTx _ _ _ _ _ t _ _ _ _ _ _ _ _ | SetCodeTx _ _ _ _ _ t _ _ _ _ _ _ _ => Some t
  end.
(** Transaction.Value. block.go:378-396. *)
Definition value_of_tx (t : txdata) : N :=
  match t with
  | Legacy _ _ _ _ x _ _ _ _ | AccessTx _ _ _ _ _ x _ _ _ _ _ | DynamicTx _ _ _ _ _ _ x _ _ _ _ _
  | BlobTx _ _ _ _ _ _ x _ _ _ _ _ _ _ | SetCodeTx _ _ _ _ _ _ x _ _ _ _ _ _ => x
  end.
(** Transaction.GasTipCap and GasFeeCap: the gas price for the types without them; GasPrice is the fee cap for the
    others. block.go:501-511. *)
Definition tip_of (t : txdata) : N :=
  match t with
  | Legacy _ p _ _ _ _ _ _ _ | AccessTx _ _ p _ _ _ _ _ _ _ _ | DynamicTx _ _ p _ _ _ _ _ _ _ _ _
  | BlobTx _ _ p _ _ _ _ _ _ _ _ _ _ _ | SetCodeTx _ _ p _ _ _ _ _ _ _ _ _ _ => p
  end.
Definition cap_of (t : txdata) : N :=
  match t with
  | Legacy _ p _ _ _ _ _ _ _ | AccessTx _ _ p _ _ _ _ _ _ _ _ => p
  | DynamicTx _ _ _ q _ _ _ _ _ _ _ _ | BlobTx _ _ _ q _ _ _ _ _ _ _ _ _ _ | SetCodeTx _ _ _ q _ _ _ _ _ _ _ _ _ => q
  end.
(** The transaction of the model of the blocks. block.go:326-338, 492-511, onchain.go:549. *)
Definition view_tx (H : string → string) (rec : string → N → N → N → option string) (chain : N) (raw : string) : option tx :=
  t ← decode_tx raw;
  Some (Tx (to_of t) (Z.of_N (value_of_tx t)) (type_of t) (Z.of_N (cap_of t)) (Z.of_N (tip_of t)) (Z.of_N (cap_of t))
    (H (tx_bytes t)) (get_sender H rec chain t)).
