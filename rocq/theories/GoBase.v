(** Go runtime and library notions used by the model.
    Everything here models Go language or standard-library behaviour, or [utils/utils.go]. *)
From Coq Require Export ZArith NArith Bool Ascii String Lia.
From stdpp Require Export base numbers gmap strings option.
From stdpp Require Export list.

(** ** Outcomes *)

(** Ways in which the process ends. [Fatal] is logrus' [log.Fatal] (os.Exit(1)); [Panic] is a Go
    run-time panic (nil dereference, division by zero, index out of range). The text of the message
    is kept only to tell the call sites apart. E.g. log.Fatal at oracle.go:386, 1056; utils.go:193. *)
Inductive death := Fatal (msg : string) | Panic (msg : string).

(** Result of a Go function with no error return: a value, or the process ended. E.g. utils.go:191-200. *)
Inductive res (A : Type) := Ok (a : A) | Die (d : death).
Arguments Ok {A} a.
Arguments Die {A} d.

(** Go statements in sequence: after an exit nothing runs, e.g. oracle.go:1056-1061. *)
Definition rbind {A B} (m : res A) (k : A → res B) : res B :=
  match m with Ok a => k a | Die d => Die d end.

(** Notation for [rbind], as above (oracle.go:1056-1061). *)
Notation "'let!' x ':=' m 'in' k" := (rbind m (λ x, k))
  (at level 200, x name, m at level 100, k at level 200, right associativity).
(** Notation for [rbind], as above (oracle.go:1056-1061). *)
Notation "'let!' ' p ':=' m 'in' k" := (rbind m (λ x, match x with p => k end))
  (at level 200, p pattern, m at level 100, k at level 200, right associativity).

(** Result of a Go function that also returns an [error]: the (possibly already modified) receiver is
    still observable after an error. E.g. AdvanceStateToNextSlot, oracle.go:163-258. *)
Inductive outcome (S A : Type) :=
| Done (s : S) (a : A)
| Fail (s : S) (e : string)
| Dead (d : death).
Arguments Done {S A} s a.
Arguments Fail {S A} s e.
Arguments Dead {S A} d.

(** ** Machine integers and big integers *)

(** uint64 range. The type of slots and indices, e.g. oracle/types.go:153-156. *)
Definition two64 : N := 18446744073709551616%N.
(** Reduction to a uint64, e.g. api.go:1262. *)
Definition u64 (n : N) : N := (n mod two64)%N.
(** uint64 addition, subtraction and multiplication wrap around. E.g. oracle.go:169, 253. *)
Definition u64_add (a b : N) : N := u64 (a + b).
(** uint64 subtraction, e.g. api.go:491, 1266. *)
Definition u64_sub (a b : N) : N := u64 (a + (two64 - u64 b)).
(** uint64 multiplication, e.g. api.go:499. *)
Definition u64_mul (a b : N) : N := u64 (a * b).

(** [int64(x)] for a uint64 [x]: two's complement reinterpretation.
    Part of big.Int.Int64, onchain.go:464, oracle.go:462. *)
Definition int64_of_u64 (n : N) : Z :=
  if (n <? 9223372036854775808)%N then Z.of_N n else (Z.of_N n - Z.of_N two64)%Z.

(** [int(x.Int64())] for a big integer [x]: the low 64 bits, as a signed number (math/big: "If x cannot
    be represented in an int64, the result is undefined" -- the implementation returns the low bits,
    with the sign applied afterwards: int64(low64(x.abs)), negated if x.neg). onchain.go:464, oracle.go:462. *)
Definition int64_of_big (x : Z) : Z :=
  let low := int64_of_u64 (u64 (Z.abs_N x)) in
  if (x <? 0)%Z then
    (* negating the minimum int64 overflows to itself *)
    (if (low =? -9223372036854775808)%Z then low else (- low)%Z)
  else low.

(** [big.Int.Div] and [big.Int.Mod]: Euclidean division, remainder always in [0, |y|). The callers of
    the model guard against a zero divisor (which panics in Go). oracle.go:1617, 1654, 1727, api.go:357. *)
Definition go_div (x y : Z) : Z := if (0 <? y)%Z then (x / y)%Z else (- (x / (- y)))%Z.
(** big.Int.Mod, oracle.go:1655, 1682, 1688. *)
Definition go_mod (x y : Z) : Z := (x mod (Z.abs y))%Z.

(** ** Byte strings: Go [string] and [[]byte] are both Coq [string]s (sequences of 8-bit characters) *)

(** An upper-case ASCII letter, for [to_lower] (merklelizer.go:69). *)
Definition is_upper (c : ascii) : bool :=
  let n := N_of_ascii c in ((65 <=? n) && (n <=? 90))%N.

(** [unicode.ToLower] on one ASCII character. merklelizer.go:69. *)
Definition lower_ascii (c : ascii) : ascii :=
  if is_upper c then ascii_of_N (N_of_ascii c + 32) else c.

(** strings.ToLower. Simplification: only ASCII letters are mapped; all strings it is applied to in
    the program are hex addresses or hashes, which are ASCII.
    merklelizer.go:69, 99, 108, block.go:389, utils.go:196, api.go:667. *)
Fixpoint to_lower (s : string) : string :=
  match s with
  | EmptyString => EmptyString
  | String c s => String (lower_ascii c) (to_lower s)
  end.

(** strings.HasPrefix. utils.go:129, 143, 156, 171, onchain.go:1722. *)
Definition has_prefix (s p : string) : bool := String.prefix p s.

(** Go slice expression s[n:] for n <= len(s). utils.go:172, onchain.go:1723. *)
Fixpoint sdrop (n : nat) (s : string) : string :=
  match n, s with
  | O, _ => s
  | S n, String _ s => sdrop n s
  | S _, EmptyString => EmptyString
  end.

(** encoding/hex digit table: "0123456789abcdef". For hex.EncodeToString at oracle.go:1851. *)
Definition hex_digit (n : N) : ascii :=
  if (n <? 10)%N then ascii_of_N (48 + n) else ascii_of_N (87 + n).

(** hex.EncodeToString: two lowercase digits per byte. oracle.go:1851, utils.go:78. *)
Fixpoint hex_encode (s : string) : string :=
  match s with
  | EmptyString => EmptyString
  | String c s =>
      let n := N_of_ascii c in
      String (hex_digit (n / 16)) (String (hex_digit (n mod 16)) (hex_encode s))
  end.

(** hexutil.Encode: "0x" followed by the lowercase hex of the bytes. oracle.go:373, 614, 725, 1254. *)
Definition hexutil_encode (s : string) : string := "0x" +:+ hex_encode s.

(** Is the character one of 0-9, a-f, A-F? (encoding/hex fromHexChar; common.isHexCharacter)
    For common.IsHexAddress at merklelizer.go:118. *)
Definition is_hex_char (c : ascii) : bool :=
  let n := N_of_ascii c in
  (((48 <=? n) && (n <=? 57)) || ((97 <=? n) && (n <=? 102)) || ((65 <=? n) && (n <=? 70)))%N.

(** A test on every character, for common.IsHexAddress at merklelizer.go:118. *)
Fixpoint sforall (f : ascii → bool) (s : string) : bool :=
  match s with EmptyString => true | String c s => f c && sforall f s end.

(** common.IsHexAddress (go-ethereum): optional 0x/0X prefix, then exactly 40 hex characters.
    merklelizer.go:118, onchain.go:853, config.go:76. *)
Definition is_hex_address (s : string) : bool :=
  let body := if has_prefix s "0x" || has_prefix s "0X" then sdrop 2 s else s in
  (String.length body =? 40)%nat && sforall is_hex_char body.

(** common.Address.String(): EIP-55 mixed-case hex. Which letters are upper-cased depends on a Keccak
    hash of the address; the model takes the choice as an arbitrary mask [mask a i].
    block.go:389, 668, oracle.go:1135. *)
Definition upper_hex (c : ascii) : ascii :=
  let n := N_of_ascii c in
  if ((97 <=? n) && (n <=? 102))%N then ascii_of_N (n - 32) else c.

(** The letters selected by the mask in upper case: common.Address.String at oracle.go:1135. *)
Fixpoint apply_mask (mask : nat → bool) (i : nat) (s : string) : string :=
  match s with
  | EmptyString => EmptyString
  | String c s => String (if mask i then upper_hex c else c) (apply_mask mask (S i) s)
  end.

(** common.Address.String with the letter case given by the mask: block.go:389, 653-668, oracle.go:473, 1135. *)
Definition addr_string (mask : string → nat → bool) (a : string) : string :=
  "0x" +:+ apply_mask (mask a) 0 (hex_encode a).

(** ** utils/utils.go *)

(** utils.Equals, utils/utils.go:191-200. Different lengths end the process. *)
Definition equals (a b : string) : res bool :=
  if (String.length a =? String.length b)%nat then
    Ok (String.eqb (to_lower a) (to_lower b))
  else Die (Fatal "values length mismatch").

(** utils.IsIn, utils/utils.go:263-270. *)
Fixpoint is_in (a : string) (l : list string) : res bool :=
  match l with
  | [] => Ok false
  | b :: l => let! e := equals a b in if e then Ok true else is_in a l
  end.

(** utils.SumAndSaturate, utils/utils.go:50-56. *)
Definition sum_and_saturate (a b sat : Z) : Z :=
  let s := (a + b)%Z in if (sat <=? s)%Z then sat else s.

(** utils.IsBlsType, utils/utils.go:123-133. *)
Definition is_bls_type (cred : string) : bool :=
  (String.length cred =? 64)%nat && has_prefix cred "00".

(** utils.IsEth1Type, utils/utils.go:137-147. *)
Definition is_eth1_type (cred : string) : bool :=
  (String.length cred =? 64)%nat && has_prefix cred "010000000000000000000000".

(** utils.IsElectraType, utils/utils.go:150-160. *)
Definition is_electra_type (cred : string) : bool :=
  (String.length cred =? 64)%nat && has_prefix cred "020000000000000000000000".

(** utils.GetCompatibleAddress, utils/utils.go:166-176. [None] is a returned error. *)
Definition get_compatible_address (cred : string) : option string :=
  if negb (String.length cred =? 64)%nat then None
  else if has_prefix cred "010000000000000000000000" || has_prefix cred "020000000000000000000000"
  then Some ("0x" +:+ sdrop 24 cred)
  else None.

(** utils.GetCompatibleAddressByte, utils/utils.go:178-189: the same on the raw bytes. *)
Definition get_compatible_address_byte (cred : string) : option string :=
  get_compatible_address (hex_encode cred).
