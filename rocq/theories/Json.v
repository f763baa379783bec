(** The JSON text of the state files: what encoding/json (Go 1.24) writes with MarshalIndent(v, "", " ") and what
    Unmarshal reads back. Used by oracle.go:507, 590, 606 and 993. *)
From Verif Require Export GoBase.
From Coq Require Import DecimalString DecimalN.

(** A JSON value. A number is kept as its literal; objects keep the order of their entries. oracle.go:508, 993. *)
Inductive json :=
  | JNull | JBool (b : bool) | JNum (lit : string) | JStr (s : string)
  | JArr (l : list json) | JObj (l : list (string * json)).

(** ** Printing (encoding/json encode.go and indent.go) *)

(** The characters that appendString writes in escaped form, with HTML escaping on. Simplification: bytes of
    128 and above are copied; Go copies valid UTF-8 and replaces the rest (and U+2028, U+2029 are escaped).
    oracle.go:508, 993. *)
Definition escape_char (c : ascii) : string :=
  let n := N_of_ascii c in
  let q := ascii_of_N 92 in
  if (n =? 34)%N then String q (String c EmptyString)
  else if (n =? 92)%N then String q (String c EmptyString)
  else if (n =? 8)%N then String q (String "b" EmptyString)
  else if (n =? 12)%N then String q (String "f" EmptyString)
  else if (n =? 10)%N then String q (String "n" EmptyString)
  else if (n =? 13)%N then String q (String "r" EmptyString)
  else if (n =? 9)%N then String q (String "t" EmptyString)
  else if (n <? 32)%N || (n =? 60)%N || (n =? 62)%N || (n =? 38)%N
  then String q (String "u" (String "0" (String "0" (String (hex_digit (n / 16)) (String (hex_digit (n mod 16)) EmptyString)))))
  else String c EmptyString.
(** The body of a string literal (encode.go, appendString). *)
Fixpoint escape (s : string) : string :=
  match s with EmptyString => EmptyString | String c s => escape_char c +:+ escape s end.
(** The double quote character. oracle.go:508, 993. *)
Definition dquote : string := String (ascii_of_N 34) EmptyString.
(** A string literal (encode.go, appendString). *)
Definition quote (s : string) : string := dquote +:+ escape s +:+ dquote.

(** A line break followed by the indentation of depth [d], one space per level (indent.go, appendNewline). *)
Fixpoint spaces (d : nat) : string := match d with O => "" | S d => String " " (spaces d) end.
(** A line break and the indentation, oracle.go:508, 993. *)
Definition nl (d : nat) : string := String (ascii_of_N 10) (spaces d).

(** Elements separated by commas. oracle.go:508, 993. *)
Fixpoint commas (l : list string) : string :=
  match l with [] => "" | [x] => x | x :: l => x +:+ String "," (commas l) end.

(** MarshalIndent with an empty prefix and one space per level (indent.go, appendIndent): empty arrays and
    objects on one line, a space after the colon. *)
Fixpoint print (d : nat) (j : json) : string :=
  match j with
  | JNull => "null"
  | JBool true => "true"
  | JBool false => "false"
  | JNum lit => lit
  | JStr s => quote s
  | JArr [] => "[]"
  | JArr l => "[" +:+ commas ((λ x, nl (S d) +:+ print (S d) x) <$> l) +:+ nl d +:+ "]"
  | JObj [] => "{}"
  | JObj l => "{" +:+ commas ((λ kx, nl (S d) +:+ quote kx.1 +:+ ": " +:+ print (S d) kx.2) <$> l) +:+ nl d +:+ "}"
  end.

(** ** Parsing (encoding/json scanner.go and decode.go) *)

(** Whitespace (scanner.go, isSpace). *)
Definition json_space (c : ascii) : bool :=
  let n := N_of_ascii c in (n =? 32)%N || (n =? 9)%N || (n =? 10)%N || (n =? 13)%N.
(** Leading whitespace dropped, oracle.go:590. *)
Fixpoint skip (s : string) : string :=
  match s with
  | String c s' => if json_space c then skip s' else s
  | EmptyString => EmptyString
  end.

(** Digits (scanner.go). *)
Definition is_digit (c : ascii) : bool := let n := N_of_ascii c in (48 <=? n)%N && (n <=? 57)%N.
(** The longest run of digits, and the rest. oracle.go:590. *)
Fixpoint digit_run (s : string) : string * string :=
  match s with
  | String c s' => if is_digit c then let '(a, b) := digit_run s' in (String c a, b) else (EmptyString, s)
  | EmptyString => (EmptyString, EmptyString)
  end.
(** A number literal: optional minus, integer part without leading zeros, optional fraction, optional exponent
    (scanner.go, stateNeg to stateE0). *)
Definition number_int (s : string) : option (string * string) :=
  let '(a, r) := digit_run s in
  match a with
  | EmptyString => None
  | String c EmptyString => Some (a, r)
  | String c _ => if (N_of_ascii c =? 48)%N then None else Some (a, r)
  end.
(** The fraction (scanner.go, stateDot, stateDot0). *)
Definition number_frac (s : string) : option (string * string) :=
  match s with
  | String c r =>
      if (N_of_ascii c =? 46)%N then
        let '(a, r') := digit_run r in
        match a with EmptyString => None | _ => Some (String c a, r') end
      else Some (EmptyString, s)
  | EmptyString => Some (EmptyString, EmptyString)
  end.
(** The exponent (scanner.go, stateE, stateESign, stateE0). *)
Definition number_exp (s : string) : option (string * string) :=
  match s with
  | String c r =>
      if (N_of_ascii c =? 69)%N || (N_of_ascii c =? 101)%N then
        let '(sg, r1) := match r with
                         | String d r' => if (N_of_ascii d =? 43)%N || (N_of_ascii d =? 45)%N
                                          then (String d EmptyString, r') else (EmptyString, r)
                         | EmptyString => (EmptyString, EmptyString)
                         end in
        let '(a, r') := digit_run r1 in
        match a with EmptyString => None | _ => Some (String c (sg +:+ a), r') end
      else Some (EmptyString, s)
  | EmptyString => Some (EmptyString, EmptyString)
  end.
(** A whole number literal, oracle.go:590. *)
Definition number (s : string) : option (string * string) :=
  let '(sg, s1) := match s with
                   | String c r => if (N_of_ascii c =? 45)%N then (String c EmptyString, r) else (EmptyString, s)
                   | EmptyString => (EmptyString, EmptyString)
                   end in
  match number_int s1 with
  | None => None
  | Some (a, s2) =>
      match number_frac s2 with
      | None => None
      | Some (f, s3) =>
          match number_exp s3 with
          | None => None
          | Some (e, s4) => Some (sg +:+ a +:+ f +:+ e, s4)
          end
      end
  end.

(** Value of a hex digit of a [\u] escape (decode.go, getu4). *)
Definition hex_digit_val (c : ascii) : option N :=
  let n := N_of_ascii c in
  if (48 <=? n)%N && (n <=? 57)%N then Some (n - 48)%N
  else if (97 <=? n)%N && (n <=? 102)%N then Some (n - 87)%N
  else if (65 <=? n)%N && (n <=? 70)%N then Some (n - 55)%N
  else None.
(** UTF-8 of a code point below 2^16 (utf8.AppendRune). Simplification: surrogates are not combined. oracle.go:590. *)
Definition utf8 (n : N) : string :=
  if (n <? 128)%N then String (ascii_of_N n) EmptyString
  else if (n <? 2048)%N then String (ascii_of_N (192 + n / 64)) (String (ascii_of_N (128 + n mod 64)) EmptyString)
  else String (ascii_of_N (224 + n / 4096)) (String (ascii_of_N (128 + n / 64 mod 64))
         (String (ascii_of_N (128 + n mod 64)) EmptyString)).
(** One escaped character after the backslash (decode.go, unquoteBytes). *)
Definition unescape (s : string) : option (string * string) :=
  match s with
  | EmptyString => None
  | String c r =>
      let n := N_of_ascii c in
      let one k := Some (String (ascii_of_N k) EmptyString, r) in
      if (n =? 34)%N || (n =? 92)%N || (n =? 47)%N then one n
      else if (n =? 98)%N then one 8%N
      else if (n =? 102)%N then one 12%N
      else if (n =? 110)%N then one 10%N
      else if (n =? 114)%N then one 13%N
      else if (n =? 116)%N then one 9%N
      else if (n =? 117)%N then
        match r with
        | String a (String b (String c (String d r'))) =>
            match hex_digit_val a, hex_digit_val b, hex_digit_val c, hex_digit_val d with
            | Some a, Some b, Some c, Some d => Some (utf8 (4096 * a + 256 * b + 16 * c + d), r')
            | _, _, _, _ => None
            end
        | _ => None
        end
      else None
  end.
(** The rest of a string literal after the opening quote (scanner.go stateInString; decode.go unquoteBytes):
    control characters are refused. [fuel] bounds the number of characters. *)
Fixpoint string_body (fuel : nat) (s : string) : option (string * string) :=
  match fuel with
  | O => None
  | S fuel =>
      match s with
      | EmptyString => None
      | String c r =>
          let n := N_of_ascii c in
          if (n =? 34)%N then Some (EmptyString, r)
          else if (n =? 92)%N then
            match unescape r with
            | None => None
            | Some (x, r') =>
                match string_body fuel r' with None => None | Some (y, r'') => Some (x +:+ y, r'') end
            end
          else if (n <? 32)%N then None
          else match string_body fuel r with None => None | Some (y, r'') => Some (String c y, r'') end
      end
  end.

(** If [s] begins with [p], the rest. oracle.go:590. *)
Definition strip (p s : string) : option string :=
  if has_prefix s p then Some (sdrop (String.length p) s) else None.

(** The remaining elements of an array and entries of an object, given the parser of values: after an element
    comes a comma or the closing bracket (scanner.go, stateEndValue). *)
Fixpoint array_items (value : string → option (json * string)) (fuel : nat) (s : string) : option (list json * string) :=
  match fuel with
  | O => None
  | S fuel =>
      match value s with
      | None => None
      | Some (x, r) =>
          match skip r with
          | String c r' =>
              if (N_of_ascii c =? 44)%N then
                match array_items value fuel r' with None => None | Some (l, r'') => Some (x :: l, r'') end
              else if (N_of_ascii c =? 93)%N then Some ([x], r')
              else None
          | EmptyString => None
          end
      end
  end.
(** The entries of an object, oracle.go:590. *)
Fixpoint object_items (value : string → option (json * string)) (fuel : nat) (s : string) : option (list (string * json) * string) :=
  match fuel with
  | O => None
  | S fuel =>
      match skip s with
      | String q r =>
          if (N_of_ascii q =? 34)%N then
            match string_body fuel r with
            | None => None
            | Some (k, r1) =>
                match skip r1 with
                | String c r2 =>
                    if (N_of_ascii c =? 58)%N then
                      match value r2 with
                      | None => None
                      | Some (x, r3) =>
                          match skip r3 with
                          | String c r' =>
                              if (N_of_ascii c =? 44)%N then
                                match object_items value fuel r' with
                                | None => None
                                | Some (l, r'') => Some ((k, x) :: l, r'')
                                end
                              else if (N_of_ascii c =? 125)%N then Some ([(k, x)], r')
                              else None
                          | EmptyString => None
                          end
                      end
                    else None
                | EmptyString => None
                end
            end
          else None
      | EmptyString => None
      end
  end.

(** A value and the rest of the text (scanner.go, stateBeginValue). *)
Fixpoint value (fuel : nat) (s : string) : option (json * string) :=
  match fuel with
  | O => None
  | S fuel =>
      match skip s with
      | EmptyString => None
      | String c r =>
          let n := N_of_ascii c in
          if (n =? 123)%N then
            match skip r with
            | String c' r' => if (N_of_ascii c' =? 125)%N then Some (JObj [], r') else
                match object_items (value fuel) fuel r with None => None | Some (l, r'') => Some (JObj l, r'') end
            | EmptyString => None
            end
          else if (n =? 91)%N then
            match skip r with
            | String c' r' => if (N_of_ascii c' =? 93)%N then Some (JArr [], r') else
                match array_items (value fuel) fuel r with None => None | Some (l, r'') => Some (JArr l, r'') end
            | EmptyString => None
            end
          else if (n =? 34)%N then
            match string_body fuel r with None => None | Some (x, r') => Some (JStr x, r') end
          else if (n =? 45)%N || is_digit c then
            match number (String c r) with None => None | Some (x, r') => Some (JNum x, r') end
          else
            match strip "null" (String c r) with
            | Some r' => Some (JNull, r')
            | None =>
                match strip "true" (String c r) with
                | Some r' => Some (JBool true, r')
                | None => match strip "false" (String c r) with Some r' => Some (JBool false, r') | None => None end
                end
            end
      end
  end.

(** checkValid and decode of a whole text: one value, then only whitespace (scanner.go, checkValid). *)
Definition parse (s : string) : option json :=
  match value (S (String.length s)) s with
  | Some (j, r) => match skip r with EmptyString => Some j | _ => None end
  | None => None
  end.
