(** utils.DeepCopy of the map of validators (utils/utils.go:219-228): written with encoding/gob and read again. Used by
    FreezeCheckpoint (oracle.go:717-718) and by the API (api.go:718-721).
    Simplifications: the messages that describe the types, the frame of the message and its limit of 8 GB are left out
    (both sides have the same Go type); the pointers of a validator's amounts are not nil, as everywhere in the model. *)
From Verif Require Export Rlp.

(** encoderState.encodeUint (gob/encode.go): one byte up to 127, else minus the number of bytes and the bytes, most
    significant first. utils.go:226. *)
Definition gob_uint (n : N) : string :=
  if (n <=? 127)%N then String (byte n) "" else String (byte (256 - N.of_nat (String.length (short_bytes n)))) (short_bytes n).
(** A string of bytes with its length (encString, encodeGobEncoder). utils.go:226. *)
Definition gob_bytes (s : string) : string := gob_uint (N.of_nat (String.length s)) +:+ s.
(** big.Int.GobEncode (math/big/intmarsh.go): version 1 and the sign in one byte, then the absolute value. utils.go:226. *)
Definition gob_big (z : Z) : string := String (byte (if (z <? 0)%Z then 3 else 2)) (short_bytes (Z.abs_N z)).
(** encodeStruct (gob/encode.go): the fields that are sent, each after its distance from the previous one; zero values are
    [None] and not sent. utils.go:226. *)
Fixpoint gob_fields (gap : N) (l : list (option string)) : string :=
  match l with
  | [] => gob_uint 0
  | None :: l => gob_fields (gap + 1) l
  | Some w :: l => gob_uint gap +:+ w +:+ gob_fields 1 l
  end.
(** The numbers of the states, types.go:30-38. *)
Definition status_number (s : vstatus) : N :=
  match s with UnknownState => 0 | Active => 1 | YellowCard => 2 | RedCard => 3 | NotSubscribed => 4 | Banned => 5 | Untracked => 6 end.
(** The number of a SubscriptionType, types.go:78-81. *)
Definition sub_number (s : sub_type) : N := match s with Manual => 0 | Auto => 1 end.
(** An integer field (encUint). utils.go:226. *)
Definition uint_field (n : N) : option string := if (n =? 0)%N then None else Some (gob_uint n).
(** A string field (encString). utils.go:226. *)
Definition text_field (s : string) : option string := match s with "" => None | _ => Some (gob_bytes s) end.
(** A ValidatorInfo, in the order of types.go:166-175. utils.go:226. *)
Definition gob_validator (v : vinfo) : string :=
  gob_fields 1 [uint_field (status_number (v_status v)); Some (gob_bytes (gob_big (v_acc v))); Some (gob_bytes (gob_big (v_pend v)));
    Some (gob_bytes (gob_big (v_coll v))); text_field (v_addr v); uint_field (v_index v); text_field (v_key v); uint_field (sub_number (v_sub v))].
(** The entries of a map, each key before its value (encodeMap). utils.go:226. *)
Fixpoint gob_entries (l : list (N * vinfo)) : string :=
  match l with [] => "" | kv :: l => gob_uint kv.1 +:+ gob_validator kv.2 +:+ gob_entries l end.
(** The map (encodeSingle and encodeMap): a zero, the number of entries, and the entries in the order that the runtime
    takes. Zero keys are sent. utils.go:226. *)
Definition gob_map (l : list (N * vinfo)) : string :=
  gob_uint 0 +:+ gob_uint (N.of_nat (length l)) +:+ gob_entries l.

(** decoderState.decodeUint (gob/decode.go): at most eight bytes. utils.go:227. *)
Definition read_uint (s : string) : option (N * string) :=
  match s with
  | "" => None
  | String c r =>
      if (N_of_ascii c <=? 127)%N then Some (N_of_ascii c, r) else
      let k := N.to_nat (256 - N_of_ascii c) in
      if (8 <? k)%nat || (String.length r <? k)%nat then None else Some (word_number (substring 0 k r), sdrop k r)
  end.
(** getLength and the bytes that follow (gob/decode.go): less than 2^33 bytes. utils.go:227. *)
Definition read_bytes (s : string) : option (string * string) :=
  '(n, r) ← read_uint s;
  if (2 ^ 33 <=? n)%N || (N.of_nat (String.length r) <? n)%N then None else Some (substring 0 (N.to_nat n) r, sdrop (N.to_nat n) r).
(** big.Int.GobDecode (math/big/intmarsh.go). utils.go:227. *)
Definition gob_read_big (s : string) : option Z :=
  match s with
  | "" => Some 0%Z
  | String c r =>
      if (N_of_ascii c =? 2)%N then Some (Z.of_N (word_number r)) else if (N_of_ascii c =? 3)%N then Some (- Z.of_N (word_number r))%Z else None
  end.
(** The state with a number. Simplification: Go also accepts the numbers 7 to 255, which are never sent. types.go:30-38. *)
Definition numbered_status (n : N) : option vstatus :=
  match n with 0 => Some UnknownState | 1 => Some Active | 2 => Some YellowCard | 3 => Some RedCard | 4 => Some NotSubscribed | 5 => Some Banned
  | 6 => Some Untracked | _ => None end%N.
(** The SubscriptionType with a number; the same simplification. types.go:78-81. *)
Definition numbered_sub (n : N) : option sub_type := match n with 0 => Some Manual | 1 => Some Auto | _ => None end%N.
(** One field of a ValidatorInfo is read into [v]. types.go:166-175, utils.go:227. *)
Definition read_field (i : N) (v : vinfo) (s : string) : option (vinfo * string) :=
  let '(VInfo st acc pend coll addr ix key sub) := v in
  match i with
  | 0 => '(n, r) ← read_uint s; x ← numbered_status n; Some (VInfo x acc pend coll addr ix key sub, r)
  | 1 => '(b, r) ← read_bytes s; z ← gob_read_big b; Some (VInfo st z pend coll addr ix key sub, r)
  | 2 => '(b, r) ← read_bytes s; z ← gob_read_big b; Some (VInfo st acc z coll addr ix key sub, r)
  | 3 => '(b, r) ← read_bytes s; z ← gob_read_big b; Some (VInfo st acc pend z addr ix key sub, r)
  | 4 => '(b, r) ← read_bytes s; Some (VInfo st acc pend coll b ix key sub, r)
  | 5 => '(n, r) ← read_uint s; Some (VInfo st acc pend coll addr n key sub, r)
  | 6 => '(b, r) ← read_bytes s; Some (VInfo st acc pend coll addr ix b sub, r)
  | 7 => '(n, r) ← read_uint s; x ← numbered_sub n; Some (VInfo st acc pend coll addr ix key x, r)
  | _ => None
  end%N.
(** decodeStruct (gob/decode.go): fields up to a zero distance or the end; [next]: the field after the last one read.
    utils.go:227. *)
Fixpoint read_fields (fuel : nat) (next : N) (v : vinfo) (s : string) : option (vinfo * string) :=
  match fuel, s with
  | O, _ => None
  | _, "" => Some (v, "")
  | S fuel, _ =>
      '(d, r) ← read_uint s;
      if (d =? 0)%N then Some (v, r) else
      '(v', r') ← read_field (next + d - 1) v r;
      read_fields fuel (next + d) v' r'
  end.
(** The validator into which a decoder reads: zero values (the amounts are nil, 0 in the model). utils.go:227. *)
Definition zero_validator : vinfo := VInfo UnknownState 0 0 0 "" 0 "" Manual.
(** decodeMap (gob/decode.go). utils.go:227. *)
Fixpoint read_entries (n : nat) (m : gmap N vinfo) (s : string) : option (gmap N vinfo) :=
  match n with
  | O => Some m
  | S n =>
      '(k, r) ← read_uint s;
      '(v, r') ← read_fields 9 0 zero_validator r;
      read_entries n (<[k := v]> m) r'
  end.
(** Decoding the message into a map. utils.go:227. *)
Definition read_map (m0 : gmap N vinfo) (s : string) : option (gmap N vinfo) :=
  '(d, r) ← read_uint s;
  if negb (d =? 0)%N then None else
  '(n, r') ← read_uint r;
  read_entries (N.to_nat n) m0 r'.
(** utils.DeepCopy of the entries, taken in the order [l], into the map [m0]; both callers pass an empty one. Its errors
    are ignored: [None] leaves what was read before. utils.go:221-228, oracle.go:717-718, api.go:718-721. *)
Definition deep_copy (l : list (N * vinfo)) (m0 : gmap N vinfo) : option (gmap N vinfo) := read_map m0 (gob_map l).
