(** Keccak-256 as computed by KeccakHash, merklelizer.go:26-30 (golang.org/x/crypto/sha3
    NewLegacyKeccak256), and by go-solidity-sha3's SoliditySHA3. The algorithm is transcribed from the Keccak
    reference (FIPS 202 permutation, rate 136 bytes, domain byte 0x01); the repository's own test vectors are
    replayed in PropMerkle.v. The theorems about trees hold for every hash function. *)
From Verif Require Export GoBase.

(** 64-bit rotation. x/crypto/sha3 keccakf.go: bits.RotateLeft64. *)
Definition rotl (x k : N) : N :=
  (N.lor (N.shiftl x k) (N.shiftr x (64 - k)) mod two64)%N.

(** A state is a list of 25 lanes, lane (x, y) at position x + 5 y. merklelizer.go:26-30. *)
Definition lane (a : list N) (i : nat) : N := nth i a 0%N.

(** Round constants, x/crypto/sha3 keccakf.go: rc. *)
Definition round_constants : list N := [
  0x0000000000000001; 0x0000000000008082; 0x800000000000808A; 0x8000000080008000;
  0x000000000000808B; 0x0000000080000001; 0x8000000080008081; 0x8000000000008009;
  0x000000000000008A; 0x0000000000000088; 0x0000000080008009; 0x000000008000000A;
  0x000000008000808B; 0x800000000000008B; 0x8000000000008089; 0x8000000000008003;
  0x8000000000008002; 0x8000000000000080; 0x000000000000800A; 0x800000008000000A;
  0x8000000080008081; 0x8000000000008080; 0x0000000080000001; 0x8000000080008008]%N.

(** Rotation offsets of the rho step, indexed like the lanes. merklelizer.go:26-30. *)
Definition rho_offsets : list N :=
  [0; 1; 62; 28; 27;  36; 44; 6; 55; 20;  3; 10; 43; 25; 39;  41; 45; 15; 21; 8;  18; 2; 61; 56; 14]%N.

(** The step mappings of Keccak-f, unrolled in x/crypto/sha3 keccakf.go. *)
Definition theta (a : list N) : list N :=
  let c := (λ x, N.lxor (lane a x) (N.lxor (lane a (x + 5)) (N.lxor (lane a (x + 10)) (N.lxor (lane a (x + 15)) (lane a (x + 20)))))) <$> seq 0 5 in
  let d := (λ x, N.lxor (lane c ((x + 4) mod 5)) (rotl (lane c ((x + 1) mod 5)) 1)) <$> seq 0 5 in
  (λ i, N.lxor (lane a i) (lane d (i mod 5))) <$> seq 0 25.
(** The rho step, merklelizer.go:26-30. *)
Definition rho (a : list N) : list N := (λ i, rotl (lane a i) (lane rho_offsets i)) <$> seq 0 25.
(** Lane (x, y) moves to (y, 2x + 3y), that is, position (x, y) receives lane (x + 3y, x). merklelizer.go:26-30. *)
Definition pi_step (a : list N) : list N :=
  (λ i, let x := (i mod 5)%nat in let y := (i / 5)%nat in lane a ((x + 3 * y) mod 5 + 5 * x)) <$> seq 0 25.
(** The chi step, merklelizer.go:26-30. *)
Definition chi (a : list N) : list N :=
  (λ i, let x := (i mod 5)%nat in let y5 := (i - x)%nat in
     N.lxor (lane a i) (N.land (N.lxor (lane a ((x + 1) mod 5 + y5)) (two64 - 1)) (lane a ((x + 2) mod 5 + y5)))) <$> seq 0 25.
(** The iota step, merklelizer.go:26-30. *)
Definition iota (rc : N) (a : list N) : list N :=
  match a with [] => [] | x :: a => N.lxor x rc :: a end.
(** The permutation of 24 rounds, merklelizer.go:26-30. *)
Definition keccak_f (a : list N) : list N :=
  fold_left (λ a rc, iota rc (chi (pi_step (rho (theta a))))) round_constants a.

(** Little-endian lanes from bytes, and back. merklelizer.go:26-30. *)
Fixpoint lanes_of (k : nat) (l : list N) : list N :=
  match k with
  | O => []
  | S k => foldr (λ b acc, b + 256 * acc)%N 0%N (take 8 l) :: lanes_of k (drop 8 l)
  end.
(** A lane as bytes, merklelizer.go:26-30. *)
Fixpoint le_bytes (k : nat) (n : N) : list N :=
  match k with O => [] | S k => (n mod 256)%N :: le_bytes k (n / 256) end.

(** Padding, x/crypto/sha3 sha3.go:padAndPermute: 0x01, zeros, and 0x80 or'ed into the last byte of the block. *)
Definition rate : nat := 136.
(** The padding of a message, merklelizer.go:26-30. *)
Definition pad (l : list N) : list N :=
  let r := (rate - (length l mod rate))%nat in
  l ++ (if (r =? 1)%nat then [129%N] else 1%N :: repeat 0%N (r - 2) ++ [128%N]).

(** Absorb the padded message block by block, squeeze 32 bytes. merklelizer.go:26-30. *)
Fixpoint absorb (k : nat) (l : list N) (a : list N) : list N :=
  match k with
  | O => a
  | S k => absorb k (drop rate l) (keccak_f (zip_with N.lxor a (lanes_of 17 (take rate l) ++ repeat 0%N 8)))
  end.
(** Strings as lists of bytes, merklelizer.go:26-30. *)
Definition bytes_of (s : string) : list N := N_of_ascii <$> list_ascii_of_string s.
(** And back, merklelizer.go:26-30. *)
Definition of_bytes (l : list N) : string := string_of_list_ascii (ascii_of_N <$> l).
(** KeccakHash, merklelizer.go:26-30. *)
Definition keccak256 (s : string) : string :=
  let p := pad (bytes_of s) in
  of_bytes (take 32 (mjoin (le_bytes 8 <$> absorb (length p / rate) p (repeat 0%N 25)))).
