(** The Merkle leaves, tree and proofs: oracle/merklelizer.go and the parts of
    github.com/txaty/go-merkletree v0.1.15 that it uses. The hash function is an argument [H]; the program
    runs with [keccak256] of Keccak.v (merklelizer.go:183, and inside solsha3.SoliditySHA3). *)
From Verif Require Export Types.
From Verif Require Import Handlers.

(** ** Leaves *)

(** Inner loop of AggregateValidatorsIndexes, merklelizer.go:57-63: every existing leaf whose address equals
    the validator's gets the balance added ([continue] does not leave the loop); returns the leaves and [found]. *)
Fixpoint add_to_leaf (addr : string) (acc : Z) (leafs : list rawleaf) : res (list rawleaf * bool) :=
  match leafs with
  | [] => Ok ([], false)
  | l :: leafs =>
      let! e := equals (leaf_addr l) addr in
      let! '(leafs', found) := add_to_leaf addr acc leafs in
      Ok ((if e then RawLeaf (leaf_addr l) (leaf_bal l + acc) else l) :: leafs', e || found)
  end.

(** Outer loop, merklelizer.go:51-74: validators in the order chosen by the runtime; an address seen for the
    first time is appended in lowercase. *)
Fixpoint collect (vs : list vinfo) (leafs : list rawleaf) : res (list rawleaf) :=
  match vs with
  | [] => Ok leafs
  | v :: vs =>
      let! '(leafs', found) := add_to_leaf (v_addr v) (v_acc v) leafs in
      collect vs (if found then leafs' else leafs' ++ [RawLeaf (to_lower (v_addr v)) (v_acc v)])
  end.

(** OrderByWithdrawalAddress, merklelizer.go:132-139: sort.Slice with the byte-wise order of Go strings.
    Simplification: sort.Slice is not stable; it is applied to leaves with distinct addresses, for which every
    sorting algorithm gives the same list (insertion sort here). *)
Fixpoint insert_leaf (l : rawleaf) (ls : list rawleaf) : list rawleaf :=
  match ls with
  | [] => [l]
  | k :: ls => if String.leb (leaf_addr l) (leaf_addr k) then l :: k :: ls else k :: insert_leaf l ls
  end.
(** merklelizer.go:132-139, the loop around [insert_leaf]. *)
Definition sort_leafs (ls : list rawleaf) : list rawleaf := foldr insert_leaf [] ls.

(** Sum of the leaf balances, merklelizer.go:83-86. *)
Definition leafs_total (ls : list rawleaf) : Z := foldr (λ l z, leaf_bal l + z)%Z 0%Z ls.
(** Sum of the accumulated rewards, merklelizer.go:78-81. *)
Definition accs_total (vs : list vinfo) : Z := foldr (λ v z, v_acc v + z)%Z 0%Z vs.

(** The two checks on every leaf, merklelizer.go:117-126. *)
Fixpoint check_leafs (ls : list rawleaf) : res unit :=
  match ls with
  | [] => Ok tt
  | l :: ls =>
      if negb (is_hex_address (leaf_addr l)) then Die (Fatal "leaf contained a wrong withdrawal address")
      else if negb (String.eqb (to_lower (leaf_addr l)) (leaf_addr l))
      then Die (Fatal "all withdrawal address should be in lowercase")
      else check_leafs ls
  end.

(** AggregateValidatorsIndexes, merklelizer.go:44-129. *)
Definition aggregate (E : env) (s : ost) : res (list rawleaf) :=
  let vs := (e_iter E (st_vals s)).*2 in
  let! all := collect vs [] in
  if negb (accs_total vs =? leafs_total all)%Z then Die (Fatal "rewards calculation does not match")
  else
    let sorted := sort_leafs all in
    if existsb (λ l, String.eqb (to_lower (leaf_addr l)) (to_lower (st_pool s))) sorted
    then Die (Fatal "the PoolAddress is equal to one of the WithdrawalAddress")
    else
      let out := RawLeaf (to_lower (st_fees_addr s)) (st_fees s) :: sorted in
      let! _ := check_leafs out in
      Ok out.

(** ** Hashed leaves *)

(** Value of a hex digit, encoding/hex fromHexChar (used by solsha3.Address). merklelizer.go:161. *)
Definition hex_val (c : ascii) : N :=
  let n := N_of_ascii c in
  if (n <=? 57)%N then (n - 48)%N else if (n <=? 70)%N then (n - 55)%N else (n - 87)%N.
(** hex.DecodeString on an even number of hex digits. merklelizer.go:161. *)
Fixpoint hex_decode (s : string) : string :=
  match s with
  | String a (String b s) => String (ascii_of_N (16 * hex_val a + hex_val b)) (hex_decode s)
  | _ => EmptyString
  end.
(** solsha3.Address on an address string, merklelizer.go:161: the "0x" prefix is dropped and the hex decoded.
    The argument is always a lowercase hex address here (check_leafs), so the library's other cases do not arise. *)
Definition sol_address (a : string) : string :=
  hex_decode (if has_prefix a "0x" then sdrop 2 a else a).
(** Big-endian encoding on [k] bytes. merklelizer.go:162. *)
Fixpoint be_bytes (k : nat) (n : N) : string :=
  match k with
  | O => EmptyString
  | S k => be_bytes k (n / 256) +:+ String (ascii_of_N (n mod 256)) EmptyString
  end.
(** solsha3.Uint256 on a big integer, merklelizer.go:162: 32 bytes big-endian, modulo 2^256. *)
Definition sol_uint256 (z : Z) : string := be_bytes 32 (Z.to_N (z mod 2 ^ 256)).
(** solsha3.SoliditySHA3(Address, Uint256), merklelizer.go:160-163. *)
Definition leaf_preimage (l : rawleaf) : string := sol_address (leaf_addr l) +:+ sol_uint256 (leaf_bal l).
(** The hash of a leaf, merklelizer.go:160-163. *)
Definition leaf_hash (H : string → string) (l : rawleaf) : string := H (leaf_preimage l).

(** ** go-merkletree v0.1.15, with SortSiblingPairs, DisableLeafHashing and ModeTreeBuild *)

(** concatSortedHash (merkle_tree.go): the smaller of the two byte strings first. *)
Definition pair_hash (H : string → string) (a b : string) : string :=
  if String.leb b a then H (b +:+ a) else H (a +:+ b).
(** fixOdd: a level with an odd number of nodes has its last node duplicated.
    Library code behind merklelizer.go:177-187. *)
Fixpoint fix_odd (l : list string) : list string :=
  match l with
  | [] => []
  | [a] => [a; a]
  | a :: b :: l => a :: b :: fix_odd l
  end.
(** One level up: hash neighbouring pairs. Library code behind merklelizer.go:177-187. *)
Fixpoint pair_up (H : string → string) (l : list string) : list string :=
  match l with
  | a :: b :: l => pair_hash H a b :: pair_up H l
  | _ => []
  end.
(** treeBuild: the node levels, lowest first, [d] of them. Library code behind merklelizer.go:177-187. *)
Fixpoint build (H : string → string) (d : nat) (l : list string) : list (list string) :=
  match d with
  | O => []
  | S d => let nodes := fix_odd l in nodes :: build H d (pair_up H nodes)
  end.
(** Depth = bits.Len(numLeaves - 1). Library code behind merklelizer.go:177-187. *)
Definition depth (l : list string) : nat := N.to_nat (N.size (N.of_nat (length l - 1))).
(** The levels of the tree over the given leaf hashes (m.nodes). Library code behind merklelizer.go:177-187. *)
Definition tree_nodes (H : string → string) (l : list string) : list (list string) := build H (depth l) l.
(** The root: hash of the two nodes of the last level. Library code behind merklelizer.go:177-187. *)
Definition tree_root (H : string → string) (l : list string) : string :=
  match last (tree_nodes H l) with
  | Some (a :: b :: _) => pair_hash H a b
  | _ => EmptyString
  end.
(** leafMap: position of a leaf hash; a duplicate hash gets the last position. Library code behind oracle.go:742. *)
Fixpoint last_index (x : string) (l : list string) (i : nat) : option nat :=
  match l with
  | [] => None
  | y :: l =>
      match last_index x l (S i) with
      | Some j => Some j
      | None => if String.eqb x y then Some i else None
      end
  end.
(** Proof(block).Siblings: the neighbour at each level, idx halved each time. Library code behind oracle.go:742. *)
Fixpoint siblings (nodes : list (list string)) (idx : nat) : option (list string) :=
  match nodes with
  | [] => Some []
  | l :: nodes =>
      sib ← l !! (if Nat.odd idx then idx - 1 else idx + 1)%nat;
      rest ← siblings nodes (Nat.div2 idx);
      Some (sib :: rest)
  end.
(** Proof(block), failing when the block is not a leaf. Library code behind oracle.go:742. *)
Definition tree_proof (H : string → string) (l : list string) (x : string) : option (list string) :=
  idx ← last_index x l 0; siblings (tree_nodes H l) idx.

(** ** GenerateTreeFromState, merklelizer.go:143-193 *)

(** The map from address to raw leaf, merklelizer.go:157, 166: a later leaf with the same address replaces an
    earlier one. (withdrawalToLeaf, 154 and 165, holds the hash of the same leaf.) *)
Fixpoint raw_leaf_map (ls : list rawleaf) (m : gmap string rawleaf) : gmap string rawleaf :=
  match ls with
  | [] => m
  | l :: ls => raw_leaf_map ls (<[leaf_addr l := l]> m)
  end.

(** GenerateTreeFromState, merklelizer.go:143-193: the map from address to raw leaf and the leaf hashes, from
    which the tree is a function. None: fewer than two leaves. mt.New fails only for fewer than two blocks. *)
Definition generate_tree (H : string → string) (E : env) (s : ost)
  : res (option (gmap string rawleaf * list string)) :=
  let! ls := aggregate E s in
  if (length ls <? 2)%nat then Ok None
  else Ok (Some (raw_leaf_map ls ∅, leaf_hash H <$> ls)).
