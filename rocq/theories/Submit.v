(** The transaction that reports a root: the generated SubmitReport with go-ethereum's abi.Pack, BoundContract.transact
    and types.SignTx (v1.15.7). *)
From Verif Require Export Rlp.

(** What the execution node answers while the transaction is made: network id and pending nonce (onchain.go:1748,
    1760), the base fee of the head if it has one, the suggested tip or price, and the estimated gas (bind/base.go,
    since 1776-1778 leave the prices open). *)
Record head_answers := HeadAnswers { hd_network : N; hd_nonce : N; hd_base : option N; hd_tip : N; hd_price : N; hd_gas : N }.
(** abi.Pack("submitReport", slot, root): the selector, a word with the slot, the root. contract.go:1041. *)
Definition submit_data (H : string → string) (slot : N) (root : string) : string :=
  substring 0 4 (H "submitReport(uint64,bytes32)") +:+ (be_bytes 32 slot +:+ root).
(** BoundContract.transact (bind/base.go) and the signer of NewKeyedTransactorWithChainID: createDynamicTx if the head
    has a base fee (fee cap: tip plus twice the base fee), createLegacyTx otherwise; the value is zero (onchain.go:1773).
    [sign] is crypto.Sign with the key of the updater: R, S and the parity. onchain.go:1765-1790. *)
Definition submit_tx (H : string → string) (sign : string → N * N * N) (A : head_answers) (pool20 : string) (slot : N) (root : string) : txdata :=
  let data := submit_data H slot root in
  match hd_base A with
  | Some base =>
      let t v r s := DynamicTx (hd_network A) (hd_nonce A) (hd_tip A) (hd_tip A + 2 * base) (hd_gas A) (Some pool20) 0 data [] v r s in
      let '(r, s, y) := sign (H (sign_bytes None (t 0%N 0%N 0%N))) in t y r s
  | None =>
      let t v r s := Legacy (hd_nonce A) (hd_price A) (hd_gas A) (Some pool20) 0 data v r s in
      let '(r, s, y) := sign (H (sign_bytes (Some (hd_network A)) (t 0%N 0%N 0%N))) in t (y + 35 + 2 * hd_network A)%N r s
  end.
