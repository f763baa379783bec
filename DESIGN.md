# Formal model of mev-sp-oracle: design and trusted base

Source: `/repo` (Go), read as text, never built or run. Model and proofs: `rocq/theories`, Coq 8.16.1 with std++.
The properties are in `properties.jsonl` (C01…); `MANIFEST.json` maps each one to theorem names; `seeded/LOG.jsonl`
records which deliberately wrong versions of the model the theorems were tried against.

## Reading order

1. A property in `properties.jsonl`, then its theorems in the `Prop*.v` file named in the table at the end. These files
   hold only statements closed by `exact`, an `Example` beside each theorem showing a concrete case that meets its
   hypotheses, and `Print Assumptions`.
2. The vocabulary of the statement in the matching `*Spec.v` file. Specifications refer to the data types and to the
   observable functions of the oracle (processing a slot, freezing, saving, serving a request, one event in the life of
   the process), not to the helpers that implement them.
3. The model. Every definition there cites the lines of `/repo` that it models and says where it simplifies.

## Layout

Model (definitions only, no proofs):

| file | models |
|---|---|
| `GoBase.v` | Go runtime notions: outcome types, uint64 wrap, big.Int Euclidean division, hex, lower-casing; `utils/utils.go` |
| `Types.v` | `oracle/types.go` and the fields read of go-eth2-client, go-ethereum and contract-binding types |
| `Rewards.v` | status machine, reward sharing: `oracle/oracle.go` 42-65, 1008-1047, 1539-1834, 1873-2052 |
| `Handlers.v` | event handlers and cleanup: `oracle/oracle.go` 260-403, 970-986, 1049-1537 |
| `Block.v` | `oracle/block.go`: MEV and vanilla rewards, donations, classification of a block |
| `Advance.v` | `NewOracle`, `validateFullBlockConfig`, `AdvanceStateToNextSlot`, reconciliation, configuration events |
| `Keccak.v`, `Merkle.v`, `Checkpoint.v` | Keccak-256; `oracle/merklelizer.go` and go-merkletree; `IsCheckpoint`, `FreezeCheckpoint`, latest checkpoint, sync verdict |
| `Json.v`, `Codec.v`, `Persist.v` | `encoding/json` text; JSON form of the state; `SaveToJson`, `LoadFrom*`, `LoadGivenState`, hash, start of the process |
| `Onchain.v` | `oracle/onchain.go`: duty cache, validator queries, `FetchFullBlock`, deployment slot, initial fee, `GetConfigFromContract`, `UpdateContractMerkleRoot` |
| `MainLoop.v` | `main.go` 126-496: loop as a state machine, signals, crashes, restarts, submission policy |
| `Locks.v` | `sync.RWMutex` and the order in which the oracle's methods take it |
| `Api.v` | `api/api.go`: the read endpoints and the overlay of events that are not finalized |
| `Sync.v` | checkpoint sync: text of GET /state and `main.go` 133-189 |
| `Startup.v` | `config/config.go`, `NewOnchain`, `IsAddressWhitelisted`, `main.go` 39-189 |
| `Beacon.v` | `RefreshBeaconValidators`, `GetActivationSlotOfLatestProcessedValidator`, `GetPendingConsolidations`, `GetRetryOpts` |
| `Abi.v` | the ABI decoding of the nine events (`UnpackLog`), the event iterators and getters, `decodePoolFeeFromInitArgs` |
| `Http.v` | `getRouter` (mux's path cleaning and matching), `corsMiddleware`, `prometheusMiddleware`, `responseWriterDelegator`, `respondOK`, `respondError` |
| `Body.v` | the JSON texts of the answers: `api/types.go`, `respondOK`, `respondError`, the words of `oracle/types.go` |
| `Rlp.v` | `utils.DecodeTx`, `utils.GetTxSender`: RLP, the five transaction types, signing messages, the hash of a transaction |
| `Submit.v` | the transaction made by `UpdateContractMerkleRoot`: call data, fees, signature |
| `Calls.v` | the view calls of the contract: `contract/contract.go` callers, the getters `oracle/onchain.go` 602-845 |
| `Gob.v` | `utils.DeepCopy` of the validators: the values of `encoding/gob`, `big.Int.GobEncode` and `GobDecode` |
| `Pointers.v` | the writes to amounts in `oracle/oracle.go` and `AggregateValidatorsIndexes` once more, over a memory of pointers |
| `Gauges.v` | the gauges that `main.go` sets, with `metrics/metrics.go` |
| `Disk.v` | two writers of `state.json` at the level of system calls: `oracle/oracle.go` 510-521, `main.go` 207, 488 |

Specification: `Spec.v`, `MerkleSpec.v`, `PersistSpec.v`, `OnchainSpec.v`, `LoopSpec.v`, `LocksSpec.v`, `ApiSpec.v`,
`SyncSpec.v`, `AgreeSpec.v`, `StartSpec.v`, `QuorumSpec.v`, `ReconSpec.v`, `AbiSpec.v`, `HttpSpec.v`, `RlpSpec.v`, `StopSpec.v`,
`BodySpec.v`, `ClaimSpec.v`, `CallSpec.v`, `CodeSpec.v`, `DiskSpec.v`, `GobSpec.v`, `CollSpec.v`, `PointersSpec.v`, `GaugesSpec.v`. Proofs: `*Proofs.v`. Concrete data for the examples: `*Samples.v`. Statements: `Prop*.v`.

## Modelling conventions

* `log.Fatal` and Go panics are the outcome `Die` with a tag (a panic in an HTTP handler is recovered by net/http, a
  Fatal is not; the API theorems keep them apart). A returned error carries the possibly already modified state.
* `*big.Int` is `Z` (nil is an explicit `option` where it can occur); `uint64` is `N` with explicit reduction modulo
  2^64; `big.Int.Div/Mod` are Euclidean.
* Go map iteration order is an explicit argument; theorems quantify over it.
* Answers of the nodes, of the contract and of relays, the hash functions (Keccak-256, SHA-256), the EIP-55 case mask,
  the clock and the outcome of a file write are arguments of the model; theorems quantify over them.
* Pointers: every mutation through a pointer is a functional update. That this is right for the amounts is proved in
  C105 with a second model over a memory (`Pointers.v`); it assumes that the clients that decode blocks and the file
  make a new integer for every amount.
* Goroutines: the main loop, the signal handler and the API interleave between the steps of `MainLoop.v`; inside a
  step the lock serialises them. Whether the lock really does so is the subject of `Locks.v`, where each method is
  the sequence of its lock operations, reads and writes, and all interleavings are considered. A save of the handler is one step of `MainLoop.v`; what happens when
  its writes overlap with the loop's is the subject of `Disk.v`.

## How the properties are proved

Invariants over histories are proved by induction on the list of processed blocks from a per-slot lemma, which is
assembled from one lemma per handler (`TraceProofs.v`: every handler is a sequence of primitive writes). Saving and
loading rest on a proved round trip of the JSON printer and parser, and on a proof that every proper prefix of a file is
refused. The main loop is a transition system with an invariant relating memory and every file in the folder to a
history of the deployment. The lock is a transition system; deadlock freedom is proved by characterising the stuck
states. A property that is false of the code has a theorem `…_refuted` that exhibits a concrete reachable witness,
and, where something true remains, `…_partial` theorems whose comment says what is missing.

## Trusted base

1. Coq's kernel, including its virtual machine for the closed computations in examples and witnesses.
2. `Print Assumptions` is run under every theorem of the `Prop*.v` files and answers *Closed under the global context*
   for each of them: no axiom is used, not even one of the standard library.
3. That the model says what the Go code does. It was transcribed by hand, function by function. In particular the
   following behaviour of libraries is modelled from knowledge of their source or documentation:
   * `encoding/json` (Marshal, MarshalIndent, Encoder, Unmarshal incl. case-insensitive keys, nulls, numbers), text of
     ASCII strings only for those the state can hold;
   * txaty/go-merkletree v0.1.15 with sorted siblings and go-solidity-sha3; Keccak-256 itself is modelled, and the
     roots of the repository's own test vectors are recomputed by the model (`PropMerkle.v`);
   * SHA-256 is an arbitrary function;
   * `sync.RWMutex` with writer preference; `regexp`, `strconv`, `strings`, `hex`, `common.Address` as used by the API;
   * go-ethereum's `rlp`, `core/types` and `accounts/abi/bind` (not in the repository), from knowledge of v1.15; the signing
     hash of the example in EIP-155 and the selector of submitReport are recomputed by the model (`PropTx.v`); signing and
     recovery of the key (secp256k1) are arbitrary functions;
   * gob shares nothing between the original and the copy; that the values come through is proved (C103);
   * the file system: a write may be cut at any byte, or not start, when the process ends; otherwise files keep what was
     written; opening fails only for an absent file;
   * avast/retry-go: a call either eventually answers or gives up with an error; the number of attempts is abstracted.
4. What the hypotheses of a theorem say. They are conditions on the outside world (nodes answer consistently, amounts
   fit their Go types, no validator withdraws to the pool, …), each met by the concrete case beside the theorem.

## Not modelled

* `contract/contract.go` (generated binding): only the event types, the reading of events and of the `initialize`
  call data (`Abi.v`, following go-ethereum's `accounts/abi`, which is not in the repository), the calls made and the
  decoding of the views that are called (`Calls.v`) are represented. The Solidity contract itself is not in the repository;
  C80, C81 and C108 assume the rules written in `QuorumSpec.v` (a quorum of equal votes for a later slot is consolidated; a
  claim with a valid proof pays the cumulative amount minus what was claimed).
* the metrics server (the gauges are in `Gauges.v`, the version aside), all logging, HTTP headers, latency measurements, gzip, server timeouts. `gorilla/mux` is modelled from
  its documented behaviour (it is not in the repository).
* `utils.DecryptKey` and the wallet: the address of the key, or an error (`bo_key`); elliptic-curve arithmetic (`sign`, `rec` are
  arguments).
* flag.Parse and url.Parse: their results (`flags`, `parses`).
* Helpers used by nothing modelled: `ByteArrayToStringArray`, `GetUniqueElements`, `StringToBlsKey`, `NumInSlice`, event
  getters that are stubs in `onchain.go`.
* Timing: sleeps and tickers are choices of the environment (`an_due`, arbitrary interleaving), not durations.

## Properties

| property | status | file | note |
|---|---|---|---|
| C01 Every wei received is owed to somebody, and nothing more is owed | proved | `PropAccounting.v` | Over every run from any state. |
| C02 A reward is split exactly: validators' shares plus the pool's part equal the reward | proved | `PropAccounting.v` |  |
| C03 From the Electra fork on, shares are proportional to effective balance | proved | `PropAccounting.v` |  |
| C04 Before Electra every eligible validator gets the same amount and the pool gets its cut plus dust | proved | `PropAccounting.v` |  |
| C05 A validator's share of a non-negative reward is never negative | proved | `PropAccounting.v` | Holds from fork 1 on; before fork 1 the code can hand out negative shares, shown by a reachable state. |
| C06 Cumulative claimable balances never go down | proved | `PropAccounting.v` | From fork 1 on, with non-negative amounts entering. |
| C07 Accumulated rewards rise only through the validator's own successful proposal or its own returned collateral | proved | `PropAccounting.v` |  |
| C08 Only active and yellow-carded validators earn from rewards | proved | `PropAccounting.v` |  |
| C09 A validator's status follows the published transition table | proved | `PropLifecycle.v` | The state machine is the published diagram; every slot moves a status along diagram edges by events that occurred in that block. |
| C10 A ban is permanent until an explicit unban, and a banned validator holds no pending rewards | proved | `PropLifecycle.v` |  |
| C100 The views of the contract are read as the contract wrote them | proved | `PropCall.v` | Every view answered by the contract is read exactly; nothing is read from short or empty answers; the configuration and the wire of C99 follow. go-ethereum reads addresses without looking at the twelve bytes before them. |
| C101 The status code tells who is at fault | partial | `PropCode.v` | Exact for every request except GET /registeredrelays with a malformed key, which is refused with 500 instead of 400 (C101_key_refuted). |
| C102 Two saves at the same time | partial | `PropDisk.v` | The last part is false: when the two texts differ in length, an interleaving leaves the shorter text followed by the end of the longer one, and the process never starts from that file (C102_lost, concretely C102_stop_refuted). Proved: a save that is alone leaves a beginning of its text and in the end the text; equal texts leave that text under every interleaving; every byte left is one of the two texts' or a zero byte; with one write call per text the file is one of the two states or is never started from. |
| C103 The copies of the validators | proved | `PropGob.v` | Values are modelled byte by byte; the messages that describe the types and the message frame are not, and amounts and texts are below some gigabytes, as gob demands. |
| C104 The recorded collateral | partial | `PropColl.v` | Everything but the last sentence is proved. The last sentence is false of the code: a validator that is known already keeps the collateral of its first record, so one that was subscribed automatically, unsubscribed and then paid 1500 is still shown with collateral zero. |
| C105 Amounts do not share memory | proved | `PropPointers.v` | A second model of the writing functions over a memory of addresses, in which x.Add changes the object that x points to. C105_block: on any memory with the amounts apart, one block ends exactly as the model with values says (errors and deaths included), leaves the amounts apart, and touches nothing that belongs to somebody else. C105_load: new and loaded states start apart. C105_history: both together over any number of blocks; the amounts that came with each block are still what they were. C105_every: no execution of the value model is lost. C105_leaves: building the leaves; no two of them are one object. Two examples show that a shared object would differ, and that a consolidation target really takes over the source's object. |
| C106 The gauges show where the oracle is | partial | `PropGauges.v` | Slot and block: as stated once this process has processed a slot, up to the rounding of float64 (exact below 2^53, C106_rounding). Distance: exactly the one at that moment, without wrap. Roots: as stated for deployments that load their own files. False: after a start the gauges are zero (C106_started_refuted); the distance stays what it was while the loop waits for its root (C106_waiting, C106_distance_refuted) or for a node (C106_unsynced). |
| C107 The durations in the status | partial | `PropBody.v` | Up to 292 years in either direction the words are for the exact duration, negative if the contract is ahead, and the time left is exact; the age in seconds is exact only modulo 2^64 (C107_age_refuted). Example C107_limit: one slot above the limit the words are wrong. durafmt is an arbitrary function. |
| C108 The comparison with the contract never stops an oracle that is right | partial | `PropBalance.v` | C98 says when the comparison ends the process, for any answers; C108 shows that with the contract of QuorumSpec.v it does not. Proved for chains without chained consolidations and states in which no validator withdraws to the fee recipient; C108_refuted: with such a validator a process ends at its first comparison, before any claim. |
| C11 Only the owner of the withdrawal address can subscribe or unsubscribe a validator by event | proved | `PropLifecycle.v` |  |
| C12 Every subscription deposit is credited exactly once, to the documented place | proved | `PropLifecycle.v` |  |
| C13 Unsubscribing forfeits pending rewards and keeps accumulated ones | proved | `PropLifecycle.v` |  |
| C14 Slots are processed once each, in order, with no gap | proved | `PropProgress.v` |  |
| C15 The audit logs are append-only and complete | proved | `PropProgress.v` | C15_records assumes that the proposer does not also subscribe in the very block it proposes. |
| C16 Two oracles fed the same chain compute the same state | proved | `PropCleanup.v` | Order independence proved for every slot and chain without chained consolidations, as the property states; the stated exception is witnessed by C16_chained_refuted. |
| C17 Cleanup moves the pending rewards of inactive validators and nothing else | proved | `PropCleanup.v` | C17_cleanup gives the state after cleanup in closed form when no consolidation leads to an inactive validator; with chains the result is order dependent (C16_chained_refuted). C17_owed needs only that nobody consolidates into themselves. |
| C18 After a cleanup no exited validator keeps earning | partial | `PropCleanup.v` | False as claimed: an exited validator whose pending rewards are zero at the cleanup stays subscribed and keeps earning (C18_exited_refuted). Proved for exited validators with non-zero pending rewards. |
| C19 A validator that subscribed before activation keeps its deposit | partial | `PropCleanup.v` | False as claimed: a validator waiting for activation loses its deposit at the next cleanup (C19_deposit_refuted). Proved for validators reported active. |
| C20 Every ether-received event is either the credited MEV reward or a donation | partial | `PropBlock.v` | Proved when the amount of the MEV payment occurs once among the ether events; refuted in general: a second deposit of exactly that amount is credited to nobody and off-chain reconciliation fails from then on. |
| C21 The published leaves are one per withdrawal address, lowercase, sorted, and add up | proved | `PropMerkle.v` | Leaves are the fee leaf followed by exactly the withdrawal addresses in strictly increasing order, each with the published balance, summing to the ledger; aggregation succeeds on well-formed records when nobody withdraws to the pool address. |
| C22 The Merkle leaves and root do not depend on map iteration order | proved | `PropMerkle.v` | For any two map iteration orders, leaves and whole frozen checkpoint are equal. |
| C23 The fee recipient's leaf is never shadowed by a validator's leaf | partial | `PropMerkle.v` | False of the code: merklelizer.go compares withdrawal addresses with the pool address, not with the fee address, so a validator withdrawing to the fee address yields two leaves and the fee leaf is overwritten. Proved when no validator withdraws to the fee address. |
| C24 Every stored proof verifies against the stored root | proved | `PropMerkle.v`, `PropQuorum.v` | Stored proofs verify with the OpenZeppelin algorithm for any hash function; Keccak-256 is modelled and replays the repository's root vectors. |
| C25 No proof exists for a balance the oracle did not publish | proved | `PropMerkle.v` | Soundness up to an explicit collision among the strings hashed by verifier and oracle; the hash yields 32 bytes, which is proved of Keccak-256. |
| C26 Frozen checkpoints never change | proved | `PropMerkle.v` | Stated over all interleavings of slots and checkpoints from a fresh oracle. The model has value semantics: that DeepCopy shares nothing with the live state is part of the trusted base. |
| C27 The latest committed state is the one with the greatest slot | proved | `PropMerkle.v` | For every order in which the checkpoint map is visited. |
| C28 Checkpoints fall exactly at deployedSlot + k*checkpointSize | proved | `PropMerkle.v` | With a positive checkpoint size; the code divides by zero otherwise. |
| C29 Saving and loading returns the same state | partial | `PropPersist.v` | Proved for every saveable state with well-formed records in which no validator withdraws to the pool address; the reachable version needs no other assumption on the state. Refuted without that condition: computing the Merkle root at the end of a load ends the process. Strings are ASCII and integers within their Go ranges (saveable), which reachable states satisfy. |
| C30 A modified state file is refused | proved | `PropPersist.v` | SHA-256 is a parameter. The recorded hash is compared without regard to case. |
| C31 A state written under another configuration is refused | partial | `PropPersist.v` | All fields but the fee match exactly. The fee is the configured one or the one in force at the state's slot; that it is always the one in force is refuted: a state past the change slot carrying the configured older fee is accepted. |
| C32 A failed load leaves the running oracle untouched | partial | `PropPersist.v` | State untouched and configuration unchanged but for the fee; the fee part is refuted with a witness. |
| C33 Stopping and resuming at any slot boundary gives the same state as never stopping | proved | `PropPersist.v` | Any number of stops and restarts at operation boundaries, also requests for the hash in between. |
| C34 A torn write is never silently accepted, and the service survives it | partial | `PropPersist.v` | No partial content is ever accepted (proved for every cut). That the service survives is refuted: a torn state.json ends every start although a complete copy is in the folder. |
| C35 The fee changes only by a scheduled event, and configuration and state agree on it | proved | `PropProgress.v` | Fee values of events are assumed to fit an int64 (the contract bounds them by 10000). |
| C36 A restart across a scheduled fee change is accepted | partial | `PropPersist.v` | Restart proved for every reachable state before or after the change. Rollback proved between states of equal fee, refuted across the change. |
| C37 A changed contract parameter stops the oracle instead of being ignored | proved | `PropProgress.v` |  |
| C38 Reconciliation with the contract succeeds exactly when the books balance | proved | `PropProgress.v` |  |
| C39 The sync verdict is exact | proved | `PropMerkle.v` | Verdict of IsOracleInSyncWithChain for roots of equal length (66 characters). |
| C40 A root is submitted only for the checkpoint directly after the on-chain one, and never in dry-run mode | proved | `PropLoop.v` | Over whole lives of the process (start, loop steps, signals, crashes, restarts), with all answers of nodes and contract arbitrary. |
| C41 A graceful stop never makes the oracle skip a checkpoint | partial | `PropLoop.v` | False as stated: a signal between processing a checkpoint slot and freezing it loses that checkpoint (witness proved). Proved for all lives without a signal in that window, including torn files and restarts. |
| C42 Concurrent readers and writers never deadlock | partial | `PropLocks.v` | False as stated: two schedules of the real calls that end in a permanent deadlock, and a proof that this is the only way to one. Proved for all schedules without such a nesting. The error returns that keep the lock are modelled too. |
| C43 A failed report transaction is reported as an error | partial | `PropOnchain.v` | Refuted: a failed receipt, a passed deadline, a chain mismatch and a receipt of another transaction yield a nil error. Proved: with a nil error the transaction was sent with the right slot and root and was mined; all other failures are reported. |
| C44 The vanilla reward is exactly the priority fees of the block | proved | `PropBlock.v` |  |
| C45 Withdrawal credentials decode to exactly one kind and address | proved | `PropLifecycle.v` |  |
| C46 Each block is classified into exactly one kind with the right reward | partial | `PropBlock.v` | The classification is characterised exactly. That an honest proposer is never classified as wrong holds unless the block's last transaction is an ordinary payment of the accepted builder (refuted with a witness). |
| C47 A served proof is accepted by the contract | proved | `PropApi.v` | Over every execution with checkpoints: the proof endpoint's root is the contract's, the leaf, proof, validators and pending amount are those of the state that was frozen, and the proof verifies (C24 gives the range condition). |
| C48 The not-yet-finalised view agrees with what finalisation will do | proved | `PropApi.v` | The environment is assumed consistent: the cached validators map knows the tracked validators, the event queries return the events of the blocks, and the proposers of these blocks are not themselves pool members (their blocks would change more than subscriptions). |
| C49 Read endpoints always answer | partial | `PropApi.v` | The process never exits, but requests panic: the statistics endpoint when all subscribed validators hold a red card, the by-withdrawal endpoint when the cached validators map lacks a tracked validator that deposits again, the status endpoint on a nil answer without an error. In all other cases every request is answered. |
| C50 Input validators accept exactly well-formed input | partial | `PropApi.v` | Addresses and indices exactly as stated (indices below 2^64). The key check is characterised exactly and accepts non-hex characters. |
| C51 The proposer-duty cache is transparent | partial | `PropOnchain.v` | Proved for all slots from epoch 1 on and any sequence of requests; refuted for epoch 0. |
| C52 A set-of-validators answer is complete or an error | proved | `PropOnchain.v` |  |
| C53 Tracked validator records stay well formed | proved | `PropLifecycle.v` |  |
| C54 A donation can always be processed | partial | `PropLive.v` | Holds where the network has a fork table entry and validators have a positive effective balance; refuted otherwise. |
| C55 An error leaves no half-applied slot | partial | `PropProgress.v` | Holds for slots without a fee event that are not cleanup slots; refuted with witnesses for the other two. |
| C56 Every state change of a slot is justified by its block | proved | `PropProgress.v` |  |
| C57 The addresses queried for claims cover exactly the withdrawal addresses | proved | `PropProgress.v` | If the fees address is also a withdrawal address it is listed twice, as the code does. |
| C58 A block served by honest nodes is always processed | proved | `PropLive.v`, `PropOnchain.v` | All abort and error paths of the modelled functions are excluded under the listed conditions on the nodes. |
| C59 No participant can stop the checkpoints | partial | `PropPersist.v` | Freezing succeeds exactly when no validator withdraws to the pool; refuted in general, and shown to be permanent. |
| C60 Reporting never gets stuck | partial | `PropLoop.v` | False as stated (two witnesses, and the general theorems behind them). Proved: with the previous checkpoint on chain and no signal in the window of C41, the latest checkpoint is the one accepted next and is submitted. |
| C61 A fetched block belongs to the requested slot and its parts belong together | proved | `PropOnchain.v` |  |
| C62 The configuration read at start agrees with both nodes and the contract | proved | `PropOnchain.v` | The two refuted theorems record that the initialize call need not be one on this pool and that a missed slot crashes the start. |
| C63 The state is never read while it is being changed | partial | `PropLocks.v` | False as stated for reads (schedule proved; and every read without the lock in any thread can meet a change, C63_every_unlocked_read_races). Proved: changes exclude each other, and threads that read under the lock never race. |
| C64 Requests leave the accounting alone | proved | `PropApi.v` | Sequential view; races with the main loop are C63. |
| C65 Guarded endpoints refuse exactly when the oracle does not keep up | proved | `PropApi.v` | Includes the underflow: a node that is behind the oracle makes the guarded endpoints refuse. |
| C66 The statistics report the state | partial | `PropApi.v` | All figures as stated, except the two checkpoint fields, which are refuted. |
| C67 Lookup by index reports every validator asked for | partial | `PropApi.v` | Exact characterisation of the answer; complete when the cached validators map has all tracked validators, refuted otherwise. |
| C68 The validator listings are exact | proved | `PropApi.v` |  |
| C69 The relay check is right | proved | `PropApi.v` |  |
| C70 The status endpoint reports the right distances | proved | `PropApi.v` | Distance under the hypothesis that the finalized slot is not behind the oracle. |
| C71 Checkpoint sync gives exactly the provider's state | proved | `PropSync.v` | Hypotheses: the contract is not behind the provider's newest checkpoint or the client is in dry-run mode (otherwise C72), and no validator withdraws to the pool (otherwise nothing loads, C29). |
| C72 Syncing works at any time and loses no checkpoint | partial | `PropSync.v` | False: a provider ahead of the contract makes the client die, and a provider asked between processing and freezing a checkpoint makes it skip that checkpoint. Proved for fleets of processes that serve and stop outside that window. |
| C73 A state outside the deployment's history is refused | partial | `PropSync.v` | False: the hash is of the text itself, so any self-consistent state with the right parameters is accepted. Proved when processes sync only from each other. |
| C74 All oracles of a deployment report the same root | partial | `PropAgree.v` | Proved for chains without chained consolidations. With a consolidation into a validator that has exited as well it is false: two oracles that process the same blocks compute different roots for the same checkpoint (C74_chained_refuted). |
| C75 The command line is accepted exactly when it is consistent | proved | `PropStart.v` | url.Parse is an argument. |
| C76 An accepted pool address can be used | partial | `PropStart.v` | Holds for addresses of 42 characters. An address without 0x is accepted and then ends the process at the first slot with a block. |
| C77 Only a member with a balance reports | proved | `PropStart.v` | The whitelist and the balance are those of the start; they are not checked again later. Chain ids are compared as far as they fit an int64. |
| C78 The validators are loaded completely or not at all | proved | `PropStart.v` | For answers in which every validator is filed under its own index. A chain with only genesis validators ends the process (C78_genesis_refuted). |
| C79 The pending consolidations are read as the node sent them | partial | `PropStart.v` | Reading, cuts and repetition are proved. An object without the field data, such as an error message with status 200, is taken for an answer without consolidations (C79_error_refuted). A null element, or one without an index, counts as validator 0 (C79_element_refuted). |
| C80 The contract never pays more than the pool received | partial | `PropQuorum.v` | Root and solvency are proved for chains without chained consolidations (as C74). On every chain the root is that of a state that the chain's blocks give for some order of answers (C80_any_root), but not always the canonical one (C80_root_refuted); whether the contract stays solvent then is open. Nothing is paid before the first report, on every chain. The contract is not in the repository; what is assumed of it is in QuorumSpec.v. |
| C81 Everybody can claim what they are owed | partial | `PropQuorum.v` | Proved for chains without chained consolidations, and for states in which no validator withdraws to the fee recipient (C23). Where one does, the claim is false: the address is never paid more than the larger of its two amounts (C81_larger_partial), and C81_refuted shows a pool in which the fees can no longer be claimed. |
| C82 Every event that the contract logged in a block reaches the oracle | partial | `PropAbi.v` | All well-formed events are delivered. False for logs that cannot be read: the iterator's error is never asked, so such a log and all later ones are dropped without an error (C82_cut, C82_unreadable_refuted). The slot 10400574 on mainnet is excluded in C82_fetched (set_block_events replaces its events). |
| C83 The initial fee is the one passed to initialize | proved | `PropAbi.v` |  |
| C84 A request reaches the documented handler and nothing else does | proved | `PropHttp.v` | The router is modelled from gorilla/mux's documented behaviour. |
| C85 Requests are counted under the status that was sent | partial | `PropHttp.v` | Holds whenever the body can be written. If encoding or writing the body fails after the status was sent, http.Error overwrites the recorded status: sent 200, counted 500 (C85_failed_refuted). |
| C86 The amounts of the not-yet-finalised view | partial | `PropApi.v` | Accumulated rewards: always. Pending rewards: for every validator not subscribed after the blocks, and for all validators when nobody asks to leave and no donation arrives. False otherwise: C86_leaver_refuted (the share of what a leaver forfeits is not shown). |
| C87 The plain endpoints report the books unaltered | proved | `PropApi.v` | Stated against a separate relation [reads] in ApiSpec.v. |
| C88 Only finalised slots are processed and only balanced books are frozen | proved | `PropLoop.v` | Any files, any checkpoint sync answer, any node answers. |
| C89 A raw transaction is decoded exactly, in one way only | proved | `PropTx.v` | RLP and the transaction types are modelled from go-ethereum's source, which is not in the repository. |
| C90 The sender of a transaction is the account that signed it for this chain | proved | `PropTx.v` | Recovery of the key is an arbitrary function. |
| C91 MEV, receipts and tips follow from the raw bytes of the block | proved | `PropTx.v` |  |
| C92 The report transaction says what is reported | proved | `PropTx.v` | Signing is an arbitrary function with the key of the updater (key_of). |
| C93 An orderly stop loses nothing and the copy of a checkpoint stays | partial | `PropStop.v` | Proved wherever the loop is, except while it writes its own copy: then an orderly stop can leave a truncated state.json, and the process never starts from its files again (C93_saving_lost, witness C93_saving_refuted). Assumes that no validator withdraws to the pool (C59) and that the contract is not behind (else C36). |
| C94 The process ends by itself exactly for a stated reason | proved | `PropStop.v` | For deployments that do not use checkpoint sync; checkpoint size and deployment slot positive. |
| C95 The text of every answer tells a client exactly the data | proved | `PropBody.v` | The client (BodySpec.v) has its own list of keys and words. The words for a duration, the time of a registration and the balance of a validator are arbitrary values (record beside). C95_escapes: a \u escape is read as the UTF-8 of its code point, for all code points below 2^16 that are not surrogates. C95_four: u is followed by four hex digits. C95_short: the other escapes that are read. C95_plain: exactly which printable characters are escaped. |
| C96 A client can claim from the text of the proof endpoint alone | proved | `PropBody.v` |  |
| C97 Answers have a uniform shape | partial | `PropBody.v` | True of all answers except: GET /memory/validator/{index} (and /state) prints amounts as JSON numbers, which clients with 53-bit numbers round; GET /memory/validatorsbyindex and /registeredrelays print null for an empty list. A reachable state shows each. |
| C98 The comparison with the contract ends the process exactly if something is missing | partial | `PropRecon.v` | Proved if no validator withdraws to the fee recipient. Otherwise false, and C98_shared says exactly what happens: if the configured text of the fee recipient is lower case, every comparison ends the process (GetClaimedPerWithdrawalAddress calls log.Fatal on the duplicate); if not, what the fee recipient has claimed counts twice and the process ends unless that is zero. Both with a concrete life. |
| C99 What the proof endpoint offers, the contract pays | partial | `PropClaim.v` | Proved: a served proof is accepted by the contract and pays exactly the claimable amount, as long as the contract keeps the root that was read and nothing else was claimed for the address (C99_pays); and the exact condition for an answer (C99_answered). The second half of the statement is false while a report is consolidated: slot and root are two calls, so the slot of one report and the root of the next are refused with 500 although both checkpoints agree (C99_between_refuted). |
