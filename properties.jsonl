{"id": "C01", "title": "Every wei received is owed to somebody, and nothing more is owed", "statement": "Starting from a fresh oracle and processing any sequence of slots without an error, the sum over all tracked validators of accumulated plus pending rewards, plus the pool's accumulated fees, equals the sum of all EtherReceived event amounts, all subscription collaterals and all vanilla block rewards recorded so far. Consequently the off-chain reconciliation run at each checkpoint can never report a mismatch. It holds provided each processed block is well formed: a missed slot carries no events, the MEV payment credited to a proposer has exactly one EtherReceived event of that amount, and pending consolidations never name a validator as its own target.", "quantifier": "all configurations, all finite histories of well-formed blocks (any events, proposals, cleanups), all beacon-node answers, all Go map iteration orders", "why_tests_cant": "Unit tests check a handful of hand-written histories; the equality must survive every rounding, every forfeiture and every interleaving of subscription, ban, consolidation and donation, of unbounded length.", "anchors": ["oracle/oracle.go:AdvanceStateToNextSlot", "oracle/oracle.go:RunOffchainReconciliation", "oracle/oracle.go:increaseAllPendingRewards", "oracle/oracle.go:ValidatorCleanup"]}
{"id": "C02", "title": "A reward is split exactly: validators' shares plus the pool's part equal the reward", "statement": "Whenever a reward of any amount is shared, under each of the three reward methods, the total added to validators' pending rewards plus the amount added to the pool fees equals the reward, no validator outside the eligible set is changed, and if nobody is eligible the whole reward goes to the pool.", "quantifier": "all reward amounts, all fee percentages up to 100%, all validator sets, all effective balances, all slots and networks", "why_tests_cant": "Rounding errors of one wei only appear for particular remainders; tests sample a few amounts.", "anchors": ["oracle/oracle.go:increaseAllPendingRewards", "oracle/oracle.go:calculateRewardsElectra", "oracle/oracle.go:getEligibleValidators"]}
{"id": "C03", "title": "From the Electra fork on, shares are proportional to effective balance", "statement": "After the Electra fork, each eligible validator receives the floor of (reward minus pool cut) times its effective balance over the total effective balance of eligible validators; so shares are monotone in the balance, two validators with equal balance receive equal amounts, and the pool receives its cut plus a remainder smaller than the number of eligible validators.", "quantifier": "all rewards, fees, sets of eligible validators and effective balances with a positive total", "why_tests_cant": "Needs an arithmetic argument over all divisors and remainders.", "anchors": ["oracle/oracle.go:increaseAllPendingRewards", "oracle/oracle.go:calculateRewardsElectra"]}
{"id": "C04", "title": "Before Electra every eligible validator gets the same amount and the pool gets its cut plus dust", "statement": "Before the Electra fork every eligible validator receives the same amount; after fork 1 that amount is floor((reward - cut)/n) with cut = floor(reward*fee/10000), and the pool receives at least its cut and less than cut + n; the same amount is credited whichever order validators are visited in.", "quantifier": "all rewards, fees and eligible sets", "why_tests_cant": "Needs an argument over all divisors and remainders and all iteration orders.", "anchors": ["oracle/oracle.go:increaseAllPendingRewards"]}
{"id": "C05", "title": "A validator's share of a non-negative reward is never negative", "statement": "Sharing a non-negative reward never lowers any validator's pending balance nor the pool fees. (True from fork 1 on; the pre-fork-1 method violates it for tiny rewards.)", "quantifier": "all non-negative rewards, fees within 0..100%, all validator sets and slots", "why_tests_cant": "The failing rewards are a few thousand wei out of an unbounded domain; the safe region is a statement about all the others.", "anchors": ["oracle/oracle.go:increaseAllPendingRewards", "oracle/oracle.go:calculateRewardsPreFork1"]}
{"id": "C06", "title": "Cumulative claimable balances never go down", "statement": "From fork 1 on, no processed slot ever decreases any validator's accumulated rewards or the pool's accumulated fees, never removes a tracked validator, and pending rewards are never negative. Hence the cumulative balance published for an address in a later checkpoint is at least the one published in an earlier checkpoint, as the contract's claim logic requires.", "quantifier": "all histories of slots after fork 1 with non-negative amounts in events and block rewards", "why_tests_cant": "A statement over unbounded histories and pairs of checkpoints.", "anchors": ["oracle/oracle.go:AdvanceStateToNextSlot", "oracle/oracle.go:consolidateBalance", "oracle/merklelizer.go:AggregateValidatorsIndexes"]}
{"id": "C07", "title": "Accumulated rewards rise only through the validator's own successful proposal or its own returned collateral", "statement": "Processing a slot changes the accumulated rewards of a validator only if (a) that validator proposed this slot's block correctly to the pool, or (b) one of the slot's subscription events names that validator while it is already subscribed or banned, in which case it rises by exactly the deposited collateral.", "quantifier": "all states, all blocks, all validators", "why_tests_cant": "Needs to rule out every other code path touching the balance for every block content.", "anchors": ["oracle/oracle.go:AdvanceStateToNextSlot", "oracle/oracle.go:handleManualSubscriptions", "oracle/oracle.go:consolidateBalance"]}
{"id": "C08", "title": "Only active and yellow-carded validators earn from rewards", "statement": "When any reward is shared, a validator's pending balance changes only if its status is Active or YellowCard; red-carded, banned, unsubscribed and untracked validators receive nothing.", "quantifier": "all states, rewards, slots and networks", "why_tests_cant": "Universal over all sets of statuses and all reward sources.", "anchors": ["oracle/oracle.go:increaseAllPendingRewards", "oracle/oracle.go:getEligibleValidators"]}
{"id": "C09", "title": "A validator's status follows the published transition table", "statement": "The new status after each event is exactly the one in the documented table (Active/Yellow/Red card, NotSubscribed, Banned) and nothing else about the validator or any other validator changes; events for untracked validators have no effect.", "quantifier": "all states, validators and events", "why_tests_cant": "The table has to be exact on all state/event pairs, including that unrelated data is untouched.", "anchors": ["oracle/oracle.go:advanceStateMachine", "spec/README.md"]}
{"id": "C10", "title": "A ban is permanent until an explicit unban, and a banned validator holds no pending rewards", "statement": "In every reachable state a banned validator has zero pending rewards. Once banned, a validator stays banned through any sequence of processed slots that contains no manual unban event for it.", "quantifier": "all reachable states; all continuations without an unban event", "why_tests_cant": "Unbounded continuations; every handler must preserve it.", "anchors": ["oracle/oracle.go:advanceStateMachine", "oracle/oracle.go:handleBanValidator", "oracle/oracle.go:handleManualBans", "oracle/oracle.go:handleManualUnbans"]}
{"id": "C11", "title": "Only the owner of the withdrawal address can subscribe or unsubscribe a validator by event", "statement": "A manual subscription or unsubscription event whose sender differs from the validator's withdrawal address (or whose validator has no execution-layer withdrawal address, or does not exist) never changes the status, pending or accumulated rewards of any validator; for a subscription the deposit goes to the pool fees.", "quantifier": "all states, all senders, all validators and credentials", "why_tests_cant": "Every sender/credential combination including case differences of hex addresses.", "anchors": ["oracle/oracle.go:handleManualSubscriptions", "oracle/oracle.go:handleManualUnsubscriptions", "utils/utils.go:GetCompatibleAddressByte"]}
{"id": "C12", "title": "Every subscription deposit is credited exactly once, to the documented place", "statement": "For every subscription event processed without a crash, exactly one of pool fees, the validator's accumulated rewards, or the validator's pending rewards rises by exactly the deposit, according to the decision table (invalid request: pool; already subscribed or banned: accumulated; valid: pending and status Active).", "quantifier": "all states and all subscription events", "why_tests_cant": "Exhaustive case split over validator existence, beacon state, credentials, sender, status and amount.", "anchors": ["oracle/oracle.go:handleManualSubscriptions"]}
{"id": "C13", "title": "Unsubscribing forfeits pending rewards and keeps accumulated ones", "statement": "A valid unsubscription by the owner of a subscribed validator makes it NotSubscribed, sets its pending to zero, leaves its accumulated rewards intact, and re-shares exactly the forfeited amount among the remaining eligible validators and the pool.", "quantifier": "all states and unsubscription events", "why_tests_cant": "Universal over states and over who else is eligible.", "anchors": ["oracle/oracle.go:handleManualUnsubscriptions"]}
{"id": "C14", "title": "Slots are processed once each, in order, with no gap", "statement": "A successful step processes exactly the next slot: the latest processed slot becomes the block's slot, which was the previous latest plus one, and the next slot is one more. A block for any other slot is rejected and leaves the oracle unchanged. After n successful steps from a fresh oracle the latest processed slot is deployedSlot - 1 + n. The latest processed block number is that of the last slot that had a block; a missed slot leaves it.", "quantifier": "all states, all blocks, all histories", "why_tests_cant": "Statement over all histories.", "anchors": ["oracle/oracle.go:AdvanceStateToNextSlot", "oracle/oracle.go:NewOracle"]}
{"id": "C15", "title": "The audit logs are append-only and complete", "statement": "Processing a slot appends to the stored subscription, unsubscription and ether-received logs exactly the block's events in order, appends donations, and appends at most one block record in total across proposed, missed and wrong-fee lists; existing entries are never changed or removed.", "quantifier": "all states and blocks", "why_tests_cant": "Universal over block contents.", "anchors": ["oracle/oracle.go:AdvanceStateToNextSlot"]}
{"id": "C16", "title": "Two oracles fed the same chain compute the same state", "statement": "The result of processing a slot does not depend on the order in which Go iterates over its maps. This holds whenever no validator being cleaned up consolidates into another validator that is itself inactive; with such a chained consolidation two honest oracles can compute different states.", "quantifier": "all states, blocks, and all pairs of map iteration orders", "why_tests_cant": "Map order is chosen by the runtime; tests cannot enumerate it.", "anchors": ["oracle/oracle.go:AdvanceStateToNextSlot", "oracle/oracle.go:ValidatorCleanup", "oracle/oracle.go:increaseAllPendingRewards"]}
{"id": "C17", "title": "Cleanup moves the pending rewards of inactive validators and nothing else", "statement": "Every 1200 slots after fork 1, each validator that the beacon chain reports as not active and that has pending rewards becomes NotSubscribed (unless banned) with zero pending; the amount moves to its consolidation target (created if unknown) or is re-shared. Validators reported active only change by receiving shares. The total owed is unchanged.", "quantifier": "all states, all beacon-node answers, all consolidation lists", "why_tests_cant": "Universal over states and answers.", "anchors": ["oracle/oracle.go:ValidatorCleanup"]}
{"id": "C18", "title": "After a cleanup no exited validator keeps earning", "statement": "After a cleanup, a validator the beacon chain reports as exited does not share in later rewards. (Claim made by the fork-1 comment; the code only unsubscribes exited validators that have non-zero pending.)", "quantifier": "all states and beacon answers", "why_tests_cant": "Requires exploring combinations of oracle status and beacon status at the cleanup slot.", "anchors": ["oracle/oracle.go:ValidatorCleanup", "oracle/oracle.go:SlotFork1"]}
{"id": "C19", "title": "A validator that subscribed before activation keeps its deposit", "statement": "A validator whose subscription is accepted while its beacon status is still pending activation is not unsubscribed and does not lose its deposit merely because a cleanup runs before it activates.", "quantifier": "all subscription times and cleanup slots", "why_tests_cant": "Depends on the interleaving of subscription, activation and the cleanup period.", "anchors": ["oracle/oracle.go:CanValidatorSubscribeToPool", "oracle/oracle.go:ValidatorCleanup"]}
{"id": "C20", "title": "Every ether-received event is either the credited MEV reward or a donation", "statement": "For every block, the block reward credited as MEV plus the donations credited equal the sum of all EtherReceived events of that block. (Fails when a second deposit has the same amount as the MEV payment.)", "quantifier": "all blocks and event lists", "why_tests_cant": "The failure needs an equal-amount coincidence an attacker can produce on purpose.", "anchors": ["oracle/block.go:GetDonations", "oracle/block.go:MevRewardInWei"]}
{"id": "C21", "title": "The published leaves are one per withdrawal address, lowercase, sorted, and add up", "statement": "For every state with well-formed addresses, the leaf list starts with the pool-fees leaf and continues with exactly one leaf per distinct (case-insensitive) withdrawal address, in strictly increasing lowercase order, whose balance is the sum of accumulated rewards of the validators with that address; the total equals accumulated rewards plus pool fees.", "quantifier": "all states", "why_tests_cant": "Universal over validator sets and address collisions.", "anchors": ["oracle/merklelizer.go:AggregateValidatorsIndexes", "oracle/merklelizer.go:OrderByWithdrawalAddress"]}
{"id": "C22", "title": "The Merkle leaves and root do not depend on map iteration order", "statement": "For any two iteration orders over the same validators, the same leaves, root and proofs are produced.", "quantifier": "all states, all iteration orders", "why_tests_cant": "Runtime-chosen nondeterminism.", "anchors": ["oracle/merklelizer.go:AggregateValidatorsIndexes", "oracle/merklelizer.go:GenerateTreeFromState"]}
{"id": "C23", "title": "The fee recipient's leaf is never shadowed by a validator's leaf", "statement": "No two leaves of a tree carry the same address, so each address has one proof covering its full balance. (Violated when a validator's withdrawal address equals the pool fees address, since only the pool contract address is checked.)", "quantifier": "all states", "why_tests_cant": "Requires an address coincidence that the operator can cause by running a validator with the fee address.", "anchors": ["oracle/merklelizer.go:AggregateValidatorsIndexes", "oracle/merklelizer.go:GenerateTreeFromState"]}
{"id": "C24", "title": "Every stored proof verifies against the stored root", "statement": "For every frozen checkpoint and every address in it, the on-chain verification procedure (hash the leaf, fold in each sibling with sorted pair hashing) applied to the stored leaf and stored proof yields the stored root.", "quantifier": "all states with at least two leaves; all hash functions", "why_tests_cant": "Universal over tree sizes, in particular odd levels.", "anchors": ["oracle/merklelizer.go:GenerateTreeFromState", "oracle/oracle.go:FreezeCheckpoint"]}
{"id": "C25", "title": "No proof exists for a balance the oracle did not publish", "statement": "If an (address, amount) pair and a list of siblings verify against a published root with the proof length of that tree, then either the pair is one of the published leaves or the adversary has exhibited a collision of the hash function.", "quantifier": "all states, addresses, amounts, sibling lists", "why_tests_cant": "An adversarial statement over all proofs.", "anchors": ["oracle/merklelizer.go:GenerateTreeFromState"]}
{"id": "C26", "title": "Frozen checkpoints never change", "statement": "Once a checkpoint for a slot has been frozen, no later slot processing alters it; freezing another slot leaves it untouched, and balances inside it are unaffected by later changes to the live validators.", "quantifier": "all histories after the freeze", "why_tests_cant": "Aliasing bugs only show on particular later histories.", "anchors": ["oracle/oracle.go:FreezeCheckpoint", "utils/utils.go:DeepCopy"]}
{"id": "C27", "title": "The latest committed state is the one with the greatest slot", "statement": "LatestCommitedState returns the stored checkpoint with the maximum slot and nil exactly when none is stored.", "quantifier": "all sets of stored checkpoints, all map orders", "why_tests_cant": "Universal over map contents and order.", "anchors": ["oracle/oracle.go:LatestCommitedState", "oracle/oracle.go:LatestCommitedSlot"]}
{"id": "C28", "title": "Checkpoints fall exactly at deployedSlot + k*checkpointSize", "statement": "With a positive checkpoint size and at least one processed slot, IsCheckpoint answers true exactly when the latest processed slot equals the deployed slot plus a whole multiple of the checkpoint size; before any slot is processed it returns an error.", "quantifier": "all configurations and slots (64-bit)", "why_tests_cant": "64-bit wrap-around corner cases.", "anchors": ["oracle/oracle.go:IsCheckpoint"]}
{"id": "C29", "title": "Saving and loading returns the same state", "statement": "Loading the file written by a save, with the same configuration, succeeds and restores exactly the saved state (all validators, balances, logs, checkpoints).", "quantifier": "all states and configurations", "why_tests_cant": "Round-trip over an unbounded structure.", "anchors": ["oracle/oracle.go:SaveToJson", "oracle/oracle.go:LoadFromBytes", "oracle/types.go:MarshalJSON", "oracle/types.go:UnmarshalJSON"]}
{"id": "C30", "title": "A modified state file is refused", "statement": "If a file loads successfully then its content, re-serialised without the hash, has the hash recorded in it; so altering any value of a saved state without recomputing the hash is refused unless it yields a hash collision.", "quantifier": "all byte strings offered as state files", "why_tests_cant": "Adversarial over all modifications.", "anchors": ["oracle/oracle.go:LoadFromBytes", "oracle/oracle.go:hashStateLockFree"]}
{"id": "C31", "title": "A state written under another configuration is refused", "statement": "A successful load implies that the state's network, pool address, fee recipient, collateral, checkpoint size, deployed block and deployed slot match the running configuration and that the fee equals the configured fee after applying the schedule up to the state's slot.", "quantifier": "all files and configurations", "why_tests_cant": "Universal over all field combinations.", "anchors": ["oracle/oracle.go:LoadFromBytes"]}
{"id": "C32", "title": "A failed load leaves the running oracle untouched", "statement": "If loading reports an error or that no file exists, the oracle's state and configuration are the same as before. (The configuration part is violated: the fee schedule is applied to the live configuration before the remaining checks.)", "quantifier": "all files, states and configurations", "why_tests_cant": "Requires error paths after partial mutation.", "anchors": ["oracle/oracle.go:LoadFromBytes", "oracle/oracle.go:applyFeeScheduleUpTo"]}
{"id": "C33", "title": "Stopping and resuming at any slot boundary gives the same state as never stopping", "statement": "If an oracle saves after any processed slot, is restarted, loads the file and processes the remaining slots, it ends in the same state (up to the recorded hash) as an oracle that processed all slots without stopping.", "quantifier": "all histories and all stop points", "why_tests_cant": "All crash points of all histories.", "anchors": ["oracle/oracle.go:SaveToJson", "oracle/oracle.go:LoadFromJson", "oracle/oracle.go:AdvanceStateToNextSlot"]}
{"id": "C34", "title": "A torn write is never silently accepted, and the service survives it", "statement": "If the process dies while writing the state file, then on restart the oracle either resumes from a complete saved state or refuses to start; it never resumes from partial content. (That it can always restart is violated: the write is in place and the loader does not fall back.)", "quantifier": "all states, all crash points inside the file write", "why_tests_cant": "Crash points inside a write cannot be scheduled by a unit test.", "anchors": ["oracle/oracle.go:SaveToJson", "oracle/oracle.go:LoadFromBytes", "main.go"]}
{"id": "C35", "title": "The fee changes only by a scheduled event, and configuration and state agree on it", "statement": "The pool fee changes only when processing a slot listed in the network's fee schedule carrying an event with the listed value; any other fee event stops processing with an error. In every reachable state the configured fee equals the state's fee.", "quantifier": "all histories", "why_tests_cant": "All histories, all event contents.", "anchors": ["oracle/oracle.go:validateFullBlockConfig", "oracle/oracle.go:feeSchedule"]}
{"id": "C36", "title": "A restart across a scheduled fee change is accepted", "statement": "A state saved at any time by a deployment is accepted by a restart of the same deployment with its initial configuration, before or after a scheduled fee change; and a rollback to an older checkpoint file is accepted as well. (The rollback part is violated across a fee change, because the running configuration has already moved to the new fee.)", "quantifier": "all reachable states and both load paths", "why_tests_cant": "Requires particular orders of load operations around the change slot.", "anchors": ["oracle/oracle.go:LoadFromBytes", "oracle/oracle.go:LoadGivenState", "oracle/oracle.go:applyFeeScheduleUpTo"]}
{"id": "C37", "title": "A changed contract parameter stops the oracle instead of being ignored", "statement": "Processing a block whose events announce a fee recipient, checkpoint size or collateral different from the configuration returns an error and never advances; announcing the configured values has no effect.", "quantifier": "all blocks, all configurations", "why_tests_cant": "Universal over event contents.", "anchors": ["oracle/oracle.go:validateFullBlockConfig"]}
{"id": "C38", "title": "Reconciliation with the contract succeeds exactly when the books balance", "statement": "The on-chain reconciliation reports success if and only if validators' accumulated plus pending rewards plus pool fees equals the contract balance plus everything already claimed.", "quantifier": "all states, balances and claim tables", "why_tests_cant": "Universal arithmetic statement.", "anchors": ["oracle/oracle.go:RunOnchainReconciliation"]}
{"id": "C39", "title": "The sync verdict is exact", "statement": "With no committed checkpoint the oracle is in sync iff the on-chain root is the default root; otherwise it is in sync iff slot and root both match the latest committed checkpoint, it reports an error iff exactly one of them matches, and out of sync otherwise.", "quantifier": "all states and on-chain values", "why_tests_cant": "Exhaustive over combinations.", "anchors": ["oracle/oracle.go:IsOracleInSyncWithChain"]}
{"id": "C40", "title": "A root is submitted only for the checkpoint directly after the on-chain one, and never in dry-run mode", "statement": "Over any run of the main loop, every root submission happens outside dry-run mode, for a checkpoint whose slot is exactly the on-chain slot plus the checkpoint size, and carries the root of that frozen checkpoint.", "quantifier": "all runs of the main loop, all contract answers", "why_tests_cant": "All schedules of the loop and of other oracles' votes.", "anchors": ["main.go:mainLoop", "oracle/oracle.go:FreezeCheckpoint"]}
{"id": "C41", "title": "A graceful stop never makes the oracle skip a checkpoint", "statement": "If the process is stopped by a signal at any point of the loop and restarted, every checkpoint slot it passes is still frozen. (Violated: a stop between processing a checkpoint slot and freezing it saves a state that will never be frozen at that slot.)", "quantifier": "all stop points of the main loop", "why_tests_cant": "The window is a few milliseconds wide.", "anchors": ["main.go:mainLoop", "main.go:main", "oracle/oracle.go:SaveToJson"]}
{"id": "C42", "title": "Concurrent readers and writers never deadlock", "statement": "Under any interleaving of the main loop, API readers and API state-hash requests, some thread can always make progress. (Violated: IsCheckpoint, LatestCommitedSlot and LatestCommitedState acquire the read lock recursively, which deadlocks with a waiting writer; error paths of SaveToJson and StateWithHash return with the lock held.)", "quantifier": "all interleavings of lock operations under Go's RWMutex semantics", "why_tests_cant": "Scheduling-dependent.", "anchors": ["oracle/oracle.go:IsCheckpoint", "oracle/oracle.go:LatestCommitedSlot", "oracle/oracle.go:StateWithHash", "oracle/oracle.go:SaveToJson"]}
{"id": "C43", "title": "A failed report transaction is reported as an error", "statement": "If the transaction that submits a root is mined but failed, or the chain id does not match, or a receipt does not match its transaction, the caller receives a non-nil error. (Violated: errors.Wrap of a nil error is nil.)", "quantifier": "all receipts and responses", "why_tests_cant": "Needs failure injection in the execution client.", "anchors": ["oracle/onchain.go:UpdateContractMerkleRoot", "oracle/onchain.go:NewOnchain", "oracle/block.go:GetProposerTip"]}
{"id": "C44", "title": "The vanilla reward is exactly the priority fees of the block", "statement": "For a block whose receipts match its transactions and whose gas used is the sum of the receipts' gas, the computed vanilla reward is the sum over transactions of (effective gas price - base fee) * gas used, and is non-negative when each effective price is at least the base fee.", "quantifier": "all transaction lists of all three types, all base fees", "why_tests_cant": "Universal arithmetic over blocks; endianness of the base fee.", "anchors": ["oracle/block.go:GetProposerTip", "oracle/block.go:GetBaseFeePerGas"]}
{"id": "C45", "title": "Withdrawal credentials decode to exactly one kind and address", "statement": "For all 32-byte credentials: they decode to an execution address iff they start with byte 01 or 02 followed by 11 zero bytes, and the address is then 0x followed by the lowercase hex of the last 20 bytes; all decoders in the program agree.", "quantifier": "all byte strings", "why_tests_cant": "Universal over credentials.", "anchors": ["oracle/oracle.go:GetWithdrawalAndType", "utils/utils.go:GetCompatibleAddress", "utils/utils.go:GetCompatibleAddressByte", "utils/utils.go:IsBlsType", "utils/utils.go:IsEth1Type", "utils/utils.go:IsElectraType"]}
{"id": "C46", "title": "Each block is classified into exactly one kind with the right reward", "statement": "A block is missed iff no consensus block is attached; otherwise it is a correct proposal (BLS or not by credentials) iff the pool received the MEV payment, or no MEV payment exists and the fee recipient is the pool; otherwise it has the wrong fee recipient. An honest proposer whose fee recipient is the pool and who makes no MEV payment elsewhere is never classified as wrong. (Violated for a trailing transaction of a whitelisted builder.)", "quantifier": "all blocks", "why_tests_cant": "Universal over block contents.", "anchors": ["oracle/block.go:SummarizedBlock", "oracle/block.go:GetSentRewardAndType", "oracle/block.go:MevRewardInWei"]}
{"id": "C47", "title": "A served proof is accepted by the contract", "statement": "Whenever the proof endpoint answers successfully, the returned root is the on-chain root, the returned leaf and proof verify against it, and claimable equals the leaf balance minus the amount already claimed.", "quantifier": "all states, requests and on-chain answers", "why_tests_cant": "Universal over states and requests.", "anchors": ["api/api.go:handleOnchainMerkleProof"]}
{"id": "C48", "title": "The not-yet-finalised view agrees with what finalisation will do", "statement": "For blocks containing only subscription and unsubscription events, the status shown by the API's non-finalised overlay equals the status the oracle assigns once those blocks are processed.", "quantifier": "all states and event sequences", "why_tests_cant": "Two independent implementations must agree on all inputs.", "anchors": ["api/api.go:ApplyNonFinalizedState", "oracle/oracle.go:handleManualSubscriptions", "oracle/oracle.go:handleManualUnsubscriptions"]}
{"id": "C49", "title": "Read endpoints always answer", "statement": "No HTTP request to the read endpoints can abort or crash the process in any reachable state. (Violated: the statistics endpoint divides by the number of earning validators, which is zero when all subscribed validators hold a red card.)", "quantifier": "all reachable states and requests", "why_tests_cant": "Requires particular state populations.", "anchors": ["api/api.go:handleMemoryStatistics", "api/api.go:handleMemoryValidatorsByWithdrawal"]}
{"id": "C50", "title": "Input validators accept exactly well-formed input", "statement": "Address validation accepts exactly 0x followed by 40 hex digits, index validation exactly non-empty decimal strings, public-key validation exactly 0x followed by 96 hex digits. (The key check is violated: its character range also admits non-hex characters.)", "quantifier": "all strings", "why_tests_cant": "Universal over strings.", "anchors": ["api/api.go:IsValidAddress", "api/api.go:IsValidPubkey", "api/api.go:IsValidIndex"]}
{"id": "C51", "title": "The proposer-duty cache is transparent", "statement": "With the cache, a duty request for any slot returns the duty the beacon node reports for that slot, for any order of requests. (Violated for slots of epoch 0, which the empty cache claims to hold.)", "quantifier": "all request sequences", "why_tests_cant": "Depends on the sequence of requests and the initial cache.", "anchors": ["oracle/onchain.go:GetProposalDuty"]}
{"id": "C52", "title": "A set-of-validators answer is complete or an error", "statement": "GetSetOfValidators returns an error on an empty request or when any requested validator is missing; otherwise the answer contains every requested validator.", "quantifier": "all requests and node answers", "why_tests_cant": "Universal over answers.", "anchors": ["oracle/onchain.go:GetSetOfValidators"]}
{"id": "C53", "title": "Tracked validator records stay well formed", "statement": "In every reachable state each tracked validator's record carries its own index, a withdrawal address of the form 0x plus 40 lowercase hex digits, and the key and withdrawal address of a record never change after it is created.", "quantifier": "all histories", "why_tests_cant": "Invariant over histories.", "anchors": ["oracle/oracle.go:handleManualSubscriptions", "oracle/oracle.go:addSubscription", "oracle/oracle.go:ValidatorCleanup"]}
{"id": "C54", "title": "A donation can always be processed", "statement": "A block that only contains a donation is processed without the process aborting in every reachable state on every supported network. (Violated: after Electra, if all eligible validators have zero effective balance the process exits; on Goerli any reward with a subscriber aborts.)", "quantifier": "all reachable states", "why_tests_cant": "Requires rare populations.", "anchors": ["oracle/oracle.go:increaseAllPendingRewards", "oracle/oracle.go:calculateRewardsElectra", "oracle/oracle.go:determineRewardMethod"]}
{"id": "C55", "title": "An error leaves no half-applied slot", "statement": "When processing a slot returns an error, the oracle's state and configuration are as before the call. (True for slot mismatches; violated for configuration-event errors after a fee event and for cleanup errors, which happen after all other handlers.)", "quantifier": "all states and blocks", "why_tests_cant": "Error injection at every point.", "anchors": ["oracle/oracle.go:AdvanceStateToNextSlot", "oracle/oracle.go:validateFullBlockConfig", "oracle/oracle.go:ValidatorCleanup"]}
{"id": "C56", "title": "Every state change of a slot is justified by its block", "statement": "A slot without events whose proposer is untracked and did not pay the pool, and which is not a cleanup slot, changes nothing except the slot and block counters.", "quantifier": "all states and such blocks", "why_tests_cant": "Frame property over the whole state.", "anchors": ["oracle/oracle.go:AdvanceStateToNextSlot"]}
{"id": "C57", "title": "The addresses queried for claims cover exactly the withdrawal addresses", "statement": "The list of unique withdrawal addresses contains, up to case, each tracked validator's withdrawal address exactly once, plus the pool fees address at the end.", "quantifier": "all states, all map orders", "why_tests_cant": "Universal over states and map order.", "anchors": ["oracle/oracle.go:GetUniqueWithdrawalAddresses"]}
{"id": "C58", "title": "A block served by honest nodes is always processed", "statement": "If the oracle waits for a slot (past fork 1, on a network it knows, fee between 0 and 100%, no negative pending balance) and the beacon and execution nodes serve that slot completely (all requests answered, transactions decoded, receipts matching, events of one block, contract parameters as configured, fee changes as scheduled, no zero effective balances), then AdvanceStateToNextSlot returns without error and without exiting the process; and this stays so along any chain of such slots, cleanup slots included.", "quantifier": "all states that wait for a slot, all blocks, all chains of any length", "why_tests_cant": "Liveness over all block contents and all reachable states; each abort path is a separate corner case.", "anchors": ["oracle/oracle.go:AdvanceStateToNextSlot", "oracle/oracle.go:ValidatorCleanup", "oracle/oracle.go:handleManualBans", "oracle/block.go:SummarizedBlock", "oracle/block.go:GetDonations"]}
{"id": "C59", "title": "No participant can stop the checkpoints", "statement": "Every reachable state can be frozen into a checkpoint and every saved state can be loaded again, whatever validators do on chain. (Violated: a validator whose withdrawal credentials name the pool contract is subscribed automatically by one block that pays the pool; from then on building the Merkle tree ends the process at every checkpoint and at every start.)", "quantifier": "all reachable states and all behaviours of validators", "why_tests_cant": "The failing input is an adversarial validator that no fixture contains, and the claim is about all later states.", "anchors": ["oracle/merklelizer.go:AggregateValidatorsIndexes", "oracle/oracle.go:FreezeCheckpoint", "oracle/oracle.go:LoadFromBytes", "oracle/oracle.go:handleCorrectBlockProposal"]}
{"id": "C60", "title": "Reporting never gets stuck", "statement": "In a non-dry-run deployment, as long as the chain consolidates the roots the oracles submit, every checkpoint the oracle freezes is eventually submitted: after each saved checkpoint the next one to be frozen is the one the contract accepts next (on-chain slot plus checkpoint size). (Violated: a checkpoint skipped by the oracle, or another root consolidated by the quorum, leaves it waiting or silently not submitting for ever.)", "quantifier": "all executions of the main loop, all answers of the nodes", "why_tests_cant": "Depends on the interleaving of the oracle with the contract over many checkpoints.", "anchors": ["main.go:mainLoop", "oracle/oracle.go:FreezeCheckpoint"]}
{"id": "C61", "title": "A fetched block belongs to the requested slot and its parts belong together", "statement": "Whatever the beacon node and the execution node answer, if FetchFullBlock returns a block for a slot then the duty, the consensus block and the proposer are those of that slot, each subscription and unsubscription event is paired with the validator it names, the events carry the number of the block (the one block completed by hand aside), a missed slot carries no events, and a fetched header has the number of the block. Leaving out header and receipts when they are not asked for does not change how the block is processed.", "quantifier": "all node answers, all slots, all oracle states, all contents of the duty cache", "why_tests_cant": "Universal over node answers; tests use recorded blocks of an honest node.", "anchors": ["oracle/onchain.go:FetchFullBlock", "oracle/onchain.go:GetSingleValidator", "oracle/block.go:SetEvents", "oracle/block.go:SetConsensusBlock", "oracle/block.go:SetHeaderAndReceipts"]}
{"id": "C62", "title": "The configuration read at start agrees with both nodes and the contract", "statement": "If GetConfigFromContract returns a configuration then the chain ids of both nodes agree and are those of the configured network, the consensus block at the deployment slot has the deployment block number, the checkpoint size, collateral and fee address are those of the contract, pool address and dry-run flag those of the command line, and the initial fee comes from a call of initialize in the deployment block, or is the default of the network when there is no such call. (The call need not be one on this pool: a contract creation by anybody in the same block is accepted; and a missed slot at the deployment time crashes the start.)", "quantifier": "all answers of the nodes and the contract, all deployment blocks", "why_tests_cant": "Needs a deployment on each chain and hostile deployment blocks.", "anchors": ["oracle/onchain.go:GetConfigFromContract", "oracle/onchain.go:decodeInitialPoolFee", "oracle/onchain.go:findInitializeInCreationData"]}
{"id": "C63", "title": "The state is never read while it is being changed", "statement": "Under any interleaving of the main loop, the signal handler and any number of API requests, no thread reads the oracle state while another one changes it, and no two threads change it at the same time. (The first half is violated: State() releases the lock before its caller reads through the pointer it returns, so every read endpoint races with AdvanceStateToNextSlot and FreezeCheckpoint; Go aborts the process on a concurrent map iteration and map write.)", "quantifier": "all interleavings of lock operations and state accesses, any number of concurrent requests", "why_tests_cant": "Scheduling-dependent; the race detector only sees the schedules that a test happens to run.", "anchors": ["oracle/oracle.go:State", "oracle/oracle.go:AdvanceStateToNextSlot", "oracle/oracle.go:FreezeCheckpoint", "api/api.go:handleMemoryStatistics", "api/api.go:handleState"]}
{"id": "C64", "title": "Requests leave the accounting alone", "statement": "Answering any HTTP request leaves the configuration and the whole oracle state as it was; the only field that may change is the stored state hash, and only the state endpoint changes it. In particular the index that the single-validator endpoint writes into the live record is the one already there.", "quantifier": "all reachable states, requests and node answers", "why_tests_cant": "The single-validator handler writes through a pointer into the live state; only an invariant over all reachable states shows that the write changes nothing.", "anchors": ["api/api.go:handleMemoryValidatorInfo", "api/api.go:handleState", "oracle/oracle.go:StateWithHash"]}
{"id": "C65", "title": "Guarded endpoints refuse exactly when the oracle does not keep up", "statement": "The statistics, validators, validator, by-withdrawal and proof endpoints answer 503 if and only if the finalized slot is unknown, or lies before the processed slot, or lies more than 64 slots after it.", "quantifier": "all states and finalized slots below 2^64", "why_tests_cant": "The check subtracts unsigned integers; only an exact characterisation shows what happens on both sides of zero.", "anchors": ["api/api.go:OracleReady"]}
{"id": "C66", "title": "The statistics report the state", "statement": "Counters of the statistics endpoint are the numbers of validators per status, accumulated and pending totals are the sums over all validators, amounts sent are the rewards of the pool's blocks plus donations (also restricted to the last 216000 slots), and accumulated + pending + fees equals everything received. The checkpoint slots it reports are checkpoint slots. (The last sentence is violated: it reports the latest processed slot and that slot plus the checkpoint size.)", "quantifier": "all reachable states", "why_tests_cant": "Universal over states; the sums come from three loops over different parts of the state.", "anchors": ["api/api.go:handleMemoryStatistics"]}
{"id": "C67", "title": "Lookup by index reports every validator asked for", "statement": "The by-index endpoint accepts exactly comma-separated lists of 1 to 100 decimal indices, reports each tracked validator in the order asked, with its record, and each untracked one as not found. (Violated in one case: a tracked validator that the cached validators map lacks is reported neither as found nor as not found.)", "quantifier": "all texts, reachable states and validators maps", "why_tests_cant": "Universal over texts and states.", "anchors": ["api/api.go:handleMemoryValidatorsByIndex"]}
{"id": "C68", "title": "The validator listings are exact", "statement": "The validators endpoint lists exactly the tracked validators that the beacon chain knows, each once, by rising index, with the oracle's record; the validator endpoint answers with exactly the record of the index asked for.", "quantifier": "all reachable states and map iteration orders", "why_tests_cant": "Go map order is random and the sort is over a copy.", "anchors": ["api/api.go:handleMemoryValidators", "api/api.go:handleMemoryValidatorInfo"]}
{"id": "C69", "title": "The relay check is right", "statement": "When the relay endpoint answers, no relay failed; it reports a correct configuration if and only if some relay has the validator registered with the pool and none with another recipient; and it lists each relay under the right heading.", "quantifier": "all lists of relay answers", "why_tests_cant": "Universal over lists.", "anchors": ["api/api.go:handleValidatorRelayers"]}
{"id": "C70", "title": "The status endpoint reports the right distances", "statement": "The status endpoint says the oracle is in sync exactly when the processed slot is the finalized one, its distance is the difference of the two, and the next checkpoint, its remaining time and the age of the previous one are computed from the contract's slot without overflow.", "quantifier": "all states and node answers with slots below 2^60", "why_tests_cant": "Unsigned subtraction and multiplication.", "anchors": ["api/api.go:handleStatus"]}
{"id": "C71", "title": "Checkpoint sync gives exactly the provider's state", "statement": "A process started with a checkpoint sync url of a running oracle of the same deployment starts with exactly that oracle's state (and its current fee percentage), does the same work with the same results from there on, and an answer that was cut short anywhere ends the process instead of being taken for a state.", "quantifier": "all lives of the provider, map iteration orders, folder contents of the client, cut points", "why_tests_cant": "Universal over histories and over every truncation; needs a proof about the JSON encoder and decoder.", "anchors": ["main.go:133-155", "api/api.go:handleState", "api/api.go:respondOK", "oracle/oracle.go:LoadFromBytes"]}
{"id": "C72", "title": "Syncing works at any time and loses no checkpoint", "statement": "Whenever a process starts from the state served by a running oracle of its deployment, it starts, and it freezes every checkpoint that its history passes with validators to pay, just as if it had processed everything itself.", "quantifier": "all deployments of any number of processes syncing from each other, all moments", "why_tests_cant": "Depends on the moment at which the provider is asked, relative to its main loop and to the contract.", "anchors": ["main.go:133-189", "main.go:300-360", "api/api.go:handleState"]}
{"id": "C73", "title": "A state outside the deployment's history is refused", "statement": "A state obtained by checkpoint sync is only accepted if some execution of the deployment leads to it; so whatever a synced process submits is the root of a state of that history at a checkpoint slot.", "quantifier": "all answers of the provider, all later events", "why_tests_cant": "Universal over adversarial answers.", "anchors": ["main.go:133-166", "oracle/oracle.go:LoadFromBytes", "oracle/oracle.go:hashStateLockFree"]}
{"id": "C74", "title": "All oracles of a deployment report the same root", "statement": "Two oracle processes of one deployment whose nodes tell of the same chain submit the same root for the same slot, and have the same state after the same slot, whatever happened to each of them: crashes, signals, restarts from nothing or from own files, checkpoint sync from one another, unanswered requests, map iteration orders.", "quantifier": "all chains, all pairs of processes, all events of their lives, all iteration orders", "why_tests_cant": "Relates two unbounded executions with different faults and different schedules.", "anchors": ["main.go:mainLoop", "oracle/oracle.go:AdvanceStateToNextSlot", "oracle/oracle.go:FreezeCheckpoint", "oracle/onchain.go:FetchFullBlock", "main.go:133-166"]}
{"id": "C75", "title": "The command line is accepted exactly when it is consistent", "statement": "NewCliConfig accepts the flags exactly if a keystore and its password are given (or dry-run mode and neither), the pool address is 20 bytes in hexadecimal, and the relayers are a comma-separated list of https urls; the accepted configuration is what was given.", "quantifier": "all flag values, all relayer lists", "why_tests_cant": "Unbounded strings and lists; an equivalence in both directions.", "anchors": ["config/config.go:NewCliConfig"]}
{"id": "C76", "title": "An accepted pool address can be used", "statement": "If the command line is accepted, the address used on the execution chain is the one that the given text names, and blocks can be processed with it.", "quantifier": "all accepted command lines, all blocks", "why_tests_cant": "Universal over texts and blocks; the failure shows only at the first block.", "anchors": ["config/config.go:76", "oracle/onchain.go:137", "utils/utils.go:Equals", "oracle/block.go:IsAddressRewarded"]}
{"id": "C77", "title": "Only a member with a balance reports", "statement": "A process that ever submits a root was started with the key of a whitelisted oracle member that has a balance, and not in dry-run mode; a process that started has both clients on the same chain.", "quantifier": "all answers at the start, all later events, all saved files and synced states", "why_tests_cant": "Relates the checks at the start to every later step of an unbounded life.", "anchors": ["main.go:81-121", "oracle/onchain.go:IsAddressWhitelisted", "oracle/onchain.go:NewOnchain", "main.go:mainLoop"]}
{"id": "C78", "title": "The validators are loaded completely or not at all", "statement": "RefreshBeaconValidators keeps exactly the validators of the answer; it succeeds exactly if the last index is among them and one was activated after the genesis, and it logs the first slot of the latest activation epoch.", "quantifier": "all answers, all iteration orders", "why_tests_cant": "Unbounded maps in any order.", "anchors": ["oracle/onchain.go:RefreshBeaconValidators", "utils/utils.go:GetActivationSlotOfLatestProcessedValidator"]}
{"id": "C79", "title": "The pending consolidations are read as the node sent them", "statement": "From a complete answer exactly the consolidations of the node are read; other answers (errors, answers cut short) are errors and asked again, without limit or up to the configured number of attempts.", "quantifier": "all lists of consolidations, all cuts, all sequences of answers", "why_tests_cant": "Universal over answers, cuts and sequences of failures.", "anchors": ["oracle/onchain.go:GetPendingConsolidations", "oracle/onchain.go:GetRetryOpts"]}
{"id": "C80", "title": "The contract never pays more than the pool received", "statement": "With fewer than a quorum of dishonest members, the root consolidated by the contract is that of the chain's state at the reported slot; whatever claims were made with whatever proofs, the contract paid in total no more than the pool received, and to nobody more than the state gives them; nothing is paid before the first report.", "quantifier": "all interleavings of votes, consolidations and claims, all crews of processes of the deployment, all dishonest votes and proofs", "why_tests_cant": "Adversarial members and claimants over unbounded histories of the contract and of every process.", "anchors": ["main.go:mainLoop", "oracle/oracle.go:FreezeCheckpoint", "oracle/merklelizer.go", "contract/contract.go:914", "contract/contract.go:1040"]}
{"id": "C81", "title": "Everybody can claim what they are owed", "statement": "At any time after a report, whoever the chain's state at the reported slot gives something can claim it in full with a proof, no matter what they or others claimed before.", "quantifier": "all histories of the contract, all states, all entitled addresses", "why_tests_cant": "Existence of a proof and monotonicity of what is owed, over unbounded histories.", "anchors": ["oracle/merklelizer.go", "oracle/oracle.go:FreezeCheckpoint", "contract/contract.go:1040"]}
{"id": "C82", "title": "Every event that the contract logged in a block reaches the oracle", "statement": "For every block of logs, the nine event requests of FetchFullBlock return exactly the events that the pool contract logged in it (donations, subscriptions, unsubscriptions, fee, recipient, checkpoint size, collateral, bans, unbans), with the addresses and numbers that were logged and in the order of the logs, no matter which other contracts or other kinds of events are logged in between; the fetched block of a slot carries these events. The same holds for the requests of the API up to the head. If the node returns a log that cannot be read, the getter should fail rather than return a shorter list.", "quantifier": "for all lists of logs of a block, all interleavings with foreign logs, all argument values of the events and all unreadable logs", "why_tests_cant": "The unit tests build the event structs directly, and the decoding runs against live nodes only; no test enumerates all argument words or puts an unreadable log between readable ones.", "anchors": ["oracle/onchain.go:983-1047", "oracle/onchain.go:1296-1697", "contract/contract.go:1856-1981", "contract/contract.go:3033-3110", "api/api.go:1122-1170"]}
{"id": "C83", "title": "The initial fee is the one passed to initialize", "statement": "If the deployment block has a call of initialize (sent to the pool, or embedded in the data of a contract creation), and nothing before it can be read as such a call, then the fee of the oracle's configuration is the _poolFee argument of this call, read from the third word after the selector; whatever the data are, the fee is an int64 and the configuration can be persisted.", "quantifier": "for all transactions of the deployment block, all positions of the call within creation data and all arguments", "why_tests_cant": "No test reads a deployment block; the position of the call in creation data and the argument words range over unbounded data.", "anchors": ["oracle/onchain.go:404-483", "contract/contract.go:953-972", "oracle/onchain.go:1222-1236"]}
{"id": "C84", "title": "A request reaches the documented handler and nothing else does", "statement": "For every method and every path: a handler runs exactly for a GET of one of the seventeen documented paths, and it is the documented one, with the path variable as written; other methods on these paths get 405, other paths in canonical form 404; paths in another form are redirected once, to a canonical path; nothing but a GET of a documented path can change the oracle's state.", "quantifier": "all methods, all paths (any bytes), all states", "why_tests_cant": "Paths are unbounded strings; overlap of templates and redirect loops are statements about all of them.", "anchors": ["api/api.go:53-78", "api/api.go:184-217", "api/api.go:246-262"]}
{"id": "C85", "title": "Requests are counted under the status that was sent", "statement": "Every request that a handler answers is counted once, under the status code that was sent to the client, the lower-case method and the template of its path; labels never contain text of the request; the writer in between passes status and body on unchanged.", "quantifier": "all requests, all sequences of writes of a handler, write failures included", "why_tests_cant": "Sequences of writes and failures of the connection are unbounded and not exercised by the tests.", "anchors": ["api/api.go:104-182"]}
{"id": "C86", "title": "The amounts of the not-yet-finalised view", "statement": "For blocks containing only subscription and unsubscription events, the pending rewards shown by the API's non-finalised overlay equal those the validator has once the blocks are processed, and the accumulated rewards shown are those of the last finalised block.", "quantifier": "all states and event sequences", "why_tests_cant": "Two independent implementations must agree on all inputs.", "anchors": ["api/api.go:ApplyNonFinalizedState", "oracle/oracle.go:handleManualSubscriptions", "oracle/oracle.go:handleManualUnsubscriptions"]}
{"id": "C87", "title": "The plain endpoints report the books unaltered", "statement": "The endpoints for fees, recorded blocks, donations, configuration and the state always answer, and the answer is exactly what the oracle has on record; the state carries the hash of its other fields.", "quantifier": "all states, all answers of the nodes", "why_tests_cant": "States are unbounded.", "anchors": ["api/api.go:508-522", "api/api.go:802-917", "api/api.go:1075-1085"]}
{"id": "C88", "title": "Only finalised slots are processed and only balanced books are frozen", "statement": "Over every life of the process: validators, fees, counters and records change only in a step that processes the next slot while both clients report to be in sync and the slot is finalised; a checkpoint is added only at a checkpoint slot and only when everything owed equals everything received.", "quantifier": "all lives of the process, all answers of the nodes, all interleavings with signals and API requests", "why_tests_cant": "Statement about all executions of the loop.", "anchors": ["main.go:236-364"]}
{"id": "C89", "title": "A raw transaction is decoded exactly, in one way only", "statement": "A string of bytes decodes to a transaction if and only if it is the canonical RLP encoding of it in one of the five types (legacy, access list, dynamic fee, blob, set code); transactions and encodings correspond one to one; other types are refused; the transaction hash is the hash of the bytes in the block.", "quantifier": "all byte strings, all transactions, all hash functions", "why_tests_cant": "A parser of untrusted bytes: the strings are unbounded.", "anchors": ["utils/utils.go:30-37", "oracle/block.go:326", "oracle/block.go:492-496", "oracle/onchain.go:549-557"]}
{"id": "C90", "title": "The sender of a transaction is the account that signed it for this chain", "statement": "GetTxSender answers an account exactly if the transaction carries a valid low-S signature by which that account is recovered from the signing message of the transaction for the chain, or, for an unprotected legacy one, for no chain; a transaction signed for another chain, or not validly signed, ends the process.", "quantifier": "all transactions, all chains, all hash and recovery functions", "why_tests_cant": "Signatures and messages are unbounded.", "anchors": ["utils/utils.go:40-47"]}
{"id": "C91", "title": "MEV, receipts and tips follow from the raw bytes of the block", "statement": "A block has an MEV payment exactly if the bytes of its last transaction encode one that the fee recipient or a known builder signed for this chain and that sends ether to an address, and the amount and receiver are those; it is what is recorded for the block; receipts are asked for exactly the transactions of the block by their hash; the tips are computed from what the raw transactions offer per gas over the base fee.", "quantifier": "all blocks of raw transactions", "why_tests_cant": "The bytes in blocks are unbounded.", "anchors": ["oracle/block.go:312-352", "oracle/block.go:476-560", "oracle/onchain.go:538-600"]}
{"id": "C92", "title": "The report transaction says what is reported", "statement": "The transaction with which a root is reported is, as the network reads its bytes, sent by the updater to the pool without value, calls submitReport with exactly this slot and this root, pays the tip at the current base fee, and is valid on the chain with the network's id and on no other.", "quantifier": "all slots, roots, nonces, fees, keys, hash functions", "why_tests_cant": "Amounts, nonces and roots are unbounded.", "anchors": ["oracle/onchain.go:1725-1800", "contract/contract.go:1030-1045"]}
{"id": "C93", "title": "An orderly stop loses nothing and the copy of a checkpoint stays", "statement": "Wherever the main loop is, a signal, the end of the process and a new start lead to the same state and configuration; the copy written at the end of a checkpoint can be loaded to exactly that state as long as the process is not started again, whatever happens; no other event touches a file.", "quantifier": "all lives of the process, all interleavings of loop, signals and disk failures", "why_tests_cant": "Statement about all executions.", "anchors": ["main.go:203-218", "main.go:487-493", "oracle/oracle.go:495-555"]}
{"id": "C94", "title": "The process ends by itself exactly for a stated reason", "statement": "A step of the main loop ends the process if and only if one of ten conditions holds: synchronisation unknown, next slot not fetchable or processable, contract holdings and payments differ from what is owed, a validator withdrawing to the text of the fee recipient, validators not loadable, books not balanced at a checkpoint, a validator withdrawing to the pool, own vote unknown, on-chain slot unknown, or a report failing for an unexpected reason.", "quantifier": "all lives of the process, all answers", "why_tests_cant": "Statement about all executions.", "anchors": ["main.go:236-493"]}
{"id": "C95", "title": "The text of every answer tells a client exactly the data", "statement": "For every request that is answered, a client that parses the JSON text of the response, knowing only the documented keys and the meaning of each endpoint, recovers exactly the data the handler answered with: every amount, index, address, word for a type or status, and for a refusal the code and the message. For the plain endpoints this is what the books hold.", "quantifier": "all requests, all states, all case masks, all outside values", "why_tests_cant": "The tests check a few literal texts; that no key, field, word or escaping loses or confuses data is a statement about all answers.", "anchors": ["api/api.go:104-124", "api/types.go", "oracle/types.go"]}
{"id": "C96", "title": "A client can claim from the text of the proof endpoint alone", "statement": "If the text of GET /onchain/proof/{address} reads as a proof, then the address, balance, root and siblings read from the text are a valid claim of the stated balance against the root that is on chain: the balance is what the validators of that address had earned at the checkpoint on chain, and the leaf rebuilt from address and balance is proved by the siblings against the root.", "quantifier": "all histories, all addresses, all map orders", "why_tests_cant": "Relates the printed text to the Merkle tree of every reachable checkpoint.", "anchors": ["api/api.go:920-1005", "api/types.go", "oracle/merklelizer.go"]}
{"id": "C97", "title": "Answers have a uniform shape", "statement": "In every answer each amount in wei is a decimal number inside a JSON text, so that no client rounds it, and lists are never null.", "quantifier": "all requests, all states", "why_tests_cant": "Statement about every answer; the exceptions only show for amounts beyond 2^53 and for empty lists.", "anchors": ["api/types.go", "api/api.go:104-124", "api/api.go:560-655"]}
{"id": "C98", "title": "The comparison with the contract ends the process exactly if something is missing", "statement": "When the loop compares its books with the contract, and the contract answers, the process ends if and only if the balance of the contract plus what it has paid out to the withdrawal addresses and the fee recipient, each address counted once, differs from what is owed.", "quantifier": "all lives of the process, all answers of the contract", "why_tests_cant": "Depends on whether a validator ever withdraws to the fee recipient and on the letter case of the configured address; such a validator can be subscribed by anyone who owns it.", "anchors": ["main.go:284-306", "oracle/oracle.go:944-968", "oracle/onchain.go:849-880", "oracle/onchain.go:1701-1717"]}
{"id": "C99", "title": "What the proof endpoint offers, the contract pays", "statement": "A proof that the API serves is accepted by the contract that the request read, for the balance of the answer, and the claim pays exactly the claimable amount of the answer. Every withdrawal address and the fee recipient of the checkpoint that the contract holds is served by an oracle that keeps up and has the same root.", "quantifier": "all histories of the oracle, all addresses, all states of the contract at the moments of the calls of a request, all hash functions with 32-byte results", "why_tests_cant": "Joins the tree, the stored hex proofs, the three calls of a request at different moments and the contract's verification; the failing interleaving needs a report consolidated between two calls.", "anchors": ["api/api.go:920-1005", "oracle/onchain.go:833-845", "oracle/onchain.go:849-880", "oracle/oracle.go:713-775", "contract/contract.go:914"]}
{"id": "C100", "title": "The views of the contract are read as the contract wrote them", "statement": "Every read-only call of the contract that the oracle makes returns exactly what the contract stores: the consolidated slot and root, the oracle members in order, quorum, collateral, checkpoint size, deployment block, fee, fee recipient, claimed balances and voted reports. A short, empty or oversized answer is an error and never a value. The configuration built at the start and the wire assumed for proofs therefore agree with the contract.", "quantifier": "all answers of the node, all contents of the contract, all addresses, all hash functions for the selectors", "why_tests_cant": "The tests mock the getters; no test decodes answers of arbitrary length or content, and lists with offsets and lengths have unboundedly many malformed shapes.", "anchors": ["oracle/onchain.go:602-845", "oracle/onchain.go:849-880", "oracle/onchain.go:1138-1293", "contract/contract.go:185-830"]}
{"id": "C101", "title": "The status code tells who is at fault", "statement": "A request is refused with 503 exactly while the oracle does not keep up with the chain (for the endpoints that need it), with 400 exactly if the request itself is at fault (its parameter is malformed or names nothing the oracle knows), with 500 exactly if a node, the contract, a relay or the state lacks what the answer needs; otherwise it is answered.", "quantifier": "all requests, all states, all answers of nodes, contract and relays", "why_tests_cant": "Seventeen endpoints with about thirty refusals depend on the order of several nodes' answers; the tests ask a few of them with one mock.", "anchors": ["api/api.go:268-413", "api/api.go:415-506", "api/api.go:560-655", "api/api.go:657-800", "api/api.go:920-1073", "api/api.go:1251-1279"]}
{"id": "C102", "title": "Two saves at the same time", "statement": "If the signal handler and the main loop save the state at the same time, then whatever the order of their system calls on state.json, the file ends as one complete saved state: saves of equal texts leave exactly that text, and saves of different states leave one of the two, from which the process can start again.", "quantifier": "all pairs of texts, all interleavings of open, write and close calls with any write sizes, all lives of the process", "why_tests_cant": "The state is marshalled under the lock but written after it is released; the overlap depends on the scheduler and no test saves from two goroutines.", "anchors": ["oracle/oracle.go:491-556", "main.go:196-215", "main.go:480-496"]}
{"id": "C103", "title": "The copies of the validators", "statement": "utils.DeepCopy, which writes the map of validators with encoding/gob and reads it back ignoring all errors, yields exactly the same map, whatever order the runtime iterates the map in and whatever the fields contain (zero fields are not transmitted); in particular the validators of a frozen checkpoint are those of the state at that moment.", "quantifier": "all maps of validators that fit a gob message, all iteration orders, all destination maps", "why_tests_cant": "The tests copy two or three validators; zero fields, large and negative amounts and every iteration order are not covered, and errors are swallowed silently.", "anchors": ["utils/utils.go:219-228", "oracle/oracle.go:717-718", "api/api.go:718-721"]}
{"id": "C104", "title": "The recorded collateral", "statement": "The collateral in a validator's record is fixed when the record is created and never changes: it is the amount of the subscription event of its owner that created it, and then at least the required collateral, or zero for a validator first seen through a proposal to the pool or as the target of a consolidation. It is what a subscriber paid for its present subscription.", "quantifier": "all environments, blocks, states and histories from the deployment", "why_tests_cant": "The tests compare the record after single subscriptions; they do not follow a validator that is known before it pays, nor do they exclude later writes.", "anchors": ["oracle/oracle.go:1245-1255", "oracle/oracle.go:1505-1518", "oracle/oracle.go:365-375", "api/api.go:549", "api/api.go:637", "api/api.go:792"]}
{"id": "C105", "title": "Amounts do not share memory", "statement": "Rewards, fees and collaterals are pointers to integers that are changed in place. In every execution, starting from a new state or one read from the file, the accumulated and pending rewards of all validators and the fees of the pool are different objects, none of them is a collateral or an amount of a recorded event or block, so that what is in memory is always what the same program on plain values computes; the amounts that came with a block keep their value for ever; and building the leaves of the tree changes no amount and gives leaves that no later block changes.", "quantifier": "all memories, environments, blocks and histories, map orders included", "why_tests_cant": "A shared pointer shows only when two particular accounts meet in some later block; the tests compare values after single calls and would pass for aliases they do not happen to write through.", "anchors": ["oracle/oracle.go:261-403", "oracle/oracle.go:1050-1537", "oracle/oracle.go:1541-1556", "oracle/oracle.go:1711-1834", "oracle/oracle.go:365-375", "oracle/merklelizer.go:44-129"]}
{"id": "C106", "title": "The gauges show where the oracle is", "statement": "While the process is up, the gauges latest_processed_slot and latest_processed_block show the slot and block of the state, distance_from_finalized_slot shows how many finalized slots are still to be processed and never wraps around, and known_root_and_slot has one series for every checkpoint frozen by this process, with its root, and no slot with two roots. (Violated: after every start slot and block are 0 until a slot is processed, and the distance is not updated while the loop waits for its root to be consolidated or for a node to sync, however far finality gets.)", "quantifier": "all lives of the process: files, stops, restarts, answers of the nodes", "why_tests_cant": "No test reads a metric; the stale distance shows only when finality goes on while the loop waits, and a second root for a slot only after particular restarts.", "anchors": ["main.go:255-275", "main.go:366-369", "metrics/metrics.go:14-48"]}
{"id": "C107", "title": "The durations in the status", "statement": "The answer to /status tells in words how long it is until the next checkpoint and how old the last one is. A client that reads the text finds the words for exactly twelve seconds times the number of slots between the finalized slot and the next checkpoint slot, zero if that one is past, and between the last checkpoint on chain and the finalized slot, and the same numbers of seconds beside them. (Violated when the contract is ahead of the finalized slot of the consensus node: the words are a negative duration, the number of seconds wraps around to nearly 2^64; and beyond 292 years, where time.Duration overflows.)", "quantifier": "all states, configurations and answers of the nodes", "why_tests_cant": "The handler is tested with no node that lags behind the contract; the limit of time.Duration is far from any slot number of a test.", "anchors": ["utils/utils.go:89-94", "api/api.go:478-499"]}
{"id": "C108", "title": "The comparison with the contract never stops an oracle that is right", "statement": "A process of the deployment that watches the chain compares its books with the balance and the claims that the contract tells at the same block, and goes on, whoever has claimed what with whatever proofs.", "quantifier": "all histories of the contract, all processes of the deployment, all claims and proofs without a hash collision", "why_tests_cant": "Needs that every claim ever accepted belongs to an address that the later state still lists, over unbounded histories of claims, votes and blocks.", "anchors": ["oracle/oracle.go:863-908", "oracle/oracle.go:942-968", "oracle/onchain.go:1701-1717", "main.go:284-308"]}
