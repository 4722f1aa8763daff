{"id": "C01", "title": "Double entry: what leaves one balance arrives in another", "statement": "After any history of API calls, worker runs, retries and crashes in which no balance is created with the BLNK_RUN_RECONCILIATION metadata key, the sum of credit_balance over all balances equals the sum of debit_balance, the sum of inflight_credit_balance equals the sum of inflight_debit_balance, and so the sum of all balance fields is zero.", "quantifier": "every interleaving of any number of concurrent requests and workers, every crash point, every set of balances and transactions", "why_tests_cant": "a test runs one schedule; money created by one interleaving or one crash between two writes is invisible to the others", "anchors": ["model/model.go: UpdateBalances, CommitInflightDebit, CommitInflightCredit, RollbackInflightDebit, RollbackInflightCredit", "transaction_execution.go: recordTransactionSingle, applyTransactionToBalances", "database/transaction.go: RecordTransactionWithBalancesAndOutbox, RecordTransactionsWithBalanceSetAndOutboxes", "transaction_coalescing.go: persistQueuedTransactionBatchLocked"]}
{"id": "C02", "title": "Every balance is exactly what its journal says", "statement": "At every moment a balance's credit_balance is the sum of the precise amounts of the APPLIED transactions that name it as destination, its debit_balance the sum of those that name it as source, its inflight counters are the holds minus what was committed or voided, balance = credit_balance - debit_balance, inflight_balance = inflight_credit_balance - inflight_debit_balance, and the inflight counters are not negative. As long as no lock expires under a running request, clients do not write the ledger's own metadata keys and no split leg of negative amount is queued, none of the four counters is negative.", "quantifier": "every reachable database state under any schedule and crash in which no balance is created with the reconciliation key", "why_tests_cant": "needs the whole history of the row set, including lost updates that only appear under particular interleavings", "anchors": ["transaction_execution.go: recordTransactionSingle", "database/balance.go: updateBalance, updateBalanceSet", "database/transaction.go: recordTransactionInTx"]}
{"id": "C03", "title": "Concurrent posting is serialisable", "statement": "Whatever requests run concurrently and whether or not their distributed locks expired, the stored balances are the ones obtained by executing the recorded transactions one after another in the order they were recorded, each of them allowed by the funds rule at its turn.", "quantifier": "all interleavings of reads and writes of any number of processes, with lock expiry at any moment", "why_tests_cant": "lost updates need a specific overlap of two read-modify-write windows", "anchors": ["transaction_execution.go: executeWithLock, recordTransactionSingle, persistSingleTransactionExecutionWork", "database/balance.go: updateBalance (version check)", "transaction_coalescing.go: persistQueuedTransactionBatchLocked"]}
{"id": "C04", "title": "A transaction without overdraft never overdraws its source", "statement": "If no transaction out of a balance was ever posted with allow_overdraft or an overdraft_limit, then balance - inflight_debit_balance of that balance is never negative; with an overdraft_limit of at most L on each of them it is never below -L (in minor units).", "quantifier": "all histories and schedules, all amounts, as long as no lock expires under a running request, clients do not write the ledger's own metadata keys (inflight, allow_overdraft) and no split leg of negative amount is queued", "why_tests_cant": "the check and the write are separate steps; an overdraft requires a schedule in which the check reads a stale balance", "anchors": ["model/model.go: canProcessTransaction, UpdateBalances"]}
{"id": "C05", "title": "A failed or interrupted post changes nothing", "statement": "If posting a transaction returns an error, or the process dies at any point before the database commit, no balance and no transaction row has changed; if it succeeds then exactly one transaction row was added and only the source and destination balances changed, each once.", "quantifier": "every error path and every crash point of a post", "why_tests_cant": "fault injection tests pick a handful of crash points", "anchors": ["transaction_execution.go: recordTransactionSingle", "database/transaction.go: RecordTransactionWithBalancesAndOutbox"]}
{"id": "C06", "title": "A reference is used at most once", "statement": "No two recorded transactions ever carry the same reference; posting a reference that is already recorded fails and changes nothing, whatever the interleaving.", "quantifier": "all histories, concurrent duplicates included", "why_tests_cant": "races between the existence check and the insert", "anchors": ["transaction_execution.go: validateTxn, IsDuplicateReferenceError", "database/transaction_queries.go: TransactionExistsByRef", "sql/1770611011.sql"]}
{"id": "C07", "title": "A hold is never committed or voided beyond its amount", "statement": "For an inflight transaction recorded as INFLIGHT, the amounts of its recorded commits plus the amount of its recorded void never exceed the held amount; once voided it can be neither committed nor voided again, and once fully committed neither.", "quantifier": "any number of concurrent commits and voids of one hold, any interleaving, any crash, as long as the per-hold lock does not expire while held", "why_tests_cant": "over-commit needs two commits that both read the remaining amount before either is recorded", "anchors": ["transaction_inflight.go: CommitInflightTransactionWithRef, VoidInflightTransactionWithRef, validateRequestedAmount, calculateRemainingAmount, fetchAndValidateInflightTransaction", "database/transaction_inflight.go: GetTotalCommittedTransactions", "database/transaction_queries.go: IsParentTransactionVoid"]}
{"id": "C08", "title": "A hold accepted while still queued is committed at most once", "statement": "An inflight transaction that was queued is committed at most for the amount it asked for, counting every commit made against its id or against the hold the worker created for it.", "quantifier": "all orders of commit requests and worker runs", "why_tests_cant": "needs a commit between acceptance and worker execution together with another hold on the same pair", "anchors": ["transaction_inflight.go: IsInflightTransaction, fetchAndValidateInflightTransaction", "transaction_queue.go: createQueueCopy", "database/transaction_grouping.go: GetInflightTransactionsByParentID"]}
{"id": "C09", "title": "Commit and void move exactly the held money", "statement": "Committing an amount x of a hold moves x from inflight to settled on both balances and nothing else; voiding removes the uncommitted remainder from both inflight counters and restores the available balance; hold followed by void leaves both balances as they were.", "quantifier": "all amounts, all balances, all sequences of partial commits, any schedule, as long as no lock expires under a running request and clients do not write the ledger's own metadata keys", "why_tests_cant": "universally quantified arithmetic over arbitrary precision integers", "anchors": ["model/model.go: CommitInflightDebit, CommitInflightCredit, RollbackInflightDebit, RollbackInflightCredit", "transaction_inflight.go: finalizeCommitment, finalizeVoidTransaction"]}
{"id": "C10", "title": "A partial commit never commits more than was asked", "statement": "A commit request with a positive amount commits exactly that amount, rounded to the transaction's precision, or fails.", "quantifier": "all positive decimal amounts and all precisions", "why_tests_cant": "the sentinel value that means commit everything is only reached by amounts that round to zero", "anchors": ["api/transactions.go: UpdateInflightStatus", "model/model.go: ApplyPrecisionWithDBLookup, convertDecimalToPrecise", "transaction_inflight.go: updateTransactionAmount"]}
{"id": "C11", "title": "A transaction is refunded at most once and the refund reverses it exactly", "statement": "For a given transaction at most one refund is ever recorded, whatever the number and interleaving of refund requests; once the refund has been applied the credit minus debit of both balances is what it was before the original. Refuted: asking twice does not do what asking once does. The second request for the refund of a transaction refunds the refund as well, so that the money is back with the payee, and answers with an error.", "quantifier": "all interleavings of refund requests, skip_queue or queued, all transactions that are not themselves still queued, all lock expiries and crashes", "why_tests_cant": "double refunds need overlapping requests", "anchors": ["transaction_refunds.go: RefundTransactionWithOptions, prepareRefundTransaction, validateTransactionForRefund", "database/transaction_queue.go: IsTransactionRefunded", "database/transaction_refunds.go: GetRefundableTransactionsByParentID", "api/transactions.go: RefundTransaction"]}
{"id": "C12", "title": "A queued transaction is posted at most once", "statement": "For every accepted queued transaction at most one of the rows APPLIED / INFLIGHT / REJECTED is ever recorded under its derived reference, however often the queue redelivers it, whichever worker, coalesced batch or recovery sweep picks it up, and wherever they crash.", "quantifier": "all redeliveries, all schedules of workers, coalescers and recovery sweeps, all crash points", "why_tests_cant": "exactly-once is a statement over all redelivery and crash schedules", "anchors": ["cmd/workers.go: processTransaction", "queue_recovery.go: processStuckTransaction", "transaction_coalescing.go: tryRecordQueuedTransactionBatch", "transaction_queue.go: createQueueCopy"]}
{"id": "C13", "title": "Every accepted queued transaction is eventually settled", "statement": "A transaction accepted as QUEUED is eventually either posted or recorded as REJECTED, provided workers and recovery keep running.", "quantifier": "all references chosen by clients, all runs in which recovery keeps running", "why_tests_cant": "liveness over unbounded runs; depends on adversarial choice of references", "anchors": ["queue_recovery.go: processStuckTransaction", "cmd/workers.go: processTransaction", "transaction_queue.go: createQueueCopy"]}
{"id": "C14", "title": "Coalesced batches behave like one-by-one processing", "statement": "Processing a batch of queued transactions together records either none of them or all of them in one step, whatever else runs meanwhile and wherever the process dies, and in the second case leaves the same balances, the same rows in the same order and the same outbox as posting them one at a time at that moment. (Except that a member naming one balance at both ends, once by indicator and once by id, is posted by a batch while posting it alone always fails; enable_queued_checks is off and nobody asks for a reconciliation.)", "quantifier": "all batches, all starting balances, all concurrent activity, all crash points", "why_tests_cant": "equivalence for every batch composition (shared balances, chains, failing member in any position)", "anchors": ["transaction_coalescing.go: persistQueuedTransactionBatchLocked, prepareQueuedBatchTransaction", "database/balance.go: updateBalanceSet"]}
{"id": "C15", "title": "A queued transaction keeps the overdraft permission it was accepted with", "statement": "The funds rule enforced when a queued transaction is finally executed is the one given by the allow_overdraft and overdraft_limit the client sent, whichever path (worker, coalescing, recovery) executes it.", "quantifier": "all transactions, all execution paths", "why_tests_cant": "paths that rebuild the transaction from the database only run after crashes or under contention", "anchors": ["transaction_coalescing.go: restoreTransactionFlagsFromMetadata", "database/transaction.go: RecordTransaction", "transaction_queue.go: setTransactionMetadata"]}
{"id": "C16", "title": "Splits hand out exactly the total", "statement": "A split whose participants are named differently, whose amounts and percentages are not negative and do not exceed the total, and which uses up the total or has one 'left' participant, is accepted (given a total of at least two minor units and some participant owed at least one). Its legs add up to the transaction's precise amount, no leg is negative, no participant gets a whole unit less than the exact share or as many units more as there are legs, and if all shares are whole numbers of units every participant gets exactly that. Any other accepted split that puts money on some leg also hands out exactly the total.", "quantifier": "all distributions, all totals, all orders in which the runtime visits its maps", "why_tests_cant": "rounding and remainder distribution over all percentages and totals", "anchors": ["model/transaction.go: CalculateDistributionsPrecise, SplitTransactionPrecise, balanceDistributions"]}
{"id": "C17", "title": "Amounts are converted to minor units without drift", "statement": "amount x precision is rounded half away from zero to minor units, so the error is at most half a minor unit; a precise_amount given by the client is used unchanged; and converting again never changes the minor units.", "quantifier": "all decimal amounts, all positive integer precisions", "why_tests_cant": "infinitely many decimals; binary float bugs show only on particular values", "anchors": ["model/model.go: ApplyPrecision, convertDecimalToPrecise, convertPreciseToDecimal"]}
{"id": "C18", "title": "Distributed locks exclude each other and are never leaked by a failed acquisition", "statement": "Two processes never hold a lock on the same key at the same time unless the lock expired; a failed acquisition of several keys leaves none of them locked by the caller unless the reply of a call to the lock server was lost; releasing never removes a lock taken by someone else; acquiring in the fixed global order cannot deadlock; and once the lease time has passed every lock is free again, whoever crashed.", "quantifier": "all interleavings of lock, unlock, expiry; all key sets", "why_tests_cant": "mutual exclusion and deadlock freedom quantify over schedules", "anchors": ["internal/lock/lock.go: Locker.Lock, Locker.Unlock, NewMultiLocker, MultiLocker.Lock, MultiLocker.Unlock"]}
{"id": "C19", "title": "Balance monitors fire exactly when their condition holds", "statement": "When a balance is updated, a monitor of it fires exactly if the named field compares as stated with the configured value in minor units, once per update. (For the operator '=', for a monitor whose value or balance was updated afterwards, and for one created while another update is being checked, the code breaks this.)", "quantifier": "all balances, fields, operators and values accepted by the API", "why_tests_cant": "needs all operators accepted by storage, including ones no test configures", "anchors": ["model/model.go: CheckCondition, compare", "balance.go: CreateMonitor, UpdateMonitor", "sql/1713790634.sql"]}
{"id": "C20", "title": "Balance at a point in time is the replay of the history up to that time", "statement": "The balance reported from source for time t is the sum over applied transactions effective at or before t. Reading it through the latest snapshot gives that answer plus the transactions posted before the snapshot was read and effective after its time, minus those posted after it and effective by its time; so the two answers agree whenever no transaction of the balance straddles the snapshot.", "quantifier": "all histories, snapshots and times", "why_tests_cant": "requires arbitrary placement of snapshots and back-dated transactions", "anchors": ["database/balance.go: GetBalanceAtTime, getMostRecentSnapshot, applyTransaction"]}
{"id": "C21", "title": "Daily snapshots cover every balance once", "statement": "A run of the daily snapshot that is not begun while another is in progress leaves every balance that existed at its beginning with exactly one snapshot for the day, whatever the batch size, however often it is run and whatever is posted or created meanwhile; left alone it ends, and snapshots are never changed.", "quantifier": "all balance tables and batch sizes", "why_tests_cant": "batch boundary errors depend on id gaps and on which balances already have a snapshot", "anchors": ["sql/1740373636.sql and successors: take_daily_balance_snapshots_batched", "database/balance.go: TakeBalanceSnapshots"]}
{"id": "C22", "title": "The hash chain seals every transaction once, in order, and verifies", "statement": "Whatever the batch limits and number of chain workers, crashes included, sealed transactions form one gap-free chain 1..n in which every hash covers its predecessor, every transaction is sealed at most once, and verification of an untampered database succeeds.", "quantifier": "all schedules of chain workers, all crash points, all batch sizes", "why_tests_cant": "chain forks need concurrent workers", "anchors": ["database/chain.go: ChainPendingTransactions", "chain_worker.go: VerifyChain, processTick", "model/chain.go: ComputeChainHash"]}
{"id": "C23", "title": "Chain verification detects tampering", "statement": "If any sealed transaction is altered, removed, inserted or reordered after sealing, verification reports a broken chain or a length different from the recorded one. A sealed row altered without recomputing its hash, and a gap in the numbers, are always reported as broken.", "quantifier": "all modifications of the sealed rows, for every hash without collisions among the hashed strings; fields without the separator '|'", "why_tests_cant": "the attacker chooses the modification", "anchors": ["chain_worker.go: VerifyChain", "model/chain.go: ComputeChainHash"]}
{"id": "C24", "title": "A recorded transaction's facts are immutable", "statement": "No update accepted by the database changes the id, source, destination, reference, amounts, currency, status or creation time of a recorded transaction.", "quantifier": "all updates", "why_tests_cant": "the trigger must refuse every combination, including NULLs", "anchors": ["sql/1781162328.sql: prevent_transaction_update"]}
{"id": "C25", "title": "Fund allocation never hands out more than a provider has", "statement": "A debit from a lineage-tracked balance is allocated to providers so that no provider gives more than it has available and every allocation is positive; with FIFO and LIFO the total is the smaller of the debit and the funds available, FIFO uses up older providers first, LIFO newer ones; with PROPORTIONAL every provider gives at least its share rounded down and the total is short of that by less than one unit per provider. Whatever workers, crashes and retries do, no provider's share is overdrawn as long as no holds are involved.", "quantifier": "all source lists, all amounts, all three strategies; all schedules of workers, crashes and retries", "why_tests_cant": "rounding and caps over all combinations", "anchors": ["lineage_allocation.go: calculateAllocation, sequentialAllocation, proportionalAllocation, getLineageSources"]}
{"id": "C26", "title": "Lineage processing is idempotent across retries", "statement": "However often an outbox entry is retried after a failure or crash, each provider's release is recorded at most once, the destination receives what was released, and the total released for the transaction never exceeds its amount.", "quantifier": "all crash points between the shadow transactions, any number of retries", "why_tests_cant": "crash placement between individual writes", "anchors": ["lineage_debit.go: processLineageDebit, remainingDebitAmount, processAllocations, processDestinationLineage", "lineage_worker.go: processBatch", "database/lineage.go: MarkOutboxFailed, ClaimPendingOutboxEntries"]}
{"id": "C27", "title": "Every movement of a tracked balance reaches the lineage outbox", "statement": "Recording a movement whose source tracks fund lineage, or whose destination does and a provider is named, also records, atomically, exactly one outbox entry describing it, and nothing else ever enters the outbox. (Commits and voids of holds are covered by the hold's own entry.)", "quantifier": "all transactions and paths, crashes included", "why_tests_cant": "depends on combinations of parent, metadata and execution path", "anchors": ["transaction_execution.go: prepareTransactionOutbox, buildTransactionExecutionWork", "lineage_outbox.go: PrepareLineageOutbox"]}
{"id": "C28", "title": "Transactions from one source are processed from one queue", "statement": "Two transactions with the same source (the same text) and not in the hot lane are always routed to the same queue; all transactions of an enabled hot lane are routed to one queue; every transaction is routed to a queue some worker serves, unless the configured number of queues is negative.", "quantifier": "all balance ids and queue counts", "why_tests_cant": "hash distribution over all strings", "anchors": ["queue.go: transactionQueueName, hashBalanceID"]}
{"id": "C29", "title": "The worker's verdict on a failed transaction is total and safe", "statement": "For every processing error the worker acknowledges the task only when its transaction is recorded as posted or its reference is already in use, or rejects it by recording a REJECTED row, or asks for another try; it is tried again at most as often as the configured limit, and with a positive limit it is given up only if it cannot be recorded at all (its reference or id is in use, or one of its balances does not exist).", "quantifier": "all errors, configurations with a positive retry limit, retry counts, states and interleavings with other requests", "why_tests_cant": "case analysis over all error texts and configurations", "anchors": ["cmd/workers.go: processTransaction, hasReachedMaxRetryAttempt, shouldRejectLockContentionImmediately"]}
{"id": "C30", "title": "A dry run predicts the real outcome and leaves no trace", "statement": "A dry run changes nothing: no balance, transaction, queue entry, outbox entry or background job. The dry run of a transaction, a bulk or a split that is recorded synchronously says would_apply exactly if posting the same request in the same state, with nobody else posting, succeeds, and the balances it lists show what they show after the post. The same holds for committing (part or all of) or voiding a hold or all holds of a bulk or split: the dry run says would_apply exactly if there is something to do and every part of it succeeds, and a rejection it names is one the action gives. The same again for refunding a transaction, or all transactions of a bulk or split, with skip_queue. Provisos, each shown to be needed: with enable_queued_checks a single source is named by id and bulks and splits are not covered; a bulk or split names every balance in one way and with one currency; none of the references of the legs of a split is taken; the split gives something to someone; dry run and post break ties between shares alike; a commit or void names the hold itself, or a bulk or split none of whose holds has been voided on its own, not a transaction that went through the queue; for a refund, no client has used the reference the refund will get.", "quantifier": "all transactions, bulks, splits, commits, voids and refunds, all reachable states, all schedules (for changing nothing)", "why_tests_cant": "agreement of two code paths on every state", "anchors": ["transaction_dryrun.go: PreviewTransaction, previewSingleTransaction", "transaction_execution.go: recordTransactionSingle", "transaction_dryrun_inflight.go: PreviewInflightAction, buildInflightSettlementForPreview", "transaction_dryrun.go: PreviewRefund"]}
{"id": "C31", "title": "An atomic bulk that fails leaves balances as they were", "statement": "If an atomic bulk of transactions posted synchronously fails at some member, then after the rollback every balance has the value it had before the bulk.", "quantifier": "all bulks, all failing positions, all starting balances", "why_tests_cant": "the rollback itself posts transactions that may fail or be picked up twice", "anchors": ["transaction_bulk.go: CreateBulkTransactions, processBulkTransactions, rollbackBatchTransactions", "transaction_batch_processing.go: ProcessTransactionInBatches"]}
{"id": "C32", "title": "Bulk inflight results line up with the request", "statement": "A bulk commit or void returns one outcome per requested id, in request order, whatever the number of workers and the order in which they finish; each outcome tells what one run of the single request for that id returned, the counters of the response add up, and failures carry their documented codes. A bulk that is queued instead tells of each item its own check and its own enqueueing; an item passes the check only if something is left of a hold found under its id (and a commit asks for no more than that), and an item that fails it is refused as the single request made at that moment would be, or has nothing left of any hold found under its id.", "quantifier": "all request lists, worker counts and schedules", "why_tests_cant": "schedule-dependent", "anchors": ["transaction_inflight.go: BulkInflightUpdate, classifyInflightError, QueueInflightAction", "api/transactions.go: BulkCommitInflight, BulkVoidInflight, toAPIResults, queueBulkInflight"]}
{"id": "C33", "title": "Enqueueing is refused exactly under pressure", "statement": "With backpressure enabled a check refuses exactly if redis memory use is at or above the threshold (85 percent, the default, exactly; any other percentage up to a rounding error of one part in 2^50) or the number of pending transactions over all queues has reached the limit; a failing check never refuses. Concurrent requests decide by their own check or by one written down within the check interval.", "quantifier": "all readings and thresholds", "why_tests_cant": "boundary conditions over all readings", "anchors": ["queue_backpressure.go: evaluateBackpressure, assertEnqueueAllowed, shouldRejectEnqueue"]}
{"id": "C34", "title": "Reconciling a balance from its transactions changes nothing on a healthy ledger", "statement": "Asking the database to recompute a balance from its APPLIED transactions (meta_data BLNK_RUN_RECONCILIATION) gives back the stored settled values in every reachable state, so the request never moves money.", "quantifier": "all reachable states", "why_tests_cant": "equality of two independent computations over all histories", "anchors": ["sql/1742101752.sql: reconcile_balance_from_transactions", "database/metadata.go", "database/balance.go: updateBalance"]}
{"id": "C35", "title": "Queued transactions of one pair wait in one lane", "statement": "With the hot lane switched on, the queued transactions of one source, destination and currency that are still waiting are all in the normal lane or all in the hot lane. A transaction is in the hot lane only if as many lock conflicts of its pair as the threshold have been reported; after that many conflicts the next one takes the hot lane if none waits in the normal lane and the pair is not cooling down; the pair then keeps to the hot lane for as long as its activity has not run out; and when conflicts are past and the hot lane is empty the pair returns to the normal lane. Provisos of the first claim: requests of the pair are accepted one after the other, no Redis or database call fails while one is accepted, the state of the pair does not run out, ids contain no \"|\" and the currency is always written in capitals.", "quantifier": "all histories of requests, lock conflicts, posts, process deaths, key expiries, for any number of pairs and any interleaving of their calls", "why_tests_cant": "the lane is decided by several Redis and database calls between which conflicts, posts, expiries and crashes can fall in any order", "anchors": ["internal/hotpairs/hotpairs.go: RecordContention, GetState, ActivateHot, SetNormal", "internal/hotpairs/router.go: AssignQueueLane, ResolveQueueLane", "database/transaction_coalescing.go: CountQueuedTransactionsForPairLane", "transaction_queue.go: prepareTransactionForQueue"]}
{"id": "C36", "title": "A completed reconciliation accounts for the upload", "statement": "The matches and unmatched transactions counted by a completed reconciliation are those it stored, and a dry run stores none, whatever fails or restarts. Every stored match is of an uploaded and an internal transaction that were both stored and that, by themselves or as the group they belong to, meet all criteria of one of the reconciliation's rules. When a one-to-one reconciliation of an upload is completed, every uploaded transaction either has a match, at most one for each configured worker, or is reported as unmatched exactly once, and then no internal transaction that was there at the start meets a rule with it and lies within the bounds of the search; with one worker matches and unmatched transactions add up to the upload. With one-to-many each is matched to one whole group of internal transactions or reported as unmatched once. A matching rule is taken exactly if it has a name and criteria, each on a known field with a known operator and a drift in range; two transactions that are the same in all compared fields and whose texts are free of ' | ' fulfil every taken rule of equalities, and a rule that compares amounts by equality never matches opposite signs. Provisos of the two claims on completed runs: no read or write fails during the run, nothing is added to the upload meanwhile, no page of another upload (and, for one-to-many, of groups read before) is still cached when it starts and, for one-to-many, the internal transactions fit in one batch.", "quantifier": "all uploads, ledgers, rules, worker numbers and batch sizes, all histories of posts, uploads, cache expiries, restarts, read and write failures, and all interleavings of the workers of any number of reconciliations", "why_tests_cant": "matching is spread over a fetcher, two levels of worker pools and channels, with cached pages; what is stored depends on their interleaving, on failures and on what other reconciliations cached", "anchors": ["reconciliation.go: StartReconciliation, processReconciliation, oneToOneReconciliation, oneToManyReconciliation, manyToOneReconciliation, findMatchingInternalTransaction, processGroupedTransactions, matchesRules, finalizeReconciliation", "transaction_batch_processing.go: ProcessTransactionInBatches, fetchTransactions", "database/reconciliation.go: GetExternalTransactionsPaginated, FetchAndGroupExternalTransactions, RecordMatches, RecordUnmatched", "database/transaction_grouping.go: GroupTransactions", "database/transaction_criteria.go: GetTransactionsByCriteria"]}
{"id": "C37", "title": "API keys open what their scopes say, and no more", "statement": "In secure mode a request reaches its handler only if its path is one of the three open ones, or it carries the master key, or it carries the secret of a key that was issued, has not expired and has a scope for the area the path belongs to and the operation the method stands for; the handler is then told that key's id, owner and scopes. Conversely a key that was issued, has not expired, is not revoked and has such a scope is let through from every state of the caches, if the calls made succeed. A key made with another key has the same owner and no right the other lacks, so every key goes back to one made with the master key. Listing and revoking concern keys of the caller's owner only, and hooks are managed with the master key only. Once a key is revoked, no request with it is let through later than six minutes (five in Redis, one in memory) plus what the memory cache adds and twice the longest time a check takes.", "quantifier": "all histories of requests at any number of processes, interleavings of their checks, failing calls, evictions and passing of time", "why_tests_cant": "cached copies, revocations and checks of several processes interleave, and rights pass over any number of generations of keys", "anchors": ["api/middleware/auth.go: Authenticate, getResourceFromPath", "api/middleware/scope.go: HasPermission, ScopeCovers, CanGrantScopes", "api/apikeys.go", "database/api_key.go: GetAPIKey, RevokeAPIKey, CreateAPIKey", "internal/cache/cache.go", "api/hooks.go: requireMasterKey", "model/api_key.go: IsValid"]}
{"id": "C38", "title": "A request made with an API key says what its sender wrote, and who sent it", "statement": "The body of a POST made with an API key is rewritten to name the key in its metadata. If whole numbers are written in digits and at most 2^53, and no object has two members whose names differ in case only, every other field and every other metadata entry reads as sent; what is read into a float64 reads as sent whatever the numbers. A rewritten body that is accepted names the key it was sent with in meta_data.BLNK_GENERATED_BY, whatever it said before. (Bodies with a number out of the range of float64, and the items of a bulk, are not attributed.)", "quantifier": "all JSON bodies whose numbers are whole", "why_tests_cant": "ranges over all numbers, nestings and spellings of names", "anchors": ["api/middleware/auth.go: injectAPIKeyToMetadata", "api/model/transaction.go: RecordTransaction, BulkTransactionRequest"]}
{"id": "C39", "title": "A filtered listing returns what its filters ask for", "statement": "Listing transactions, balances, ledgers, identities or accounts with filters sends one query that the database takes, and returns the page asked for (limit 1 to 100, else 20) of exactly the rows that all of the filters (or any of them, for 'or') ask for, sorted by the field and in the direction asked for (creation, newest first, otherwise), and their total number when it is asked for; the order of the filters does not matter. A filter on an unknown field, with an unknown operator or the wrong number of values, or an unknown joining operator refuses the request before anything is sent. The values compared with never become part of the query's text. In a query string, field_operator=values is the filter with those values; a value that looks like a number, a truth value or a moment is read as one. Provisos: for transactions at most one filter on the indicator and no sorting by balance or indicator (such requests pass validation and are then refused by the database); a metadata filter equal to NaN or an infinity is dropped. Consecutive pages may overlap where the sort field has ties.", "quantifier": "all database states, all comparison behaviours, all requests and query parameters", "why_tests_cant": "ranges over all combinations of fields, operators, values and rows, and over the choices of the database among ties", "anchors": ["internal/filter/sql_builder.go: Build, buildStandardCondition, BuildOrderBy", "internal/filter/sql_json.go: buildJSONPathCondition", "internal/filter/sql_special.go: buildBalanceIdCondition, buildIndicatorCondition", "internal/filter/validation.go: Validate", "internal/filter/parser.go: ParseFromQuery", "internal/filter/values.go: parseValue", "api/filter_helper.go: ParseFiltersFromBody", "database/transaction_filters.go, balance.go, ledger.go, identity.go, account.go: GetAll...WithFilterAndOptions"]}
{"id": "C40", "title": "A tokenized field of an identity is stored as a token and can be had back", "statement": "When tokenizing fields of an identity is confirmed, each of them is stored as 'FPT:', a text with capitals, small letters and digits in the same places and every other character as it was, ':' and a sealed copy; detokenizing the field then answers exactly the value it had, however many requests, failed calls and other identities come between, until a PUT gives the field a new text or the identity is deleted. A step of tokenizing touches one field asked for, and no other text, metadata entry or identity; a field that cannot be tokenized, is already tokenized, or belongs to no identity is refused and nothing is written; a field once tokenized stays so. Detokenizing an identity answers with exactly its tokenized fields and their values, and the list of tokenized fields names exactly those. Provisos, each refuted without: changes of one identity come one after the other; values of fields that can be tokenized hold no colon; nobody sends the metadata entry 'tokenized_fields', or metadata in a PUT once a field is tokenized; nobody PUTs a tokenized field. A refused list of fields may be half done.", "quantifier": "all ciphers that open what they sealed, all values, all interleavings of requests and failures of database calls", "why_tests_cant": "ranges over all values, keys and nonces, and over every interleaving of read-modify-write requests with failures at every call", "anchors": ["internal/tokenization/tokenization.go: TokenizeWithMode, formatPreservingTokenize, formatPreservingDetokenize, standardDetokenize, generateTokenWithFormat", "identity.go: TokenizeIdentityField, DetokenizeIdentityField, TokenizeIdentity, DetokenizeIdentity", "model/identity.go: IsFieldTokenized, MarkFieldAsTokenized", "database/identity.go: CreateIdentity, UpdateIdentity, DeleteIdentity", "api/identity.go: TokenizeIdentityField, TokenizeIdentity, DetokenizeIdentity, GetTokenizedFields"]}
{"id": "C41", "title": "A metadata update adds what was sent and loses nothing", "statement": "When an update of metadata is confirmed, every entity it is meant for (the ledger, balance, identity or transaction with that id and, for a transaction or bulk id, every transaction recorded with it as parent) has each entry sent with the value sent and keeps its own other entries, and nothing else has changed; the answer is the whole metadata (for transactions: the entries sent). Metadata of a transaction changes in no other way, however updates interleave and whatever calls fail; for a ledger, balance or identity this holds while changes of it come one after the other (refuted otherwise: two confirmed updates, one lost), and a PUT of an identity with metadata replaces it. An id with no known prefix, or of nothing there is, is refused and nothing is written.", "quantifier": "all metadata, all ids and parent relations, all interleavings of updates, creations, deletions and failed calls", "why_tests_cant": "ranges over all interleavings of read-merge-write requests, failures at each call, and all trees of transactions", "anchors": ["metadata.go: getEntityTypeFromID, UpdateMetadata, mergeMetadata, updateEntityMetadata", "database/metadata.go: UpdateLedgerMetadata, UpdateTransactionMetadata, UpdateBalanceMetadata, UpdateIdentityMetadata", "database/transaction_queue.go: TransactionExistsByIDOrParentID", "api/metadata.go: UpdateMetadata"]}
{"id": "C42", "title": "Hooks are called for the transactions they stand for, as set, and no longer once deleted", "statement": "Whatever calls to register, update, delete, show and list hooks, runs of the stages before and after transactions, and attempts at waiting calls interleave and fail: every request sent to a hook goes to a URL set for it while it was on, and tells of a transaction for which that stage was run, with what the stage was given; for each run of a stage for a transaction a hook gets at most one request plus the most retries ever asked for it (at most eleven, if only ever registered), and none after one was accepted; a hook that stands on while a stage runs gets a call for each of its transactions; a stage stops its transaction only if the list of hooks could not be read, and then called nobody; once a deletion is confirmed the hook is listed and called for nothing that begins later, if its type was never changed. One thing after the other, with no call to a hook waiting while it is changed and no hook registered again with another type, hooks are shown and listed just as last set, every stage calls just the hooks of its type that are on, once for each transaction, and calls answer as expected. Without these provisos it is refuted: an attempt writes the waiting copy of the hook back.", "quantifier": "all hooks, transactions, orders of the sets' members, answers of hooks, interleavings of requests, stages and attempts, failures and lost answers at every command", "why_tests_cant": "ranges over every interleaving of registry calls, stages and retried attempts, with failures at each Redis, queue and network command", "anchors": ["internal/hooks/manager.go: RegisterHook, UpdateHook, DeleteHook, GetHook, ListHooks, ExecutePreHooks, ExecutePostHooks, enqueueHookTask, validateHook", "internal/hooks/client.go: executeHook, updateHookStatus", "internal/hooks/worker.go: ProcessHook", "api/hooks.go: RegisterHook, UpdateHook, GetHook, ListHooks, DeleteHook", "transaction_execution.go: executePreHooks, postTransactionActions", "transaction_coalescing.go"]}
{"id": "C43", "title": "An upload answered with success has stored every row of its file", "statement": "However the goroutines of an upload of external transactions take turns: when a CSV upload is answered with success, every line of the file was a row, each is stored once under the id returned, with the values the row has in the columns named id, amount, currency, reference, description and date, record_count is the number of rows, and nothing stored before is lost; it is refused exactly when a line is faulty or the database has refused a row. If there are no more of these than workers it is always answered, and the server stays up. A JSON upload answered with success has stored and counted every element. Provisos, each refuted when dropped: the request is not cut off before its answer, amounts and dates can be read, no more faults than workers, and a JSON file that ends after an element counts as whole.", "quantifier": "all files, headers, numbers of workers, channel and batch sizes, schedules of the goroutines, refusals by the database and rows stored by others meanwhile", "why_tests_cant": "several workers, two channels and a reader are scheduled arbitrarily over files of any length; what goes wrong needs more errors than the channel has room for, or a cancellation between two particular steps", "anchors": ["internal/files/files.go: UploadExternalData, ProcessCSV, processCSVRowsParallel, processWorker, storeBatch, createColumnMap, parseExternalTransaction, getRequiredField, ProcessJSON", "database/reconciliation.go: RecordExternalTransaction", "api/reconciliation_api.go: UploadExternalData, downloadAndUpload"]}
{"id": "C44", "title": "A completed rebuilding of the search index has lost no record and shows only what was true", "statement": "Whatever is written to the database, indexed by tasks and refused by the search server while it runs: when a rebuilding of the search index is reported as completed, each ledger, identity, balance and transaction that was there at its start is found by a search or listed in its errors; all are found if the server takes the writes it can and records refer only to records; a record nobody changed is shown as it is; whatever is shown was true at some time since the start (or when a task that was waiting then was queued), but for the general ledger, which is shown as it is set up; from any point a rebuilding that has not failed can be completed. Without a rebuilding, once the tasks are done every record noted is found, if the server takes what it can and records refer to what is found or noted first. Amounts are shown as the nearest float64, exact up to 2^53 and off by at most one part in 2^53 above. Provisos, each refuted when dropped: no other rebuilding runs, no identity is deleted meanwhile, no two rows of a table are of the same time, and reconciliations are not rebuilt. That a record changed meanwhile, or noted twice, is shown as last set is refuted, as are the reported number of records and the total.", "quantifier": "all tables, batch sizes, interleavings of inserts, updates, index tasks, retries and steps of the rebuilding, refusals of the search server, orders of collections and of rows of one time", "why_tests_cant": "the loss of a record needs a particular write between two particular pages, or a task between a page and its documents; no test runs both at once, let alone in all orders and with tables of any size", "anchors": ["internal/search/reindex.go: StartReindex, dropCollections, createCollections, indexDocument, indexLedgers, indexIdentities, indexBalances, indexTransactions, TryReindexIfNeeded", "internal/search/search.go: EnsureCollectionsExist, ensureDefaultGeneralLedger, HandleNotification, HandleBatchNotification, upsertDocument, Deduplicate, toMap, convertNumberField", "queue.go: queueIndexData, queueIndexBatch", "cmd/workers.go: indexing of tasks", "api/reindex.go: StartReindex, GetReindexProgress", "identity.go: UpdateIdentity, DeleteIdentity"]}
{"id": "C45", "title": "The lineage report of a balance shows each provider's money exactly once and in full", "statement": "For a balance that shares its shadow balances with no other (each has its own identity): the line of a provider in GET /balances/:id/lineage shows as amount what settled transactions paid into the balance of that provider's money, as spent what was drawn of it, and as available the difference; each provider has at most one line and the total is the sum of the lines; without holds no line is negative; no more is reported as spent than the transactions from the balance come to, if attempts end within their claims; and with no attempt under way the total is all that was paid in less all that was drawn, if no attempt failed or died between a payment and the noting of its provider and every shadow balance can be read. Refuted when dropped: own shadow balances (two tracked balances of one identity each report the money of both), the noting (an error there is only logged, the entry is completed and the money missing in the report), no holds (two holds on the same money leave less than nothing).", "quantifier": "all histories of transactions, attempts, failures, crashes, retries, holds and settlements of the lineage worker, all balances, providers, identities and unreadable shadow balances", "why_tests_cant": "the report sums what every attempt of every transaction has written to shadow balances; that it adds up after crashes and retries in any order is a statement about all histories", "anchors": ["lineage_queries.go: GetBalanceLineage, populateLineageProviders, calculateProviderBreakdown", "api/balance.go: GetBalanceLineage", "lineage_credit.go: processLineageCredit", "lineage_debit.go: processLineageDebit", "lineage_allocation_metadata.go: getIdentityIdentifier"]}
{"id": "C46", "title": "Webhooks tell what happened, once each, signed, and can be told apart", "statement": "If no process dies between recording something and queueing its notice and the webhook URL is set, then once nothing is under way everything that happened (transactions applied, held, voided or rejected; ledgers, identities and balances created; monitors met; asynchronous bulks ended) has been announced in a request the receiver answered with 2xx, except for what the receiver failed to take 26 times; until then it can still be delivered. Every request names something that happened by its documented event name and carries its record, numbers to float precision and exactly up to 2^53. Once a request is answered with 2xx and the queue knows it, no further one about the same happening follows, except for rejections by a worker, which are announced twice. All requests about one happening have the same body, and requests about records with different ids have different bodies. With a secret set, each request carries the time and the MAC of time and body, unless a configured header has the name of one of them. A transaction that was only accepted and waits is not announced. Refuted: order of notices, survival of a crash, amounts above 2^53, a single notice for a worker's rejection.", "quantifier": "all histories of happenings, senders, crashes, attempts, answers and lost acknowledgements, in any order, all records, configurations, secrets and MAC functions", "why_tests_cant": "announced, once, and in no promised order are statements about all interleavings of senders, workers, retries and crashes; what is sent is a statement about all records", "anchors": ["webhooks.go: getEventFromStatus, processHTTP, SendWebhook, ProcessWebhook", "transaction_execution.go: updateTransactionDetails, runTransactionPostCommitWorkWithHooks", "transaction_rejection.go: RejectTransaction", "cmd/workers.go: processTransaction", "queue_recovery.go", "ledger.go: postLedgerActions", "identity.go: postIdentityActions", "balance.go: checkBalanceMonitors", "transaction_bulk.go"]}
{"id": "C47", "title": "Error answers tell what went wrong, and whether anything was recorded", "statement": "On every endpoint and for every error, the HTTP status of the answer follows from its code, lies between 400 and 599, and the code is none of the six retired ones; where the endpoint sets no fallback code, the text of an unforeseen error is not sent. For a transaction posted without the queue whose reference contains no space, each foreseen trouble has its own status and code: lock held or waited for too long 423 GEN_RESOURCE_LOCKED, reference used 409 TXN_DUPLICATE_REFERENCE, balance missing 404 TXN_NOT_FOUND, too little money 400 TXN_INSUFFICIENT_FUNDS, negative amount 400 TXN_INVALID_AMOUNT, amount of zero or overdraft limit passed 400 TXN_VALIDATION_ERROR, balance changed meanwhile 409 GEN_CONFLICT, failing database 500 GEN_INTERNAL. The answer is 201 exactly if nothing failed, and then the transaction is recorded; an error answer means that nothing is recorded, unless the acknowledgement of the database commit was lost or an expiry or release task of the hold could not be queued. A preview names the code and text the post then answers with, unless source and destination are one balance or the reference is used and the balances refuse as well. A refused commit or void of a hold answers with the code of the refusal. Refuted: the same with references that contain a phrase such as 'not found', with a reference taken during the post (500), with the lock service away (423); that driver details are never sent; that a 400 means nothing was recorded; that a database failure during a commit or void is a 5xx.", "quantifier": "all errors and error chains, all endpoint options, all combinations of failing steps of a post, all references, ids, amounts and driver texts", "why_tests_cant": "the code is found by searching the text of the error for phrases, so what it is depends on every reference, id and driver message that can be in the text, and on every chain of wrapped errors; whether something is recorded depends on every combination of failing steps", "anchors": ["api/errors.go: respondError, writeError, classifySentinel, messagePatterns, classifyMessage", "internal/apierror/codes.go: statusByCode, Normalize, StatusForCode", "api/transactions.go: QueueTransaction, resolvePreviewRejectionCode, UpdateInflightStatus", "transaction_queue.go: QueueTransaction", "transaction_execution.go: recordTransactionSingle, executeWithLock, validateAndPrepareTransaction", "transaction_dryrun.go: notePreviewCaveats", "transaction_batch_processing.go: ProcessTransactionInBatches", "transaction_inflight.go"]}
{"id": "C48", "title": "Exported logs do not tell credentials, and entries are dropped only when 1024 wait", "statement": "Whatever is logged, the log entries sent to the monitoring service do not depend on: the values of fields, at any depth of maps and lists, whose key contains authorization, token, secret, password, api_key, apikey, credential, dsn, url, uri, endpoint, callback, metadata or webhook in any letter case and with - for _ (each such field is sent as [REDACTED]); the tokens behind single words 'bearer' in messages and texts; the values of query parameters (?name=value, &name=value); and of http(s) addresses they tell only what the redaction of the address leaves. Texts with nothing of the kind are sent as they are, and none is longer than 526 bytes. Every entry logged is sent once, in the order in which entries were taken in, unless 1024 entries were waiting or the exporter was shutting down. Logging never ends the process, if nothing is being logged at the moment of shutdown. Refuted without these provisos: 'Bearer Bearer abc', passwords and keys in the text of a message, tokens in the fragment of an address and anything inside a struct are sent; an entry logged during shutdown sends on a closed channel, which ends the process and loses what was waiting.", "quantifier": "all histories of log calls (any messages, keys and nested values), of sends by the worker and of shutdown, in every interleaving; every behaviour of the URL parser", "why_tests_cant": "that nothing of a secret leaves is a statement on pairs of runs over all texts and all nested values; loss, order and the race with shutdown depend on the interleaving", "anchors": ["internal/monitoringexporter/redact.go: RedactFields, RedactValue, RedactString, IsSensitiveKey, redactReflectValue", "internal/monitoringexporter/logs.go: Fire, Shutdown, run, send"]}
{"id": "C49", "title": "Amounts in memory behave as values, although they are shared and changed in place", "statement": "Balances and transactions are held in memory as pointers to integers that additions and subtractions change in place. Whatever balances are loaded, transactions decoded, copied or made to share an amount (as two legs of a split may), and transactions applied to balances, in any order: nothing follows a nil pointer, and each balance, each transaction, each outcome and each figure of a projection is what the same steps give on plain numbers. So a balance to which nothing is applied keeps its figures whatever is applied to its copies, and a transaction its amount. A post that fails changes no balance in memory. A dry run leaves the transaction it was given as it was, and shows both balances as they were and as the posting would leave them, or twice as they were if it would fail. Refuted: a commit or a void that fails at the destination has changed the source in memory already (the dry run shows copies then); a void without an amount panics, so that voids must be given one, as the API does.", "quantifier": "all sequences of loading, decoding, copying, sharing, applying (to any two balances, also one and the same) and projecting, with any figures, nil fields included", "why_tests_cant": "aliasing shows only in particular orders of copies and applications; that no order has it is a separation invariant over all histories", "anchors": ["model/clone.go: cloneBigInt, Balance.Clone, Transaction.Clone", "model/model.go: InitializeBalanceFields, addCredit, addDebit, computeBalance, ApplyPrecision, UpdateBalances, CommitInflightDebit, CommitInflightCredit, RollbackInflightDebit, RollbackInflightCredit", "transaction_execution.go: applyTransactionToBalances", "transaction_dryrun.go: PreviewTransaction, previewSingleTransaction, balanceProjection, availableBalance"]}
{"id": "C50", "title": "The door to the handlers keeps its limits and its guards", "statement": "For every request: its handler runs only for a caller who may call it. If the rate limiter stops it, no key is looked at, no body read and no handler run. Metrics are shown by the server, and metrics and the dashboard by a worker, exactly if no token is set on an open server or the Authorization header is 'Bearer ' and the token; both refuse with the same code. Every answer not made by the rate limiter, refusals included, carries the five security headers, and asks for TLS exactly if the request came over TLS or says so. Of a body not labelled multipart/form-data, at most the configured limit is held in memory, what follows does not depend on anything behind the limit, a body within it is decoded as if there were none, and a POST with an API key over it is refused. A POST with a key whose body is one object with whole numbers of at most 2^53 in digits names the key in its metadata and reads as sent otherwise. Refuted: answers of the rate limiter lack the headers; a body labelled multipart/form-data is held and decoded whole by every endpoint; with the master key a body over the limit is served if its first value is within it; anything behind the object keeps it from being rewritten, so that its sender names whom they like; the body null makes the server panic, and nothing else on the way does.", "quantifier": "all requests (method, path, headers, body of any size), settings with a limit below 2^43 MB, verdicts of the rate limiter, keys found, and readers of JSON", "why_tests_cant": "the claims are about every header, path and body, and about the order of the middleware; tests try a few", "anchors": ["api/middleware/middleware.go: RateLimitMiddleware, MetricsAuth, MetricsAuthHandler, SecurityHeaders, RequestSizeLimit", "api/middleware/auth.go: Authenticate, injectAPIKeyToMetadata", "api/api.go: NewAPI, Router, logrusRecovery", "cmd/server.go: initializeRouter", "cmd/workers.go: monitoring server"]}
{"id": "C51", "title": "A background processor runs once while started and not at all once stopped", "statement": "For the processors of the lineage outbox, the hash chain and the recovery of stuck transactions, and calls of Start and Stop that do not overlap: there is never more than one loop, however often Start is called; once Stop has returned there is none, and no batch is under way, until the next Start; a Stop can always return; once Start has returned there is one until Stop, unless a context was cancelled. Whatever the calls, nothing panics. Refuted: a Start during a Stop leaves two loops and the Stop never returns; a Stop during a Start or during another Stop returns while a batch is still to come or under way; once its context is cancelled a processor still says that it runs, and Start does nothing.", "quantifier": "all histories of calls, all interleavings of their steps with those of the loops, all cancellations, all choices a select makes", "why_tests_cant": "the claims are about every interleaving of callers and loops, at the granularity of the mutex and the wait group", "anchors": ["lineage_worker.go: Start, Stop, IsRunning, run", "chain_worker.go: Start, Stop, IsRunning, run", "queue_recovery.go: Start, Stop, IsRunning, run", "cmd/server.go: serverCommands", "cmd/workers.go: runWorkers"]}
{"id": "C52", "title": "An upload by URL fetches from the hosts of the whitelist only", "statement": "When external transactions are uploaded by URL, every request the server makes, for the URL itself or for any redirect, goes by http or https to a host the configured whitelist names, by name or by URL, up to case and blanks; a URL of another scheme or without host, or of a host not named, is refused with the answer for it and without any request; with a blank whitelist nothing is ever fetched, nor when a file is sent along. A redirect to a host not named ends the upload as failed. What is handed on is the body of the last, successful answer, up to one byte more than the limit. Refuted: that port and scheme of an entry are heeded; that a file asked for by https comes by https; that redirects are bounded other than by the deadline; that a file larger than the limit is refused (it is cut and taken).", "quantifier": "all whitelists, URLs, redirects and answers of the web, all file sizes and limits, all deadlines", "why_tests_cant": "the guard has to hold for every chain of redirects a hostile host can produce and every text of URL and whitelist", "anchors": ["api/reconciliation_api.go: UploadExternalData, resolveUploadURL, downloadAndUpload, hostAllowed", "config/config.go: UploadDomainWhitelistHosts"]}
{"id": "C53", "title": "The configuration in force is the one written down, with the declared defaults", "statement": "The server starts exactly if an address of the database and one of redis is given. Every setting given in the environment or the file, the environment winning, is in force as given, provided it is not zero, empty or false, is positive where it has to be, and is not one of the two lock times or the lifetime of a hot pair; four names are stripped of blanks. Lock times of a second or more are kept; the lifetime of a hot pair counts in seconds. Every setting left out has the declared default; of the two rate limits, one left out is made from the other; otherwise no setting influences another. A configuration refused leaves the one in force. Refuted: that coalescing can be switched off; that a number set to zero is zero; that backpressure is on by default as declared; that a lock time under a second is kept (it is multiplied by 10^9); that the lifetime of a hot pair may be given as a duration; that a blank address is refused; that the burst made from less than one request a second lets anything through.", "quantifier": "all contents of file and environment, all settings, all values", "why_tests_cant": "each of seventy settings has its own line of code and its own test for being absent; the claim is about every combination of two sources and every value", "anchors": ["config/config.go: loadConfigFromFile, validateAndAddDefaults, validateRequiredFields, setDefaultValues, setTransactionDefaults, setQueueDefaults, setHashChainDefaults, setReconciliationDefaults, setTypeSenseDefaults, setRedisDefaults, setDatabaseDefaults, trimWhitespace, setupRateLimiting, InitConfig, Fetch"]}
{"id": "C54", "title": "An account tells the truth about its balance, and no two share a number", "statement": "At any time every account names a balance that exists, with that balance's ledger and currency, and an identity that exists; no two accounts share a number or an id. A request makes an account exactly if it names an existing balance and neither a ledger nor a currency, the balance's identity (or, if it has none, the one in the request) exists, the number service if switched on answers, and the number is free. The account has the balance's ledger and currency, the balance's identity if it has one, that identity's name, and the number and bank of the service if it gave both, else those of the request; nothing else changes, and a refused request changes nothing. Reading it with its balance and identity gives the rows it names. Refuted: that the ledger, identity and currency the validation offers in place of a balance make an account; that a second account can be made without a number; that an account follows a change of its balance's identity or of that identity's name; that the listing is paged and shows what accounts point to.", "quantifier": "all histories of ledgers, identities, balances and accounts being made, changed and deleted; all requests; all answers of the number service", "why_tests_cant": "the claim is about every account after every later change to the rows it points to, and about all requests, including the combinations of balance, ledger, identity, currency and number that are refused", "anchors": ["account.go: CreateAccount, overrideLedgerAndIdentity, applyAccountName, applyExternalAccount", "api/accounts.go: CreateAccount, GetAccount, GetAllAccounts", "api/model/model.go: ValidateCreateAccount, ToAccount", "database/account.go: CreateAccount, GetAccountByID, GetAllAccounts", "sql/1708676327.sql", "balance.go: UpdateBalanceIdentity", "database/identity.go: DeleteIdentity"]}
{"id": "C55", "title": "The connections to redis are those the configured address says", "statement": "A host and port is connected to as it stands, without password and TLS. An address that the redis library understands gives the host, user, password, database and TLS it says; redis:// with a single word before the host means that word as password; without a scheme, what stands before the host is the password, and Azure's hosts get TLS. The certificate goes unchecked only if the configuration or the address says so, and saying so never turns TLS on or off. The queue, its inspector, the workers and the monitor connect with the server's address, password, database and TLS. With several addresses every one is a node, TLS is used as soon as one asks for it, and the first password given is used. Refuted: that the queue logs in as the user in the address (it never does); that rediss:// always means TLS (if the library fails on the address, for instance on a stray percent sign, the connection is plain, and the password sent is 'rediss://' and what follows); that redis:// with a single word means that word if the library fails (a colon is put before it).", "quantifier": "all addresses, all answers of the library's parser, both settings of the certificate check, all lists of addresses", "why_tests_cant": "addresses are arbitrary texts and fall into overlapping forms; what happens when the parser fails depends on every byte of the password", "anchors": ["internal/redis-db/redisdb.go: ParseRedisURL, NewRedisClient", "blnk.go: initializeRedisClients", "queue.go: NewQueue", "cmd/workers.go: initializeWorkerServer, initializeHotWorkerServer, initializeWebhookWorkerServer, startMonitoringServer"]}
{"id": "C56", "title": "A name such as @World stands for one balance in each currency, whoever uses it first", "statement": "Under every schedule of requests, workers, crashes and lock expiries no two balances share a name and a currency, and a balance keeps its id, name and currency for ever. A transaction that names a balance which does not exist yet makes it; with anything happening in between, it gets the balance that has the name then and ever after, so that all requests that use the name in that currency, also those that race to make it, get the same one. A name in use always resolves; a new one fails only if the id made up for it is already taken, and losing the race to make it is no failure.", "quantifier": "all schedules, crash points and lock expiries; all names, currencies and configurations; any operations of others between any two operations of the request", "why_tests_cant": "the race is between the read that finds nothing, the insert and the second read; which of the requests wins and what happens in between is up to the schedule", "anchors": ["balance.go: getOrCreateBalanceByIndicator, isAlreadyExists", "database/balance.go: CreateBalance, GetBalanceByIndicator", "sql/1748323024.sql", "transaction_execution.go: getSourceAndDestination, resolveBalanceIDs"]}
{"id": "C57", "title": "Telemetry goes to the host of the monitoring DSN over https, or nowhere", "statement": "Traces, metrics and logs are sent to the monitoring service if and only if observability is on and the monitoring DSN, without the blanks around it, is an address with scheme https, a host, a user that is not empty and a path of one segment. They then go to https, to that host and to no other, at the three ingest paths, with the user as bearer token and neither it nor the password in the address. Any other DSN sends nothing and does not stop the server.", "quantifier": "all texts given as DSN, all ways of reading and writing addresses, both settings of observability, all three signals", "why_tests_cant": "the key must not leave for any host, or without encryption, for any of the texts that can be configured", "anchors": ["internal/monitoringexporter/config.go: FromDSN, ParseDSN, Headers, SignalURL, OTLPSignalURL", "internal/monitoringexporter/exporters.go: NewTraceExporter, NewMetricReader", "internal/traces/otel.go: SetupOTelSDK, monitoringExporterConfigFromDSN", "config/config.go: RemoteMonitoringDSN", "cmd/server.go: initializeTelemetryAndObservability"]}
