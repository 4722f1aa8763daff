# Formal model of blnkfinance/blnk in Rocq (Coq 8.16.1)

## 1. What is modelled and how

The model is a set of total Gallina functions, one per Go function or SQL
statement, each with a comment citing the file and lines in /repo it models and
saying where it simplifies.

A Go function that touches the database or Redis becomes a *program*: a tree of
atomic operations (one SQL statement, one SQL transaction or one Redis command
each) with pure computation in between. Sequential execution is `run`.
Concurrent execution (`ConcModel.v`) interleaves any number of requests, workers
and background goroutines one atomic operation at a time, may kill any of them
between two operations (crash) and may expire any lock at any time.

| files | code they model | properties |
|-------|-----------------|------------|
| `Base`, `MoneyModel`, `BalanceModel` | model/transaction.go precision functions, model/model.go balance arithmetic | C10, C17 and all ledger properties |
| `LedgerModel`, `LedgerProgs`, `ConcModel` | database/transaction.go, database/balance.go, transaction_execution.go, transaction_queue.go, transaction_inflight.go, transaction_refunds.go, transaction_bulk.go, transaction_coalescing.go, queue_recovery.go, transaction_rejection.go, cmd/workers.go | C01–C09, C11–C15, C24, C27, C31, C34 |
| `SplitModel` | model/transaction.go distributions | C16 |
| `CommitModel` | the amount of a partial commit as the API computes it | C10 |
| `ChainModel` | hash chain worker and verifier | C22, C23 |
| `LockModel` | redlock client, multi-lock | C18 |
| `MonitorModel` | balance monitors, their cache | C19 |
| `SnapModel` | snapshots, balance at a point in time | C20, C21 |
| `LineageModel` (+ `AllocProof`, `LineageBudget`, `LineageLocks`, `LineageDone`) | allocation strategies, lineage_processing, outbox processor, retries | C25, C26 |
| `OutboxSpec` / `OutboxProof` | the outbox entries written with a post | C27 |
| `QueueModel`, `QueueFloat` | queue routing, back-pressure (float64 by Flocq) | C28, C33 |
| `WorkModel` | asynq retry loop round the worker | C29 |
| `PreviewModel` (+ `PreviewAlone` … `PreviewThms`) | transaction_dryrun*.go | C30 |
| `BulkModel` | bulk creation with its rollback report | C31 |
| `HotModel` | internal/hotpairs, the lane counter | C35 |
| `ReconModel` | reconciliation.go, its queries and their caches, the batch fetcher | C36 |
| `AuthModel` | api/middleware/auth.go and scope.go, api/apikeys.go, the check of api/hooks.go, database/api_key.go and its two-level cache | C37 |
| `BodyModel` | injectAPIKeyToMetadata of api/middleware/auth.go, encoding/json as it uses it | C38 |
| `FilterModel`, `FilterUrl` | internal/filter, ParseFiltersFromBody, the five GetAll…WithFilterAndOptions up to the query they send | C39 |
| `TokenModel` | internal/tokenization, identity.go, the identity rows and their metadata | C40 |
| `MetaModel` | metadata.go, database/metadata.go, api/metadata.go | C41 |
| `HookModel` | internal/hooks/ (manager.go, client.go, worker.go), api/hooks.go, the calls of the stages in transaction_execution.go and transaction_coalescing.go | C42 |
| `UploadModel` | internal/files/files.go from the CSV records (or JSON elements) on, RecordExternalTransaction with the primary key, the cutting off of requests in api/reconciliation_api.go | C43 |
| `SearchModel` | internal/search/reindex.go, the index task (HandleNotification, EnsureCollectionsExist, UpsertDocument) and its queue, the gate of POST /search/reindex; documents are their id, references and the rest as one value; the search server keeps documents by id and refuses one whose references it lacks | C44 |
| `SearchAmount` | convertLargeNumbers and convertNumberField, internal/search/search.go:323-340: a big integer as a float64 | C44 |
| `LineageReport` | lineage_queries.go GetBalanceLineage, populateLineageProviders, calculateProviderBreakdown, over `LineageModel`; all that is read, is read at once; the aggregate balance named in the report and the shadow balance ids are left out | C45 |
| `NoticeModel` | webhooks.go; transaction_execution.go updateTransactionDetails and runTransactionPostCommitWorkWithHooks, and the other callers of SendWebhook; senders, queue and receiver take steps in any order; a retry is possible at any time (no backoff); a task can be tried again after success if the queue does not learn of it | C46 |
| `AnswerModel` | api/errors.go; internal/apierror/codes.go; the error chains of QueueTransaction with skip_queue (transaction_queue.go, transaction_execution.go, database/transaction.go, database/balance.go, internal/lock/lock.go), of commit and void (transaction_inflight.go), and the rejections of a preview (transaction_dryrun.go); which step fails, and with which text, is arbitrary; splits, queued posts and the legacy key of the answer are left out | C47 |
| `DsnModel` | internal/monitoringexporter/config.go, exporters.go and the part of otel.go, config.go and cmd/server.go that decides where telemetry goes; url.Parse and the writing of a host are arbitrary functions, blanks outside ASCII, exporters configured by the OTEL variables and exporters that cannot be built are left out |
| `RedactModel` | internal/monitoringexporter/redact.go and logs.go: the three expressions as leftmost matches over bytes, keys, fields by recursion, and the queue with its closed flag, Fire in two steps; redactURL (net/url) is an arbitrary function, keys with letters outside ASCII, time, level and trace ids and the HTTP request are left out | C48 |
| `CellModel` | model/clone.go, and the methods of model/model.go, applyTransactionToBalances and balanceProjection once more, this time on a memory of integers that pointers share and Add and Sub change in place, nil pointers included; maps and lists of the structs are left out | C49 |
| `DoorModel` | api/middleware/middleware.go; the order of the middleware in api/api.go and cmd/server.go, the monitoring server of cmd/workers.go, how injectAPIKeyToMetadata and the handlers read a body (http.MaxBytesReader, io.ReadAll, json.Unmarshal, json.Decoder); rate limiter, lookup of keys, presence of a route and JSON texts are arguments | C50 |
| `LoopModel` | Start, Stop, IsRunning and run of lineage_worker.go, chain_worker.go and queue_recovery.go | C51 |
| `FetchModel` | UploadExternalData (handler), resolveUploadURL, downloadAndUpload, hostAllowed, UploadDomainWhitelistHosts | C52 |
| `ConfModel` | loading, checking and completing the configuration (config/config.go:270-349, 351-546, 589-620) | C53 |
| `AcctModel` | accounts: validation, completion from balance, identity and number service, the table's keys, reading and listing (account.go:39-151, api/accounts.go:40-140, database/account.go:40-310) | C54 |
| `RedisModel` | from the configured address to the connections of server, queue, workers and monitor (internal/redis-db/redisdb.go:45-183, blnk.go:64-87, queue.go:116-131, cmd/workers.go:396-460) | C55 |
| `PoolModel` | bulk commit / void worker pool and API | C32 |

Specifications live in `*Spec.v` files, written in terms of journal rows, balance
counters and answers, not of the model's helpers. Proofs are in `*Proof.v`,
`*Thms.v` and similar. `*Demo.v` hold concrete runs: witnesses of hypotheses and of
refutations. `P_*.v` contain nothing but the property theorems, each closed by
`exact lemma` with `Print Assumptions` beneath it, and Examples.

General simplifications: `PreciseAmount` is `Z` (big.Int in the code); `Amount` and
`OverdraftLimit` are exact rationals (float64 in the code, always passed through
`decimal.NewFromFloat`) except in back-pressure, where float64 is modelled exactly;
times are left to the environment wherever the code compares them (scheduled dates,
stuck thresholds, lock leases), except in C19–C21, C26 and C33 where they are
modelled.

## 2. Per-property plan

| id | model | proof |
|----|-------|-------|
| C01 double entry | Ledger + Conc | corollary of C03 (replay preserves the sums) |
| C02 balance = journal | Ledger + Conc | corollary of C03, induction over the replayed journal |
| C03 serialisable | Ledger + Conc | rely/guarantee invariant: stored balances = replay of the journal, every step legal |
| C04 no overdraft | Ledger + Conc | corollary of C03 |
| C05 atomic post | Ledger | case analysis of the record program, each crash prefix |
| C06 unique reference | Ledger + Conc | invariant |
| C07 hold budget | Ledger + Conc | rely/guarantee with lock ownership; refuted when the lock may expire |
| C08 queued hold committed once | Ledger | expected false: refutation by a concrete run |
| C09 commit/void exact | Balance | algebra |
| C10 partial commit amount | Money + Ledger | true above half a minor unit; refuted below |
| C11 refund once | Ledger + Conc | invariant via reference/lock; exact reversal by algebra |
| C12 queued posted at most once | Ledger + Conc | unique derived reference |
| C13 queued eventually settled | Ledger | safety half; liveness refuted by reference squatting |
| C14 batch = sequential | Ledger | induction over the batch |
| C15 overdraft permission kept | Ledger | worker path proved, recovery/coalescing refuted |
| C16 split | Split | arithmetic; refutations for over-allocated distributions |
| C17 precision | Money | arithmetic |
| C18 locks | Lock | invariant, wait-for graph argument |
| C19 monitors | Monitor | case analysis, refutation for "=" and stale update |
| C20 point in time | Snapshot | replay induction; refutation for back-dated transactions |
| C21 daily snapshots | Snapshot | induction over batches |
| C22 chain well formed | Chain | invariant |
| C23 tamper evidence | Chain | collision-free hash; refutations for truncation and separators |
| C24 immutable rows | Ledger | trigger model |
| C25 allocation | Lineage | induction; proportional full allocation refuted |
| C26 lineage retry | Lineage | invariant over crash schedules; refutation for lost receive |
| C27 outbox completeness | Ledger/Lineage | case analysis; refutation for queued holds |
| C28 queue routing | Queue | function of source only, range |
| C29 worker verdict | Queue | case analysis |
| C30 dry run | Dryrun | equivalence with the record program |
| C31 atomic bulk | Ledger | induction over bulk; the voids of a rollback succeed because the journal without the bulk is legal, so what was held before covers nothing of what the bulk holds |
| C32 bulk inflight order | Ledger/Conc | schedule induction |
| C33 back-pressure | Queue | case analysis |
| C34 reconcile trigger | Ledger | corollary of C02; refuted for a flag present at creation |
| C35 hot pairs | Hot | invariant over histories with per-program facts; refutations of each proviso |
| C36 reconciliation | Recon | invariants over histories of interleaved moves: books of the rows, justification of every match in flight, custody of every uploaded transaction; refutations of each proviso |
| C37 API keys | Auth | invariant over histories of interleaved checks (every cached copy is a copy of an issued key, every log entry is entitled, parents precede children), a time invariant for what survives a revocation, refutations by concrete histories |
| C38 bodies | Body | induction over JSON values: rewriting keeps a body the same up to the order of members; arithmetic of rounding to 53 binary digits |
| C39 listings | Filter | the text built is read back by a lexer and parser written separately (`FilterSql`), by induction over filters; the meaning of the parsed conditions is compared with the meaning of the filters over any database; existence of answers by sorting |
| C40 tokens | Token | base 64 decoding by induction over quads; an invariant over histories of interleaved requests (every row is well marked, every marked field holds a token, every request in flight holds a fresh copy); refutations of each proviso by played histories |
| C41 metadata | Meta | invariant over histories of interleaved updates (an update in flight holds a fresh copy), step by step effects; refutations by played histories |
| C42 hooks | Hook | programs over Redis, the queue and the network, stepped in any order; invariants on provenance and on a count of attempts left; invariants for a deleted hook; an abstract registry refined by calls one after the other; refutations by played histories |
| C43 uploads | Upload | reader, workers, channels and main goroutine as a transition system; an invariant that counts rows and faults wherever they are; a measure for termination |
| C44 search index | Search | tables, index, tasks and runs as a transition system; an invariant that says for each row where in its phase the run is (behind it, in the page at hand, or still ahead by its place in the order of creation), kept by inserts since these come earlier in the order; a provenance invariant for what is shown; a measure for completion |
| C45 lineage report | Report | over the runs of `LineageModel`: line by line from the invariant that says which transaction each row belongs to; the bound on spending from that of C26, summed over transactions; completeness by an invariant that each payment's provider is noted or is next in its attempt's steps |
| C46 webhooks | Notice | world of facts, senders, tasks and attempts; invariant counting senders, tasks, finished and given-up attempts of each fact; bodies by the theorem on re-encoding used for C37 |
| C47 error answers | Answer | errors as chains; the tables of codes and phrases copied from the code; that no earlier phrase occurs in a text is shown by cutting the text into words, one of them unknown and without spaces |
| C48 exported logs | Redact | noninterference: texts, nested values and whole histories that differ in what is confidential only are exported alike; the queue as a transition system, invariants by induction over the history |
| C49 shared integers | Cell | simulation: an invariant (no two counters have one integer, no amount is a counter) under which each step of the memory is a step on plain numbers; the rest are corollaries, among them that one application is `apply_to_balances` of BalanceModel |
| C50 door | Door, on Auth and Body | case analysis along the chain of middleware; bodies by induction over texts; C37 and C38 for callers and rewriting; refutations by concrete requests, those with long bodies without computing them |
| C51 background loops | Loop | invariant over all interleavings of calls and loops; progress by a bounded run; refutations by schedules, the stuck stop by an invariant of its own |
| C52 uploads by URL | Fetch | induction over the chain of redirects; the list computed from the whitelist against a relation on its text; url.Parse and the web are oracles |
| C53 configuration | Conf | the assignments as a list of steps, each on one setting; per-setting evaluation; the declared defaults as a separate table |
| C54 accounts | Acct | invariant over all histories of the four tables; one request characterised by cases |
| C55 redis address | Redis | texts as strings with the library's splitting functions; the forms stated by concatenation; redis.ParseURL an arbitrary function |
| C56 named balances | Ledger, Conc; NameSpec | ids, names and currencies as a list that operations only extend; the resolving program run with arbitrary interference between its operations |
| C57 monitoring DSN | Dsn | reading the DSN characterised against an independent meaning of trimming, then the requests made from it; net/url arbitrary |

## 3. Trusted base

* Coq 8.16.1's kernel, including its `vm_compute` machine.
* `Print Assumptions` stands under every property theorem. Every theorem is "Closed
  under the global context", with two exceptions: `C33_exact` and
  `C33_any_percentage`, which reason about float64 through Flocq and rest on the
  standard library's real-number axioms `ClassicalDedekindReals.sig_not_dec`,
  `ClassicalDedekindReals.sig_forall_dec`,
  `FunctionalExtensionality.functional_extensionality_dep` and
  `Classical_Prop.classic`.
* No axiom, parameter, section-less variable, admitted proof, functor or module type is
  declared anywhere.
* Fidelity of the model to the code, per the citation comments.
* PostgreSQL: a statement or SQL transaction modelled as one operation is atomic
  and durable; unique indexes and triggers are enforced. Redis: each command is
  atomic. asynq: at-least-once delivery, retry and archive as documented.
* go-redis/cache: a read looks in the memory of the process, then in Redis, and keeps what it
  found in memory; writes and deletions go to memory, then to Redis; the memory may keep an
  entry longer than a minute by a configured amount (C37). bcrypt accepts exactly the secret.
* The fragment of SQL in `FilterSql` and its meaning in `FilterSpec` (C39): which queries are
  refused (unknown columns, unused or missing parameters, two named queries of one name) and
  which rows they return. Comparisons are arbitrary functions; casts never fail.
* AES-GCM and HMAC-SHA256 (C40) are any functions; theorems that need the cipher to open what it
  sealed say so. Nothing is claimed about secrecy.
* Generated ids (UUIDs) are an oracle; theorems that need them distinct say so.
* The cryptographic hash is an arbitrary function; theorems that need it free of
  collisions say so as a hypothesis on the hashes that occur.

Not modelled: the HTTP layer (gin) and JSON decoding except for C37 to C48 and where a
property cites an API handler; tracing, and logging but for its export (C48); Slack notifications; searching itself (filters, ranking and tolerance for typing errors are the search server's);
the signature, headers and time stamp of a hook's request; backups; accounts; `ExtendLock`
(unused); paging (rows never change, so pages are read as one list);
database errors other than those named (a lost connection is a crash of the caller
at that point).

## 4. Findings

Each of these is a theorem named `…_refuted`, unless it is in the second list.

* **Reconciliation flag (C01, C34).** A balance created with
  `BLNK_RUN_RECONCILIATION` in its metadata loses the first post made to it.
* **Settled counters (C02).** A lock lease that runs out lets a void subtract twice;
  a split with a negative fixed share makes counters negative.
* **Overdraft (C04).** A negative commit with client-sent internal metadata, and a
  negative split leg, overdraw a source without permission.
* **Hold budget (C07, C08).** With an expired commit lock a hold is committed beyond its
  amount. A hold accepted in the queue can be committed under its queued id
  and again under the id of its posted copy.
* **Tiny commit (C10).** A partial commit that rounds to zero minor units commits the whole
  hold.
* **Queue (C12, C13, C15).** A client can take the reference `<ref>_q` and leave a queued
  transaction unposted for ever; SCHEDULED rows that lost their task are never recovered;
  an accepted transaction vanishes when the process dies before its goroutine
  records it; the overdraft limit is lost when a transaction is coalesced or recovered.
* **Self transfer (C14).** `@ann` to ann's balance id conflicts for ever when posted singly
  and succeeds in a batch.
* **Splits (C16).** A fixed 90 of 100 can become 91 (rounding remainder); distributions
  that ask for too much or too little are silently changed; ten times 10% of 3 gives nothing.
* **Locks (C18).** An expired lease is held twice; a SET whose reply is lost leaves the key
  locked after a failed acquisition; a resent SET makes the client wait for itself.
* **Monitors (C19).** `=` is accepted and never fires; changing the value keeps the old
  threshold; a moved monitor fires for the old balance; one created during a
  lookup is missed while the cache entry lives.
* **Point in time (C20, C21).** A queued transaction is missed by a snapshot, a
  future-dated one or one posted during a run is counted twice; overlapping
  runs leave two snapshots for a day.
* **Chain (C23).** Cutting off the newest rows still verifies; `|` inside client-chosen
  fields makes different transactions hash alike.
* **Lineage (C25, C26, C27).** Proportional allocation may fall short; two holds are
  allocated the same money; a crash between release and receive loses the receive; a
  named provider blocks every retry after its credit and is counted twice; a late
  attempt releases twice; a proportional retry stays short. Holds with a
  parent (queued, bulk member, split leg) and their commits get no outbox entry; a
  client's `inflight` metadata hides a queued posting.
* **Routing (C28).** A negative number of queues routes to a queue no worker serves.
* **Worker (C29).** A negative retry limit archives at the first failure; a task acknowledged
  as "reference used" may refer to a foreign transaction.
* **Refund asked for twice (C11).** POST /refund-transaction/:id refunds every row that is the settled transaction
  or settled under it (GetRefundableTransactionsByParentID). An applied refund is such a row: a client that repeats
  its request, say after a timeout, has the refund refunded. The payee has the money again, and the answer is the
  error "already refunded" (`C11_asked_twice_refuted`; the dry run says so too). The rows are fetched page by page
  while the worker posts refunds, which the model does not show (all pages at once): a refund posted before the
  second page is fetched moves a row already done to that page, so that even a first request can answer so.
* **Dry run (C30).** Ignores queued debits of `@` sources; a bulk dry run projects a balance
  named in two ways twice and one indicator in two currencies once; the split dry run never
  checks references; a split that hands out nothing "would apply"; the odd cent of a split
  falls elsewhere than in the dry run. The dry run of a void says "would apply" although
  one of the bulk's holds has been voided already; the dry run of committing the rest of a
  queued hold by its queued id takes the whole amount and rejects what succeeds. The dry run of a
  refund does not look whether the reference of the refund has been used.
* **Atomic bulk (C31).** "All transactions refunded" is answered while the refunds are
  only started; the rollback does not find the legs of split members.
* **Bulk inflight (C32).** The note "only one of them can succeed" is false for partial
  commits.
* **Back-pressure (C33).** At 57% of 100 bytes float rounding decides wrongly; a verdict
  is dated by when it is stored, so a slow check can be arbitrarily stale.
* **Hot pairs (C35).** Two requests accepted at once, a failed Redis call, an expired state key or
  two spellings of a currency put one pair's transactions in both lanes; scheduled ones are not
  counted; new conflicts of a pair that is cooling down are forgotten.
* **Reconciliation (C36).** The cached pages of an upload are not keyed by the upload: another
  upload reconciled within five minutes gets the first one's transactions. One-to-one takes one
  match per worker, and an internal transaction any number of times. The search bounds are narrower
  than the rules (currency case, bounds of one rule applied to all). Grouped strategies with more
  groups than a batch match and report the same transaction, or hang for ever. A failed read is
  dropped, or crashes the server by a send on a closed channel. Interrupted runs are never resumed.
  Unknown strategies complete with nothing done. A description or reference that contains " | "
  is taken for that of a group, so such a transaction does not match itself by equality.

* **API keys (C37).** A confirmed revocation is not effective at once: other processes keep
  accepting the key for a minute from memory, and a check that overlaps with the revocation
  writes the old copy back to Redis, so that the same process accepts the key for almost six
  minutes. A key that may make keys can make one that expires later than itself, and the
  new key survives the revocation of the old: whoever holds a key with `api-keys:write` can
  stay for ever. `POST /balances-snapshots`, `GET /backup-s3` and `POST /:entity-id/metadata`
  are refused to every API key, even with `*:*`, since their first path segment names no
  resource; the scopes on `hooks` are useless, the handlers ask for the master key. POST
  stands for `write`, so a write-only key may search, filter and detokenize while a
  read-only key may not search or filter.

* **Bodies sent with API keys (C38).** The middleware reads the body into a
  `map[string]interface{}` and writes it again, so whole numbers pass through float64: every odd
  `precise_amount` above 2^53 is silently changed (9007199254740993 is posted as
  9007199254740992), and from 10^21 on it is written with an exponent and refused; the same
  request with the master key is fine. Commits and voids in bulk take precise amounts the same
  way. The attribution `BLNK_GENERATED_BY` can be chosen by the sender: any number out of range,
  `"note": 1e400`, makes the rewriting fail, which is only logged, and the handler ignores the
  field; the items of a bulk and PUT requests are not attributed. The body `null` makes the
  middleware assign to a nil map and panic.

* **Tokens (C40).** A value with a colon is lost when it is tokenized, whatever the key
  (`C40_colon_lost`): the token is split at its first two colons and the visible part keeps the
  value's own. Two tokenizations of one identity at once are both confirmed and one field stays in
  the clear and unmarked; a PUT confirmed meanwhile is undone (`C40_race_refuted`,
  `C40_put_lost_refuted`). A PUT to a tokenized field stores the new text in the clear, marked, and it
  cannot be detokenized (`C40_overwrite_refuted`). A PUT with metadata takes the marks away, the token
  stays (`C40_marks_refuted`). A refused list may be half done (`C40_half_refuted`). Values without
  ASCII letters or digits stand in their token unchanged (`C40_not_hidden`).
* **Metadata (C41).** Updates of a ledger, balance or identity read, merge and write without a
  lock: two at once are both confirmed and one is lost (`C41_race_refuted`); the update of an identity
  deleted meanwhile is confirmed (`C41_removed_refuted`). Updates of transactions merge inside the
  database and do not suffer from this. Their answer is what was sent, not the metadata
  (`C41_answer_refuted`).
* **Hooks (C42).** After an attempt the copy of the hook that waited in the queue is written back
  (`updateHookStatus`): a hook switched off or otherwise updated meanwhile is as before
  (`C42_undone_refuted`), a deleted one is shown again (`C42_back_refuted`) and, if its type had been
  changed, listed and called again (`C42_deleted_refuted`). Registering an existing id with the other
  type leaves it in both lists (`C42_both_refuted`). Updates are not validated
  (`C42_silent_refuted`): no URL, no time, any number of retries, or a type in no list.
* **Uploads (C43).** The channel for errors has room for as many errors as there are workers (at
  most four) and is read only when every worker has returned: a CSV file with more faulty rows
  than that leaves the request, its workers and its temporary file hanging for ever, under every
  schedule (`C43_never_answered`, `C43_answered_refuted`). Workers that find the request's context
  done return without an error, with up to 499 rows in hand: an upload by URL whose time runs out
  while rows are being stored is answered 200 with fewer rows than the file has, or none
  (`C43_cut_refuted`). Meanwhile the reading goroutine goes on, and a broken line then makes it
  send on the closed channel, which ends the process (`C43_crash_refuted`). An amount that is not
  a number is stored as 0 and a date that is not one as the year 1 (`C43_amount_refuted`). A JSON
  file cut off after an element passes for a whole one (`C43_json_whole_refuted`): an upload by
  URL larger than the limit is truncated, which may pass unnoticed in this way.
* **Search index (C44).** A rebuilding writes the rows of a page one by one after reading them: a
  record changed in between, and indexed by its own task, is overwritten with the old row and stays
  so (`C44_stale_refuted`). Tasks carry the record as it was when they were queued, so two of them
  done in the other order leave the older one (`C44_order_refuted`). PUT and DELETE of an identity
  queue no task (`C44_put_refuted`, `C44_ghost_refuted`). Pages are taken by OFFSET, newest first:
  deleting an identity between two pages hides another one (`C44_delete_refuted`), and so can rows
  of one time, whose order is not fixed (`C44_tie_refuted`). Reconciliations are dropped and never
  read again (`C44_reconciliations_refuted`). The gate tests for "in_progress" but a run is pending
  until its goroutine moves, so two can be started, each dropping what the other wrote
  (`C44_alone_refuted`). From the second page of a phase on the rows of earlier pages are counted
  again (`C44_count_refuted`), and total_records is always the same number (`C44_total`). Every
  task first writes the general ledger as it is set up, over its real document
  (`C44_general_refuted`). A transaction whose source or destination is no balance is refused for
  its references, and the rebuilding is completed nevertheless (`C44_closed_refuted`); its task is
  given up after 26 failures (`C44_given_up_refuted`). Amounts above
  2^53 are rounded (`C44_amount_refuted`).
* **Lineage reports (C45).** Shadow balances belong to an identity, not to a balance: two tracked
  balances of one identity each report the money of both (`C45_shared_refuted`). If the provider of
  a payment cannot be noted (lineage_credit.go:55-59) that is only logged: the entry is completed
  and the report never shows the money, nor can it be drawn (`C45_unnoted_refuted`). A shadow
  balance that cannot be read is left out of the report and of its total without a word. Two holds
  on the same money, both committed, leave a negative total (`C45_no_negative_holds_refuted`).
* **Webhooks (C46).** The notice of an applied transaction is queued by a goroutine after the
  commit: a process that dies there tells nobody (`C46_lost_refuted`), unlike lineage, which has an
  outbox. A transaction rejected by a worker is announced twice, by RejectTransaction and by the
  worker (transaction_rejection.go:78, cmd/workers.go:160-163; `C46_twice_refuted`), with the same
  body. Notices of one transaction's life can arrive in the wrong order (`C46_order_refuted`) and
  carry no sequence number. The record goes through float64, so a precise_amount of 2^53+1 is
  announced as 2^53 (`C46_amount_refuted`). A header of the configuration replaces the signature
  if it has its name (`C46_header_refuted`). transaction.queued and transaction.scheduled are never
  sent (`C46_waiting`). If the worker process has no webhook URL, its tasks are done without a
  request (webhooks.go:174).
* **Error answers (C47).** Codes are found by searching error texts for phrases, and the caller's
  reference is part of the text: a duplicate of the reference `parcel not found 7` is answered with
  404 TXN_NOT_FOUND (`C47_phrase_refuted`). A duplicate that is only noticed by the unique index is a
  500 (`C47_raced_refuted`); Redis being away is 423 (`C47_away_refuted`). If the expiry or release task of
  a hold cannot be queued, the hold is recorded and the answer is 400 TXN_VALIDATION_ERROR
  (transaction_queue.go:116-131; `C47_recorded_refuted`). The details of a typed error are the driver's
  error value and are sent (the model has its text; what JSON shows of it depends on its type: all
  fields of a *pq.Error, nothing of a plain error; `C47_leak_refuted`), and an endpoint with a fallback
  code sends raw texts (`C47_raw_refuted`), although sanitizedInternalMessage says they never leak.
  Commit and void join their errors with %v, so that a failing database and a balance changed
  meanwhile are 400 GEN_BAD_REQUEST (`C47_flat_refuted`). A preview calls a transfer of a balance to
  itself TXN_VALIDATION_ERROR, a post GEN_CONFLICT (`C47_preview_same_refuted`); if the reference is used
  and the money short, a preview reports the money, a post the reference (`C47_preview_both_refuted`).
* **Monitoring DSN (C57).** The project is required and must be one segment, but nothing sent tells it: DSNs
  that differ in the project make the same requests (`C57_project_refuted`). `BLNK_CLOUD_DSN` is read only by
  FromEnv (config.go:29-35), which nothing calls, so the server ignores it. A DSN that is refused is a warning in
  the log only (otel.go:258-265).
* **Exported logs (C48).** The bearer expression does not look at what it has just taken for a token, so
  `Bearer Bearer abc` is sent as `Bearer [REDACTED] abc` (`C48_second_refuted`). Passwords, Basic credentials
  and API keys in the text of a message are sent (`C48_plain_refuted`), also those in a postgres:// address, as
  only http addresses are looked at; so are fragments of addresses (`C48_fragment_refuted`) and whatever is in a
  struct or a pointer to one, which the walk by reflection leaves alone (redact.go:164-166;
  `C48_struct_refuted`). The replacement of a query value forgets the equals sign (`C48_equals_refuted`). Fire
  looks at the flag before it sends; if Shutdown closes the channel in between, the send panics and the process
  ends (logs.go:61-92; `C48_closed_refuted`).
* **Failed commits in memory (C49).** CommitInflightDebit changes the source before CommitInflightCredit looks at
  the destination, and so do the rollbacks (transaction_execution.go:320-365): when the destination refuses, the
  source in memory is changed already (`C49_failed_refuted`). Nothing of it is stored, and dry runs show their
  copies in that case; the code relies on every caller discarding the objects.
* **The door (C50).** RequestSizeLimit skips every request whose Content-Type starts with multipart/form-data, on
  all endpoints, and the handlers decode JSON whatever the Content-Type: so the limit can be avoided at will
  (`C50_tail_refuted`), and a POST with an API key is then read into memory whole before any other limit
  (`C50_held_refuted`), uploads included. injectAPIKeyToMetadata uses json.Unmarshal, which refuses text behind the
  value; the handlers use a json.Decoder, which ignores it: a body such as `{...} .` is served without being
  attributed to its key, or attributed to another (`C50_trailing`, `C50_named_refuted`). Answers of the rate
  limiter have no security headers, since it comes first (`C50_headers_refuted`).
* **Background processors (C51).** run reads the field stopCh anew for every select, without the mutex: a Start made
  while Stop waits for the batch under way replaces it, the old loop goes on, and Stop never returns
  (`C51_start_during_stop_refuted`). A second Stop does not wait. When the context ends, the flag stays set: Start with a
  new context does nothing (`C51_cancelled_refuted`). The servers call Start and Stop once each, in order, and are not
  affected.
* **Uploads by URL (C52).** The whitelist is heeded at every redirect, but by host alone: an entry
  `https://files.example.com:8443` lets `http://files.example.com:6379` through (`C52_port_refuted`), and a redirect may go
  from https to http (`C52_downgrade_refuted`). The custom CheckRedirect drops net/http's limit of ten redirects
  (`C52_redirects_refuted`). A body over the limit is cut at limit + 1 bytes and handed on as if it were whole; the comment
  in the code expects a parse failure, but a CSV cut at a line end or inside a field still parses
  (`C52_oversize_refuted`), so C43's claim that every record is taken fails for URLs of large files.
* **Configuration (C53).** `enable_coalescing: false` has no effect: the default test reads false as absent
  (`C53_off_refuted`); likewise 0 for any number with a default, such as max_retry_attempts (`C53_zero_refuted`). The
  declared `EnableBackpressure: true` is never put in (`C53_backpressure_refuted`). A lock time given as `500ms` becomes
  almost 16 years (`C53_sub_second_refuted`); hot_pair_ttl given as `5m` overflows int64 (`C53_ttl_refuted`). Addresses are
  checked before they are trimmed, so a blank one passes (`C53_blank_refuted`). A rate limit under 1 per second without a
  burst gives burst 0 (`C53_burst_refuted`).
* **Accounts (C54).** Validation accepts ledger, identity and currency in place of a balance, but the balance "" is then
  looked up and not found: no such request succeeds (`C54_by_ledger_refuted`). The number column is unique and not null, so
  without a number service only one account can leave its number out (`C54_no_number_refuted`). An account keeps the identity
  and name it was made with (`C54_follows_refuted`). `GET /accounts` without filters reads limit and offset and ignores them,
  and leaves out ledger, identity and balance (`C54_list_refuted`).
* **Address of redis (C55).** The user in the address is used by the server's client and by none of the queue's: with an
  access list in redis the two log in differently (`C55_user_refuted`). If redis.ParseURL fails on an address with rediss://,
  the fallback connects without TLS and sends `rediss://…` as the password (`C55_secure_refuted`); on redis:// with a bare
  password, it sends the password with a colon before it (`C55_password_refuted`). ParseRedisURL never returns an error.
* **Filtered listings (C39).** Two filters on the indicator of transactions name two queries
  `_indicator_matches`, and sorting transactions by `balance_id` or `indicator`, which are
  allowed as sort fields, names a column that does not exist: both pass validation and fail in
  the database. `meta_data.k` equal to NaN (a query string is enough) makes the condition empty,
  and it is left out: the listing is unfiltered. Pages are sorted by one field without a
  tie-breaker, so rows of one moment can appear on two pages and others on none. In a query
  string `reference_eq=007` looks for 7, and a misspelt operator, `amount_gtt=5`, is passed over:
  everything is listed.

Observed while reading, recorded here without a theorem:

* A bulk dry run goes on projecting after a failed item; a database error on an
  indicator lookup yields a virtual zero balance.
* Back-pressure refuses inside the goroutine, after the client got its 201.
* `HotPairTTL` is multiplied by `time.Second` although it is configured as a duration.
* Stuck rows are taken with a LIMIT, so old unrecoverable rows may starve newer ones. A
  queued hold committed before it is posted has a child and is ignored by recovery.
* Error codes are found by substring search in texts that contain client strings.
* Committing by a bulk or parent id takes the precision of an arbitrary row.
* A refund with skip_queue inherits the queued-parent metadata. Refunding a VOID creates a
  reversed hold. The refund lock is released before the goroutine persists.
* A void with a negative remainder voids the full amount.
* A client that sends the queued-parent metadata equal to a batch id makes the rollback of that
  batch void a foreign hold.
* A partial commit commits the full amount of lineage shadow holds.
* Currency mismatch between transaction and balances is not checked on the single path.
* `parent_transaction` and `effective_date` are neither sealed by the chain nor protected.
* Non-atomic synchronous splits leave their first legs behind when a later one fails.
* A failed post can leave empty `@` balances behind.
* Lineage identifiers and references built by concatenation can collide; the balances of one
  identity share their shadows per provider.
* Reconciliation: a negative `max_workers` completes at once; an instant reconciliation returns a
  wrapped nil error (shadowed `err`); many-to-one walks over all internal transactions and stores
  their ids as unmatched external ones; `GetMatchesByReconciliationID` joins a column that
  `external_transactions` lacks; amount bounds of the search use the external amount, the rule the
  internal one; date drifts are cut to whole seconds in the search;
  `after` and `before` are implemented but no rule may use them, while rules nothing can fulfil
  (an amount that `contains`) are taken.
* Tokens: the visible part is a function of the value and the key, so equal values have equal
  visible parts; the search index and web hooks keep the text an identity was created with;
  GetDetokenizedIdentity (not reached by the API) looks for marks of a Go type that identities read
  from the database never have, and so detokenizes nothing.
* Metadata: an update of a queued transaction made before it is posted does not reach the posted
  copy, which is made from the queued message; accounts have no metadata route.
* Hooks: those before a transaction are queued before it is validated, and again each time it is
  retried or leaves a batch, so also for transactions that are then rejected. JSON without
  `"success": true` counts as failure under status 200, with it as success under 500. A hook whose
  record cannot be read, or whose call cannot be queued, is passed over in silence.
* Uploads: the id of an external transaction is the primary key of the table of all uploads, so
  the same statement cannot be uploaded twice, not even after an upload that was refused: the rows
  stored before the refusal stay, under an upload id nobody was told.
* Lineage: the identifier of an identity uses the first 8 characters of "idt_<uuid>", that is four
  hex digits, so identities of one name can share shadow balances
  (lineage_allocation_metadata.go:81-100). A client's transaction whose meta_data has `_shadow_for`
  set to another's id is listed among that one's shadow transactions and, if a hold, is committed or
  voided with it (database/transaction_lineage.go:37, lineage_shadow.go:31-66). The fund_allocation
  noted after a retry lists only what the retry drew (lineage_debit.go:92-107).
* Filters: equality with a day or a second means that period in a query string, but the exact text
  in a JSON body, whose values are never read as moments; `isnull` ignores its value, so
  `identity_id_isnull=false` lists the rows without an identity.
