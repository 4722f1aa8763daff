(** The ledger's operations as programs over the atomic operations of LedgerModel.
    Not modelled here: tracing, metrics, logging, search indexing, webhooks,
    pre/post transaction hooks (external HTTP calls), balance monitors (see
    MonitorModel), hot-pair lane assignment (see QueueModel) and the shadow-work
    enqueue after a commit or void (see LineageModel). I/O errors of the database
    or of Redis end the thread; they are covered by the crash event of Conc. *)
From Coq Require Import ZArith QArith List String Bool DecimalString.
From Verif Require Import Base MoneyModel SplitModel BalanceModel LedgerModel.
Import ListNotations.
Local Open Scope string_scope.
Open Scope Z_scope.
Open Scope prog_scope.

Definition nat_str (n : nat) : string := NilZero.string_of_uint (Nat.to_uint n).

(** GenerateUUIDWithSuffix, model/model.go: "<prefix>_<uuid>". *)
Definition fresh (prefix : string) : prog string :=
  u <- act OFresh ;; Ret (prefix ++ "_" ++ u).

Definition with_queued (b : balance) (q : option Z) : balance :=
  {| b_id := b_id b; b_ind := b_ind b; b_cur := b_cur b; b_bal := b_bal b; b_cr := b_cr b;
     b_db := b_db b; b_ibal := b_ibal b; b_icr := b_icr b; b_idb := b_idb b;
     b_queued := q; b_ver := b_ver b; b_recon := b_recon b; b_track := b_track b |}.

(** GetBalanceByIDLite, database/balance.go:336-420, or GetBalanceByID with queued
    amounts (two separate reads), database/balance.go:291-325. *)
Definition get_balance (cfg : config) (id : string) : prog (res balance) :=
  b <- act (OGetBal id) ;;
  match b with
  | None => Ret (Err EBalanceNotFound)
  | Some b => if c_queued cfg
              then q <- act (OQueued id) ;; Ret (Ok (with_queued b (Some q)))
              else Ret (Ok b)
  end.

(** getOrCreateBalanceByIndicator, balance.go:154-209. *)
Definition get_or_create (cfg : config) (ind cur : string) : prog (res balance) :=
  let finish (b : balance) := if c_queued cfg then get_balance cfg (b_id b) else Ret (Ok b) in
  b <- act (OGetInd ind cur) ;;
  match b with
  | Some b => finish b
  | None =>
    id <- fresh "bln" ;;
    r <- act (OCreateBal id ind cur false false) ;;
    match r with
    | Ok _ | Err EConflict =>
      b <- act (OGetInd ind cur) ;;
      match b with Some b => finish b | None => Ret (Err EBalanceNotFound) end
    | Err e => Ret (Err e)
    end
  end.

(** resolveBalanceIDs, transaction_execution.go:115-146. *)
Definition resolve_id (cfg : config) (s cur : string) : prog (res string) :=
  if starts_with_at s then b <-? get_or_create cfg s cur ;; Ret (Ok (b_id b)) else Ret (Ok s).

(** One half of getSourceAndDestination, transaction_execution.go:41-100. *)
Definition get_end (cfg : config) (s cur : string) : prog (res balance) :=
  if starts_with_at s then get_or_create cfg s cur else get_balance cfg s.

(** Lock keys: distinct, non-empty, sorted (NewMultiLocker, internal/lock/lock.go:186-212). *)
Fixpoint insert_key (k : string) (l : list string) : list string :=
  match l with
  | [] => [k]
  | x :: r => match String.compare k x with Gt => x :: insert_key k r | _ => k :: l end
  end.
Definition lock_set (l : list string) : list string :=
  fold_right insert_key [] (nodup string_dec (filter (fun k => negb (String.eqb k "")) l)).

(** MultiLocker.Unlock / rollback, internal/lock/lock.go:278-300. *)
Fixpoint unlock_keys (ks : list string) : prog unit :=
  match ks with
  | [] => Ret tt
  | k :: r => act (OUnlock k) ;;; unlock_keys r
  end.

(** MultiLocker.Lock, internal/lock/lock.go:220-234. [got] is in reverse order. *)
Fixpoint lock_keys (ks got : list string) : prog bool :=
  match ks with
  | [] => Ret true
  | k :: r => ok <- act (OLock k) ;;
              if ok then lock_keys r (k :: got) else unlock_keys got ;;; Ret false
  end.

(** acquireTransactionLocker, transaction_coalescing.go:420-426, with
    MultiLocker.WaitLock, internal/lock/lock.go:244-271; [n] further attempts fit
    into the wait timeout (Lock without waiting when n = 0). *)
Fixpoint wait_lock (n : nat) (ks : list string) : prog bool :=
  ok <- lock_keys ks [] ;;
  if ok then Ret true else match n with O => Ret false | S m => wait_lock m ks end.

(** PrepareLineageOutbox, lineage_outbox.go:43-100, guarded by
    prepareTransactionOutbox, transaction_execution.go:761-773. *)
Definition prepare_outbox (t : txn) (src dst : balance) : option outbox_entry :=
  if negb (status_eqb (t_status t) SApplied || status_eqb (t_status t) SInflight) then None
  else if negb (String.eqb (t_parent t) "") && m_inflight (t_meta t) then None
  else
    let credit := negb (String.eqb (m_provider (t_meta t)) "") && b_track dst in
    let debit := b_track src in
    if negb credit && negb debit then None
    else Some {| o_txn := t_id t; o_src := b_id src; o_dst := b_id dst;
                 o_provider := m_provider (t_meta t); o_credit := credit; o_debit := debit;
                 o_amount := t_precise t; o_inflight := t_inflight t |}.

(** The ghost kind of a row: which branch of applyTransactionToBalances
    (transaction_execution.go:320-365) it went through. *)
Definition kind_of (t : txn) : kind :=
  match t_status t with
  | SCommit => KCommit
  | SVoid => KVoid
  | _ => if t_inflight t then KHold else KPost
  end.

(** updateTransactionDetails, transaction_execution.go:189-213. *)
Definition update_details (t : txn) (src dst : balance) : txn :=
  with_status (with_ends t (b_id src) (b_id dst)) (final_status t).

(** The function run under the balance locks, transaction_execution.go:496-529. *)
Definition record_locked (cfg : config) (t : txn) : prog (res txn) :=
  used <- act (ORefExists (t_ref t)) ;;
  if used then Ret (Err EDupReference)
  else
    src <-? get_end cfg (t_src t) (t_cur t) ;;
    dst <-? get_end cfg (t_dst t) (t_cur t) ;;
    let t0 := with_ends t (b_id src) (b_id dst) in
    match apply_to_balances t0 src dst with
    | Err e => Ret (Err e)
    | Ok (t1, src', dst') =>
      let t2 := update_details t1 src' dst' in
      if t_precise t2 =? 0 then Ret (Ok t2)
      else
        let ob := prepare_outbox t2 src' dst' in
        let t3 := clear_terminal t2 in
        r <- act (OPersist (kind_of t1) t3 src' dst' ob) ;;
        match r with Ok _ => Ret (Ok t3) | Err e => Ret (Err e) end
    end.

(** recordTransactionSingle / executeWithLock, transaction_execution.go:490-646. *)
Definition record_single (cfg : config) (t : txn) : prog (res txn) :=
  s <-? resolve_id cfg (t_src t) (t_cur t) ;;
  d <-? resolve_id cfg (t_dst t) (t_cur t) ;;
  let t := with_ends t s d in
  let ks := lock_set [s; d] in
  ok <- wait_lock (c_lock_attempts cfg) ks ;;
  if ok then
    r <- record_locked cfg t ;;
    unlock_keys (rev ks) ;;;
    Ret r
  else Ret (Err ELockHeld).

(** ** Commit and void of holds *)

(** IsInflightTransaction, transaction_inflight.go:79-84. *)
Definition is_inflight (t : txn) : bool :=
  status_eqb (t_status t) SInflight || (status_eqb (t_status t) SQueued && m_inflight (t_meta t)).

(** fetchAndValidateInflightTransaction, transaction_inflight.go:517-565. The
    queue fallback is unreachable: GetTransaction never returns sql.ErrNoRows
    itself (database/transaction_queries.go:66-70). *)
Definition fetch_inflight (id : string) : prog (res txn) :=
  t <- act (OGetTxn id) ;;
  match t with
  | None => Ret (Err ETxnNotFound)
  | Some t => if negb (is_inflight t) then Ret (Err ENotInflight)
              else v <- act (OVoided id) ;;
                   if v then Ret (Err EAlreadyVoided) else Ret (Ok t)
  end.

Definition with_lock (k : string) {A} (p : prog (res A)) : prog (res A) :=
  ok <- act (OLock k) ;;
  if ok then r <- p ;; act (OUnlock k) ;;; Ret r else Ret (Err ELockHeld).

(** A supplied reference, or a fresh one (transaction_inflight.go:418-422, 618-622). *)
Definition choose_ref (ref : string) : prog string :=
  if String.eqb ref "" then fresh "ref" else Ret ref.

(** validateRequestedAmount and updateTransactionAmount, transaction_inflight.go:337-376.
    [amount] 0 = everything that remains. Result: the new (precise, amount). *)
Definition commit_amount (t : txn) (amount left : Z) : res (Z * Q) :=
  if left =? 0 then Err EAlreadyCommitted
  else if amount <? 0 then Err ENegCommit
  else if amount =? 0 then Ok (left, q_of_ratio left (t_prec t))
  else if t_precise t <? amount then Err EOverCommit
  else if left <? amount then Err EOverCommit
  else Ok (amount, t_amount t).

(** CommitInflightTransactionWithRef, transaction_inflight.go:198-236, with
    validateAndUpdateAmount 287-312 and finalizeCommitment 403-442. *)
Definition commit (cfg : config) (id : string) (amount : Z) (ref : string) : prog (res txn) :=
  with_lock ("inflight-commit:" ++ id) (
    t <-? fetch_inflight id ;;
    c <- act (OCommitted (t_id t)) ;;
    match commit_amount t amount (t_precise t - c) with
    | Err e => Ret (Err e)
    | Ok (p, a) =>
      nid <- fresh "txn" ;;
      nref <- choose_ref ref ;;
      record_single cfg (with_status (with_flags (with_keys (with_money t p a (t_prec t)) nid (t_id t) nref)
                                        false (t_allow t) (t_skipq t) (t_atomic t) (t_meta t)) SCommit)
    end).

(** VoidInflightTransactionWithRef, transaction_inflight.go:461-505, with
    finalizeVoidTransaction 604-633 (ApplyPrecision included). *)
Definition void (cfg : config) (id : string) (ref : string) : prog (res txn) :=
  with_lock ("inflight-commit:" ++ id) (
    t <-? fetch_inflight id ;;
    c <- act (OCommitted (t_id t)) ;;
    let left := t_precise t - c in
    if left =? 0 then Ret (Err EAlreadyCommitted)
    else
      nid <- fresh "txn" ;;
      nref <- choose_ref ref ;;
      record_single cfg (apply_precision_txn
        (with_status (with_flags (with_keys (with_money t left (t_amount t) (t_prec t)) nid (t_id t) nref)
                        false (t_allow t) (t_skipq t) (t_atomic t) (t_meta t)) SVoid))).

(** ** Queueing *)

(** setTransactionStatus, transaction_queue.go:328-334. *)
Definition set_status (t : txn) : txn :=
  if t_sched t then with_status t SScheduled
  else match t_status t with SNone => with_status t SQueued | _ => t end.

(** setTransactionMetadata, transaction_queue.go:341-368 (all but the id). *)
Definition set_metadata (t : txn) : txn :=
  let t := apply_precision_txn t in
  let m := t_meta t in
  with_flags t (t_inflight t) (t_allow t) (t_skipq t) (t_atomic t)
    {| m_inflight := t_inflight t || m_inflight m; m_atomic := t_atomic t || m_atomic m;
       m_allow := t_allow t || m_allow m; m_qparent := m_qparent m; m_provider := m_provider m |}.

Definition ensure_id (t : txn) : prog txn :=
  if String.eqb (t_id t) "" then id <- fresh "txn" ;; Ret (with_keys t id (t_parent t) (t_ref t))
  else Ret t.

Definition with_qparent (t : txn) (q : string) : txn :=
  let m := t_meta t in
  with_flags t (t_inflight t) (t_allow t) (t_skipq t) (t_atomic t)
    {| m_inflight := m_inflight m; m_atomic := m_atomic m; m_allow := m_allow m;
       m_qparent := q; m_provider := m_provider m |}.

Definition contains_bulk (s : string) : bool :=
  match String.index 0 "bulk" s with Some _ => true | None => false end.

(** createQueueCopy, transaction_queue.go:379-385. *)
Definition queue_copy (t : txn) (ref : string) : prog txn :=
  id <- fresh "txn" ;; Ret (with_keys t id (t_id t) (ref ++ "_q")).

(** prepareTransactionForQueue, transaction_queue.go:33-56. The first component is
    the transaction object as mutated so far (getSourceAndDestination rewrites
    '@' indicators in place). *)
Definition prepare_for_queue (cfg : config) (t : txn) : prog (txn * res unit) :=
  t <- ensure_id (set_metadata (set_status t)) ;;
  src <- get_end cfg (t_src t) (t_cur t) ;;
  match src with
  | Err e => Ret (t, Err e)
  | Ok src =>
    let t1 := with_ends t (b_id src) (t_dst t) in
    dst <- get_end cfg (t_dst t1) (t_cur t1) ;;
    match dst with
    | Err e => Ret (t1, Err e)
    | Ok dst => Ret (with_ends t1 (b_id src) (b_id dst), Ok tt)
    end
  end.

(** processSingleTransaction, transaction_queue.go:268-284. *)
Definition process_single (cfg : config) (t : txn) (ref : string) : prog (txn * res txn) :=
  pr <- (match t_sources t, t_dests t with
         | [], [] => prepare_for_queue cfg t
         | _, _ => Ret (t, Ok tt)
         end) ;;
  match pr with
  | (t, Err e) => Ret (t, Err e)
  | (t, Ok _) =>
    r <- act (OInsert t) ;;
    match r with
    | Err e => Ret (t, Err e)
    | Ok _ => q <- queue_copy t ref ;; Ret (t, Ok q)
    end
  end.

(** processSplitTransactions, transaction_queue.go:298-319; legs already renamed
    by updateSplitTransactions 394-399. *)
Fixpoint process_split (cfg : config) (legs : list txn) : prog (res (list txn)) :=
  match legs with
  | [] => Ret (Ok [])
  | l :: r =>
    pr <- prepare_for_queue cfg l ;;
    match pr with
    | (_, Err e) => Ret (Err e)
    | (l, Ok _) =>
      ins <- act (OInsert l) ;;
      match ins with
      | Err e => Ret (Err e)
      | Ok _ =>
        q <- queue_copy l (t_ref l) ;;
        qs <-? process_split cfg r ;;
        Ret (Ok (q :: qs))
      end
    end
  end.

(** updateSplitTransactions, transaction_queue.go:394-399. *)
Fixpoint update_split (i : nat) (legs : list txn) (parent ref : string) : list txn :=
  match legs with
  | [] => []
  | l :: r => with_keys l (t_id l) parent (ref ++ "_" ++ nat_str i) :: update_split (S i) r parent ref
  end.

(** enqueueTransactions, transaction_queue.go:413-428. *)
Fixpoint enqueue_all (l : list txn) : prog unit :=
  match l with
  | [] => Ret tt
  | t :: r => act (OEnqueue t) ;;; enqueue_all r
  end.

(** The goroutine of processTransactionAsync, transaction_queue.go:143-162: if
    processing fails the original object itself is enqueued (enqueueTransactions
    falls back to it when the list is empty). *)
Definition async_job (cfg : config) (j : job) : prog unit :=
  match j_legs j with
  | [] => pr <- process_single cfg (j_txn j) (j_ref j) ;;
          match pr with
          | (_, Ok q) => enqueue_all [q]
          | (t, Err _) => enqueue_all [t]
          end
  | legs => r <- process_split cfg (update_split 1 legs (j_id j) (j_ref j)) ;;
            match r with
            | Ok qs => enqueue_all qs
            | Err _ => enqueue_all [j_txn j]
            end
  end.

(** The environment's choices inside a split: map iteration orders. *)
Record split_env := { se_q : amap Q -> amap Q; se_z : amap Z -> amap Z; se_l : amap Z -> amap Z }.

(** The legs of SplitTransactionPrecise, model/transaction.go:421-460. The copies
    share the metadata map with the original. *)
Fixpoint make_legs (t : txn) (i : nat) (m : amap Z) : prog (list txn) :=
  match m with
  | [] => Ret []
  | (who, p) :: r =>
    id <- fresh "txn" ;;
    let l := with_keys (with_splits (with_money t p (convert_precise_to_decimal p (t_prec t)) (t_prec t)) [] [])
                       id (t_id t) (t_ref t ++ "-" ++ nat_str i) in
    let l := match t_sources t with
             | _ :: _ => with_ends l who (t_dst t)
             | [] => with_ends l (t_src t) who
             end in
    ls <- make_legs t (S i) r ;;
    Ret (l :: ls)
  end.

(** handleSplitTransactions / SplitTransactionPrecise, model/transaction.go:403-467. *)
Definition split_txn (e : split_env) (t : txn) : prog (res (list txn)) :=
  let ds := match t_sources t with [] => t_dests t | s => s end in
  match calculate_distributions (se_q e) (se_z e) (t_precise t) ds (t_prec t) with
  | None => Ret (Err ESplit)
  | Some m => ls <- make_legs t 1 (se_l e m) ;; Ret (Ok ls)
  end.

(** The asynchronous half of QueueTransaction, transaction_queue.go:99-109.
    [legs] share the metadata map, hence also get QUEUED_PARENT_TRANSACTION. *)
Definition queue_async (t : txn) (legs : list txn) (ref id : string) : prog (res txn) :=
  let q := if contains_bulk (t_parent t) then t_parent t else id in
  let t := with_qparent t q in
  act (OSpawn {| j_txn := t; j_legs := map (fun l => with_qparent l q) legs; j_ref := ref; j_id := id |}) ;;;
  Ret (Ok t).

(** QueueTransaction for a transaction without sources/destinations lists,
    transaction_queue.go:69-134 (the expiry/auto-commit tasks it may enqueue are
    covered by allowing commit and void requests at any time). *)
Definition queue_nosplit (cfg : config) (t : txn) : prog (res txn) :=
  let ref := t_ref t in
  t <- ensure_id (set_metadata t) ;;
  let t := set_status t in
  match calculate_distributions (fun m => m) (fun m => m) (t_precise t) [] (t_prec t) with
  | None => Ret (Err ESplit)
  | Some _ =>
    if t_skipq t then
      r <-? record_single cfg t ;;
      Ret (Ok (with_status t (if t_inflight t then SInflight else SApplied)))
    else queue_async t [] ref (t_id t)
  end.

(** ** Refunds *)

(** getOriginalTransactionForRefund, transaction_refunds.go:112-141. *)
Definition refund_original (id : string) : prog (res txn) :=
  t <- act (OGetTxn id) ;;
  match t with
  | Some t => Ret (Ok t)
  | None => q <- act (OFromQueue id) ;;
            match q with Some t => Ret (Ok t) | None => Ret (Err ETxnNotFound) end
  end.

(** prepareRefundTransaction, transaction_refunds.go:199-238. [upd] is the effect
    of the caller-supplied metadata on the keys the ledger reads. *)
Definition prepare_refund (t : txn) (nid : string) (skipq : bool) (upd : meta -> meta) : txn :=
  with_status
    (with_flags (with_ends (with_keys t nid (t_id t) (t_id t ++ "_refund")) (t_dst t) (t_src t))
       (match t_status t with SVoid => true | _ => false end) true skipq (t_atomic t) (upd (t_meta t)))
    SNone.

(** RefundTransactionWithOptions, transaction_refunds.go:259-298. *)
Definition refund (cfg : config) (id : string) (skipq : bool) (upd : meta -> meta) : prog (res txn) :=
  with_lock ("refund:" ++ id) (
    t <-? refund_original id ;;
    match t_status t with
    | SApplied | SVoid =>
      done <- act (ORefunded (t_id t) (t_src t) (t_dst t)) ;;
      if done then Ret (Err EAlreadyRefunded)
      else
        nid <- fresh "txn" ;;
        queue_nosplit cfg (prepare_refund t nid skipq upd)
    | _ => Ret (Err ENotRefundable)
    end).

(** ** Batches of holds and of refunds *)

Fixpoint for_each {A B} (f : A -> prog B) (l : list A) : prog (list B) :=
  match l with
  | [] => Ret []
  | x :: r => y <- f x ;; ys <- for_each f r ;; Ret (y :: ys)
  end.

(** RunInflightActionByParent, transaction_inflight.go:704-749, and the commit and
    void handlers built on ProcessTransactionInBatches: every hold under a parent.
    Simplification: one snapshot of the legs instead of pages. *)
Definition inflight_action (cfg : config) (parent : string) (is_void : bool) (amount : Z)
    (action_id : string) : prog (list (res txn)) :=
  legs <- act (OInflightBy parent) ;;
  for_each (fun l =>
      if negb (is_inflight l) then Ret (Err ENotInflight)
      else
        let ref := if String.eqb action_id "" then ""
                   else t_id l ++ "_" ++ (if is_void then "void" else "commit") ++ "_" ++ action_id in
        if is_void then void cfg (t_id l) ref else commit cfg (t_id l) amount ref) legs.

(** refundNonInflightBatchTransactions / refund handler, transaction_bulk.go:86-97. *)
Definition refund_batch (cfg : config) (parent : string) (skipq : bool) : prog (list (res txn)) :=
  ts <- act (ORefundable parent) ;;
  for_each (fun t => refund cfg (t_id t) skipq (fun m => m)) ts.

(** rollbackBatchTransactions, transaction_bulk.go:57-69. *)
Definition rollback_batch (cfg : config) (batch : string) (infl : bool) : prog (list (res txn)) :=
  if infl then inflight_action cfg batch true 0 "" else refund_batch cfg batch false.

(** ** QueueTransaction in full *)

(** Synchronous recording of the legs of a split, transaction_queue.go:237-252. *)
Fixpoint record_legs (cfg : config) (legs : list txn) (id : string) : prog (res unit) :=
  match legs with
  | [] => Ret (Ok tt)
  | l :: r =>
    x <- record_single cfg l ;;
    match x with
    | Ok _ => record_legs cfg r id
    | Err e => if t_atomic l then rollback_batch cfg id (t_inflight l) ;;; Ret (Err e)
               else Ret (Err e)
    end
  end.

(** QueueTransaction, transaction_queue.go:69-134. *)
Definition queue_transaction (cfg : config) (e : split_env) (t : txn) : prog (res txn) :=
  match t_sources t, t_dests t with
  | [], [] => queue_nosplit cfg t
  | _, _ =>
    let ref := t_ref t in
    t <- ensure_id (set_metadata t) ;;
    let t := set_status t in
    legs <-? split_txn e t ;;
    if t_skipq t then
      r <-? (match legs with
             | [] => x <-? record_single cfg t ;; Ret (Ok tt)
             | _ => record_legs cfg legs (t_id t)
             end) ;;
      Ret (Ok (with_status t (if t_inflight t then SInflight else SApplied)))
    else queue_async t legs ref (t_id t)
  end.

(** processBulkTransactions, transaction_bulk.go:32-53. *)
Fixpoint process_bulk (cfg : config) (e : split_env) (ts : list txn) (batch : string)
    (infl skipq : bool) : prog (res unit) :=
  match ts with
  | [] => Ret (Ok tt)
  | t :: r =>
    let t := with_keys (with_flags t infl (t_allow t) skipq (t_atomic t) (t_meta t))
                       (t_id t) batch (t_ref t) in
    x <- queue_transaction cfg e t ;;
    match x with
    | Ok _ => process_bulk cfg e r batch infl skipq
    | Err er => Ret (Err er)
    end
  end.

(** CreateBulkTransactions, transaction_bulk.go:172-271 (run_async only moves the
    same calls to the background). *)
Definition bulk (cfg : config) (e : split_env) (ts : list txn) (atomic infl skipq : bool) : prog (res string) :=
  batch <- fresh "bulk" ;;
  r <- process_bulk cfg e ts batch infl skipq ;;
  match r with
  | Ok _ => Ret (Ok batch)
  | Err er => if atomic then rollback_batch cfg batch infl ;;; Ret (Err er) else Ret (Err er)
  end.

(** ** The queue worker *)

(** RejectTransaction, transaction_rejection.go:34-83. *)
Definition reject (cfg : config) (t : txn) : prog (res txn) :=
  let t := with_status t SRejected in
  r <- act (OInsert t) ;;
  match r with
  | Err e => Ret (Err e)
  | Ok _ =>
    if t_atomic t then
      if String.eqb (m_qparent (t_meta t)) "" then Ret (Err EOther)
      else rollback_batch cfg (m_qparent (t_meta t)) (t_inflight t) ;;; Ret (Ok t)
    else Ret (Ok t)
  end.

(** canCoalesceQueuedOriginal, transaction_coalescing.go:567-592. *)
Definition can_coalesce_original (t : txn) : bool :=
  status_eqb (t_status t) SQueued && negb (t_atomic t || t_skipq t)
  && (match t_sources t, t_dests t with [], [] => true | _, _ => false end)
  && negb (t_sched t)
  && negb (String.eqb (t_src t) "" || String.eqb (t_dst t) "" || String.eqb (t_cur t) "").

(** canCoalesceQueuedTransaction, transaction_coalescing.go:537-565. *)
Definition can_coalesce (t : txn) : bool :=
  negb (String.eqb (t_parent t) "") && can_coalesce_original t.

(** restoreTransactionFlagsFromMetadata, transaction_coalescing.go:594-608. (A
    present key with value false leaves the flag false as well.) *)
Definition restore_flags (t : txn) : txn :=
  with_flags t (m_inflight (t_meta t) || t_inflight t) (m_allow (t_meta t) || t_allow t) (t_skipq t)
             (m_atomic (t_meta t) || t_atomic t) (t_meta t).

Inductive scope := ScPair | ScSource | ScDest.

(** WHERE clauses of the coalescing queries, database/transaction_coalescing.go:38-147.
    Simplification: created_at >= leader's and LIMIT are left to the environment,
    which picks the candidate ids. *)
Definition scope_filter (sc : scope) (leader t : txn) : bool :=
  String.eqb (t_cur t) (t_cur leader) && negb (String.eqb (t_id t) (t_parent leader)) &&
  match sc with
  | ScPair => String.eqb (t_src t) (t_src leader) && String.eqb (t_dst t) (t_dst leader)
  | ScSource => String.eqb (t_src t) (t_src leader)
  | ScDest => String.eqb (t_dst t) (t_dst leader)
  end.

Fixpoint copies (sibs : list txn) : prog (list txn) :=
  match sibs with
  | [] => Ret []
  | s :: r =>
    let s := restore_flags s in
    if can_coalesce_original s then
      c <- queue_copy s (t_ref s) ;; cs <- copies r ;; Ret (c :: cs)
    else copies r
  end.

(** buildQueuedCoalescingBatch, transaction_coalescing.go:302-345. [sel sc] = ids
    the query of scope sc may return, in order. *)
Fixpoint build_batch (leader : txn) (scs : list scope) (sel : scope -> list string) : prog (list txn) :=
  match scs with
  | [] => Ret []
  | sc :: r =>
    sibs <- act (OSiblings (scope_filter sc leader) (sel sc)) ;;
    cs <- copies sibs ;;
    match cs with
    | [] => build_batch leader r sel
    | _ => Ret (leader :: cs)
    end
  end.

(** loadBalancesForQueuedBatch, transaction_coalescing.go:428-459. *)
Fixpoint load_each (cfg : config) (ids : list string) : prog (res (list balance)) :=
  match ids with
  | [] => Ret (Ok [])
  | i :: r => b <-? get_balance cfg i ;; bs <-? load_each cfg r ;; Ret (Ok (b :: bs))
  end.
Definition load_balances (cfg : config) (ids : list string) : prog (res (list balance)) :=
  if c_queued cfg then load_each cfg ids
  else bs <- act (OGetBals ids) ;;
       if forallb (fun i => match get_bal i bs with Some _ => true | None => false end) ids
       then Ret (Ok bs) else Ret (Err EBalanceNotFound).

Fixpoint put_bal (b : balance) (l : list balance) : list balance :=
  match l with
  | [] => []
  | x :: r => if String.eqb (b_id x) (b_id b) then b :: r else x :: put_bal b r
  end.

(** UpdateBalances on the shared balance objects of a batch (source and
    destination may be the same object), model/model.go:467-496. *)
Definition update_shared (t : txn) (m : list balance) : res (txn * list balance) :=
  match get_bal (t_src t) m, get_bal (t_dst t) m with
  | Some src, Some _ =>
    let t := apply_precision_txn t in
    match validate_txn t with
    | Err e => Err e
    | Ok _ =>
      match can_process t src with
      | Err e => Err e
      | Ok _ =>
        let m1 := put_bal (compute_balance (add_debit src (t_precise t) (t_inflight t)) (t_inflight t)) m in
        match get_bal (t_dst t) m1 with
        | None => Err EBalanceNotFound
        | Some dst =>
          Ok (t, put_bal (compute_balance (add_credit dst (t_precise t) (t_inflight t)) (t_inflight t)) m1)
        end
      end
    end
  | _, _ => Err EBalanceNotFound
  end.

(** prepareQueuedBatchTransaction, transaction_coalescing.go:241-269. The status of
    every member is QUEUED, so updateTransactionDetails makes it APPLIED or
    INFLIGHT and applyTransactionToBalances takes the UpdateBalances branch. *)
Definition prepare_member (t : txn) (m : list balance) : res (kind * txn * option outbox_entry * list balance) :=
  let f := with_status t (final_status t) in
  match update_shared f m with
  | Err e => Err e
  | Ok (f1, m') =>
    match get_bal (t_src f1) m', get_bal (t_dst f1) m' with
    | Some src, Some dst =>
      let f2 := update_details f1 src dst in
      if t_precise f2 =? 0 then Err EOther
      else Ok (kind_of f, clear_terminal f2, prepare_outbox f2 src dst, m')
    | _, _ => Err EBalanceNotFound
    end
  end.

(** The loop of persistQueuedTransactionBatchLocked, transaction_coalescing.go:200-213,
    with validateQueuedBatchTransactionReference 496-531. *)
Fixpoint prepare_members (cfg : config) (ts : list txn) (existing seen : list string) (m : list balance)
    : prog (res (list (kind * txn) * list outbox_entry * list balance)) :=
  match ts with
  | [] => Ret (Ok ([], [], m))
  | t :: r =>
    if String.eqb (t_ref t) "" then Ret (Err EOther)
    else if mem_string (t_ref t) seen || mem_string (t_ref t) existing then Ret (Err EDupReference)
    else
      used <- (if c_refcheck cfg then Ret false else act (ORefExists (t_ref t))) ;;
      if (used : bool) then Ret (Err EDupReference)
      else
        match prepare_member t m with
        | Err e => Ret (Err e)
        | Ok (k, t', ob, m') =>
          x <-? prepare_members cfg r existing (t_ref t :: seen) m' ;;
          let '(ks, obs, m'') := x in
          Ret (Ok ((k, t') :: ks, (opt_list ob ++ obs)%list, m''))
        end
  end.

(** persistQueuedTransactionBatchLocked, transaction_coalescing.go:178-220. *)
Definition batch_locked (cfg : config) (ids : list string) (ts : list txn) : prog (res unit) :=
  m <-? load_balances cfg ids ;;
  existing <- (if c_refcheck cfg then act (ORefsExist (map t_ref ts)) else Ret []) ;;
  x <-? prepare_members cfg ts existing [] m ;;
  let '(ks, obs, m') := x in
  act (OPersistBatch ks m' obs).

Fixpoint batch_ids (ts : list txn) : list string :=
  match ts with [] => [] | t :: r => t_src t :: t_dst t :: batch_ids r end.

(** persistQueuedTransactionBatch, transaction_coalescing.go:129-157. *)
Definition persist_queued_batch (cfg : config) (ts : list txn) : prog (res unit) :=
  match ts with
  | [] => Ret (Ok tt)
  | t :: r =>
    if negb (forallb (fun x => String.eqb (t_cur x) (t_cur t)) r) then Ret (Err EOther)
    else
      let ids := lock_set (batch_ids ts) in
      ok <- wait_lock (c_lock_attempts cfg) ids ;;
      if ok then
        x <- batch_locked cfg ids ts ;;
        unlock_keys (rev ids) ;;;
        Ret x
      else Ret (Err ELockHeld)
  end.

(** tryRecordQueuedTransactionBatch, transaction_coalescing.go:45-125. [force]: hot lane. *)
Definition try_batch (cfg : config) (force : bool) (sel : scope -> list string) (t : txn) : prog bool :=
  if negb (can_coalesce t) then Ret false
  else if negb (force || c_coalesce cfg) then Ret false
  else
    b <- build_batch t [ScPair; ScSource; ScDest] sel ;;
    match b with
    | [] => Ret false
    | _ => r <- persist_queued_batch cfg b ;; Ret (is_ok r)
    end.

(** executeTransactionPlan in a queued mode, transaction_execution.go:399-444. *)
Definition process_queued (cfg : config) (hot : bool) (sel : scope -> list string) (t : txn) : prog (res txn) :=
  h <- try_batch cfg hot sel t ;;
  if h then Ret (Ok t) else record_single cfg t.

(** What the worker does with a processing error, cmd/workers.go:85-142. *)
Inductive verdict := VDone | VReject | VRetry.
Definition max_reached (cfg : config) (retry : Z) : bool :=
  if c_max_retry cfg <=? 0 then false else c_max_retry cfg <=? retry.
Definition worker_verdict (cfg : config) (e : err) (retry : Z) : verdict :=
  match e with
  | EDupReference => VDone
  | EInsufficient => if negb (c_funds_retry cfg) then VReject
                     else if max_reached cfg retry then VReject else VRetry
  | EOverdraftLimit => VReject
  | ELockHeld => if c_reject_lock cfg then VReject
                 else if max_reached cfg retry then VReject else VRetry
  | _ => if max_reached cfg retry then VReject else VRetry
  end.

(** processTransaction, cmd/workers.go:61-152. [retry] is asynq's retry counter;
    on VRetry the task goes back to the queue (it is never removed in the model). *)
Definition worker (cfg : config) (hot : bool) (sel1 sel2 : scope -> list string) (retry : Z) (t : txn) : prog verdict :=
  h1 <- try_batch cfg false sel1 t ;;
  h <- (if hot then try_batch cfg true sel1 t else Ret h1) ;;
  if (h : bool) then Ret VDone
  else
    r <- process_queued cfg hot sel2 t ;;
    match r with
    | Ok _ => Ret VDone
    | Err e =>
      match worker_verdict cfg e retry with
      | VReject => x <- reject cfg t ;;
                   match x with Ok _ => Ret VReject | Err _ => Ret VRetry end
      | v => Ret v
      end
    end.

(** processStuckTransaction, queue_recovery.go:160-224, for the row [id].
    [exhausted]: recovery_attempts exceeded; [skip]: a sibling of its atomic group
    is rejected (both read from metadata/rows not modelled, chosen by the
    environment). *)
Definition recover (cfg : config) (hot : bool) (sel : scope -> list string) (exhausted skip : bool)
    (id : string) : prog (res unit) :=
  ts <- act (OSiblings (fun _ => true) [id]) ;;
  match ts with
  | [] => Ret (Ok tt)
  | t :: _ =>
    let t := restore_flags (apply_precision_txn t) in
    if exhausted then
      c <- queue_copy t (t_ref t) ;;
      r <- reject cfg c ;;
      match r with
      | Ok _ | Err EDupReference => Ret (Ok tt)
      | Err e => Ret (Err e)
      end
    else if t_atomic t && skip then Ret (Ok tt)
    else
      c <- queue_copy t (t_ref t) ;;
      r <- process_queued cfg hot sel c ;;
      match r with
      | Ok _ | Err EDupReference => Ret (Ok tt)
      | Err e => Ret (Err e)
      end
  end.

(** CreateBalance through the API, balance.go and database/balance.go:203-278. *)
Definition new_balance (ind cur : string) (recon track : bool) : prog (res string) :=
  id <- fresh "bln" ;;
  r <- act (OCreateBal id ind cur recon track) ;;
  match r with Ok _ => Ret (Ok id) | Err e => Ret (Err e) end.
