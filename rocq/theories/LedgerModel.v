(** Database tables, Redis locks and queue, and the atomic operations on them.
    One [op] = one SQL statement, one SQL transaction, or one Redis command. *)
From Coq Require Import ZArith QArith List String Bool.
From Verif Require Import Base MoneyModel SplitModel BalanceModel.
Import ListNotations.
Open Scope Z_scope.

(** How a row of blnk.transactions came to be. Ghost information: it is recorded
    for the specifications and never read by the modelled code. *)
Inductive kind := KPost | KHold | KCommit | KVoid | KNone.

(** A row of blnk.transactions. [r_t] is the transaction object handed to the
    INSERT; readers only see the columns (see [db_view]). *)
Record row := { r_t : txn; r_kind : kind }.

(** What a SELECT returns: inflight, allow_overdraft, overdraft_limit, skip_queue,
    atomic, sources, destinations are not columns
    (database/transaction.go:56-60, database/transaction_queries.go:40-52). *)
Definition db_view (m : meta) (t : txn) : txn :=
  {| t_id := t_id t; t_parent := t_parent t; t_src := t_src t; t_dst := t_dst t; t_ref := t_ref t;
     t_cur := t_cur t; t_status := t_status t; t_precise := t_precise t; t_amount := t_amount t;
     t_prec := t_prec t; t_inflight := false; t_allow := false; t_limit := 0%Q; t_skipq := false;
     t_atomic := false; t_sched := t_sched t; t_meta := m; t_sources := []; t_dests := [] |}.

(** GetTransaction does not select scheduled_for, database/transaction_queries.go:40-52. *)
Definition db_view_get (m : meta) (t : txn) : txn :=
  let v := db_view m t in
  {| t_id := t_id v; t_parent := t_parent v; t_src := t_src v; t_dst := t_dst v; t_ref := t_ref v;
     t_cur := t_cur v; t_status := t_status v; t_precise := t_precise v; t_amount := t_amount v;
     t_prec := t_prec v; t_inflight := t_inflight v; t_allow := t_allow v; t_limit := t_limit v;
     t_skipq := t_skipq v; t_atomic := t_atomic v; t_sched := false; t_meta := t_meta v;
     t_sources := []; t_dests := [] |}.

(** A lineage outbox entry (the columns the ledger model needs), lineage_outbox.go:85-96. *)
Record outbox_entry := { o_txn : string; o_src : string; o_dst : string; o_provider : string;
                         o_credit : bool; o_debit : bool; o_amount : Z; o_inflight : bool }.

(** Configuration read by the modelled code, config/config.go. *)
Record config := {
  c_queued : bool;          (* Transaction.EnableQueuedChecks *)
  c_lock_attempts : nat;    (* extra lock attempts within LockWaitTimeout *)
  c_coalesce : bool;        (* Transaction.EnableCoalescing and BatchSize >= 2 *)
  c_refcheck : bool;        (* not Transaction.DisableBatchReferenceCheck *)
  c_funds_retry : bool;     (* Queue.InsufficientFundRetries *)
  c_reject_lock : bool;     (* Queue.RejectLockContentionImmediately *)
  c_max_retry : Z }.        (* Queue.MaxRetryAttempts *)

(** The shared state. [s_txns] is newest first. [s_uuid]/[s_ctr]: the n-th
    generated UUID is [s_uuid n]; nothing is assumed about the function.
    [s_queue] holds every task payload ever enqueued (delivery is at least
    once and in any order, so nothing is ever removed). [s_jobs] are the
    background goroutines started by processTransactionAsync that have not run
    yet (transaction_queue.go:136-163). [s_meta]: meta_data is the one mutable
    column of a transaction row the model reads; the list holds the later
    values, newest first (database/metadata.go). [s_owner] (which thread generated
    the i-th UUID) and [s_spawned] (every goroutine ever started) are ghost
    information, never read by the modelled code. *)
Record job := { j_txn : txn; j_legs : list txn; j_ref : string; j_id : string }.

Record state := {
  s_bals : list balance; s_txns : list row; s_locks : list (string * nat);
  s_queue : list txn; s_outbox : list outbox_entry; s_jobs : list job;
  s_meta : list (string * meta); s_uuid : nat -> string; s_ctr : nat;
  s_owner : list (nat * nat); s_spawned : list job }.

Definition set_bals (s : state) b :=
  {| s_bals := b; s_txns := s_txns s; s_locks := s_locks s; s_queue := s_queue s; s_outbox := s_outbox s; s_jobs := s_jobs s; s_meta := s_meta s; s_uuid := s_uuid s; s_ctr := s_ctr s; s_owner := s_owner s; s_spawned := s_spawned s |}.
Definition set_locks (s : state) l :=
  {| s_bals := s_bals s; s_txns := s_txns s; s_locks := l; s_queue := s_queue s; s_outbox := s_outbox s; s_jobs := s_jobs s; s_meta := s_meta s; s_uuid := s_uuid s; s_ctr := s_ctr s; s_owner := s_owner s; s_spawned := s_spawned s |}.
Definition set_queue (s : state) q :=
  {| s_bals := s_bals s; s_txns := s_txns s; s_locks := s_locks s; s_queue := q; s_outbox := s_outbox s; s_jobs := s_jobs s; s_meta := s_meta s; s_uuid := s_uuid s; s_ctr := s_ctr s; s_owner := s_owner s; s_spawned := s_spawned s |}.
Definition set_jobs (s : state) j :=
  {| s_bals := s_bals s; s_txns := s_txns s; s_locks := s_locks s; s_queue := s_queue s; s_outbox := s_outbox s; s_jobs := j; s_meta := s_meta s; s_uuid := s_uuid s; s_ctr := s_ctr s; s_owner := s_owner s; s_spawned := s_spawned s |}.
Definition add_job (s : state) j :=
  {| s_bals := s_bals s; s_txns := s_txns s; s_locks := s_locks s; s_queue := s_queue s; s_outbox := s_outbox s; s_jobs := j :: s_jobs s; s_meta := s_meta s; s_uuid := s_uuid s; s_ctr := s_ctr s; s_owner := s_owner s; s_spawned := j :: s_spawned s |}.
Definition set_meta (s : state) m :=
  {| s_bals := s_bals s; s_txns := s_txns s; s_locks := s_locks s; s_queue := s_queue s; s_outbox := s_outbox s; s_jobs := s_jobs s; s_meta := m; s_uuid := s_uuid s; s_ctr := s_ctr s; s_owner := s_owner s; s_spawned := s_spawned s |}.
Definition set_ctr (s : state) c o :=
  {| s_bals := s_bals s; s_txns := s_txns s; s_locks := s_locks s; s_queue := s_queue s; s_outbox := s_outbox s; s_jobs := s_jobs s; s_meta := s_meta s; s_uuid := s_uuid s; s_ctr := c; s_owner := o; s_spawned := s_spawned s |}.
Definition set_db (s : state) b t o :=
  {| s_bals := b; s_txns := t; s_locks := s_locks s; s_queue := s_queue s; s_outbox := o; s_jobs := s_jobs s; s_meta := s_meta s; s_uuid := s_uuid s; s_ctr := s_ctr s; s_owner := s_owner s; s_spawned := s_spawned s |}.

(** Current meta_data of a transaction row. *)
Fixpoint meta_of (ov : list (string * meta)) (t : txn) : meta :=
  match ov with
  | [] => t_meta t
  | (i, m) :: r => if String.eqb i (t_id t) then m else meta_of r t
  end.

(** ** Lookups *)
Fixpoint get_bal (id : string) (l : list balance) : option balance :=
  match l with
  | [] => None
  | b :: r => if String.eqb (b_id b) id then Some b else get_bal id r
  end.

Fixpoint get_bal_ind (ind cur : string) (l : list balance) : option balance :=
  match l with
  | [] => None
  | b :: r => if String.eqb (b_ind b) ind && String.eqb (b_cur b) cur then Some b
              else get_bal_ind ind cur r
  end.

Fixpoint get_row (id : string) (l : list row) : option txn :=
  match l with
  | [] => None
  | x :: r => if String.eqb (t_id (r_t x)) id then Some (r_t x) else get_row id r
  end.

Definition ref_exists (ref : string) (l : list row) : bool :=
  existsb (fun x => String.eqb (t_ref (r_t x)) ref) l.
Definition id_exists (id : string) (l : list row) : bool :=
  existsb (fun x => String.eqb (t_id (r_t x)) id) l.

(** IsParentTransactionVoid, database/transaction_queries.go:93-123. *)
Definition parent_void (id : string) (l : list row) : bool :=
  existsb (fun x => String.eqb (t_parent (r_t x)) id && status_eqb (t_status (r_t x)) SVoid) l.

(** GetTotalCommittedTransactions, database/transaction_inflight.go:31-72. *)
Definition total_committed (id : string) (l : list row) : Z :=
  sumz (fun x => if String.eqb (t_parent (r_t x)) id && status_eqb (t_status (r_t x)) SApplied
                 then t_precise (r_t x) else 0) l.

(** IsTransactionRefunded, database/transaction_queue.go:227-252. *)
Definition refund_exists (id src dst : string) (l : list row) : bool :=
  existsb (fun x => String.eqb (t_parent (r_t x)) id && String.eqb (t_src (r_t x)) dst
                    && String.eqb (t_dst (r_t x)) src) l.

Definition has_child (id : string) (l : list row) : bool :=
  existsb (fun x => String.eqb (t_parent (r_t x)) id) l.

Definition terminal_child_status (s : status) : bool :=
  match s with SApplied | SRejected | SVoid | SInflight => true | _ => false end.

(** GetQueuedAmounts (debit side), database/transaction_queue.go:34-55. *)
Definition queued_debit (id : string) (l : list row) : Z :=
  sumz (fun x => if String.eqb (t_src (r_t x)) id && status_eqb (t_status (r_t x)) SQueued
                    && negb (existsb (fun c => String.eqb (t_parent (r_t c)) (t_id (r_t x))
                                               && terminal_child_status (t_status (r_t c))) l)
                 then t_precise (r_t x) else 0) l.

(** Sums used by the reconciliation trigger, sql/1742101752.sql:34-46. *)
Definition applied_debit (id : string) (l : list row) : Z :=
  sumz (fun x => if String.eqb (t_src (r_t x)) id && status_eqb (t_status (r_t x)) SApplied
                 then t_precise (r_t x) else 0) l.
Definition applied_credit (id : string) (l : list row) : Z :=
  sumz (fun x => if String.eqb (t_dst (r_t x)) id && status_eqb (t_status (r_t x)) SApplied
                 then t_precise (r_t x) else 0) l.

(** reconcile_balance_from_transactions, sql/1742101752.sql:19-72: BEFORE UPDATE
    trigger on blnk.balances; [b] is NEW, [l] the transactions table. *)
Definition recon_trigger (l : list row) (b : balance) : balance :=
  if b_recon b then
    {| b_id := b_id b; b_ind := b_ind b; b_cur := b_cur b;
       b_bal := applied_credit (b_id b) l - applied_debit (b_id b) l;
       b_cr := applied_credit (b_id b) l; b_db := applied_debit (b_id b) l;
       b_ibal := b_ibal b; b_icr := b_icr b; b_idb := b_idb b;
       b_queued := b_queued b; b_ver := b_ver b; b_recon := false; b_track := b_track b |}
  else b.

(** The row after UPDATE ... SET balance.., version = version + 1
    (database/balance.go:878-882, 951-963), before triggers. meta_data,
    indicator and track_fund_lineage are not in the SET list; currency,
    ledger_id and created_at are written back as read and left out here. *)
Definition upd_row (old w : balance) : balance :=
  {| b_id := b_id old; b_ind := b_ind old; b_cur := b_cur old;
     b_bal := b_bal w; b_cr := b_cr w; b_db := b_db w;
     b_ibal := b_ibal w; b_icr := b_icr w; b_idb := b_idb w;
     b_queued := None; b_ver := b_ver old + 1; b_recon := b_recon old; b_track := b_track old |}.

(** updateBalance, database/balance.go:876-908: UPDATE guarded by the version.
    None = 0 rows affected (optimistic locking failure). *)
Fixpoint update_balance (rows : list row) (w : balance) (l : list balance) : option (list balance) :=
  match l with
  | [] => None
  | b :: r =>
    if String.eqb (b_id b) (b_id w) then
      if b_ver b =? b_ver w then Some (recon_trigger rows (upd_row b w) :: r) else None
    else match update_balance rows w r with None => None | Some r' => Some (b :: r') end
  end.

(** updateBalanceSet, database/balance.go:910-944. The distinct balances of a
    batch, one guarded UPDATE each (the code sends one statement per 500). *)
Fixpoint update_balance_set (rows : list row) (ws : list balance) (l : list balance) : option (list balance) :=
  match ws with
  | [] => Some l
  | w :: r => match update_balance rows w l with
              | None => None
              | Some l' => update_balance_set rows r l'
              end
  end.

(** INSERT INTO blnk.transactions: primary/unique constraints on transaction_id
    (sql/1708676327.sql) and reference (sql/1770611011.sql:17-19), foreign keys
    on source and destination. *)
Definition insert_txn (k : kind) (t : txn) (bals : list balance) (l : list row) : res (list row) :=
  if ref_exists (t_ref t) l then Err EDupReference
  else if id_exists (t_id t) l then Err EDupId
  else match get_bal (t_src t) bals, get_bal (t_dst t) bals with
       | Some _, Some _ => Ok ({| r_t := t; r_kind := k |} :: l)
       | _, _ => Err EForeignKey
       end.

Fixpoint insert_txns (ts : list (kind * txn)) (bals : list balance) (l : list row) : res (list row) :=
  match ts with
  | [] => Ok l
  | (k, t) :: r => match insert_txn k t bals l with
                   | Err e => Err e
                   | Ok l' => insert_txns r bals l'
                   end
  end.

Definition opt_list {A} (o : option A) : list A := match o with Some a => [a] | None => [] end.

(** RecordTransactionWithBalancesAndOutbox, database/transaction.go:261-315: one SQL transaction. *)
Definition persist_single (k : kind) (t : txn) (src dst : balance) (ob : option outbox_entry)
    (s : state) : state * res unit :=
  match update_balance (s_txns s) src (s_bals s) with
  | None => (s, Err EConflict)
  | Some b1 =>
    match update_balance (s_txns s) dst b1 with
    | None => (s, Err EConflict)
    | Some b2 =>
      match insert_txn k t b2 (s_txns s) with
      | Err e => (s, Err e)
      | Ok l => (set_db s b2 l (opt_list ob ++ s_outbox s), Ok tt)
      end
    end
  end.

(** RecordTransactionsWithBalanceSetAndOutboxes, database/transaction.go:326-367. *)
Definition persist_batch (ts : list (kind * txn)) (ws : list balance) (obs : list outbox_entry)
    (s : state) : state * res unit :=
  match update_balance_set (s_txns s) ws (s_bals s) with
  | None => (s, Err EConflict)
  | Some b =>
    match insert_txns ts b (s_txns s) with
    | Err e => (s, Err e)
    | Ok l => (set_db s b l (rev obs ++ s_outbox s), Ok tt)
    end
  end.

(** CreateBalance, database/balance.go:203-278, unique (indicator, currency)
    sql/1748323024.sql. A NULL indicator (empty string) never conflicts. *)
Definition create_balance (b : balance) (s : state) : state * res unit :=
  match get_bal (b_id b) (s_bals s) with
  | Some _ => (s, Err EConflict)
  | None =>
    if negb (String.eqb (b_ind b) "") &&
       match get_bal_ind (b_ind b) (b_cur b) (s_bals s) with Some _ => true | None => false end
    then (s, Err EConflict)
    else (set_bals s (b :: s_bals s), Ok tt)
  end.

Definition fresh_balance (id ind cur : string) (recon track : bool) : balance :=
  {| b_id := id; b_ind := ind; b_cur := cur; b_bal := 0; b_cr := 0; b_db := 0; b_ibal := 0;
     b_icr := 0; b_idb := 0; b_queued := None; b_ver := 0; b_recon := recon; b_track := track |}.

(** UPDATE blnk.balances SET meta_data = ..., database/metadata.go:78: with the
    reconciliation flag set the trigger recomputes the row. *)
Fixpoint reconcile_balance (id : string) (rows : list row) (l : list balance) : list balance :=
  match l with
  | [] => []
  | b :: r => if String.eqb (b_id b) id then
                recon_trigger rows {| b_id := b_id b; b_ind := b_ind b; b_cur := b_cur b;
                   b_bal := b_bal b; b_cr := b_cr b; b_db := b_db b; b_ibal := b_ibal b;
                   b_icr := b_icr b; b_idb := b_idb b; b_queued := b_queued b; b_ver := b_ver b;
                   b_recon := true; b_track := b_track b |} :: r
              else b :: reconcile_balance id rows r
  end.

(** Redis SET NX / compare-and-delete, internal/lock/lock.go:87-122. The lock
    value is a fresh UUID per lock object; here it is the thread number. *)
Fixpoint lock_owner (k : string) (l : list (string * nat)) : option nat :=
  match l with
  | [] => None
  | (k', o) :: r => if String.eqb k k' then Some o else lock_owner k r
  end.
Fixpoint del_lock (k : string) (l : list (string * nat)) : list (string * nat) :=
  match l with
  | [] => []
  | (k', o) :: r => if String.eqb k k' then del_lock k r else (k', o) :: del_lock k r
  end.

(** Rows a coalescing query or the recovery sweep may return
    (database/transaction_coalescing.go:38-52, database/transaction_recovery.go:39-50):
    QUEUED without any child. *)
Definition is_stuck (l : list row) (t : txn) : bool :=
  status_eqb (t_status t) SQueued && negb (has_child (t_id t) l).

Fixpoint pick_rows (ov : list (string * meta)) (p : txn -> bool) (sel : list string) (l : list row) : list txn :=
  match sel with
  | [] => []
  | id :: r => match get_row id l with
               | Some t => if is_stuck l t && p t then db_view (meta_of ov t) t :: pick_rows ov p r l
                           else pick_rows ov p r l
               | None => pick_rows ov p r l
               end
  end.

(** GetInflightTransactionsByParentID, database/transaction_grouping.go:335-378
    (all pages at once, newest first). *)
Definition inflight_by_parent (ov : list (string * meta)) (id : string) (l : list row) : list txn :=
  let v := map (fun x => db_view (meta_of ov (r_t x)) (r_t x)) l in
  let infl := filter (fun t => (String.eqb (t_id t) id || String.eqb (t_parent t) id
                                || String.eqb (m_qparent (t_meta t)) id)
                               && status_eqb (t_status t) SInflight) v in
  match infl with
  | [] => filter (fun t => (String.eqb (t_id t) id || String.eqb (t_parent t) id)
                           && status_eqb (t_status t) SQueued && m_inflight (t_meta t)
                           && negb (existsb (fun r => String.eqb (t_ref (r_t r)) (t_ref t ++ "_q")
                                                      && status_eqb (t_status (r_t r)) SRejected) l)
                           && negb (existsb (fun c => String.eqb (t_parent (r_t c)) (t_id t)
                                                      && status_eqb (t_status (r_t c)) SInflight) l)) v
  | _ => infl
  end.

(** GetRefundableTransactionsByParentID, database/transaction_refunds.go:32-57
    (all pages at once, newest first). *)
Definition refundable_by_parent (ov : list (string * meta)) (id : string) (l : list row) : list txn :=
  filter (fun t => (String.eqb (t_id t) id && status_eqb (t_status t) SApplied)
                   || (String.eqb (t_parent t) id
                       && (status_eqb (t_status t) SApplied || status_eqb (t_status t) SVoid))
                   || (status_eqb (t_status t) SApplied && String.eqb (m_qparent (t_meta t)) id))
         (map (fun x => db_view (meta_of ov (r_t x)) (r_t x)) l).

(** ** Atomic operations *)
Inductive op :=
| OFresh                                   (* uuid.New *)
| OGetBal (id : string)                    (* GetBalanceByIDLite / GetBalanceByID *)
| OGetBals (ids : list string)             (* GetBalancesByIDsLite: one SELECT *)
| OGetInd (ind cur : string)               (* GetBalanceByIndicator *)
| OQueued (id : string)                    (* GetQueuedAmounts *)
| OCreateBal (id ind cur : string) (recon track : bool)  (* CreateBalance *)
| OLock (k : string)                       (* SET NX *)
| OUnlock (k : string)                     (* Lua compare-and-delete *)
| ORefExists (r : string)                  (* TransactionExistsByRef *)
| ORefsExist (rs : list string)            (* GetExistingTransactionReferences *)
| OGetTxn (id : string)                    (* GetTransaction *)
| OVoided (id : string)                    (* IsParentTransactionVoid *)
| OCommitted (id : string)                 (* GetTotalCommittedTransactions *)
| ORefunded (id src dst : string)          (* IsTransactionRefunded *)
| OSiblings (p : txn -> bool) (sel : list string) (* coalescing / recovery queries; [sel] is the
                                              order (and LIMIT/created_at choice) of the query *)
| OInflightBy (id : string)                (* GetInflightTransactionsByParentID *)
| ORefundable (id : string)                (* GetRefundableTransactionsByParentID *)
| OInsert (t : txn)                        (* RecordTransaction (plain INSERT) *)
| OPersist (k : kind) (t : txn) (src dst : balance) (ob : option outbox_entry)
| OPersistBatch (ts : list (kind * txn)) (ws : list balance) (obs : list outbox_entry)
| OEnqueue (t : txn)                       (* asynq enqueue *)
| OFromQueue (id : string)                 (* GetTransactionFromQueue *)
| OSpawn (j : job)                         (* go func() in processTransactionAsync *)
| OSetMeta (id : string) (m : meta)        (* UPDATE transactions SET meta_data *)
| OReconcile (id : string).                (* metadata update with the reconciliation flag *)

Definition resp (o : op) : Type :=
  match o with
  | OFresh => string
  | OGetBal _ | OGetInd _ _ => option balance
  | OGetBals _ => list balance
  | OQueued _ | OCommitted _ => Z
  | OCreateBal _ _ _ _ _ => res unit
  | OLock _ | OUnlock _ | ORefExists _ | OVoided _ | ORefunded _ _ _ => bool
  | OGetTxn _ | OFromQueue _ => option txn
  | OSiblings _ _ | OInflightBy _ | ORefundable _ => list txn
  | ORefsExist _ => list string
  | OInsert _ | OPersist _ _ _ _ _ | OPersistBatch _ _ _ => res unit
  | OEnqueue _ | OReconcile _ | OSpawn _ | OSetMeta _ _ => unit
  end.

Fixpoint get_bals (ids : list string) (l : list balance) : list balance :=
  match ids with
  | [] => []
  | i :: r => match get_bal i l with Some b => b :: get_bals r l | None => get_bals r l end
  end.

Fixpoint queue_find (id : string) (l : list txn) : option txn :=
  match l with
  | [] => None
  | t :: r => if String.eqb (t_id t) id then Some t else queue_find id r
  end.

Definition exec (tid : nat) (o : op) (s : state) : state * resp o :=
  match o return state * resp o with
  | OFresh => (set_ctr s (S (s_ctr s)) ((s_ctr s, tid) :: s_owner s), s_uuid s (s_ctr s))
  | OGetBal id => (s, get_bal id (s_bals s))
  | OGetBals ids => (s, get_bals ids (s_bals s))
  | OGetInd ind cur => (s, get_bal_ind ind cur (s_bals s))
  | OQueued id => (s, queued_debit id (s_txns s))
  | OCreateBal id ind cur recon track => create_balance (fresh_balance id ind cur recon track) s
  | OLock k => match lock_owner k (s_locks s) with
               | Some _ => (s, false)
               | None => (set_locks s ((k, tid) :: s_locks s), true)
               end
  | OUnlock k => match lock_owner k (s_locks s) with
                 | Some o => if Nat.eqb o tid then (set_locks s (del_lock k (s_locks s)), true)
                             else (s, false)
                 | None => (s, false)
                 end
  | ORefExists r => (s, ref_exists r (s_txns s))
  | OGetTxn id => (s, match get_row id (s_txns s) with Some t => Some (db_view_get (meta_of (s_meta s) t) t) | None => None end)
  | OVoided id => (s, parent_void id (s_txns s))
  | OCommitted id => (s, total_committed id (s_txns s))
  | ORefunded id src dst => (s, refund_exists id src dst (s_txns s))
  | OSiblings p sel => (s, pick_rows (s_meta s) p sel (s_txns s))
  | OInflightBy id => (s, inflight_by_parent (s_meta s) id (s_txns s))
  | ORefundable id => (s, refundable_by_parent (s_meta s) id (s_txns s))
  | ORefsExist rs => (s, filter (fun r => ref_exists r (s_txns s)) rs)
  | OInsert t => match insert_txn KNone t (s_bals s) (s_txns s) with
                 | Err e => (s, Err e)
                 | Ok l => (set_db s (s_bals s) l (s_outbox s), Ok tt)
                 end
  | OPersist k t src dst ob => persist_single k t src dst ob s
  | OPersistBatch ts ws obs => persist_batch ts ws obs s
  | OEnqueue t => (set_queue s (t :: s_queue s), tt)
  | OFromQueue id => (s, queue_find id (s_queue s))
  | OSpawn j => (add_job s j, tt)
  | OSetMeta id m => (set_meta s ((id, m) :: s_meta s), tt)
  | OReconcile id => (set_bals s (reconcile_balance id (s_txns s) (s_bals s)), tt)
  end.

(** ** Programs: trees of atomic operations *)
Inductive prog (A : Type) : Type :=
| Ret (a : A)
| Do (o : op) (k : resp o -> prog A).
Arguments Ret {A}. Arguments Do {A}.

Fixpoint bind {A B} (p : prog A) (f : A -> prog B) : prog B :=
  match p with
  | Ret a => f a
  | Do o k => Do o (fun x => bind (k x) f)
  end.

Definition act (o : op) : prog (resp o) := Do o (fun x => Ret x).

(** Sequential execution. *)
Fixpoint run {A} (tid : nat) (p : prog A) (s : state) : state * A :=
  match p with
  | Ret a => (s, a)
  | Do o k => let '(s', x) := exec tid o s in run tid (k x) s'
  end.

(** Execution killed after at most [n] operations (None = killed before the end). *)
Fixpoint run_crash {A} (tid : nat) (n : nat) (p : prog A) (s : state) : state * option A :=
  match p with
  | Ret a => (s, Some a)
  | Do o k => match n with
              | O => (s, None)
              | S m => let '(s', x) := exec tid o s in run_crash tid m (k x) s'
              end
  end.

Declare Scope prog_scope.
Delimit Scope prog_scope with prog.
Notation "x <- p ;; q" := (bind p (fun x => q)) (at level 61, p at next level, right associativity) : prog_scope.
Notation "p ;;; q" := (bind p (fun _ => q)) (at level 61, right associativity) : prog_scope.

(** Result-passing bind: continue on Ok, return the error otherwise. *)
Definition bindr {A B} (p : prog (res A)) (f : A -> prog (res B)) : prog (res B) :=
  bind p (fun r => match r with Ok a => f a | Err e => Ret (Err e) end).
Notation "x <-? p ;; q" := (bindr p (fun x => q)) (at level 61, p at next level, right associativity) : prog_scope.
