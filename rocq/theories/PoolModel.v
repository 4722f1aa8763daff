(** Bulk commit and void of holds: BulkInflightUpdate's worker pool, the stable error
    codes, and the response built by the API. *)
From Coq Require Import ZArith List String Ascii Bool.
From Verif Require Import Base BalanceModel LedgerModel LedgerProgs ConcModel WorkModel.
Import ListNotations.
Open Scope Z_scope.
Open Scope prog_scope.

(** BulkInflightAction, transaction_inflight.go:881-888; an [int] in the code, so any
    other number is possible too. *)
Inductive action := AVoid | ACommit | AOther (n : Z).

(** BulkInflightItem, transaction_inflight.go:890-895 (for void the amount is unused;
    nil and 0 both mean all that remains). *)
Record item := { i_id : string; i_amount : Z }.

(** BulkInflightOutcome, transaction_inflight.go:897-905. *)
Record outcome := { x_id : string; x_txn : option txn; x_err : option err; x_code : string }.

(** The zero value a freshly made slice is filled with, transaction_inflight.go:977. *)
Definition blank : outcome := {| x_id := ""; x_txn := None; x_err := None; x_code := "" |}.

(** strings.Contains. *)
Fixpoint contains (p s : string) : bool :=
  prefix p s || match s with EmptyString => false | String _ r => contains p r end.

(** The text of the errors a commit or void can return: the messages are quoted in
    Base.v; [id] is the id of the request and [cur] the currency of the transaction.
    Simplified: the amounts printed by EOverCommit are left out, as are the prefixes
    added by logAndRecordError; a lock refused on the balances instead of the hold has a
    text starting in the same way (transaction_execution.go:639); errors that carry other
    ids or texts of the database driver are shown without them. *)
Definition text (a : action) (id cur : string) (e : err) : string :=
  match e with
  | ETxnNotFound => "NOT_FOUND: Transaction with ID '" ++ id ++ "' not found"
  | EBalanceNotFound => "NOT_FOUND: Balance with ID '' not found"
  | ELockHeld => match a with
                 | AVoid => "failed to acquire lock for inflight void: lock for key inflight-commit:" ++ id ++ " is already held"
                 | _ => "failed to acquire lock for inflight commit: lock for key inflight-commit:" ++ id ++ " is already held"
                 end
  | ENotInflight => "transaction is not in inflight status"
  | EAlreadyVoided => "transaction has already been voided"
  | EAlreadyCommitted => match a with
                         | AVoid => "cannot void. Transaction already committed"
                         | _ => "cannot commit. Transaction already committed"
                         end
  | ENegCommit => "commit amount cannot be negative"
  | EOverCommit => "cannot commit more than the remaining amount. Available: " ++ cur
  | ENegAmount => "transaction amount must be positive"
  | ENonPosPrecise => "transaction precise amount must be positive"
  | EInsufficient => "insufficient funds in source balance"
  | EOverdraftLimit => "transaction exceeds overdraft limit"
  | EInflightDebit => "insufficient inflight debit balance"
  | EInflightCredit => "insufficient inflight credit balance"
  | EDupReference => "reference has already been used"
  | EDupId => "duplicate key value violates unique constraint"
  | EForeignKey => "violates foreign key constraint"
  | EConflict => "Optimistic locking failure: balance may have been updated or deleted by another transaction"
  | ENotRefundable => "cannot be refunded in status"
  | EAlreadyRefunded => "has already been refunded"
  | ESplit => "failed to split transaction"
  | EOther => "unknown bulk inflight action"
  end.

(** classifyInflightError, transaction_inflight.go:922-946. *)
Definition classify_text (msg : string) : string :=
  if contains "transaction not found" msg || contains "no rows in result set" msg || contains "not found" msg
  then "NOT_FOUND"
  else if contains "has already been voided" msg then "ALREADY_VOIDED"
  else if contains "Transaction already committed" msg
          || contains "cannot void. Transaction already committed" msg then "ALREADY_COMMITTED"
  else if contains "not in inflight status" msg then "NOT_INFLIGHT"
  else if contains "cannot commit more than" msg then "INVALID_AMOUNT"
  else if contains "failed to acquire lock" msg then "LOCKED"
  else "INTERNAL_ERROR".

Definition classify (a : action) (id cur : string) (e : option err) : string :=
  match e with None => "" | Some e => classify_text (text a id cur e) end.

(** The work of one item, transaction_inflight.go:994-1003. *)
Definition item_prog (cfg : config) (a : action) (it : item) : prog (res txn) :=
  match a with
  | ACommit => commit cfg (i_id it) (i_amount it) ""
  | AVoid => void cfg (i_id it) ""
  | AOther _ => Ret (Err EOther)
  end.

(** The outcome stored for it, transaction_inflight.go:1004-1009. Simplified: on an
    error the transaction the callee may return beside it is dropped (toAPIResults does
    not read it). *)
Definition outcome_of (a : action) (cur : string) (it : item) (r : res txn) : outcome :=
  match r with
  | Ok t => {| x_id := i_id it; x_txn := Some t; x_err := None; x_code := classify a (i_id it) cur None |}
  | Err e => {| x_id := i_id it; x_txn := None; x_err := Some e; x_code := classify a (i_id it) cur (Some e) |}
  end.

(** A goroutine of the pool: waiting for a job, working on one, returned. *)
Inductive worker_state := WIdle | WBusy (idx : nat) (it : item) (p : prog (res txn)) | WDone.

(** The pool: the closed job channel, the goroutines, the result slice. *)
Record pool := { p_jobs : list (nat * item); p_work : list worker_state; p_results : list outcome }.

(** The jobs put on the channel, transaction_inflight.go:982-986. *)
Fixpoint number (i : nat) (l : list item) : list (nat * item) :=
  match l with [] => [] | it :: r => (i, it) :: number (S i) r end.

(** The number of goroutines started, transaction_inflight.go:967-975. *)
Definition workers (want len : Z) : nat :=
  let w := if want <? 1 then 4 else want in
  let w := if 16 <? w then 16 else w in
  Z.to_nat (if len <? w then len else w).

(** BulkInflightUpdate up to the point where the goroutines are started,
    transaction_inflight.go:963-989. None = refused. *)
Definition start (items : list item) (want : Z) : option pool :=
  match items with
  | [] => None
  | _ => Some {| p_jobs := number 0 items;
                 p_work := repeat WIdle (workers want (Z.of_nat (List.length items)));
                 p_results := repeat blank (List.length items) |}
  end.

(** One move of goroutine [w], transaction_inflight.go:990-1011: receive a job, one
    operation of commit or void, store the outcome, return when the channel is
    exhausted. Item [i] has the thread number [base + i]: every commit and void takes
    its lock with a value of its own (transaction_inflight.go:203, 467). [curs]: the
    currencies printed in messages. *)
Definition move (cfg : config) (a : action) (curs : nat -> string) (base w : nat) (p : pool) (s : state) : option (pool * state) :=
  match nth_error (p_work p) w with
  | Some WIdle =>
    match p_jobs p with
    | [] => Some ({| p_jobs := []; p_work := set_nth w WDone (p_work p); p_results := p_results p |}, s)
    | (i, it) :: r =>
      Some ({| p_jobs := r; p_work := set_nth w (WBusy i it (item_prog cfg a it)) (p_work p);
               p_results := p_results p |}, s)
    end
  | Some (WBusy i it (Do o k)) =>
    let '(s', x) := exec (base + i) o s in
    Some ({| p_jobs := p_jobs p; p_work := set_nth w (WBusy i it (k x)) (p_work p); p_results := p_results p |}, s')
  | Some (WBusy i it (Ret r)) =>
    Some ({| p_jobs := p_jobs p; p_work := set_nth w WIdle (p_work p);
             p_results := set_nth i (outcome_of a (curs i) it r) (p_results p) |}, s)
  | _ => None
  end.

(** wg.Wait, transaction_inflight.go:1013: every goroutine has returned. *)
Definition finished (p : pool) : bool :=
  forallb (fun w => match w with WDone => true | _ => false end) (p_work p).

(** ** The API *)

(** BulkInflightResult and BulkInflightResponse, api/model/transaction.go:176-193. *)
Record result := { a_id : string; a_status : string; a_code : string }.
Record response := { a_succeeded : Z; a_failed : Z; a_results : list result }.

(** toAPIResults, api/transactions.go:815-833 (without the message). *)
Fixpoint api_results (l : list outcome) : response :=
  match l with
  | [] => {| a_succeeded := 0; a_failed := 0; a_results := [] |}
  | o :: r =>
    let q := api_results r in
    match x_err o with
    | None => {| a_succeeded := a_succeeded q + 1; a_failed := a_failed q;
                 a_results := {| a_id := x_id o; a_status := "succeeded"; a_code := "" |} :: a_results q |}
    | Some _ => {| a_succeeded := a_succeeded q; a_failed := a_failed q + 1;
                   a_results := {| a_id := x_id o; a_status := "failed"; a_code := x_code o |} :: a_results q |}
    end
  end.

(** The refusals of BulkVoidInflight and BulkCommitInflight, api/transactions.go:849-856,
    921-928; MaxBulkInflightItems, api/model/transaction.go:115. *)
Definition api_accepts (items : list item) : bool :=
  (0 <? Z.of_nat (List.length items)) && (Z.of_nat (List.length items) <=? 100).

(** anyInflightLegRemaining, transaction_inflight.go:813-825. *)
Fixpoint any_left (legs : list txn) : prog bool :=
  match legs with
  | [] => Ret false
  | t :: r => c <- act (OCommitted (t_id t)) ;; if t_precise t - c =? 0 then any_left r else Ret true
  end.

(** preValidateInflightAction, transaction_inflight.go:760-848, with
    shouldExpandInflightParent 797-811: a missing id or one that is not in flight is tried
    as the parent of holds. The transaction returned in that case is only used for the
    response of the single-item endpoint. *)
Definition prevalidate (a : action) (it : item) : prog (res txn) :=
  r <- fetch_inflight (i_id it) ;;
  match r with
  | Ok t =>
    c <- act (OCommitted (t_id t)) ;;
    if t_precise t - c =? 0 then Ret (Err EAlreadyCommitted)
    else match a with
         | ACommit => match commit_amount t (i_amount it) (t_precise t - c) with
                      | Err e => Ret (Err e)
                      | Ok _ => Ret (Ok t)
                      end
         | _ => Ret (Ok t)
         end
  | Err e =>
    match e with
    | ETxnNotFound | ENotInflight =>
      legs <- act (OInflightBy (i_id it)) ;;
      match legs with
      | [] => Ret (Err e)
      | t :: _ => left <- any_left legs ;; if left then Ret (Ok t) else Ret (Err EAlreadyCommitted)
      end
    | _ => Ret (Err e)
    end
  end.

(** What the queue answers, queue.go:84-107. *)
Inductive enqueued := QAccepted | QAlready | QError.

(** queueBulkInflight, api/transactions.go:888-908, one item after the other. [enq] is
    what the queue answers to each item. *)
Fixpoint queue_bulk (a : action) (enq : nat -> enqueued) (curs : nat -> string) (i : nat) (items : list item) : prog response :=
  match items with
  | [] => Ret {| a_succeeded := 0; a_failed := 0; a_results := [] |}
  | it :: r =>
    v <- prevalidate a it ;;
    q <- queue_bulk a enq curs (S i) r ;;
    let accepted code := {| a_succeeded := a_succeeded q + 1; a_failed := a_failed q;
          a_results := {| a_id := i_id it; a_status := "queued"; a_code := code |} :: a_results q |} in
    let refused e := {| a_succeeded := a_succeeded q; a_failed := a_failed q + 1;
          a_results := {| a_id := i_id it; a_status := "failed"; a_code := classify a (i_id it) (curs i) (Some e) |} :: a_results q |} in
    Ret match v with
        | Err e => refused e
        | Ok _ => match enq i with
                  | QAccepted => accepted "QUEUED"%string
                  | QAlready => accepted "ALREADY_QUEUED"%string
                  | QError => refused EOther
                  end
        end
  end.
