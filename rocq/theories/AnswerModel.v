(** Error answers: from what went wrong to status, code and text. *)
From Coq Require Import List String Bool ZArith.
From Verif Require Import Base PoolModel.
Import ListNotations.
Local Open Scope string_scope.
Local Open Scope Z_scope.
Local Open Scope list_scope.

(** ** Codes *)

(** statusByCode, internal/apierror/codes.go:138-239, in its order. *)
Definition statuses : list (string * Z) :=
  [("GEN_MALFORMED_REQUEST", 400); ("GEN_VALIDATION_ERROR", 400); ("GEN_MISSING_PARAMETER", 400); ("GEN_BAD_REQUEST", 400);
   ("GEN_NOT_FOUND", 404); ("GEN_CONFLICT", 409); ("GEN_RESOURCE_LOCKED", 423); ("GEN_PAYLOAD_TOO_LARGE", 413);
   ("GEN_RATE_LIMITED", 429); ("GEN_INTERNAL", 500);
   ("AUTH_MISSING_API_KEY", 401); ("AUTH_INVALID_API_KEY", 401); ("AUTH_EXPIRED_API_KEY", 401); ("AUTH_MISSING_PRINCIPAL", 401);
   ("AUTH_INSUFFICIENT_PERMISSIONS", 403); ("AUTH_UNKNOWN_RESOURCE", 403); ("AUTH_MASTER_KEY_REQUIRED", 403);
   ("AUTH_CROSS_OWNER_ACCESS", 403); ("AUTH_SCOPE_ESCALATION", 403); ("AUTH_METRICS_TOKEN_REQUIRED", 401);
   ("AUTH_INVALID_BEARER_TOKEN", 401); ("AUTH_METRICS_DISABLED", 403);
   ("APIKEY_NOT_FOUND", 404); ("APIKEY_OWNER_REQUIRED", 400); ("APIKEY_INVALID", 400);
   ("TXN_NOT_FOUND", 404); ("TXN_INSUFFICIENT_FUNDS", 400); ("TXN_INVALID_AMOUNT", 400); ("TXN_PRECISION_NOT_INTEGER", 400);
   ("TXN_INVALID_DISTRIBUTION", 400); ("TXN_DUPLICATE_REFERENCE", 409); ("TXN_NOT_INFLIGHT", 400); ("TXN_ALREADY_COMMITTED", 409);
   ("TXN_ALREADY_VOIDED", 409); ("TXN_COMMIT_AMOUNT_EXCEEDED", 400); ("TXN_INVALID_STATUS_ACTION", 400); ("TXN_BULK_EMPTY", 400);
   ("TXN_BULK_LIMIT_EXCEEDED", 400); ("TXN_VALIDATION_ERROR", 400);
   ("BAL_NOT_FOUND", 404); ("BAL_HISTORY_NOT_FOUND", 404); ("BAL_INVALID_TIMESTAMP", 400); ("BAL_VALIDATION_ERROR", 400); ("BAL_MONITOR_NOT_FOUND", 404);
   ("LGR_NOT_FOUND", 404); ("LGR_DUPLICATE", 409); ("ACC_NOT_FOUND", 404); ("ACC_DUPLICATE", 409); ("ACC_GENERATION_FAILED", 500);
   ("IDT_NOT_FOUND", 404); ("IDT_VALIDATION_ERROR", 400); ("IDT_FIELD_NOT_TOKENIZABLE", 400); ("IDT_FIELD_ALREADY_TOKENIZED", 409);
   ("IDT_FIELD_NOT_TOKENIZED", 400); ("IDT_FIELD_NOT_FOUND", 400); ("IDT_TOKENIZATION_DISABLED", 403);
   ("RECON_NOT_FOUND", 404); ("RECON_RULE_NOT_FOUND", 404); ("RECON_UPLOAD_FAILED", 400); ("RECON_UPLOAD_PROCESSING_FAILED", 500);
   ("RECON_UPLOAD_URL_INVALID", 400); ("RECON_UPLOAD_HOST_NOT_ALLOWED", 400); ("RECON_RULE_INVALID", 400);
   ("RECON_MATCHING_RULES_REQUIRED", 400); ("RECON_EXTERNAL_TXNS_REQUIRED", 400); ("RECON_START_FAILED", 500);
   ("META_ENTITY_NOT_FOUND", 404); ("META_UNSUPPORTED_ENTITY", 400); ("META_INVALID_ENTITY_ID", 400);
   ("HOOK_NOT_FOUND", 404); ("HOOK_INVALID", 400); ("HOOK_OPERATION_FAILED", 500); ("QUEUE_BACKPRESSURE", 503);
   ("SRCH_QUERY_INVALID", 400); ("SRCH_FAILED", 500); ("SRCH_REINDEX_IN_PROGRESS", 409); ("SRCH_REINDEX_NOT_STARTED", 404); ("ADMIN_BACKUP_FAILED", 500);
   ("NOT_FOUND", 404); ("CONFLICT", 409); ("BAD_REQUEST", 400); ("INVALID_INPUT", 400); ("INTERNAL_SERVER_ERROR", 500); ("RATE_LIMITED", 429)].
(** legacyToCanonical, codes.go:244-251. *)
Definition canonical : list (string * string) :=
  [("NOT_FOUND", "GEN_NOT_FOUND"); ("CONFLICT", "GEN_CONFLICT"); ("BAD_REQUEST", "GEN_BAD_REQUEST"); ("INVALID_INPUT", "GEN_VALIDATION_ERROR");
   ("INTERNAL_SERVER_ERROR", "GEN_INTERNAL"); ("RATE_LIMITED", "GEN_RATE_LIMITED")].
Fixpoint lookup {A} (k : string) (l : list (string * A)) : option A :=
  match l with [] => None | (k', v) :: r => if String.eqb k k' then Some v else lookup k r end.
(** Normalize, 255-260, and StatusForCode, 264-269. *)
Definition normalize (c : string) : string := match lookup c canonical with Some c' => c' | None => c end.
Definition status_for (c : string) : Z := match lookup c statuses with Some s => s | None => 500 end.

(** ** Errors *)

(** The sentinels classifySentinel knows, api/errors.go:161-180. *)
Inductive sentinel := KeyUnknown | KeyInvalid | TokensOff | Held | WaitedLong | NotWhole | NoEntity | Pressure | NoRows.
(** A Go error: a text; an APIError with its details; a sentinel under a text of its own (lockError,
    internal/lock/lock.go:35-46); one wrapped with %w behind a prefix; several printed with %v. *)
Inductive err :=
| Plain (m : string)
| Api (code m : string) (details : option string)
| Known (s : sentinel) (m : string)
| Wrap (p : string) (e : err)
| Flat (p : string) (es : list err).
Fixpoint spaced (l : list string) : string := match l with [] => "" | [x] => x | x :: r => (x ++ " " ++ spaced r)%string end.
(** Error(). *)
Fixpoint text (e : err) : string :=
  match e with
  | Plain m => m
  | Api c m _ => (c ++ ": " ++ m)%string
  | Known _ m => m
  | Wrap p e => (p ++ ": " ++ text e)%string
  | Flat p es => (p ++ "[" ++ spaced (map text es) ++ "]")%string
  end.
(** errors.As with an APIError, and errors.Is with the sentinels. An APIError has no Unwrap. *)
Fixpoint as_api (e : err) : option (string * string * option string) :=
  match e with Api c m d => Some (c, m, d) | Wrap _ e => as_api e | _ => None end.
Fixpoint as_known (e : err) : option sentinel :=
  match e with Known s _ => Some s | Wrap _ e => as_known e | _ => None end.

(** classifySentinel, api/errors.go:161-181. *)
Definition classify_sentinel (s : sentinel) : string :=
  match s with
  | KeyUnknown => "APIKEY_NOT_FOUND" | KeyInvalid => "AUTH_INVALID_API_KEY" | TokensOff => "IDT_TOKENIZATION_DISABLED"
  | Held | WaitedLong => "GEN_RESOURCE_LOCKED" | NotWhole => "TXN_PRECISION_NOT_INTEGER" | NoEntity => "META_ENTITY_NOT_FOUND"
  | Pressure => "QUEUE_BACKPRESSURE" | NoRows => "GEN_NOT_FOUND"
  end.
(** messagePatterns, 195-236. *)
Definition patterns : list (list string * string) :=
  [(["transaction"; "not found"], "TXN_NOT_FOUND");
   (["not in inflight status"], "TXN_NOT_INFLIGHT");
   (["Transaction already committed"], "TXN_ALREADY_COMMITTED");
   (["has already been voided"], "TXN_ALREADY_VOIDED");
   (["has already been refunded"], "GEN_CONFLICT");
   (["has already been used"], "TXN_DUPLICATE_REFERENCE");
   (["cannot commit more than"], "TXN_COMMIT_AMOUNT_EXCEEDED");
   (["insufficient funds"], "TXN_INSUFFICIENT_FUNDS");
   (["transaction amount must be positive"], "TXN_INVALID_AMOUNT");
   (["transaction validation failed"], "TXN_VALIDATION_ERROR");
   (["reference is required"], "TXN_VALIDATION_ERROR");
   (["no balance data found for time"], "BAL_HISTORY_NOT_FOUND");
   (["invalid timestamp format"], "BAL_INVALID_TIMESTAMP");
   (["balance validation failed"], "BAL_VALIDATION_ERROR");
   (["identity validation failed"], "BAL_VALIDATION_ERROR");
   (["is not tokenizable"], "IDT_FIELD_NOT_TOKENIZABLE");
   (["is already tokenized"], "IDT_FIELD_ALREADY_TOKENIZED");
   (["is not tokenized"], "IDT_FIELD_NOT_TOKENIZED");
   (["field"; "not found"], "IDT_FIELD_NOT_FOUND");
   (["rule name is required"], "RECON_RULE_INVALID");
   (["matching criteria is required"], "RECON_RULE_INVALID");
   (["field and operator are required"], "RECON_RULE_INVALID");
   (["invalid operator"], "RECON_RULE_INVALID");
   (["invalid field"], "RECON_RULE_INVALID");
   (["drift for"], "RECON_RULE_INVALID");
   (["entity not found"], "META_ENTITY_NOT_FOUND");
   (["unsupported entity type"], "META_UNSUPPORTED_ENTITY");
   (["invalid entity ID"], "META_INVALID_ENTITY_ID");
   (["does not have fund lineage tracking enabled"], "GEN_BAD_REQUEST");
   (["failed to acquire lock"], "GEN_RESOURCE_LOCKED");
   (["no rows in result set"], "GEN_NOT_FOUND");
   (["not found"], "GEN_NOT_FOUND")].
(** classifyMessage, 238-252. *)
Fixpoint find_pattern (m : string) (l : list (list string * string)) : option string :=
  match l with
  | [] => None
  | (ps, c) :: r => if forallb (fun p => contains p m) ps then Some c else find_pattern m r
  end.
Definition classify_message (m : string) : option string := find_pattern m patterns.

(** ** Answers *)

(** respondOptions, api/errors.go:45-51, without the legacy fields. *)
Record options := { o_default : option string; o_fallback : option string; o_upgrades : list (string * string) }.
Record answer := { a_status : Z; a_code : string; a_message : string; a_details : option string }.
(** writeError, 145-158. *)
Definition write (o : options) (code m : string) (d : option string) : answer :=
  let code := normalize code in
  let code := match lookup code (o_upgrades o) with Some c => c | None => code end in
  {| a_status := status_for code; a_code := code; a_message := m; a_details := d |}.
Definition sanitized : string := "internal server error".
(** respondError, 108-143, of an error that is there. *)
Definition respond (o : options) (e : err) : answer :=
  match as_api e with
  | Some (c, m, d) => write o c m d
  | None =>
    match as_known e with
    | Some s => write o (classify_sentinel s) (text e) None
    | None =>
      match classify_message (text e) with
      | Some c => write o c (text e) None
      | None =>
        match o_default o with
        | Some c => write o c (match o_fallback o with Some m => m | None => text e end) None
        | None => write o "GEN_INTERNAL" sanitized None
        end
      end
    end
  end.

(** ** POST /transactions with skip_queue *)

(** api/transactions.go:190. *)
Definition post_options : options := {| o_default := Some "TXN_VALIDATION_ERROR"; o_fallback := None; o_upgrades := [("GEN_NOT_FOUND", "TXN_NOT_FOUND")] |}.
Inductive lock_fault := LHeld (key : string) | LWait | LDown (key m : string) | LCancelled (m : string).
Inductive ref_fault := RDown (d : string) | RUsed.
Inductive balance_fault := BMissing (id : string) | BDown (d : string).
Inductive apply_fault := ANegative | ANotPositive | AShort | AOverLimit.
(** Another transaction of the same reference recorded since it was looked for shows as a failing insert, whose
    text [d] is the driver's. *)
Inductive store_fault := SBegin (d : string) | SMoved (id : string) | SUpdate (d : string) | SRows (d : string) | SMarshal (d : string) | SInsert (d : string) | SOutbox (d : string)
| SCommit (d : string) (lost : bool).
(** What goes wrong at each step, if anything: the split, transaction_queue.go:206-211; the indicators,
    transaction_execution.go:116-148; the lock, 634-640; the pre-hooks, 497-500; the reference, 272-289; the
    balances, 671-675; their new values, 706-711; storing them, 742-750; the tasks of expiry and release,
    transaction_queue.go:116-131. Of the indicators the bool tells the source from the destination; their error is
    left open, as creating a balance can fail in many ways. *)
Record run := { n_reference : string; n_split : option string; n_resolve : option (bool * err); n_lock : option lock_fault; n_hook : option string;
  n_ref : option ref_fault; n_balance : option balance_fault; n_apply : option apply_fault; n_store : option store_fault;
  n_expiry : option string; n_release : option string }.

Definition internal (m d : string) : err := Api "INTERNAL_SERVER_ERROR" m (Some d).
(** internal/lock/lock.go:87-100, 217-234, 244-271; without a wait configured, Lock only. *)
Definition lock_error (f : lock_fault) : err :=
  match f with
  | LHeld k => Wrap ("failed to acquire lock for key " ++ k) (Known Held ("lock for key " ++ k ++ " is already held"))
  | LWait => Known WaitedLong "failed to acquire all locks within the wait timeout"
  | LDown k m => Wrap ("failed to acquire lock for key " ++ k) (Plain m)
  | LCancelled m => Wrap "lock wait cancelled" (Plain m)
  end%string.
(** validateTxn, transaction_execution.go:272-289; database/transaction_queries.go:147. *)
Definition ref_error (r : string) (f : ref_fault) : err :=
  match f with
  | RDown d => internal "Failed to check if transaction exists" d
  | RUsed => Plain ("reference " ++ r ++ " has already been used")
  end%string.
(** GetBalanceByIDLite, database/balance.go:386-393. Left out: numbers that do not parse, and the longer query of
    queued checks. *)
Definition balance_error (f : balance_fault) : err :=
  match f with
  | BMissing id => Api "NOT_FOUND" ("Balance with ID '" ++ id ++ "' not found")%string (Some "sql: no rows in result set")
  | BDown d => internal "Failed to scan balance data" d
  end.
(** validate and canProcessTransaction, model/model.go:449-463, 197-205. *)
Definition apply_error (f : apply_fault) : err :=
  Plain match f with
        | ANegative => "transaction amount must be positive"
        | ANotPositive => "transaction precise amount must be positive"
        | AShort => "insufficient funds in source balance"
        | AOverLimit => "transaction exceeds overdraft limit"
        end.
(** RecordTransactionWithBalancesAndOutbox, database/transaction.go:261-304; updateBalance, database/balance.go:886-901;
    recordTransactionInTx, database/transaction.go:83-97; database/lineage.go:165. *)
Definition store_error (f : store_fault) : err :=
  match f with
  | SBegin d => internal "Failed to begin transaction" d
  | SMoved id => Api "CONFLICT" ("Optimistic locking failure: balance with ID '" ++ id ++ "' may have been updated or deleted by another transaction")%string None
  | SUpdate d => internal "Failed to update balance" d
  | SRows d => internal "Failed to get rows affected" d
  | SMarshal d => internal "Failed to marshal metadata" d
  | SInsert d => internal "Failed to record transaction" d
  | SOutbox d => Wrap "failed to insert lineage outbox" (internal "Failed to insert lineage outbox entry" d)
  | SCommit d _ => internal "Failed to commit transaction" d
  end.
Definition bind {A} (x : option A) (f : A -> bool * option err) (k : bool * option err) : bool * option err :=
  match x with Some a => f a | None => k end.
(** QueueTransaction with SkipQueue and without splits, transaction_queue.go:69-134; RecordTransaction,
    transaction_execution.go:480-526, 614-645. Whether the transaction has been recorded, and the error. Left out: an
    amount of zero let through without being stored (719-727), which validate refuses on this path. *)
Definition queue_direct (n : run) : bool * option err :=
  bind (n_split n) (fun m => (false, Some (Wrap "failed to split transaction" (Plain m))))
  (bind (n_resolve n) (fun x => (false, Some (Wrap "failed to resolve balance IDs"
                              (Wrap (if fst x then "failed to resolve source balance indicator" else "failed to resolve destination balance indicator") (snd x)))))
  (bind (n_lock n) (fun f => (false, Some (Wrap "failed to acquire lock" (lock_error f))))
  (bind (n_hook n) (fun m => (false, Some (Plain m)))
  (bind (n_ref n) (fun f => (false, Some (Wrap "transaction validation failed" (ref_error (n_reference n) f))))
  (bind (n_balance n) (fun f => (false, Some (Wrap "failed to get source and destination balances" (balance_error f))))
  (bind (n_apply n) (fun f => (false, Some (Wrap "failed to apply transaction to balances" (apply_error f))))
  (bind (n_store n) (fun f => (match f with SCommit _ lost => lost | _ => false end, Some (Wrap "failed to persist transaction with balances" (store_error f))))
  (bind (n_expiry n) (fun m => (true, Some (Wrap "failed to queue inflight expiry" (Plain m))))
  (bind (n_release n) (fun m => (true, Some (Wrap "failed to queue inflight commit" (Plain m))))
  (true, None)))))))))).
(** The handler, api/transactions.go:187-196. None: 201. *)
Definition post (n : run) : bool * option answer :=
  let (recorded, e) := queue_direct n in (recorded, option_map (respond post_options) e).

(** resolvePreviewRejectionCode, api/transactions.go:115-125, and the rejections PreviewTransaction foresees,
    transaction_dryrun.go:577-590, 593-631 and 263-272: a same balance, then a used reference, then what the balances
    refuse, each taking the place of the one before. *)
Record foreseen := { p_apply : option apply_fault; p_same : option string; p_used : bool }.
Definition preview_error (reference : string) (p : foreseen) : option err :=
  match p_apply p with
  | Some f => Some (Wrap "failed to apply transaction to balances" (apply_error f))
  | None =>
    if p_used p then Some (Plain ("transaction validation failed: reference " ++ reference ++ " has already been used")%string)
    else option_map (fun id => Plain ("Optimistic locking failure: balance with ID '" ++ id ++ "' may have been updated or deleted by another transaction")%string) (p_same p)
  end.
Definition preview_code (e : err) : string := match classify_message (text e) with Some c => c | None => "TXN_VALIDATION_ERROR" end.

(** ** PUT /transactions/inflight/:id *)

(** api/transactions.go:552, 563. *)
Definition settle_options : options := {| o_default := Some "GEN_BAD_REQUEST"; o_fallback := None; o_upgrades := [("GEN_NOT_FOUND", "TXN_NOT_FOUND")] |}.
(** What stops the commit or the void of one hold, transaction_inflight.go:202-209, 323, 350-358, 471, 488, 534-560: the
    numbers are given as they are printed; any error the database layer returns is TInternal or TMoved. *)
Inductive settle_fault :=
| THeld (void : bool) (id : string) | TNotInflight | TVoided | TCommitted (void : bool)
| TMore (original : bool) (currency available requested : string)
| TInternal (m d : string) | TMoved (id : string).
Definition settle_error (f : settle_fault) : err :=
  match f with
  | THeld void id => Wrap (if void then "failed to acquire lock for inflight void" else "failed to acquire lock for inflight commit")
                       (Known Held ("lock for key inflight-commit:" ++ id ++ " is already held"))
  | TNotInflight => Plain "transaction is not in inflight status"
  | TVoided => Plain "transaction has already been voided"
  | TCommitted void => Plain (if void then "cannot void. Transaction already committed" else "cannot commit. Transaction already committed")
  | TMore original cur a r => Plain ((if original then "cannot commit more than the original transaction amount. Original: " else "cannot commit more than the remaining amount. Available: ")
                                     ++ cur ++ a ++ ", Requested: " ++ cur ++ r)
  | TInternal m d => internal m d
  | TMoved id => Wrap "failed to persist transaction with balances" (store_error (SMoved id))
  end%string.
(** ProcessTransactionInBatches, transaction_batch_processing.go:112, and the handler. *)
Definition settle (fs : list settle_fault) : answer := respond settle_options (Flat "error occurred during processing: " (map settle_error fs)).
