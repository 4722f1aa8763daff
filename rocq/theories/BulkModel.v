(** POST /transactions/bulk with the report of its rollback. *)
From Coq Require Import ZArith QArith List String Bool.
From Verif Require Import Base MoneyModel SplitModel BalanceModel LedgerModel LedgerProgs.
Import ListNotations.
Local Open Scope string_scope.
Open Scope Z_scope.
Open Scope prog_scope.

(** CreateBulkTransactions, transaction_bulk.go:172-271, as LedgerProgs.bulk, keeping what
    rollbackBatchTransactions (57-97) reported for each transaction it found. The response
    says "All transactions in this batch have been voided" (or "refunded") when each of
    them succeeded and "Failed to roll back all transactions" otherwise (244-250).
    The rollback runs one worker over pages of transactions
    (transaction_batch_processing.go:59-210); rows never change, so the pages are read as
    one list. *)
Definition bulk_report (cfg : config) (e : split_env) (ts : list txn) (atomic infl skipq : bool)
    : prog (res string * list (res txn)) :=
  batch <- fresh "bulk" ;;
  r <- process_bulk cfg e ts batch infl skipq ;;
  match r with
  | Ok _ => Ret (Ok batch, [])
  | Err er => if atomic then l <- rollback_batch cfg batch infl ;; Ret (Err er, l) else Ret (Err er, [])
  end.
