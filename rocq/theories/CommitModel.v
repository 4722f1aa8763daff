(** The amount of a commit request as the API hands it to the ledger. *)
From Coq Require Import ZArith QArith List String Bool.
From Verif Require Import Base MoneyModel SplitModel BalanceModel LedgerModel LedgerProgs.
Open Scope Z_scope.

(** ApplyPrecisionWithDBLookup on Transaction{Amount, TransactionID},
    model/model.go:359-393. [prec]: the precision found by
    fetchTransactionPrecisionFromDB 313-354, [None] if there is none or it is not
    positive (then the request's own precision, 0, becomes 1). *)
Definition precision_or_one (prec : option Z) : Z :=
  match prec with Some p => if 0 <? p then p else 1 | None => 1 end.

(** UpdateInflightStatus, api/transactions.go:516-524; [None] = 400 response. *)
Definition requested_amount (amount : Q) (precise : option Z) (prec : option Z) : option Z :=
  match precise with
  | Some p => if p <=? 0 then None else Some p
  | None => Some (fst (fst (apply_precision 0 amount (precision_or_one prec))))
  end.

(** The commit branch of UpdateInflightStatus, api/transactions.go:534-559: every
    hold under [id], now or from the queue ([action_id] is then the task's id). *)
Definition commit_request (cfg : config) (id : string) (amount : Q) (precise prec : option Z)
    (action_id : string) : prog (option (list (res txn))) :=
  match requested_amount amount precise prec with
  | None => Ret None
  | Some z => bind (inflight_action cfg id false z action_id) (fun l => Ret (Some l))
  end.
