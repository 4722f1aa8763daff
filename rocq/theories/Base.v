(** Shared basics: errors, results, transaction statuses, rounding, strings. *)
From Coq Require Import ZArith QArith List String Ascii Bool Lia.
Import ListNotations.
Open Scope Z_scope.

(** Error values. The Go code uses error strings; the ones that the code (or a
    caller of the API) tells apart are separate constructors here. *)
Inductive err :=
| ENegAmount          (* "transaction amount must be positive"          model/model.go:451 *)
| ENonPosPrecise      (* "transaction precise amount must be positive"  model/model.go:455 *)
| EInsufficient       (* "insufficient funds in source balance"         model/model.go:204 *)
| EOverdraftLimit     (* "transaction exceeds overdraft limit"          model/model.go:200 *)
| EInflightDebit      (* "insufficient inflight debit balance"          model/model.go:211 *)
| EInflightCredit     (* "insufficient inflight credit balance"         model/model.go:220 *)
| EDupReference       (* "reference ... has already been used" or unique index on reference *)
| EDupId              (* unique constraint on transaction_id *)
| EForeignKey         (* source/destination is not a balance *)
| EConflict           (* "Optimistic locking failure"                   database/balance.go:900 *)
| EBalanceNotFound    (* "Balance with ID ... not found" *)
| ETxnNotFound        (* "Transaction with ID ... not found" *)
| ELockHeld           (* "lock for key ... is already held" *)
| ENotInflight        (* "transaction is not in inflight status" *)
| EAlreadyVoided      (* "transaction has already been voided" *)
| EAlreadyCommitted   (* "cannot commit/void. Transaction already committed" *)
| ENegCommit          (* "commit amount cannot be negative" *)
| EOverCommit         (* "cannot commit more than ..." *)
| ENotRefundable      (* "... cannot be refunded in status ..." *)
| EAlreadyRefunded    (* "... has already been refunded" *)
| ESplit              (* "failed to split transaction" *)
| EOther.             (* any other failure (I/O, JSON, configuration, hooks) *)

Inductive res (A : Type) := Ok (a : A) | Err (e : err).
Arguments Ok {A}. Arguments Err {A}.

Definition is_ok {A} (r : res A) : bool := match r with Ok _ => true | Err _ => false end.

(** Transaction statuses, transaction.go:31-36 (SNone is the empty string). *)
Inductive status :=
| SNone | SQueued | SApplied | SScheduled | SInflight | SVoid | SCommit | SRejected.

Definition status_eqb (a b : status) : bool :=
  match a, b with
  | SNone, SNone | SQueued, SQueued | SApplied, SApplied | SScheduled, SScheduled
  | SInflight, SInflight | SVoid, SVoid | SCommit, SCommit | SRejected, SRejected => true
  | _, _ => false
  end.

(** [decimal.Round(0)] of shopspring/decimal: nearest integer, halves away from zero. *)
Definition round_half_away (q : Q) : Z :=
  let n := Qnum q in
  let d := Zpos (Qden q) in
  if n <? 0 then - ((2 * (- n) + d) / (2 * d)) else (2 * n + d) / (2 * d).

(** [Decimal.BigInt()] / [IntPart()]: integer part, truncating towards zero. *)
Definition trunc_q (q : Q) : Z := Z.quot (Qnum q) (Zpos (Qden q)).

(** Conversion of a mathematical integer to a Go int64 (two's complement wrap),
    as done by [Decimal.IntPart] -> [big.Int.Int64]. *)
Definition wrap64 (z : Z) : Z :=
  let m := z mod 18446744073709551616 in
  if 9223372036854775808 <=? m then m - 18446744073709551616 else m.

(** z / p as an exact rational; p = 0 does not occur (callers default it to 1). *)
Definition q_of_ratio (z p : Z) : Q :=
  match p with
  | Zpos d => Qmake z d
  | Zneg d => Qmake (- z) d
  | Z0 => Qmake 0 1
  end.

Definition q_of_Z (z : Z) : Q := Qmake z 1.

(** Sums over lists. *)
Fixpoint sumz {A} (f : A -> Z) (l : list A) : Z :=
  match l with [] => 0 | x :: r => f x + sumz f r end.

Definition starts_with_at (s : string) : bool :=
  match s with String c _ => Ascii.eqb c "@"%char | EmptyString => false end.

Fixpoint mem_string (x : string) (l : list string) : bool :=
  match l with [] => false | y :: r => String.eqb x y || mem_string x r end.
