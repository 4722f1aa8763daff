(** An abstract bookkeeper that enters one transaction after another. It knows
    nothing of versions, locks, reads or writes; the theorems say that the
    concurrent system's balances are always the ones this bookkeeper would have. *)
From Coq Require Import ZArith QArith List String Bool.
From Verif Require Import Base BalanceModel LedgerModel LedgerSpec.
Import ListNotations.
Open Scope Z_scope.

Record acct := { a_credit : Z; a_debit : Z; a_held_in : Z; a_held_out : Z }.
Definition book := string -> acct.
Definition empty_book : book := fun _ => {| a_credit := 0; a_debit := 0; a_held_in := 0; a_held_out := 0 |}.

Definition when (c : bool) (z : Z) : Z := if c then z else 0.

(** Enter a transaction: a post settles its amount, a hold reserves it, a commit
    turns reserved into settled money, a void releases it. *)
Definition enter (r : row) (bk : book) : book := fun id =>
  let out := String.eqb (t_src (r_t r)) id in
  let inn := String.eqb (t_dst (r_t r)) id in
  let a := t_precise (r_t r) in
  let x := bk id in
  match r_kind r with
  | KPost => {| a_credit := a_credit x + when inn a; a_debit := a_debit x + when out a;
                a_held_in := a_held_in x; a_held_out := a_held_out x |}
  | KHold => {| a_credit := a_credit x; a_debit := a_debit x;
                a_held_in := a_held_in x + when inn a; a_held_out := a_held_out x + when out a |}
  | KCommit => {| a_credit := a_credit x + when inn a; a_debit := a_debit x + when out a;
                  a_held_in := a_held_in x - when inn a; a_held_out := a_held_out x - when out a |}
  | KVoid => {| a_credit := a_credit x; a_debit := a_debit x;
                a_held_in := a_held_in x - when inn a; a_held_out := a_held_out x - when out a |}
  | KNone => x
  end.

(** What the account can spend: settled money not reserved by holds. *)
Definition spendable (x : acct) : Z := a_credit x - a_debit x - a_held_out x.

(** The funds rule. *)
Definition permitted (r : row) (bk : book) : Prop :=
  let a := t_precise (r_t r) in
  let src := bk (t_src (r_t r)) in
  match r_kind r with
  | KPost | KHold =>
    0 < a /\ ((t_allow (r_t r) = true /\ (t_limit (r_t r) == 0)%Q)   (* unlimited overdraft *)
              \/ a <= spendable src
              \/ exists l, grants (r_t r) l /\ a <= spendable src + l) (* overdraft up to l *)
  | KCommit | KVoid => a <> 0 /\ a <= a_held_out src /\ a <= a_held_in (bk (t_dst (r_t r)))
  | KNone => True
  end.

(** The bookkeeper's journal (newest first) and books. With enable_queued_checks a
    QUEUED row of negative amount can defeat the funds rule; nothing else can. *)
Inductive serial (queued_checks : bool) : list row -> book -> Prop :=
| serial_nil : serial queued_checks [] empty_book
| serial_cons r j bk :
    serial queued_checks j bk ->
    permitted r bk \/ (queued_checks = true /\ negative_queued j
                       /\ (r_kind r = KPost \/ r_kind r = KHold) /\ 0 < t_precise (r_t r)) ->
    serial queued_checks (r :: j) (enter r bk).

(** A stored balance agrees with the books. *)
Definition agrees (b : balance) (bk : book) : Prop :=
  b_cr b = a_credit (bk (b_id b)) /\ b_db b = a_debit (bk (b_id b))
  /\ b_icr b = a_held_in (bk (b_id b)) /\ b_idb b = a_held_out (bk (b_id b))
  /\ b_bal b = b_cr b - b_db b /\ b_ibal b = b_icr b - b_idb b.
