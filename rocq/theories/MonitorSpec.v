(** What the monitor theorems talk about. *)
From Coq Require Import ZArith QArith List String Bool.
From Verif Require Import Base SplitModel BalanceModel MonitorModel.
Import ListNotations.
Local Open Scope string_scope.
Open Scope Z_scope.

(** The field a condition names. *)
Inductive field_value : string -> balance -> Z -> Prop :=
| FvDebit b : field_value "debit_balance" b (b_db b)
| FvCredit b : field_value "credit_balance" b (b_cr b)
| FvBalance b : field_value "balance" b (b_bal b)
| FvInflightDebit b : field_value "inflight_debit_balance" b (b_idb b)
| FvInflightCredit b : field_value "inflight_credit_balance" b (b_icr b)
| FvInflightBalance b : field_value "inflight_balance" b (b_ibal b).

(** The comparison an operator stands for. *)
Inductive compares : string -> Q -> Q -> Prop :=
| CmpGt x y : (y < x)%Q -> compares ">" x y
| CmpLt x y : (x < y)%Q -> compares "<" x y
| CmpGe x y : (y <= x)%Q -> compares ">=" x y
| CmpLe x y : (x <= y)%Q -> compares "<=" x y
| CmpNe x y : ~ (x == y)%Q -> compares "!=" x y
| CmpEq x y : (x == y)%Q -> compares "=" x y.

(** The condition holds for the balance: the named field compares as stated with
    the configured value in minor units. *)
Definition condition_holds (q : condition) (b : balance) : Prop :=
  exists v, field_value (q_field q) b v /\ compares (q_op q) (inject_Z v) (q_value q * q_prec q).

(** The threshold is a whole number of minor units that fits 64 bits. *)
Definition plain_threshold (q : condition) : Prop :=
  exists n, (q_value q * q_prec q == inject_Z n)%Q /\ - 2 ^ 63 <= n < 2 ^ 63.

Fixpoint mruns (polite : msys -> mevent -> Prop) (y : msys) (es : list mevent) (y' : msys) : Prop :=
  match es with
  | [] => y' = y
  | e :: r => polite y e /\ exists y1 out, mstep y e = Some (y1, out) /\ mruns polite y1 r y'
  end.

(** Changes of monitors do not overlap with a lookup in progress, and an update
    changes neither the monitored balance nor the value. *)
Definition calm (y : msys) (e : mevent) : Prop :=
  match e with
  | MCreate _ _ _ | MDelete _ => y_fills y = []
  | MUpdate id bal q => y_fills y = [] /\
      forall m, In m (y_table y) -> m_id m = id -> m_bal m = bal /\ q_value q = q_value (m_cond m)
  | _ => True
  end.
Definition anything (y : msys) (e : mevent) : Prop := True.

Definition mreach (y : msys) : Prop := exists es, mruns calm monitors_init es y.
Definition mreach_any (y : msys) : Prop := exists es, mruns anything monitors_init es y.
