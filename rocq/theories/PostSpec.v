(** What one request does to the database, whatever happens around it: traces of
    a program whose every operation meets an arbitrary state of the database
    (other requests may have changed it in any way since the previous operation)
    and which may die between any two operations. *)
From Coq Require Import ZArith QArith List String Bool.
From Verif Require Import Base BalanceModel LedgerModel.
Import ListNotations.
Open Scope Z_scope.

(** [traces n p tr r]: thread [n] running [p] performed the operations whose
    before/after states are [tr], and finished with [r] ([None]: it died). *)
Fixpoint traces (n : nat) {A} (p : prog A) (tr : list (state * state)) (r : option A) : Prop :=
  match p with
  | Ret a => tr = [] /\ (r = Some a \/ r = None)
  | Do o k => (tr = [] /\ r = None)
              \/ exists s tr', tr = (s, fst (exec n o s)) :: tr' /\ traces n (k (snd (exec n o s))) tr' r
  end.

(** No row was written and every existing balance is as it was (a new, empty
    balance may have appeared for an '@' indicator). *)
Definition untouched (x : state * state) : Prop :=
  s_txns (snd x) = s_txns (fst x) /\
  exists new, s_bals (snd x) = (new ++ s_bals (fst x))%list /\
    Forall (fun b => b_bal b = 0 /\ b_cr b = 0 /\ b_db b = 0 /\ b_ibal b = 0 /\ b_icr b = 0 /\ b_idb b = 0) new.

(** Exactly one row, [t], was written, and of the balances exactly its source and
    its destination were written, once each (every write raises the version by one). *)
Definition posted (t : txn) (x : state * state) : Prop :=
  (exists r, r_t r = t /\ s_txns (snd x) = r :: s_txns (fst x))
  /\ map b_id (s_bals (snd x)) = map b_id (s_bals (fst x))
  /\ forall id b, get_bal id (s_bals (fst x)) = Some b ->
       exists b', get_bal id (s_bals (snd x)) = Some b' /\
         b_ver b' = b_ver b + (if String.eqb id (t_src t) then 1 else 0) + (if String.eqb id (t_dst t) then 1 else 0) /\
         (id <> t_src t -> id <> t_dst t -> b' = b).

(** All or nothing. *)
Definition all_or_nothing (tr : list (state * state)) (r : option (res txn)) : Prop :=
  (Forall untouched tr /\ forall t, r = Some (Ok t) -> t_precise t = 0)
  \/ (exists tr1 x tr2 t, tr = (tr1 ++ x :: tr2)%list /\ Forall untouched tr1 /\ posted t x /\ Forall untouched tr2
        /\ (r = None \/ r = Some (Ok t))).
