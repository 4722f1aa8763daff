(** What the rollback of a failed bulk request is supposed to achieve. *)
From Coq Require Import ZArith QArith List String Bool.
From Verif Require Import Base BalanceModel LedgerModel.
Import ListNotations.
Open Scope Z_scope.

(** Nobody has used the string [x] as a transaction id, as a parent, or as the
    queue-parent metadata of a transaction. *)
Definition never_mentioned (x : string) (s : state) : Prop :=
  Forall (fun r => t_id (r_t r) <> x /\ t_parent (r_t r) <> x
                   /\ m_qparent (meta_of (s_meta s) (r_t r)) <> x) (s_txns s).

(** A member of the bulk that is not itself split over several sources or destinations. *)
Definition unsplit (t : txn) : Prop := t_sources t = [] /\ t_dests t = [].

Definition empty_balance (b : balance) : Prop :=
  b_bal b = 0 /\ b_cr b = 0 /\ b_db b = 0 /\ b_ibal b = 0 /\ b_icr b = 0 /\ b_idb b = 0.

(** Every balance shows what it showed before; balances that have appeared are empty. *)
Definition restored (s s' : state) : Prop :=
  (forall b, In b (s_bals s) -> exists b', In b' (s_bals s') /\ b_id b' = b_id b
     /\ b_bal b' = b_bal b /\ b_cr b' = b_cr b /\ b_db b' = b_db b
     /\ b_ibal b' = b_ibal b /\ b_icr b' = b_icr b /\ b_idb b' = b_idb b)
  /\ (forall b', In b' (s_bals s') -> ~ In (b_id b') (map b_id (s_bals s)) -> empty_balance b').

Definition succeeded {A} (r : res A) : Prop := exists a, r = Ok a.
