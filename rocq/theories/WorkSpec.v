(** What a client sees of a queued transaction once a worker or recovery dealt with it. *)
From Coq Require Import ZArith List String Bool.
From Verif Require Import Base BalanceModel LedgerModel LedgerSpec ConcModel ProvSpec.
Import ListNotations.
Local Open Scope string_scope.
Open Scope Z_scope.

(** A transaction with this reference is recorded. *)
Definition used (ref : string) (s : state) : Prop := exists r, In r (s_txns s) /\ t_ref (r_t r) = ref.

(** A task that was put in the queue. *)
Definition pending (t : txn) : Prop := t_status t = SQueued \/ t_status t = SScheduled.

(** The task's transaction is recorded and moved money. *)
Definition posted (t : txn) (s : state) : Prop :=
  exists r, In r (s_txns s) /\ t_id (r_t r) = t_id t /\ t_ref (r_t r) = t_ref t /\ posts r.

(** The task's transaction is recorded as REJECTED. *)
Definition rejected (t : txn) (s : state) : Prop :=
  exists r, In r (s_txns s) /\ t_id (r_t r) = t_id t /\ t_ref (r_t r) = t_ref t /\ t_parent (r_t r) = t_parent t
    /\ t_status (r_t r) = SRejected.

(** A queued transaction is dealt with: a recorded row names it as its parent, or the
    reference its outcome must carry is in use. *)
Definition settled (o : row) (s : state) : Prop :=
  exists c, In c (s_txns s) /\ (child_of o c \/ t_ref (r_t c) = (t_ref (r_t o) ++ "_q")%string).
