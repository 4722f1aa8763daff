(** One run of a program among others: a worker or a recovery pass working on a
    transaction while anything else goes on. *)
From Coq Require Import ZArith List String Bool.
From Verif Require Import Base BalanceModel LedgerModel LedgerProgs ConcModel.
Import ListNotations.
Open Scope Z_scope.

(** What the others may do between two operations of thread [n]: any operation of
    any other request, a lock expiring or being taken away, a job being picked up. This
    covers every [step] of ConcModel and more. *)
Inductive other : state -> state -> Prop :=
| o_none s : other s s
| o_op m o s s' : other (fst (exec m o s)) s' -> other s s'
| o_locks l s s' : other (set_locks s l) s' -> other s s'
| o_jobs l s s' : other (set_jobs s l) s' -> other s s'.

(** Thread [n] runs [p] from state [s] and ends with result [a] in state [s'], with
    the others at work before each of its operations and after the last one. *)
Fixpoint during (n : nat) {A} (p : prog A) (s : state) (a : A) (s' : state) : Prop :=
  match p with
  | Ret b => other s s' /\ b = a
  | Do o k => exists s1, other s s1 /\ during n (k (snd (exec n o s1))) (fst (exec n o s1)) a s'
  end.

(** What asynq does with a task after its handler returned: asynq/processor.go keeps a
    failed task for another try while its retry count is below MaxRetry, and archives
    it otherwise; MaxRetry(n) with n < 0 means 0 (asynq/client.go). External library,
    modelled from its documentation; queue.go:247 passes MaxRetryAttempts. *)
Inductive fate := Removed | Again (retry : Z) | Archived.
Definition asynq (max retry : Z) (v : verdict) : fate :=
  match v with
  | VRetry => if retry <? Z.max max 0 then Again (retry + 1) else Archived
  | _ => Removed
  end.

(** The recovery attempts of one stuck row, queue_recovery.go:160-224 and 234-245:
    the attempt counter kept in the row's metadata, the limit [max] and the pass
    itself. [skip]: the row belongs to an atomic group with a rejected member; such a
    pass does nothing and does not count. Saving the counter is assumed to succeed. *)
Definition recovery_pass (cfg : config) (hot : bool) (sel : scope -> list string) (max : Z) (skip : bool)
    (id : string) (attempts : Z) : prog (Z * res unit) :=
  r <- recover cfg hot sel (max <? attempts + 1) skip id ;;
  Ret (if skip then attempts else attempts + 1, r).

(** Successive passes over one row that are not skipped, with anything in between;
    generated ids do not collide. *)
Inductive passes (cfg : config) (max : Z) (id : string) : nat -> Z -> state -> state -> Prop :=
| p_none a s : passes cfg max id 0 a s s
| p_pass k n hot sel a a' r s s0 s1 s' :
    other s s0 -> during n (recovery_pass cfg hot sel max false id a) s0 (a', r) s1 -> r <> Err EDupId ->
    passes cfg max id k a' s1 s' -> passes cfg max id (S k) a s s'.
