(** Property theorems about queued transactions and who settles them: C13 and C29
    (statements only; the words are in WorkSpec and ProvSpec, the proofs in WorkProof
    and WorkDemo). [during n p s v s']: thread [n] ran [p] to its end from state [s] to
    state [s'] while every other request, worker and crash did what it liked, which
    includes everything the system can do ([C13_others_cover]). [no_recon_flag]: no
    balance is created with the reconciliation flag. [careful]: also no spoofed
    metadata and no lock expiring under its owner. *)
From Coq Require Import ZArith QArith List String Bool.
From Verif Require Import Base BalanceModel LedgerModel LedgerProgs LedgerSpec ConcModel LedgerInv LedgerSafe LedgerThms ProvSpec HoldSpec Sched Demo TidyDemo
  LedgerRefute WorkModel WorkSpec WorkProof WorkDemo.
Import ListNotations.
Local Open Scope string_scope.
Open Scope Z_scope.

(** ** C13 *)
(** A recorded QUEUED transaction is dealt with once recovery has passed over it more
    than [max] times (the configured number of attempts), whatever else goes on. Missing
    from the full property: see the refutations below. *)
Theorem C13_recovery_settles_partial cfg u y max o k s' :
  steps cfg no_recon_flag (init_sys u) y ->
  In o (s_txns (y_st y)) -> t_status (r_t o) = SQueued ->
  passes cfg max (t_id (r_t o)) k 0 (y_st y) s' -> max < Z.of_nat k -> (0 < k)%nat -> settled o s'.
Proof. exact (recovery_settles cfg u y max o k s'). Qed.
Print Assumptions C13_recovery_settles_partial.

Theorem C13_others_cover cfg ok y y' : steps cfg ok y y' -> other (y_st y) (y_st y').
Proof. exact (steps_other cfg ok y y'). Qed.
Print Assumptions C13_others_cover.

(** Dealt with means: posted, rejected, or committed or voided before it was posted;
    otherwise the reference of its outcome is in use. *)
Theorem C13_settled_means cfg u y : distinct_uuids u -> steps cfg no_recon_flag (init_sys u) y ->
  forall o, In o (s_txns (y_st y)) -> waiting o -> settled o (y_st y) ->
  exists r, In r (s_txns (y_st y)) /\
    (outcome_of o r \/ (child_of o r /\ (r_kind r = KCommit \/ r_kind r = KVoid)) \/ t_ref (r_t r) = (t_ref (r_t o) ++ "_q")%string).
Proof. exact (settled_means cfg u y). Qed.
Print Assumptions C13_settled_means.

(** A transaction nobody has the money for, rejected by the third pass of two allowed. *)
Example C13_recovery_example :
  exists y o, steps cfg0 careful (init_sys uuids) y /\ In o (s_txns (y_st y)) /\ t_status (r_t o) = SQueued
    /\ exists s', passes cfg0 2 (t_id (r_t o)) 3 0 (y_st y) s'
    /\ exists r, In r (s_txns s') /\ outcome_of o r /\ t_status (r_t r) = SRejected.
Proof. exact recovery_rejects. Qed.

(** Whoever uses the reference of the outcome first keeps the queued transaction from
    ever having one. *)
Theorem C13_taken_reference_is_final cfg u y : distinct_uuids u -> steps cfg no_recon_flag (init_sys u) y ->
  forall o x, In o (s_txns (y_st y)) -> waiting o -> In x (s_txns (y_st y)) ->
  t_ref (r_t x) = (t_ref (r_t o) ++ "_q")%string -> ~ outcome_of o x ->
  forall y', steps cfg no_recon_flag y y' -> forall r, In r (s_txns (y_st y')) -> ~ outcome_of o r.
Proof. exact (squatted_forever cfg u y). Qed.
Print Assumptions C13_taken_reference_is_final.

Theorem C13_taken_reference_refuted :
  exists y o, steps cfg0 careful (init_sys uuids) y /\ In o (s_txns (y_st y)) /\ t_status (r_t o) = SQueued /\ amount o = 100
    /\ forall y', steps cfg0 no_recon_flag y y' -> forall r, In r (s_txns (y_st y')) -> ~ outcome_of o r.
Proof. exact squatted. Qed.
Print Assumptions C13_taken_reference_refuted.

(** A scheduled transaction whose task was lost in a crash: recovery never looks at it. *)
Theorem C13_scheduled_lost_refuted :
  exists y o, steps cfg0 careful (init_sys uuids) y /\ s_txns (y_st y) = [o] /\ t_status (r_t o) = SScheduled
    /\ t_ref (r_t o) = "later" /\ s_queue (y_st y) = [] /\ s_jobs (y_st y) = []
    /\ forall n cfg hot sel ex skip, run n (recover cfg hot sel ex skip (t_id (r_t o))) (y_st y) = (y_st y, Ok tt).
Proof. exact scheduled_lost. Qed.
Print Assumptions C13_scheduled_lost_refuted.

Theorem C13_recovery_only_queued n cfg hot sel ex skip u ok y o r s' : steps cfg ok (init_sys u) y ->
  In o (s_txns (y_st y)) -> t_status (r_t o) <> SQueued ->
  during n (recover cfg hot sel ex skip (t_id (r_t o))) (y_st y) r s' -> r = Ok tt /\ other (y_st y) s'.
Proof. exact (fun H => recover_ignores n cfg hot sel ex skip o (y_st y) r s' (OutboxProof.reach_unique cfg ok u y H)). Qed.
Print Assumptions C13_recovery_only_queued.

(** The client got its transaction back as QUEUED; the process died before its
    goroutine recorded anything. *)
Theorem C13_accepted_lost_refuted :
  (exists t, snd (run 0 (queue_transaction cfg0 env0 accept_txn) (init_state uuids)) = Ok t /\ t_status t = SQueued /\ t_ref t = "a")
  /\ exists y, steps cfg0 careful (init_sys uuids) y
    /\ s_ctr (y_st y) = s_ctr (fst (run 0 (queue_transaction cfg0 env0 accept_txn) (init_state uuids)))
    /\ s_txns (y_st y) = [] /\ s_queue (y_st y) = [] /\ s_jobs (y_st y) = [].
Proof. exact vanished. Qed.
Print Assumptions C13_accepted_lost_refuted.

(** ** C29 *)
(** A task leaves the queue only when its transaction is recorded as posted or
    REJECTED, or its reference is in use; it is tried again at most as often as
    configured; and with a positive limit it is set aside only if it cannot be recorded
    (reference or id in use, or a balance missing). *)
Theorem C29_worker_safe cfg u y n hot sel1 sel2 retry t v s' :
  steps cfg no_recon_flag (init_sys u) y -> In t (s_queue (y_st y)) -> 0 <= retry ->
  during n (worker cfg hot sel1 sel2 retry t) (y_st y) v s' ->
  match asynq (c_max_retry cfg) retry v with
  | Removed => posted t s' \/ rejected t s' \/ used (t_ref t) s'
  | Again k => k = retry + 1 /\ k <= c_max_retry cfg
  | Archived => c_max_retry cfg <= 0
      \/ used (t_ref t) s' \/ (exists r, In r (s_txns s') /\ t_id (r_t r) = t_id t)
      \/ get_bal (t_src t) (s_bals (y_st y)) = None \/ get_bal (t_dst t) (s_bals (y_st y)) = None
  end.
Proof. exact (worker_safe cfg u y n hot sel1 sel2 retry t v s'). Qed.
Print Assumptions C29_worker_safe.

(** Each verdict by itself. *)
Theorem C29_verdicts n cfg hot sel1 sel2 retry t s v s' : pending t ->
  during n (worker cfg hot sel1 sel2 retry t) s v s' ->
  match v with
  | VDone => posted t s' \/ used (t_ref t) s'
  | VReject => rejected t s'
  | VRetry => True
  end.
Proof. exact (worker_does n cfg hot sel1 sel2 retry t s v s'). Qed.
Print Assumptions C29_verdicts.

Example C29_worker_example :
  exists y t, steps cfg0 careful (init_sys uuids) y /\ In t (s_queue (y_st y))
    /\ (exists s', during 7 (worker cfg0 false no_sel no_sel 0 t) (y_st y) VRetry s' /\ asynq (c_max_retry cfg0) 0 VRetry = Again 1)
    /\ (exists s', during 7 (worker cfg0 false no_sel no_sel 3 t) (y_st y) VReject s' /\ rejected t s').
Proof. exact worker_examples. Qed.

(** A negative limit: the first failure sets the task aside with nothing recorded. *)
Theorem C29_negative_limit_refuted :
  exists cfg y t s', steps cfg no_expiry (init_sys uuids) y /\ In t (s_queue (y_st y))
    /\ during 7 (worker cfg false no_sel no_sel 0 t) (y_st y) VRetry s'
    /\ asynq (c_max_retry cfg) 0 VRetry = Archived
    /\ ~ posted t s' /\ ~ rejected t s' /\ ~ used (t_ref t) s'.
Proof. exact negative_limit. Qed.
Print Assumptions C29_negative_limit_refuted.

(** "Reference in use" may be someone else's transaction: the task is acknowledged and
    its queued transaction has no outcome. *)
Theorem C29_acknowledged_unposted_refuted :
  exists y t s' o, steps cfg0 careful (init_sys uuids) y /\ In t (s_queue (y_st y))
    /\ during 7 (worker cfg0 false no_sel no_sel 0 t) (y_st y) VDone s'
    /\ In o (s_txns (y_st y)) /\ t_status (r_t o) = SQueued /\ t_parent t = t_id (r_t o)
    /\ forall r, In r (s_txns s') -> ~ outcome_of o r.
Proof. exact foreign_ack. Qed.
Print Assumptions C29_acknowledged_unposted_refuted.
