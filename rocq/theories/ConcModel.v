(** Concurrent execution: client requests, queue workers, background goroutines
    and recovery sweeps run as threads whose atomic operations interleave
    arbitrarily; a thread can be killed between any two operations; Redis locks
    can expire (TTL). *)
From Coq Require Import ZArith QArith List String Bool.
From Verif Require Import Base SplitModel BalanceModel LedgerModel LedgerProgs.
Import ListNotations.
Open Scope Z_scope.

(** What can start a thread. *)
Inductive request :=
| RQueue (e : split_env) (t : txn)                       (* POST /transactions, api/transactions.go *)
| RBulk (e : split_env) (ts : list txn) (atomic infl skipq : bool) (* POST /transactions/bulk *)
| RCommit (id : string) (amount : Z) (ref : string)      (* PUT /transactions/inflight/:id commit, expiry/commit tasks *)
| RVoid (id : string) (ref : string)                     (* PUT /transactions/inflight/:id void *)
| RAction (parent : string) (is_void : bool) (amount : Z) (action_id : string) (* same, all legs; cmd/workers.go:292-347 *)
| RRefund (id : string) (skipq : bool) (upd : meta -> meta) (* POST /refund-transaction/:id *)
| RRefundBatch (parent : string) (skipq : bool)
| RBalance (ind cur : string) (recon track : bool)       (* POST /balances *)
| RReconcile (id : string)                               (* POST /:balance/metadata with BLNK_RUN_RECONCILIATION *)
| RSetMeta (id : string) (m : meta)                      (* POST /:transaction/metadata *)
| RWorker (hot : bool) (sel1 sel2 : scope -> list string) (retry : Z) (t : txn) (* delivery of a queued task *)
| RJob (j : job)                                         (* goroutine of processTransactionAsync *)
| RRecover (hot : bool) (sel : scope -> list string) (exhausted skip : bool) (id : string). (* recovery sweep *)

Definition done {A} (p : prog A) : prog unit := bind p (fun _ => Ret tt).

Definition prog_of (cfg : config) (r : request) : prog unit :=
  match r with
  | RQueue e t => done (queue_transaction cfg e t)
  | RBulk e ts a i s => done (bulk cfg e ts a i s)
  | RCommit id a ref => done (commit cfg id a ref)
  | RVoid id ref => done (void cfg id ref)
  | RAction p v a i => done (inflight_action cfg p v a i)
  | RRefund id s u => done (refund cfg id s u)
  | RRefundBatch p s => done (refund_batch cfg p s)
  | RBalance i c r t => done (new_balance i c r t)
  | RReconcile id => done (act (OReconcile id))
  | RSetMeta id m => done (act (OSetMeta id m))
  | RWorker h s1 s2 r t => done (worker cfg h s1 s2 r t)
  | RJob j => async_job cfg j
  | RRecover h s e k id => done (recover cfg h s e k id)
  end.

(** A transaction as the API builds it from a validated body: no id, parent or
    status (api/model/model.go:356-391); ValidateRecordTransaction,
    api/model/model.go:35-164 and 246-309 (description and dates left out; the
    15-digit limit on amount is about floats and left out). *)
Definition api_txn (t : txn) : Prop :=
  t_id t = EmptyString /\ t_parent t = EmptyString /\ t_status t = SNone
  /\ t_ref t <> EmptyString /\ t_cur t <> EmptyString
  /\ 0 <= t_prec t /\ (0 <= t_amount t)%Q /\ 0 <= t_precise t
  /\ ((t_amount t == 0)%Q \/ t_precise t = 0)
  /\ (t_src t = EmptyString <-> t_sources t <> [])
  /\ (t_dst t = EmptyString <-> t_dests t <> [])
  /\ (t_src t <> EmptyString -> t_dst t <> t_src t)
  /\ (t_src t <> EmptyString -> Forall (fun d => d_id d <> t_src t) (t_dests t))
  /\ (t_dst t <> EmptyString -> Forall (fun d => d_id d <> t_dst t) (t_sources t)).

(** Threads in creation order; a thread's number is its position. A finished or
    killed thread is [Ret tt]. *)
Record sys := { y_st : state; y_thr : list (prog unit) }.

Inductive event :=
| EStart (r : request)
| EStep (n : nat)
| EKill (n : nat)
| EExpire (k : string).

Fixpoint set_nth {A} (n : nat) (a : A) (l : list A) : list A :=
  match l, n with
  | [], _ => []
  | _ :: r, O => a :: r
  | x :: r, S m => x :: set_nth m a r
  end.

Definition step (cfg : config) (y : sys) (e : event) (y' : sys) : Prop :=
  match e with
  | EStart (RJob j) =>
    exists l1 l2, s_jobs (y_st y) = l1 ++ j :: l2 /\
      y' = {| y_st := set_jobs (y_st y) (l1 ++ l2); y_thr := y_thr y ++ [prog_of cfg (RJob j)] |}
  | EStart r =>
    match r with
    | RQueue _ t => api_txn t
    | RBulk _ ts _ _ _ => Forall api_txn ts
    | RWorker _ _ _ _ t => In t (s_queue (y_st y))
    | _ => True
    end /\
    y' = {| y_st := y_st y; y_thr := y_thr y ++ [prog_of cfg r] |}
  | EStep n =>
    match nth_error (y_thr y) n with
    | Some (Do o k) =>
      y' = {| y_st := fst (exec n o (y_st y));
              y_thr := set_nth n (k (snd (exec n o (y_st y)))) (y_thr y) |}
    | _ => False
    end
  | EKill n => y' = {| y_st := y_st y; y_thr := set_nth n (Ret tt) (y_thr y) |}
  | EExpire k => y' = {| y_st := set_locks (y_st y) (del_lock k (s_locks (y_st y))); y_thr := y_thr y |}
  end.

(** A lock expires only after its owner finished or died (its lease was long enough). *)
Definition polite (y : sys) (e : event) : Prop :=
  match e with
  | EExpire k => match lock_owner k (s_locks (y_st y)) with
                 | Some n => nth_error (y_thr y) n = Some (Ret tt) \/ nth_error (y_thr y) n = None
                 | None => True
                 end
  | _ => True
  end.

(** Executions whose every event satisfies [ok]. *)
Inductive steps (cfg : config) (ok : sys -> event -> Prop) : sys -> sys -> Prop :=
| steps_refl y : steps cfg ok y y
| steps_step y1 y2 y3 e : steps cfg ok y1 y2 -> ok y2 e -> step cfg y2 e y3 -> steps cfg ok y1 y3.

(** The empty installation. *)
Definition init_state (u : nat -> string) : state :=
  {| s_bals := []; s_txns := []; s_locks := []; s_queue := []; s_outbox := []; s_jobs := [];
     s_meta := []; s_uuid := u; s_ctr := 0; s_owner := []; s_spawned := [] |}.
Definition init_sys (u : nat -> string) : sys := {| y_st := init_state u; y_thr := [] |}.
