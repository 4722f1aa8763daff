(** Where a row of the journal comes from: specification vocabulary for queued
    originals and their outcomes, and for refunds. *)
From Coq Require Import ZArith QArith List String Bool.
From Verif Require Import Base BalanceModel LedgerModel LedgerSpec ConcModel.
Import ListNotations.
Open Scope Z_scope.

(** A transaction is waiting in the queue (or scheduled). *)
Definition waiting (r : row) : Prop := t_status (r_t r) = SQueued \/ t_status (r_t r) = SScheduled.

(** [r] names [o] as its parent. *)
Definition child_of (o r : row) : Prop := t_parent (r_t r) = t_id (r_t o).

(** A row that moves settled or held money for the first time. *)
Definition posts (r : row) : Prop := r_kind r = KPost \/ r_kind r = KHold.

(** An outcome of a queued transaction: money moved, or a rejection. *)
Definition outcome_of (o r : row) : Prop :=
  child_of o r /\ (posts r \/ t_status (r_t r) = SRejected).

(** [r] gives back the money of [o]: posted directly under [o], or as the outcome
    of a queued transaction recorded under [o]. *)
Definition gives_back (j : list row) (o r : row) : Prop :=
  posts r /\ (child_of o r \/ exists q, In q j /\ waiting q /\ child_of o q /\ child_of q r).

(** Clients do not write the ledger's own metadata keys "inflight" and
    "allow_overdraft": neither with a new transaction or refund nor by editing the
    metadata of a recorded one. *)
Definition same_flags (m m' : meta) : Prop := m_inflight m = m_inflight m' /\ m_allow m = m_allow m'.
Definition plain_meta (m : meta) : Prop := m_inflight m = false /\ m_allow m = false.
Definition no_spoof (y : sys) (e : event) : Prop :=
  match e with
  | EStart (RQueue _ t) => plain_meta (t_meta t)
  | EStart (RBulk _ ts _ _ _) => Forall (fun t => plain_meta (t_meta t)) ts
  | EStart (RRefund _ _ upd) => forall m, m_inflight (upd m) = m_inflight m
  | EStart (RSetMeta id m) =>
      exists r, In r (s_txns (y_st y)) /\ t_id (r_t r) = id /\ same_flags m (t_meta (r_t r))
  | _ => True
  end.
