(** Property theorems about queued transactions and refunds under every schedule:
    C11, C12, C15 (statements only; proofs are in ProvThms, TidyDemo). *)
From Coq Require Import ZArith QArith List String Bool.
From Verif Require Import Base SplitModel BalanceModel LedgerModel LedgerProgs ConcModel LedgerSpec
  BudgetSpec ProvSpec HoldSpec LedgerSafe LedgerThms ProvThms Sched Demo TidyDemo BulkDemo PreviewActDemo PreviewRefundDemo.
Import ListNotations.
Local Open Scope string_scope.
Open Scope Z_scope.

(** ** C11 *)
(** [gives_back j o r]: [r] moves money and was recorded under [o], or as the outcome
    of a queued transaction recorded under [o]. *)
Theorem C11_refunded_at_most_once cfg u y :
  distinct_uuids u -> steps cfg no_recon_flag (init_sys u) y ->
  forall o r1 r2, In o (s_txns (y_st y)) -> In r1 (s_txns (y_st y)) -> In r2 (s_txns (y_st y)) -> ~ waiting o ->
  gives_back (s_txns (y_st y)) o r1 -> gives_back (s_txns (y_st y)) o r2 -> r1 = r2.
Proof. exact (refunded_once cfg u y). Qed.
Print Assumptions C11_refunded_at_most_once.

(** The refund of a settled transaction is settled too, in the same currency, and
    together they leave the settled net of every balance unchanged. *)
Theorem C11_refund_reverses cfg u y :
  distinct_uuids u -> steps cfg honest (init_sys u) y ->
  forall o r, In o (s_txns (y_st y)) -> In r (s_txns (y_st y)) -> t_status (r_t o) = SApplied -> 0 < amount o ->
  gives_back (s_txns (y_st y)) o r ->
  t_status (r_t r) = SApplied /\ t_cur (r_t r) = t_cur (r_t o) /\ forall id, net id [o] + net id [r] = 0.
Proof. exact (refund_exact cfg u y). Qed.
Print Assumptions C11_refund_reverses.

Example C11_case :
  exists y, steps cfg0 careful (init_sys uuids) y /\
    exists o1 r1 o2 q2 r2, In o1 (s_txns (y_st y)) /\ In r1 (s_txns (y_st y)) /\ In o2 (s_txns (y_st y)) /\ In r2 (s_txns (y_st y))
      /\ t_status (r_t o1) = SApplied /\ 0 < amount o1 /\ child_of o1 r1 /\ gives_back (s_txns (y_st y)) o1 r1
      /\ t_status (r_t o2) = SApplied /\ 0 < amount o2 /\ child_of o2 q2 /\ child_of q2 r2 /\ gives_back (s_txns (y_st y)) o2 r2.
Proof. exact tidy_refunds. Qed.

(** Asking twice: the second request refunds the refund. It answers with an error, and the
    money is back with the payee. *)
Theorem C11_asked_twice_refuted : exists y, steps cfg0 no_recon_flag (init_sys uuids) y /\ s_locks (y_st y) = []
  /\ let first := run 9 (refund_batch cfg0 "txn_5" true) (y_st y) in
     let second := run 9 (refund_batch cfg0 "txn_5" true) (fst first) in
     balance_view (y_st y) = [("@bob", (120, 120, 0), (100, 0)); ("@ann", (380, 500, 120), (0, 100)); ("@bank", (-500, 0, 500), (0, 0))]
     /\ okays (snd first) = [None]
     /\ balance_view (fst first) = [("@bob", (0, 120, 120), (100, 0)); ("@ann", (500, 620, 120), (0, 100)); ("@bank", (-500, 0, 500), (0, 0))]
     /\ okays (snd second) = [None; Some EAlreadyRefunded]
     /\ balance_view (fst second) = [("@bob", (120, 240, 120), (100, 0)); ("@ann", (380, 620, 240), (0, 100)); ("@bank", (-500, 0, 500), (0, 0))].
Proof. exact asked_twice. Qed.
Print Assumptions C11_asked_twice_refuted.

(** ** C12 *)
(** [outcome_of o r]: [r] is recorded under [o] and moves money or is REJECTED. *)
Theorem C12_posted_at_most_once cfg u y :
  distinct_uuids u -> steps cfg no_recon_flag (init_sys u) y ->
  forall o r1 r2, In o (s_txns (y_st y)) -> In r1 (s_txns (y_st y)) -> In r2 (s_txns (y_st y)) -> waiting o ->
  outcome_of o r1 -> outcome_of o r2 -> r1 = r2.
Proof. exact (queued_once cfg u y). Qed.
Print Assumptions C12_posted_at_most_once.

(** The outcome carries the derived reference and the ends, currency and amount of
    the accepted transaction. *)
Theorem C12_posted_as_accepted cfg u y :
  distinct_uuids u -> steps cfg no_recon_flag (init_sys u) y ->
  forall o r, In o (s_txns (y_st y)) -> In r (s_txns (y_st y)) -> waiting o -> outcome_of o r ->
  t_ref (r_t r) = (t_ref (r_t o) ++ "_q")%string /\ source r = source o /\ destination r = destination o
  /\ t_cur (r_t r) = t_cur (r_t o) /\ (0 < amount o -> amount r = amount o).
Proof. exact (queued_faithful cfg u y). Qed.
Print Assumptions C12_posted_as_accepted.

Example C12_case :
  exists y, steps cfg0 careful (init_sys uuids) y /\
    exists o1 r1 o2 r2 o3 r3, In o1 (s_txns (y_st y)) /\ In r1 (s_txns (y_st y)) /\ In o2 (s_txns (y_st y))
      /\ In r2 (s_txns (y_st y)) /\ In o3 (s_txns (y_st y)) /\ In r3 (s_txns (y_st y))
      /\ waiting o1 /\ waiting o2 /\ waiting o3
      /\ outcome_of o1 r1 /\ t_status (r_t r1) = SApplied /\ outcome_of o2 r2 /\ t_status (r_t r2) = SInflight
      /\ outcome_of o3 r3 /\ t_status (r_t r3) = SRejected.
Proof. exact tidy_outcomes. Qed.

(** ** C15 *)
(** The executed transaction has the inflight and allow_overdraft flags it was
    accepted with, and its overdraft limit or none. Missing: the limit is kept,
    which is false (next theorem). *)
Theorem C15_permission_kept_partial cfg u y :
  distinct_uuids u -> steps cfg honest (init_sys u) y ->
  forall o r, In o (s_txns (y_st y)) -> In r (s_txns (y_st y)) -> waiting o -> outcome_of o r ->
  t_inflight (r_t r) = t_inflight (r_t o) /\ t_allow (r_t r) = t_allow (r_t o)
  /\ (t_limit (r_t r) = t_limit (r_t o) \/ t_limit (r_t r) = 0%Q).
Proof. exact (queued_permission cfg u y). Qed.
Print Assumptions C15_permission_kept_partial.

(** A queued transaction with a limit is posted beyond it when a worker coalesces it. *)
Theorem C15_permission_kept_refuted :
  exists y, steps cfg0 careful (init_sys uuids) y /\
    exists o r later earlier, s_txns (y_st y) = (later ++ r :: earlier)%list /\ In o earlier /\ waiting o
      /\ outcome_of o r /\ posts r /\ (exists l, grants (r_t o) l)
      /\ forall l, grants (r_t o) l -> available (source r) earlier + l < amount r.
Proof. exact limit_lost. Qed.
Print Assumptions C15_permission_kept_refuted.

Example C15_case :
  exists y, steps cfg0 careful (init_sys uuids) y /\
    exists o1 r1 o2 r2 o3 r3, In o1 (s_txns (y_st y)) /\ In r1 (s_txns (y_st y)) /\ In o2 (s_txns (y_st y))
      /\ In r2 (s_txns (y_st y)) /\ In o3 (s_txns (y_st y)) /\ In r3 (s_txns (y_st y))
      /\ waiting o1 /\ waiting o2 /\ waiting o3
      /\ outcome_of o1 r1 /\ t_status (r_t r1) = SApplied /\ outcome_of o2 r2 /\ t_status (r_t r2) = SInflight
      /\ outcome_of o3 r3 /\ t_status (r_t r3) = SRejected.
Proof. exact tidy_outcomes. Qed.
