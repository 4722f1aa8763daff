(** Property theorems about the whole ledger under every schedule: C01, C03, C05,
    C06, C34 (statements only; proofs are in LedgerThms, PostProof, LedgerRefute).
    [steps cfg ok (init_sys u) y]: starting from an empty installation, any number
    of client requests, worker deliveries, background goroutines and recovery
    sweeps, interleaved one database/Redis operation at a time, with kills at any
    point and lock expiry at any time, can lead to [y]; [ok] restricts the events. *)
From Coq Require Import ZArith QArith List String Bool.
From Verif Require Import Base SplitModel BalanceModel LedgerModel LedgerProgs ConcModel LedgerSpec
  SerialSpec PostSpec LedgerSafe LedgerThms LedgerRefute PostProof Sched Demo.
Import ListNotations.
Local Open Scope string_scope.
Open Scope Z_scope.

(** ** C01 *)
(** [no_recon_flag]: no balance is created with the BLNK_RUN_RECONCILIATION key in
    its metadata (with it the claim is false: C01_double_entry_refuted). *)
Theorem C01_double_entry cfg u y :
  steps cfg no_recon_flag (init_sys u) y ->
  sumz b_cr (s_bals (y_st y)) = sumz b_db (s_bals (y_st y))
  /\ sumz b_icr (s_bals (y_st y)) = sumz b_idb (s_bals (y_st y))
  /\ sumz b_bal (s_bals (y_st y)) = 0 /\ sumz b_ibal (s_bals (y_st y)) = 0.
Proof. exact (double_entry cfg u y). Qed.
Print Assumptions C01_double_entry.

Theorem C01_double_entry_refuted :
  exists y, steps cfg0 (fun _ _ => True) (init_sys uuids) y /\
    sumz b_cr (s_bals (y_st y)) <> sumz b_db (s_bals (y_st y)).
Proof. exact recon_flag_breaks. Qed.
Print Assumptions C01_double_entry_refuted.

(** The hypothesis is met by a history with 13 rows and 5 balances. *)
Example C01_case :
  exists y, steps cfg0 no_recon_flag (init_sys uuids) y
    /\ journal_view (y_st y) = demo_journal /\ balance_view (y_st y) = demo_balances.
Proof. exact demo_reached. Qed.

(** ** C03 *)
(** There are books kept by a serial bookkeeper who entered exactly the recorded
    rows, one after another, each permitted by the funds rule at its turn, and
    every stored balance agrees with them. Lock expiry is allowed. *)
Theorem C03_serialisable cfg u y :
  steps cfg no_recon_flag (init_sys u) y ->
  exists bk, serial (c_queued cfg) (s_txns (y_st y)) bk
             /\ forall b, In b (s_bals (y_st y)) -> agrees b bk.
Proof. exact (serialisable cfg u y). Qed.
Print Assumptions C03_serialisable.

Example C03_case :
  exists y, steps cfg0 no_recon_flag (init_sys uuids) y
    /\ journal_view (y_st y) = demo_journal /\ balance_view (y_st y) = demo_balances.
Proof. exact demo_reached. Qed.

(** ** C05 *)
(** [traces n p tr r]: thread [n] ran [p], every operation meeting an arbitrary
    state, possibly dying ([r = None]) between any two operations. Every such run
    of a post, a commit or a void wrote nothing, or wrote exactly one row and its
    two balances in a single operation; it wrote nothing if it reported an error. *)
Theorem C05_post_all_or_nothing cfg n t tr r :
  traces n (record_single cfg t) tr r -> all_or_nothing tr r.
Proof. exact (record_single_aon cfg n t tr r). Qed.
Print Assumptions C05_post_all_or_nothing.

Theorem C05_commit_all_or_nothing cfg n id amount ref tr r :
  traces n (commit cfg id amount ref) tr r -> all_or_nothing tr r.
Proof. exact (commit_aon cfg n id amount ref tr r). Qed.
Print Assumptions C05_commit_all_or_nothing.

Theorem C05_void_all_or_nothing cfg n id ref tr r :
  traces n (void cfg id ref) tr r -> all_or_nothing tr r.
Proof. exact (void_aon cfg n id ref tr r). Qed.
Print Assumptions C05_void_all_or_nothing.

(** A post that goes through does write its row. *)
Example C05_case :
  exists tr t, traces 0 (record_single cfg0 (with_status (with_keys (ctxn "@bank" "@ann" "r" 500 false true true) "txn_x" "" "r") SQueued)) tr (Some (Ok t))
    /\ exists tr1 x tr2, tr = (tr1 ++ x :: tr2)%list /\ posted t x.
Proof. exact post_trace_example. Qed.

(** ** C06 *)
Theorem C06_reference_unique cfg u y :
  steps cfg no_recon_flag (init_sys u) y ->
  forall r1 r2, In r1 (s_txns (y_st y)) -> In r2 (s_txns (y_st y)) ->
    t_ref (r_t r1) = t_ref (r_t r2) -> r1 = r2.
Proof. exact (unique_refs cfg u y). Qed.
Print Assumptions C06_reference_unique.

(** Posting a reference that is recorded fails and changes nothing. *)
Theorem C06_used_reference_refused cfg n t tr r :
  Forall (fun x => exists w, In w (s_txns (fst x)) /\ t_ref (r_t w) = t_ref t) tr ->
  traces n (record_single cfg t) tr r ->
  Forall untouched tr /\ (r = None \/ exists e, r = Some (Err e)).
Proof. exact (record_single_refused cfg n t tr r). Qed.
Print Assumptions C06_used_reference_refused.

(** A recorded reference stays recorded. *)
Theorem C06_reference_stays cfg ok y y' :
  steps cfg ok y y' -> forall r, In r (s_txns (y_st y)) -> In r (s_txns (y_st y')).
Proof. exact (rows_stay cfg ok y y'). Qed.
Print Assumptions C06_reference_stays.

Example C06_case :
  exists y, steps cfg0 no_recon_flag (init_sys uuids) y
    /\ journal_view (y_st y) = demo_journal /\ balance_view (y_st y) = demo_balances.
Proof. exact demo_reached. Qed.

Example C06_refused_case :
  exists tr e, tr <> [] /\ Forall (fun x => exists w, In w (s_txns (fst x)) /\ t_ref (r_t w) = "fund") tr
    /\ traces 0 (record_single cfg0 (with_status (ctxn "@bank" "@ann" "fund" 500 false true true) SQueued)) tr (Some (Err e)).
Proof. exact refused_trace_example. Qed.

(** ** C34 *)
Theorem C34_reconcile_changes_nothing cfg u y :
  steps cfg no_recon_flag (init_sys u) y ->
  forall n id, fst (exec n (OReconcile id) (y_st y)) = y_st y.
Proof. exact (reconcile_nothing cfg u y). Qed.
Print Assumptions C34_reconcile_changes_nothing.

(** A balance carrying the flag from its creation loses its first posting. *)
Theorem C34_flag_at_creation_refuted :
  exists y, steps cfg0 (fun _ _ => True) (init_sys uuids) y /\
    sumz b_cr (s_bals (y_st y)) <> sumz b_db (s_bals (y_st y)).
Proof. exact recon_flag_breaks. Qed.
Print Assumptions C34_flag_at_creation_refuted.

Example C34_case :
  exists y, steps cfg0 no_recon_flag (init_sys uuids) y
    /\ journal_view (y_st y) = demo_journal /\ balance_view (y_st y) = demo_balances.
Proof. exact demo_reached. Qed.
