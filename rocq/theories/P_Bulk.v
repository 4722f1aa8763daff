(** C31: an atomic bulk that fails leaves balances as they were. *)
From Coq Require Import ZArith QArith List String Bool.
From Verif Require Import BulkProof BulkAmong BulkDemo BulkRollDemo.
From Verif Require Import Base BalanceModel LedgerModel LedgerProgs ConcModel LedgerSafe Sched Demo LedgerThms HoldSpec BatchSpec BulkModel BulkSpec PreviewSpec.
Import ListNotations.
Open Scope Z_scope.

(** [y] is any state reached while locks expire only after their holders are gone; there an
    atomic bulk of holds, processed synchronously and undisturbed, fails at some member,
    whichever it is, and the answer says that everything has been voided. Then every
    balance shows what it showed before. Asked: members are not split, and the random
    batch id has never been used. *)
Theorem C31_restored_partial : forall cfg u y e ts s' er report,
  distinct_uuids u ->
  steps cfg (fun y e => no_recon_flag y e /\ polite y e) (init_sys u) y ->
  Forall api_txn ts -> Forall unsplit ts ->
  never_mentioned ("bulk_" ++ s_uuid (y_st y) (s_ctr (y_st y))) (y_st y) ->
  run (List.length (y_thr y)) (bulk_report cfg e ts true true true) (y_st y) = (s', (Err er, report)) ->
  Forall succeeded report ->
  restored (y_st y) s'.
Proof. exact bulk_restores. Qed.
Print Assumptions C31_restored_partial.

(** Nothing need be asked of the answer when no one else is at work: with no lock held, and
    no reference used, by an earlier transaction or by a member, that the ledger has still
    to draw for a void, every void of the rollback succeeds, and every balance shows what
    it showed before. *)
Theorem C31_rolled_back_partial : forall cfg u y e ts s' er report,
  distinct_uuids u ->
  steps cfg (fun y e => no_recon_flag y e /\ polite y e) (init_sys u) y ->
  s_locks (y_st y) = [] -> new_refs (y_st y) ->
  Forall api_txn ts -> Forall unsplit ts ->
  (forall t i, In t ts -> (s_ctr (y_st y) <= i)%nat -> t_ref t <> ("ref_" ++ s_uuid (y_st y) i)%string) ->
  never_mentioned ("bulk_" ++ s_uuid (y_st y) (s_ctr (y_st y))) (y_st y) ->
  run (List.length (y_thr y)) (bulk_report cfg e ts true true true) (y_st y) = (s', (Err er, report)) ->
  Forall succeeded report /\ restored (y_st y) s'.
Proof. exact bulk_undone. Qed.
Print Assumptions C31_rolled_back_partial.

Example C31_rolled_back_example : exists y s' report,
  steps cfg0 polite_run (init_sys uuids) y /\ s_locks (y_st y) = [] /\ new_refs (y_st y)
  /\ (forall t i, In t bulk_ts -> (s_ctr (y_st y) <= i)%nat -> t_ref t <> ("ref_" ++ s_uuid (y_st y) i)%string)
  /\ never_mentioned ("bulk_" ++ s_uuid (y_st y) (s_ctr (y_st y))) (y_st y)
  /\ run (List.length (y_thr y)) (bulk_report cfg0 env0 bulk_ts true true true) (y_st y) = (s', (Err EInsufficient, report))
  /\ List.length report = 2%nat.
Proof. exact rolled_back_example. Qed.

(** Whatever others do meanwhile: every hold [h] that such a bulk has recorded is voided
    when it answers, unless more of it than it was worth had been committed by then (C07
    excludes that). C09 says what a void leaves held: nothing. *)
Theorem C31_voided_partial : forall n cfg e ts s er report s' own,
  NoDup (map (fun r => t_id (r_t r)) (s_txns s)) -> Forall unsplit ts ->
  among n (bulk_report cfg e ts true true true) s (Some (Err er, report)) s' own ->
  Forall succeeded report ->
  forall x h, In x own -> s_txns (snd x) = h :: s_txns (fst x) -> t_status (r_t h) = SInflight ->
  (exists v, In v (s_txns s') /\ t_status (r_t v) = SVoid /\ t_parent (r_t v) = t_id (r_t h))
  \/ exists x', In x' own /\ t_precise (r_t h) < total_committed (t_id (r_t h)) (s_txns (fst x')).
Proof. exact bulk_voids. Qed.
Print Assumptions C31_voided_partial.

(** The answer of the bulk endpoint itself is the first half of the report. *)
Theorem C31_same_request : forall n cfg e ts atomic infl skipq s,
  run n (bulk cfg e ts atomic infl skipq) s
  = (fst (run n (bulk_report cfg e ts atomic infl skipq) s), fst (snd (run n (bulk_report cfg e ts atomic infl skipq) s))).
Proof. exact bulk_is_report. Qed.
Print Assumptions C31_same_request.

(** Two holds are recorded, the third member asks for too much, both holds are voided. *)
Example C31_example : exists y s' report,
  steps cfg0 polite_run (init_sys uuids) y /\ never_mentioned (batch_of (y_st y)) (y_st y)
  /\ run (List.length (y_thr y)) (bulk_report cfg0 env0 bulk_ts true true true) (y_st y) = (s', (Err EInsufficient, report))
  /\ Forall succeeded report /\ List.length report = 2%nat
  /\ firstn 4 (journal_view s') = bulk_rows /\ balance_view (y_st y) = bulk_before /\ balance_view s' = bulk_after.
Proof. exact bulk_example. Qed.
Example C31_example_members : Forall api_txn bulk_ts /\ Forall unsplit bulk_ts.
Proof. exact (conj bulk_tsb bulk_unsplit). Qed.

(** Not holds: the answer says "refunded" while the refunds have not been posted. *)
Theorem C31_refunds_refuted : exists y s' report,
  steps cfg0 polite_run (init_sys uuids) y /\ never_mentioned (batch_of (y_st y)) (y_st y)
  /\ run (List.length (y_thr y)) (bulk_report cfg0 env0 bulk_ts true false true) (y_st y) = (s', (Err EInsufficient, report))
  /\ Forall succeeded report /\ List.length report = 2%nat /\ ~ restored (y_st y) s'.
Proof. exact refunds_later. Qed.
Print Assumptions C31_refunds_refuted.

(** A split member: the answer says "voided" while both its legs still hold the money. *)
Theorem C31_split_refuted : exists y s' report,
  steps cfg0 polite_run (init_sys uuids) y /\ never_mentioned (batch_of (y_st y)) (y_st y)
  /\ run (List.length (y_thr y)) (bulk_report cfg0 env0 split_ts true true true) (y_st y) = (s', (Err EInsufficient, report))
  /\ report = [] /\ ~ restored (y_st y) s'.
Proof. exact split_missed. Qed.
Print Assumptions C31_split_refuted.
