(** Property theorems about balances, funds and holds under every schedule: C02, C04,
    C07, C08, C09 (statements only; proofs are in LedgerThms, ProvThms, TidyDemo).
    Hypotheses on histories (HoldSpec): [distinct_uuids]: generated ids never repeat;
    [no_recon_flag]: no balance is created with the reconciliation flag; [polite]: a
    lock does not expire while the request holding it is still running; [careful]:
    both, and clients do not write the metadata keys "inflight" and "allow_overdraft"
    that the ledger keeps for itself. *)
From Coq Require Import ZArith QArith List String Bool.
From Verif Require Import Base SplitModel BalanceModel LedgerModel LedgerProgs ConcModel LedgerSpec
  BudgetSpec ProvSpec HoldSpec LedgerSafe LedgerThms LedgerRefute ProvThms Sched Demo TidyDemo.
Import ListNotations.
Local Open Scope string_scope.
Open Scope Z_scope.

(** ** C02 *)
(** Every stored balance is the sum of its journal, under every schedule. *)
Theorem C02_balance_is_journal cfg u y :
  steps cfg no_recon_flag (init_sys u) y ->
  forall b, In b (s_bals (y_st y)) ->
  b_cr b = sumz (fun r => if status_eqb (t_status (r_t r)) SApplied && String.eqb (t_dst (r_t r)) (b_id b)
                          then t_precise (r_t r) else 0) (s_txns (y_st y))
  /\ b_db b = sumz (fun r => if status_eqb (t_status (r_t r)) SApplied && String.eqb (t_src (r_t r)) (b_id b)
                          then t_precise (r_t r) else 0) (s_txns (y_st y))
  /\ b_icr b = held_in (b_id b) (s_txns (y_st y)) /\ b_idb b = held_out (b_id b) (s_txns (y_st y))
  /\ b_bal b = b_cr b - b_db b /\ b_ibal b = b_icr b - b_idb b.
Proof. exact (balance_journal cfg u y). Qed.
Print Assumptions C02_balance_is_journal.

(** Which APPLIED rows count as commits in [held_in] and [held_out] is visible to
    the client: exactly those whose parent is a hold. *)
Theorem C02_commits_are_visible cfg u y :
  distinct_uuids u -> steps cfg honest (init_sys u) y ->
  forall r, In r (s_txns (y_st y)) -> t_status (r_t r) = SApplied ->
  (r_kind r = KCommit <-> exists h, In h (s_txns (y_st y)) /\ t_id (r_t h) = t_parent (r_t r) /\ is_hold h).
Proof. exact (commits_visible cfg u y). Qed.
Print Assumptions C02_commits_are_visible.

(** The inflight counters are never negative, under every schedule. *)
Theorem C02_inflight_nonnegative cfg u y :
  steps cfg no_recon_flag (init_sys u) y ->
  forall b, In b (s_bals (y_st y)) -> 0 <= b_icr b /\ 0 <= b_idb b.
Proof. exact (inflight_nonneg cfg u y). Qed.
Print Assumptions C02_inflight_nonnegative.

(** None of the four counters is negative. *)
Theorem C02_counters_nonnegative cfg u y :
  distinct_uuids u -> steps cfg careful (init_sys u) y -> ~ negative_queued (s_txns (y_st y)) ->
  forall b, In b (s_bals (y_st y)) -> 0 <= b_cr b /\ 0 <= b_db b /\ 0 <= b_icr b /\ 0 <= b_idb b.
Proof. exact (counters_careful cfg u y). Qed.
Print Assumptions C02_counters_nonnegative.

(** Both provisos are needed: a lock that expires under its owner, or a negative leg
    of a split, makes a settled counter negative. *)
Theorem C02_counters_nonnegative_expiry_refuted :
  exists y, steps cfg0 no_recon_flag (init_sys uuids) y /\ exists b, In b (s_bals (y_st y)) /\ b_cr b < 0.
Proof. exact negative_counter. Qed.
Print Assumptions C02_counters_nonnegative_expiry_refuted.

Theorem C02_counters_nonnegative_split_refuted :
  exists y, steps cfg0 careful (init_sys uuids) y /\
    exists b, In b (s_bals (y_st y)) /\ overdraft_at_most (b_id b) 0 (s_txns (y_st y))
      /\ b_cr b < 0 /\ b_bal b - b_idb b < 0.
Proof. exact negative_leg. Qed.
Print Assumptions C02_counters_nonnegative_split_refuted.

Example C02_case :
  exists y, steps cfg0 careful (init_sys uuids) y
    /\ journal_view (y_st y) = tidy_journal /\ balance_view (y_st y) = tidy_balances.
Proof. exact tidy_reached. Qed.
Example C02_case2 :
  exists y, steps cfg0 careful (init_sys uuids) y /\
    (~ negative_queued (s_txns (y_st y)) /\ (4 <= List.length (s_bals (y_st y)))%nat).
Proof. exact tidy_no_negative. Qed.
Example C02_case3 : distinct_uuids uuids.
Proof. exact uuids_distinct. Qed.

(** ** C04 *)
(** [overdraft_at_most id L j]: every transaction out of [id] was posted without
    unlimited overdraft and with a limit of at most [L] minor units ([L = 0]: no
    overdraft at all). *)
Theorem C04_no_overdraft cfg u y :
  distinct_uuids u -> steps cfg careful (init_sys u) y -> ~ negative_queued (s_txns (y_st y)) ->
  forall b L, In b (s_bals (y_st y)) -> 0 <= L -> overdraft_at_most (b_id b) L (s_txns (y_st y)) ->
  - L <= b_bal b - b_idb b.
Proof. exact (overdraft_careful cfg u y). Qed.
Print Assumptions C04_no_overdraft.

(** The provisos are needed: a client that writes the metadata key "inflight", or a
    negative leg of a split, overdraws a balance that never allowed it. *)
Theorem C04_no_overdraft_metadata_refuted :
  exists y, steps cfg0 no_expiry (init_sys uuids) y /\
    exists b, In b (s_bals (y_st y)) /\ overdraft_at_most (b_id b) 0 (s_txns (y_st y)) /\ b_bal b - b_idb b < 0.
Proof. exact overdraft_by_commit. Qed.
Print Assumptions C04_no_overdraft_metadata_refuted.

Theorem C04_no_overdraft_split_refuted :
  exists y, steps cfg0 careful (init_sys uuids) y /\
    exists b, In b (s_bals (y_st y)) /\ overdraft_at_most (b_id b) 0 (s_txns (y_st y))
      /\ b_cr b < 0 /\ b_bal b - b_idb b < 0.
Proof. exact negative_leg. Qed.
Print Assumptions C04_no_overdraft_split_refuted.

(** A balance funded with 500, 200 spent and 250 held, a further 100 refused. *)
Example C04_case :
  exists y, steps cfg0 careful (init_sys uuids) y /\
    exists b, In b (s_bals (y_st y)) /\ ~ negative_queued (s_txns (y_st y))
      /\ overdraft_at_most (b_id b) 0 (s_txns (y_st y)) /\ b_bal b - b_idb b = 50.
Proof. exact frugal_reached. Qed.

(** ** C07 *)
Theorem C07_hold_budget cfg u y :
  distinct_uuids u -> steps cfg (fun y e => no_recon_flag y e /\ polite y e) (init_sys u) y ->
  forall h, In h (s_txns (y_st y)) -> t_status (r_t h) = SInflight ->
  0 <= committed (t_id (r_t h)) (s_txns (y_st y)) /\ 0 <= voided (t_id (r_t h)) (s_txns (y_st y))
  /\ committed (t_id (r_t h)) (s_txns (y_st y)) + voided (t_id (r_t h)) (s_txns (y_st y)) <= amount h.
Proof. exact (hold_budget cfg u y). Qed.
Print Assumptions C07_hold_budget.

(** After the void of [h] nothing commits or voids [h]. *)
Theorem C07_void_is_final cfg u y :
  distinct_uuids u -> steps cfg (fun y e => no_recon_flag y e /\ polite y e) (init_sys u) y ->
  forall h later v earlier, s_txns (y_st y) = (later ++ v :: earlier)%list -> r_kind v = KVoid -> t_parent (r_t v) = h ->
  forall r, In r later -> ~ is_action h r.
Proof. exact (void_final cfg u y). Qed.
Print Assumptions C07_void_is_final.

(** Once all of [h] has been committed nothing commits or voids it. *)
Theorem C07_full_commit_is_final cfg u y :
  distinct_uuids u -> steps cfg (fun y e => no_recon_flag y e /\ polite y e) (init_sys u) y ->
  forall h later earlier, s_txns (y_st y) = (later ++ earlier)%list -> In h earlier -> t_status (r_t h) = SInflight ->
  committed (t_id (r_t h)) earlier = amount h -> forall r, In r later -> ~ is_action (t_id (r_t h)) r.
Proof. exact (full_final cfg u y). Qed.
Print Assumptions C07_full_commit_is_final.

(** Without [polite] the claim is false. *)
Theorem C07_hold_budget_expiry_refuted :
  exists y, steps cfg0 no_recon_flag (init_sys uuids) y /\
    exists h, In h (s_txns (y_st y)) /\ t_status (r_t h) = SInflight /\
      t_precise (r_t h) < committed (t_id (r_t h)) (s_txns (y_st y)).
Proof. exact overcommit. Qed.
Print Assumptions C07_hold_budget_expiry_refuted.

Example C07_case :
  exists y, steps cfg0 careful (init_sys uuids) y /\
    exists h v, In h (s_txns (y_st y)) /\ t_status (r_t h) = SInflight
      /\ committed (t_id (r_t h)) (s_txns (y_st y)) = 1000
      /\ voided (t_id (r_t h)) (s_txns (y_st y)) = 2000 /\ amount h = 3000
      /\ In v (s_txns (y_st y)) /\ r_kind v = KVoid /\ t_parent (r_t v) = t_id (r_t h).
Proof. exact tidy_hold. Qed.
Example C07_case2 :
  exists y, steps cfg0 careful (init_sys uuids) y /\
    exists h, In h (s_txns (y_st y)) /\ t_status (r_t h) = SInflight
      /\ committed (t_id (r_t h)) (s_txns (y_st y)) = amount h.
Proof. exact full_hold. Qed.

(** ** C08 *)
(** Counting only the commits made against the queued transaction's own id (or only
    those made against the worker's copy), no more than the amount is committed.
    Missing: the sum over both ids, which is false (next theorem). *)
Theorem C08_queued_hold_partial cfg u y :
  distinct_uuids u -> steps cfg careful (init_sys u) y ->
  forall h, In h (s_txns (y_st y)) -> is_hold h -> 0 <= amount h ->
  0 <= committed (t_id (r_t h)) (s_txns (y_st y)) /\ 0 <= voided (t_id (r_t h)) (s_txns (y_st y))
  /\ committed (t_id (r_t h)) (s_txns (y_st y)) + voided (t_id (r_t h)) (s_txns (y_st y)) <= amount h.
Proof. exact (queued_budget cfg u y). Qed.
Print Assumptions C08_queued_hold_partial.

Theorem C08_queued_hold_refuted :
  exists y, steps cfg0 no_expiry (init_sys uuids) y /\
    exists q c, In q (s_txns (y_st y)) /\ In c (s_txns (y_st y)) /\
      t_status (r_t q) = SQueued /\ t_status (r_t c) = SInflight /\ t_parent (r_t c) = t_id (r_t q) /\
      t_precise (r_t q) < committed (t_id (r_t q)) (s_txns (y_st y)) + committed (t_id (r_t c)) (s_txns (y_st y)).
Proof. exact queued_hold_twice. Qed.
Print Assumptions C08_queued_hold_refuted.

Example C08_case :
  exists y, steps cfg0 careful (init_sys uuids) y /\
    exists h, In h (s_txns (y_st y)) /\ is_hold h /\ t_status (r_t h) = SQueued /\ 0 < amount h
      /\ committed (t_id (r_t h)) (s_txns (y_st y)) = amount h.
Proof. exact tidy_queued_hold. Qed.

(** ** C09 *)
(** The step that records a commit moves exactly its amount from held to settled on
    the hold's two balances and nothing else, and takes no more than what is left. *)
Theorem C09_commit_moves_held_money cfg u y e y' r :
  distinct_uuids u -> steps cfg careful (init_sys u) y -> careful y e -> step cfg y e y' ->
  s_txns (y_st y') = r :: s_txns (y_st y) -> r_kind r = KCommit ->
  commits_exactly r (s_bals (y_st y)) (s_bals (y_st y'))
  /\ exists h, In h (s_txns (y_st y)) /\ t_id (r_t h) = t_parent (r_t r) /\ is_hold h
       /\ source r = source h /\ destination r = destination h /\ t_cur (r_t r) = t_cur (r_t h)
       /\ (0 <= amount h -> 0 < amount r <= amount h - committed (t_id (r_t h)) (s_txns (y_st y))).
Proof. exact (commit_step cfg u y e y' r). Qed.
Print Assumptions C09_commit_moves_held_money.

(** The step that records a void releases exactly what had not been committed. *)
Theorem C09_void_releases_rest cfg u y e y' r :
  distinct_uuids u -> steps cfg careful (init_sys u) y -> careful y e -> step cfg y e y' ->
  s_txns (y_st y') = r :: s_txns (y_st y) -> r_kind r = KVoid ->
  voids_exactly r (s_bals (y_st y)) (s_bals (y_st y'))
  /\ exists h, In h (s_txns (y_st y)) /\ t_id (r_t h) = t_parent (r_t r) /\ is_hold h
       /\ source r = source h /\ destination r = destination h /\ t_cur (r_t r) = t_cur (r_t h)
       /\ (0 <= amount h -> 0 < amount r /\ amount r = amount h - committed (t_id (r_t h)) (s_txns (y_st y))).
Proof. exact (void_step cfg u y e y' r). Qed.
Print Assumptions C09_void_releases_rest.

(** All in all, a voided hold left nothing held and settled only what was committed. *)
Theorem C09_void_leaves_no_trace cfg u y :
  distinct_uuids u -> steps cfg (fun y e => no_recon_flag y e /\ polite y e) (init_sys u) y ->
  forall h v, In h (s_txns (y_st y)) -> t_status (r_t h) = SInflight ->
  In v (s_txns (y_st y)) -> r_kind v = KVoid -> t_parent (r_t v) = t_id (r_t h) ->
  held_for h (s_txns (y_st y)) = 0
  /\ settled_for h (s_txns (y_st y)) = committed (t_id (r_t h)) (s_txns (y_st y))
  /\ committed (t_id (r_t h)) (s_txns (y_st y)) + amount v = amount h.
Proof. exact (void_releases cfg u y). Qed.
Print Assumptions C09_void_leaves_no_trace.

Example C09_case :
  exists y y' r, steps cfg0 careful (init_sys uuids) y /\ careful y (EStep 2) /\ step cfg0 y (EStep 2) y'
    /\ s_txns (y_st y') = r :: s_txns (y_st y) /\ r_kind r = KCommit.
Proof. exact commit_step_case. Qed.
Example C09_case2 :
  exists y y' r, steps cfg0 careful (init_sys uuids) y /\ careful y (EStep 2) /\ step cfg0 y (EStep 2) y'
    /\ s_txns (y_st y') = r :: s_txns (y_st y) /\ r_kind r = KVoid.
Proof. exact void_step_case. Qed.
Example C09_case3 :
  exists y, steps cfg0 careful (init_sys uuids) y /\
    exists h v, In h (s_txns (y_st y)) /\ t_status (r_t h) = SInflight
      /\ committed (t_id (r_t h)) (s_txns (y_st y)) = 1000
      /\ voided (t_id (r_t h)) (s_txns (y_st y)) = 2000 /\ amount h = 3000
      /\ In v (s_txns (y_st y)) /\ r_kind v = KVoid /\ t_parent (r_t v) = t_id (r_t h).
Proof. exact tidy_hold. Qed.
