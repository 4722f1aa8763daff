(** C36: reconciliations. *)
From Coq Require Import ZArith QArith List String Bool Permutation.
From Verif Require Import Base ReconModel ReconSpec ReconRules ReconTaken ReconCount ReconSound ReconOne ReconMany ReconDemo.
Import ListNotations.
Local Open Scope string_scope.
Local Open Scope list_scope.

(** In any history at all, with failing reads and writes, restarts, expiring caches and
    runs at the same time: a reconciliation stored as completed counts the matches and the
    unmatched transactions it stored. *)
Theorem C36_counts : forall cfg es y i j m u,
  history cfg whatever es y -> run_is y i j -> j_dry j = false -> completed y i m u ->
  m = List.length (matches_of y i) /\ u = List.length (unmatched_of y i).
Proof. exact (fun cfg => counts_ok cfg whatever). Qed.
Print Assumptions C36_counts.

(** A dry run stores no match and no unmatched transaction, and marks no transaction. *)
Theorem C36_dry_run : forall cfg es y i j,
  history cfg whatever es y -> run_is y i j -> j_dry j = true ->
  matches_of y i = [] /\ unmatched_of y i = [] /\ marked_by y i = [].
Proof. exact (fun cfg => dry_ok cfg whatever). Qed.
Print Assumptions C36_dry_run.

Example C36_dry_run_met : history cfg1 everything dry_run dry /\ run_is dry 0 dry_job /\ exists r, nth_error (y_runs dry) 0 = Some r /\ r_matched r = 1%nat.
Proof. exact dry_history. Qed.

(** In any history at all: each stored match is of an uploaded transaction and a stored
    internal transaction such that the two, or the one and the group of the other, fulfil
    a rule of the reconciliation. *)
Theorem C36_sound : forall cfg es y i j m,
  history cfg whatever es y -> run_is y i j -> In m (matches_of y i) ->
  exists u, justified (y_store y) j u (m_ext m) (m_int m).
Proof. exact (fun cfg es y i j m H Hr Hm => proj1 (sound_ok cfg whatever es y i j m H Hr Hm)). Qed.
Print Assumptions C36_sound.

(** The uploaded transaction is one of the reconciled upload if no run starts while pages
    of another upload are cached. *)
Theorem C36_own_upload : forall cfg es y i j m,
  history cfg (eq OwnPages) es y -> run_is y i j -> In m (matches_of y i) ->
  justified (y_store y) j (j_upload j) (m_ext m) (m_int m).
Proof. exact (fun cfg es y i j m H Hr Hm => proj2 (sound_ok cfg (eq OwnPages) es y i j m H Hr Hm) eq_refl). Qed.
Print Assumptions C36_own_upload.

(** One to one, without failing reads and writes, pages of another upload and additions to
    the upload: when the reconciliation is completed, each uploaded transaction either has
    at least one match, at most one for each worker, and is not reported as unmatched, or
    it has none, is reported as unmatched once, and no internal transaction within reach
    that was there at the start fulfils a rule with it. *)
Theorem C36_once : forall cfg es y i j m u e,
  sensible cfg -> history cfg the_three es y -> run_is y i j -> j_strategy j = "one_to_one" -> j_dry j = false ->
  completed y i m u -> uploaded y (j_upload j) e ->
  ((1 <= List.length (matched_to y i (n_id e)) <= c_workers cfg)%nat /\ times_unmatched y i (n_id e) = O)
  \/ (matched_to y i (n_id e) = [] /\ times_unmatched y i (n_id e) = 1%nat
      /\ forall r t, posted_before y i t -> In r (j_rules j) -> Forall (meets e t) r -> within_reach (j_rules j) r e t -> False).
Proof.
  exact (fun cfg es y i j m u e Hc =>
    once_ok cfg the_three es y i j m u e Hc (or_intror (or_introl eq_refl)) (or_intror (or_intror eq_refl)) (or_introl eq_refl)).
Qed.
Print Assumptions C36_once.

Example C36_once_met : history cfg1 everything plain_run plain
  /\ (run_is plain 0 plain_job /\ completed plain 0 1 1
      /\ matches_of plain 0 = [{| m_recon := 0; m_ext := "a1"; m_int := "t1" |}] /\ unmatched_of plain 0 = ["a2"])
  /\ (uploaded plain "A" (tx "a1" 10 "USD" "x") /\ uploaded plain "A" (tx "a2" 99 "USD" "y") /\ sensible cfg1)
  /\ posted_before plain 0 (tx "t2" 7 "USD" "r2") /\ within_reach [same_amount] same_amount (tx "a2" 99 "USD" "y") (tx "t2" 7 "USD" "r2").
Proof. exact (conj plain_history (conj plain_rows (conj plain_uploads plain_reach))). Qed.

(** With one worker matches and unmatched transactions together are as many as were
    uploaded, in dry runs as well. *)
Theorem C36_total : forall cfg es y i j m u,
  sensible cfg -> c_workers cfg = 1%nat -> history cfg the_three es y -> run_is y i j -> j_strategy j = "one_to_one" -> completed y i m u ->
  (m + u)%nat = List.length (filter (fun x => String.eqb (fst x) (j_upload j)) (d_ext (y_store y))).
Proof.
  exact (fun cfg es y i j m u Hc H1 =>
    total_ok cfg the_three es y i j m u Hc H1 (or_intror (or_introl eq_refl)) (or_intror (or_intror eq_refl)) (or_introl eq_refl)).
Qed.
Print Assumptions C36_total.

(** One to many, when the ledger fits in a page and no older pages of groups are cached:
    each uploaded transaction is matched to all transactions of one group, as the ledger
    had it at some moment since the start, whose sum fulfils a rule, or it is reported as
    unmatched once, and at some moment since the start no group of the ledger did. *)
Theorem C36_group_once : forall cfg es y i j m u e,
  sensible cfg -> history cfg everything es y -> run_is y i j -> j_strategy j = "one_to_many" -> j_dry j = false ->
  completed y i m u -> uploaded y (j_upload j) e ->
  (exists led k l v, ledger_since y i led /\ k <> "" /\ l <> [] /\ whole_group (j_group j) k led l
     /\ stands_for l v /\ fulfils (j_rules j) e v
     /\ Permutation (matched_to y i (n_id e)) (map n_id l) /\ times_unmatched y i (n_id e) = O)
  \/ (matched_to y i (n_id e) = [] /\ times_unmatched y i (n_id e) = 1%nat
      /\ (~ In (j_group j) (group_columns false)
          \/ exists led, ledger_since y i led /\ forall k, k <> "" -> exists l,
               whole_group (j_group j) k led l /\ (l = [] \/ forall v, stands_for l v -> ~ fulfils (j_rules j) e v))).
Proof. exact (fun cfg es y i j m u e Hc => group_once_ok cfg everything es y i j m u e Hc I I I I I). Qed.
Print Assumptions C36_group_once.

Example C36_group_once_met : history cfg1 everything group_run groups
  /\ run_is groups 0 group_job /\ completed groups 0 2 1
  /\ matched_to groups 0 "a1" = ["t1"; "t3"] /\ matched_to groups 0 "a2" = [] /\ times_unmatched groups 0 "a2" = 1%nat
  /\ uploaded groups "A" (tx "a1" 10 "USD" "x") /\ uploaded groups "A" (tx "a2" 99 "USD" "y").
Proof. exact (conj group_history group_rows_of). Qed.

(** What does not hold. Another upload's transactions are reconciled while their pages are
    cached; the upload's own are not. *)
Theorem C36_other_upload_refuted : exists cfg es y i j m u e e', sensible cfg /\ history cfg (all_but OwnPages) es y /\ run_is y i j
  /\ j_strategy j = "one_to_one" /\ j_dry j = false /\ completed y i m u
  /\ uploaded y (j_upload j) e /\ matched_to y i (n_id e) = [] /\ times_unmatched y i (n_id e) = O
  /\ (forall v, uploaded y v e' -> v <> j_upload j) /\ times_unmatched y i (n_id e') = 1%nat.
Proof. exact other_upload. Qed.
Print Assumptions C36_other_upload_refuted.

(** One to one is not: one internal transaction for two uploaded ones, *)
Theorem C36_internal_once_refuted : exists cfg es y i j m u x x' t, sensible cfg /\ history cfg everything es y /\ run_is y i j
  /\ j_strategy j = "one_to_one" /\ j_dry j = false /\ completed y i m u /\ x <> x'
  /\ matched_to y i x = [t] /\ matched_to y i x' = [t].
Proof. exact internal_twice. Qed.
Print Assumptions C36_internal_once_refuted.

(** and two internal transactions for one uploaded one. *)
Theorem C36_external_once_refuted : exists cfg es y i j m u x t t', sensible cfg /\ history cfg everything es y /\ run_is y i j
  /\ j_strategy j = "one_to_one" /\ j_dry j = false /\ completed y i m u /\ t <> t' /\ matched_to y i x = [t; t'].
Proof. exact external_twice. Qed.
Print Assumptions C36_external_once_refuted.

(** A transaction is reported as unmatched although one that was there fulfils a rule: its
    currency is spelled differently, or it is outside the bounds of another rule. *)
Theorem C36_missed_refuted : missed spelled_job spelled_run /\ missed bounds_job bounds_run.
Proof. exact (conj missed_spelling missed_bounds). Qed.
Print Assumptions C36_missed_refuted.

(** One to many with more groups than fit in a page: matched and reported as unmatched, *)
Theorem C36_pages_refuted : exists cfg es y i j m u x t, sensible cfg /\ history cfg (all_but OnePage) es y /\ run_is y i j
  /\ j_strategy j = "one_to_many" /\ j_dry j = false /\ completed y i m u
  /\ matched_to y i x = [t] /\ times_unmatched y i x = 1%nat.
Proof. exact both_ways. Qed.
Print Assumptions C36_pages_refuted.

(** or stuck for ever, whatever happens afterwards. *)
Theorem C36_finishes_refuted : exists cfg es y i j, sensible cfg /\ history cfg (all_but OnePage) es y /\ run_is y i j /\ j_strategy j = "one_to_many"
  /\ forall later, nth_error (d_recon (y_store (play cfg later y))) i = Some RRunning.
Proof. exact hangs. Qed.
Print Assumptions C36_finishes_refuted.

(** With older pages of groups cached, a group that was there is not looked at. *)
Theorem C36_stale_groups_refuted : exists cfg es y i j m u e t, sensible cfg /\ history cfg (all_but FreshGroups) es y /\ run_is y i j
  /\ j_strategy j = "one_to_many" /\ j_dry j = false /\ completed y i m u
  /\ uploaded y (j_upload j) e /\ posted_before y i t /\ whole_group (j_group j) (n_ref t) (d_int (y_store y)) [t]
  /\ stands_for [t] t /\ fulfils (j_rules j) e t
  /\ matched_to y i (n_id e) = [] /\ times_unmatched y i (n_id e) = 1%nat.
Proof. exact stale_groups. Qed.
Print Assumptions C36_stale_groups_refuted.

(** A run interrupted by a restart is never taken up again, although its progress is stored. *)
Theorem C36_resumes_refuted : exists cfg es y i j, sensible cfg /\ history cfg everything es y /\ run_is y i j /\ matches_of y i <> []
  /\ forall later, nth_error (d_recon (y_store (play cfg later y))) i = Some RRunning.
Proof. exact abandoned. Qed.
Print Assumptions C36_resumes_refuted.

(** A failed read of the upload can be forgotten: the reconciliation is completed without
    the rest of the upload. *)
Theorem C36_failed_read_refuted : exists cfg es y i j m u e, sensible cfg /\ history cfg (all_but NoFault) es y /\ run_is y i j
  /\ j_strategy j = "one_to_one" /\ j_dry j = false /\ completed y i m u
  /\ uploaded y (j_upload j) e /\ matched_to y i (n_id e) = [] /\ times_unmatched y i (n_id e) = O.
Proof. exact forgotten. Qed.
Print Assumptions C36_failed_read_refuted.

(** A failed read of the ledger: the transaction is matched and reported as unmatched, and
    then the server goes down. *)
Theorem C36_crash_refuted : exists cfg es es' y y' i j x t, sensible cfg /\ history cfg (all_but NoFault) es y /\ run_is y i j
  /\ j_strategy j = "one_to_one" /\ j_dry j = false
  /\ matched_to y i x = [t] /\ times_unmatched y i x = 1%nat
  /\ y_panics y = O /\ history cfg (all_but NoFault) (es ++ es') y' /\ Forall (fun e => exists m, e = ERun i m /\ faultless m) es' /\ y_panics y' = 1%nat
  /\ forall later, nth_error (d_recon (y_store (play cfg later y'))) i = Some RRunning.
Proof. exact crashes. Qed.
Print Assumptions C36_crash_refuted.

(** A strategy nobody knows is accepted and completes without looking at anything. *)
Theorem C36_unknown_strategy_refuted : exists cfg es y i j e t, sensible cfg /\ history cfg everything es y /\ run_is y i j
  /\ j_dry j = false /\ completed y i 0 0 /\ uploaded y (j_upload j) e /\ posted_before y i t /\ fulfils (j_rules j) e t
  /\ matched_to y i (n_id e) = [] /\ times_unmatched y i (n_id e) = O.
Proof. exact unknown_strategy. Qed.
Print Assumptions C36_unknown_strategy_refuted.

(** ** Matching rules *)

(** A matching rule is taken exactly if it has a name and at least one criterion, each on a
    known field with a known operator, the drift of an amount being a fraction and that of a
    date not negative. *)
Theorem C36_rule_check : forall name r, valid_rule name r = true <-> rule_taken name r.
Proof. exact rule_check. Qed.
Print Assumptions C36_rule_check.

(** A taken rule that compares amounts by equality, with whatever drift, never matches a
    payment with a receipt. *)
Theorem C36_signs_agree : forall name r e t, valid_rule name r = true ->
  (exists c, In c r /\ equals_on "amount" c) -> Forall (meets e t) r ->
  ~ (n_amount e < 0 /\ 0 < n_amount t)%Q /\ ~ (0 < n_amount e /\ n_amount t < 0)%Q.
Proof. exact signs_agree. Qed.
Print Assumptions C36_signs_agree.

(** A taken rule of equalities is fulfilled by two transactions that are the same in the
    five fields, if their texts are free of " | ". *)
Theorem C36_identical : forall name r e t, valid_rule name r = true -> Forall (fun c => k_op c = "equals") r ->
  n_amount e = n_amount t -> n_date e = n_date t -> n_desc e = n_desc t -> n_ref e = n_ref t -> n_cur e = n_cur t ->
  Forall (fun s => has_part " | " s = false) [n_desc t; n_ref t; n_cur t] ->
  Forall (meets e t) r.
Proof. exact identical_match. Qed.
Print Assumptions C36_identical.

Example C36_identical_met : valid_rule "same" [{| k_field := "amount"; k_op := "equals"; k_drift := 0 |};
    {| k_field := "date"; k_op := "equals"; k_drift := 60 |}; {| k_field := "reference"; k_op := "equals"; k_drift := 0 |}] = true
  /\ Forall (fun s => has_part " | " s = false) ["rent may"; "r"; "USD"].
Proof. exact identical_case. Qed.

(** With " | " in its description a transaction does not match itself. *)
Theorem C36_bar_refuted : ~ (forall name r e, valid_rule name r = true -> Forall (fun c => k_op c = "equals") r ->
  matches_rules e e [r] = true).
Proof. exact bar_refuted. Qed.
Print Assumptions C36_bar_refuted.

(** A rule that nothing can ever fulfil is taken. *)
Theorem C36_useless_rule_taken : valid_rule "rule" useless = true /\ forall e t, ~ Forall (meets e t) useless.
Proof. exact useless_taken. Qed.
Print Assumptions C36_useless_rule_taken.
