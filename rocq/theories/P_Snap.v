(** Properties C20 (balance at a point in time) and C21 (daily snapshots). *)
From Coq Require Import ZArith List String Bool.
From Verif Require Import Base ChainModel SnapModel SnapSpec SnapProof SnapDemo.
Import ListNotations.
Open Scope Z_scope.

(** C20. The balance of any past instant, computed from source, is the applied
    transactions effective by then: the credits and the debits separately. *)
Theorem C20_at_time_is_replay : forall d id t a, dated d -> answer d id t true a ->
  a = (money_in id (effective_by t) (g_rows d), money_out id (effective_by t) (g_rows d)).
Proof. exact from_source. Qed.
Example C20_at_time_is_replay_met : dated (final quiet) /\ answer (final quiet) "b" 1400 true (70, 30).
Proof. exact (conj quiet_dated quiet_source). Qed.
Print Assumptions C20_at_time_is_replay.

(** From the latest instant on it is the present balance. *)
Theorem C20_now_is_present : forall d b t a, sreach d -> dated d -> In b (g_bals d) -> answer d (o_id b) t true a ->
  (forall x, In x (g_rows d) -> r_eff x <= t) -> a = (o_cr b, o_db b).
Proof. exact from_source_now. Qed.
Print Assumptions C20_now_is_present.

(** The answer through a snapshot differs from that by exactly the transactions that
    straddle the snapshot: those posted before it and effective after it are counted
    twice, those posted after it and effective before it are missed. *)
Theorem C20_snapshot_error_is_straddling : forall d id t s src a, sreach d -> dated d -> latest_snapshot d id t s ->
  answer d id t true src -> a = replay id (fetch d id (sn_time s) t) (sn_cr s, sn_db s) ->
  fst a = fst src + money_in id (effective_after (sn_time s)) (before_snap d s)
                  - money_in id (effective_by (sn_time s)) (after_snap d s) /\
  snd a = snd src + money_out id (effective_after (sn_time s)) (before_snap d s)
                  - money_out id (effective_by (sn_time s)) (after_snap d s).
Proof. exact snapshot_error. Qed.
Print Assumptions C20_snapshot_error_is_straddling.

(** So the two agree, for every instant, history and choice of snapshots, when nothing straddles. *)
Theorem C20_snapshot_agrees : forall d id t src a, sreach d -> dated d -> answer d id t true src -> answer d id t false a ->
  (forall s, latest_snapshot d id t s -> no_straddle d id s) -> a = src.
Proof. exact snapshot_agrees. Qed.
Example C20_snapshot_agrees_met : sreach (final quiet) /\ dated (final quiet) /\ answer (final quiet) "b" 1400 true (70, 30) /\
  answer (final quiet) "b" 1400 false (70, 30) /\ (exists s, latest_snapshot (final quiet) "b" 1400 s) /\
  (forall s, latest_snapshot (final quiet) "b" 1400 s -> no_straddle (final quiet) "b" s).
Proof.
  exact (conj quiet_reach (conj quiet_dated (conj quiet_source (conj quiet_from_snapshot (conj (ex_intro _ _ quiet_latest) quiet_no_straddle))))).
Qed.
Print Assumptions C20_snapshot_agrees.

(** Every existing balance has an answer for every instant. *)
Theorem C20_always_answered : forall d id t fs, id <> ""%string -> t <> zero_time ->
  (exists b, In b (g_bals d) /\ o_id b = id) -> exists a, answer d id t fs a.
Proof. exact answer_exists. Qed.
Print Assumptions C20_always_answered.

(** Straddling happens. A transaction that waited in the queue while the snapshot was taken is missed, *)
Theorem C20_queued_refuted : exists d, sreach d /\ dated d /\
  answer d "b" 1100 true (70, 0) /\ answer d "b" 1100 false (0, 0).
Proof. exact late_missed. Qed.
Print Assumptions C20_queued_refuted.

(** one dated in the future is counted twice once its date has come, *)
Theorem C20_future_dated_refuted : exists d, sreach d /\ dated d /\
  answer d "b" 2500 true (70, 0) /\ answer d "b" 2500 false (140, 0).
Proof. exact early_twice. Qed.
Print Assumptions C20_future_dated_refuted.

(** and so is one that is accepted and posted while a run is between two batches. *)
Theorem C20_posted_during_run_refuted : exists d, sreach1 d /\ dated d /\
  answer d "b" 1050 true (70, 0) /\ answer d "b" 1050 false (140, 0).
Proof. exact amid_twice. Qed.
Print Assumptions C20_posted_during_run_refuted.

(** C21. Whatever the batch size and whatever else happens meanwhile, a run that ends
    leaves every balance that existed at its beginning with exactly one snapshot for the day. *)
Theorem C21_exactly_one_per_day : forall d0 n d1 es d2 d3, sreach1 d0 -> g_runs d0 = [] -> sstep d0 (NStart n) = Some d1 ->
  (forall e, In e es -> no_start e) -> sruns d1 es = Some d2 -> sstep d2 (NCommit 0) = Some d3 ->
  forall b, In b (g_bals d0) -> snapshots_on d3 (o_id b) (g_now d0) = 1%nat.
Proof. exact exactly_one. Qed.
Example C21_exactly_one_per_day_met : exists d0 d1 d2 d3,
  sreach1 d0 /\ g_runs d0 = [] /\ List.length (g_bals d0) = 3%nat /\ sstep d0 (NStart 2) = Some d1 /\
  sruns d1 [NInsert 0; NPost (pay "b" "c" 30 1400); NAdvance 0; NBalance 3 "d"; NTick 7; NInsert 0; NAdvance 0] = Some d2 /\
  sstep d2 (NCommit 0) = Some d3 /\ List.length (g_snaps d3) = 4%nat.
Proof. exact busy_run. Qed.
Print Assumptions C21_exactly_one_per_day.

(** However often it is repeated, no balance has two for a day. *)
Theorem C21_never_two : forall d id t, sreach1 d -> (snapshots_on d id t <= 1)%nat.
Proof. exact at_most_one. Qed.
Example C21_never_two_met : sreach1 (final quiet).
Proof. exact quiet_reach1. Qed.
Print Assumptions C21_never_two.

(** A run left alone ends, after at most one round per balance and one more. *)
Theorem C21_run_ends : forall d batch d1, g_runs d = [] -> sstep d (NStart batch) = Some d1 ->
  exists k d2, (k <= S (List.length (g_bals d)))%nat /\ sruns d1 (iterations k ++ [NCommit 0]) = Some d2.
Proof. exact run_ends. Qed.
Print Assumptions C21_run_ends.

(** Snapshots are never changed or removed. *)
Theorem C21_snapshots_kept : forall es d d', sruns d es = Some d' -> exists more, g_snaps d' = g_snaps d ++ more.
Proof. exact snapshots_kept. Qed.
Print Assumptions C21_snapshots_kept.

(** A snapshot holds what had been posted to its balance when it was read. *)
Theorem C21_snapshot_content : forall d s, sreach d -> In s (g_snaps d) ->
  sn_cr s = money_in (sn_bal s) all_of (before_snap d s) /\ sn_db s = money_out (sn_bal s) all_of (before_snap d s).
Proof. exact snapshot_content. Qed.
Print Assumptions C21_snapshot_content.

(** Two runs that overlap leave two. *)
Theorem C21_overlapping_runs_refuted : exists d, sreach d /\ snapshots_on d "a" 1000 = 2%nat.
Proof. exact overlap_doubles. Qed.
Print Assumptions C21_overlapping_runs_refuted.
