(** C35: the lanes of the queue. *)
From Coq Require Import ZArith List String Bool.
From Verif Require Import Base HotModel HotSpec HotProof HotDemo.
Import ListNotations.
Open Scope Z_scope.

(** While requests of one pair are accepted one after the other, without failing calls,
    without the pair's state running out and with one spelling per pair, its queued
    transactions never wait in both lanes: whatever lock conflicts, deaths, expiries and
    other pairs do at the same time. *)
Theorem C35_one_lane : forall cfg es y p,
  history cfg everything es y -> ~ (waits p LNormal y /\ waits p LHot y).
Proof. exact one_lane. Qed.
Print Assumptions C35_one_lane.

Example C35_one_lane_met : exists es y, history on1 everything es y /\ waits ann_bob LHot y.
Proof. exact (ex_intro _ _ (ex_intro _ _ busy_day_ok)). Qed.

(** In any history at all a transaction is in the hot lane only if the lane is switched on
    and as many lock conflicts of its pair as the threshold had been reported. *)
Theorem C35_hot_after_conflicts : forall cfg es y w,
  history cfg none_kept es y -> barless_history es -> In w (s_rows (y_store y)) -> w_lane w = LHot ->
  h_enabled cfg = true /\ threshold cfg <= conflicts (w_pair w) es.
Proof. exact hot_after_conflicts. Qed.
Print Assumptions C35_hot_after_conflicts.

Example C35_hot_after_conflicts_met : exists es y w,
  history on1 none_kept es y /\ In w (s_rows (y_store y)) /\ w_lane w = LHot.
Proof.
  exact (ex_intro _ _ (ex_intro _ _ (ex_intro _ {| w_pair := ann_bob; w_lane := LHot; w_queued := true; w_child := false |}
    (conj (history_play on1 busy_day) (conj (or_introl eq_refl) eq_refl))))).
Qed.

(** As many conflicts as the threshold, and the next transaction takes the hot lane, if
    none of the pair waits in the normal lane and the pair is not cooling down. *)
Theorem C35_promoted : forall cfg p q s,
  complete p -> h_enabled cfg = true -> 0 <= s_conflicts s (pair_key p) ->
  s_mode s (pair_key p) <> MCooling -> queue_empty p LNormal s ->
  let s1 := reports cfg p (Z.to_nat (threshold cfg)) s in
  added s1 (finish (accept cfg p q) s1) {| w_pair := p; w_lane := LHot; w_queued := q; w_child := false |} /\
  s_rows s1 = s_rows s.
Proof. exact promoted. Qed.
Print Assumptions C35_promoted.

Example C35_promoted_met : let s := y_store (play on1 quiet_day nothing) in
  complete ann_bob /\ 0 <= s_conflicts s (pair_key ann_bob) /\ s_mode s (pair_key ann_bob) <> MCooling /\ queue_empty ann_bob LNormal s.
Proof. exact quiet_day_promotes. Qed.

(** A pair that has been promoted stays in the hot lane until it has been quiet for long
    enough, whatever becomes of the transactions waiting. *)
Theorem C35_stays_hot : forall cfg p q qs s,
  complete p -> h_enabled cfg = true -> s_mode s (pair_key p) = MPromoting -> queue_empty p LNormal s ->
  let s1 := finish (accept cfg p q) s in
  forall rows, let s2 := {| s_mode := s_mode s1; s_active := s_active s1; s_conflicts := s_conflicts s1; s_rows := rows |} in
  s_rows (fold_left (fun s q => finish (accept cfg p q) s) qs s2)
  = (rows ++ map (fun q => {| w_pair := p; w_lane := LHot; w_queued := q; w_child := false |}) qs)%list.
Proof. exact stays_hot. Qed.
Print Assumptions C35_stays_hot.

Example C35_stays_hot_met : let s := reports on1 ann_bob (Z.to_nat (threshold on1)) (y_store nothing) in
  complete ann_bob /\ h_enabled on1 = true /\ s_mode s (pair_key ann_bob) = MPromoting /\ queue_empty ann_bob LNormal s.
Proof. exact promoting_met. Qed.

(** Once its conflicts are past and its hot queue is empty, a pair returns to normal. *)
Theorem C35_back_to_normal : forall cfg p q s,
  complete p -> h_enabled cfg = true ->
  s_mode s (pair_key p) <> MPromoting -> s_active s (pair_key p) = false -> queue_empty p LHot s ->
  let s' := finish (accept cfg p q) s in
  added s s' {| w_pair := p; w_lane := LNormal; w_queued := q; w_child := false |} /\ s_mode s' (pair_key p) = MNormal.
Proof. exact back_to_normal. Qed.
Print Assumptions C35_back_to_normal.

Example C35_back_to_normal_met : let s := y_store (play on1 quiet_day nothing) in
  complete ann_bob /\ s_mode s (pair_key ann_bob) = MHot /\ s_active s (pair_key ann_bob) = false /\ queue_empty ann_bob LHot s.
Proof. exact quiet_day_ok. Qed.

(** Each proviso of C35_one_lane is needed. *)
Theorem C35_concurrent_refuted : exists es y,
  history on1 (all_but OneAtATime) es y /\ waits ann_bob LNormal y /\ waits ann_bob LHot y.
Proof. exact concurrent_refuted. Qed.
Print Assumptions C35_concurrent_refuted.

Theorem C35_fault_refuted : exists es y,
  history on1 (all_but NoFault) es y /\ waits ann_bob LNormal y /\ waits ann_bob LHot y.
Proof. exact fault_refuted. Qed.
Print Assumptions C35_fault_refuted.

Theorem C35_lapse_refuted : exists es y,
  history on1 (all_but NoLapse) es y /\ waits ann_bob LNormal y /\ waits ann_bob LHot y.
Proof. exact lapse_refuted. Qed.
Print Assumptions C35_lapse_refuted.

Theorem C35_spelling_refuted : exists es y,
  history on1 (all_but Names) es y /\ waits ann_bob_small LNormal y /\ waits ann_bob_small LHot y.
Proof. exact spelling_refuted. Qed.
Print Assumptions C35_spelling_refuted.

(** A scheduled transaction may wait in the other lane. *)
Theorem C35_scheduled_refuted : exists es y,
  history on1 everything es y /\ waits_scheduled ann_bob LNormal y /\ waits ann_bob LHot y.
Proof. exact scheduled_refuted. Qed.
Print Assumptions C35_scheduled_refuted.

(** A pair that is cooling down is not promoted by new conflicts: they are forgotten. *)
Theorem C35_cooling_refuted : exists es y, history on1 everything es y /\ (forall x, In x (y_jobs y) -> snd x = HRet) /\
  (forall l, queue_empty ann_bob l (y_store y)) /\
  let s1 := reports on1 ann_bob (Z.to_nat (threshold on1)) (y_store y) in
  added s1 (finish (accept on1 ann_bob true) s1) {| w_pair := ann_bob; w_lane := LNormal; w_queued := true; w_child := false |} /\
  s_conflicts (finish (accept on1 ann_bob true) s1) (pair_key ann_bob) = 0.
Proof. exact cooling_refuted. Qed.
Print Assumptions C35_cooling_refuted.
