(** Property theorems about queues and backpressure: C28 and C33 (statements only; the
    words are in QueueSpec, the proofs in QueueProof, QueueFloat and QueueDemo).
    [queue_of c lane src] is the queue a transaction with source [src] and queue lane
    [lane] is put in, [queue_defaults c] the configuration after loading, [served c] the
    queues that have a worker. *)
From Coq Require Import ZArith List String Bool.
From Verif Require Import QueueModel QueueSpec QueueProof QueueDemo.
Import ListNotations.
Local Open Scope string_scope.
Open Scope Z_scope.

(** ** C28 *)
Theorem C28_same_source c l1 l2 src : l1 <> "hot" -> l2 <> "hot" -> queue_of c l1 src = queue_of c l2 src.
Proof. exact (queue_same c l1 l2 src). Qed.
Print Assumptions C28_same_source.

(** All of the hot lane is one queue, and only when it is enabled. *)
Theorem C28_hot_lane c src : queue_of c "hot" src = if q_hot c then q_hot_name c else queue_of c "" src.
Proof. unfold queue_of. destruct (q_hot c); reflexivity. Qed.
Print Assumptions C28_hot_lane.

Theorem C28_existing_queue c lane src : 0 <= q_number c -> In (queue_of (queue_defaults c) lane src) (served (queue_defaults c)).
Proof.
  intros H. apply queue_served. unfold queue_defaults. simpl. destruct (Z.eqb_spec (q_number c) 0) as [_|N]; [reflexivity|].
  destruct (Z.lt_trichotomy 0 (q_number c)) as [L|[E|L]]; [exact L|symmetry in E; contradiction|exfalso; apply (Z.lt_irrefl (q_number c)); eapply Z.lt_le_trans; eassumption].
Qed.
Print Assumptions C28_existing_queue.

(** The normal queues have different names: two sources share a queue only if their
    hashes agree. *)
Theorem C28_queues_distinct c : NoDup (map (fun i => (q_name c ++ "_" ++ int_text i)%string) (upto (q_number c))).
Proof. exact (names_distinct c). Qed.
Print Assumptions C28_queues_distinct.
Theorem C28_by_hash c l1 l2 s1 s2 : l1 <> "hot" -> l2 <> "hot" ->
  queue_of c l1 s1 = queue_of c l2 s2 -> Z.rem (hash_balance s1) (q_number c) = Z.rem (hash_balance s2) (q_number c).
Proof. exact (queue_distinct c l1 l2 s1 s2). Qed.
Print Assumptions C28_by_hash.

(** A negative number of queues is accepted, and then no worker serves the queue. *)
Theorem C28_negative_number_refuted : exists c lane src, ~ In (queue_of (queue_defaults c) lane src) (served (queue_defaults c)).
Proof. exact unserved. Qed.
Print Assumptions C28_negative_number_refuted.

Example C28_case :
  queue_of (queue_defaults qc) "" "bln_1" = "new:transaction_4" /\ queue_of (queue_defaults qc) "hot" "bln_1" = "hot_transactions"
  /\ queue_of (queue_defaults qc) "" "bln_2" = "new:transaction_3".
Proof. exact default_routes. Qed.

(** ** C33 *)
(** One check, everything answering, the default limit of 85 percent: refused exactly
    under pressure (readings up to 2^53 bytes used, 2^48 allowed). *)
Theorem C33_exact c e used max n : answers e used max n -> limited c 85 ->
  0 <= used <= 2 ^ 53 -> 0 <= max <= 2 ^ 48 ->
  exists v, evaluate c e = Some v /\ (v = true <-> pressed 85 c used max n).
Proof. exact (evaluate_default c e used max n). Qed.
Print Assumptions C33_exact.

(** Any other whole percentage and any reading: exact up to one part in 2^50, the
    rounding of the division. *)
Theorem C33_any_percentage c e k used max n : answers e used max n -> limited c k ->
  0 <= used < 2 ^ 63 -> 0 <= max < 2 ^ 63 ->
  exists v, evaluate c e = Some v
    /\ (0 < max /\ k * max * 2 ^ 50 <= 100 * used * (2 ^ 50 - 1) \/ 0 < q_max_pending c /\ q_max_pending c <= sum_of n (counted c) -> v = true)
    /\ (v = true -> 0 < max /\ k * max * 2 ^ 50 <= 100 * used * (2 ^ 50 + 1) \/ 0 < q_max_pending c /\ q_max_pending c <= sum_of n (counted c)).
Proof. exact (evaluate_near c e k used max n). Qed.
Print Assumptions C33_any_percentage.

(** The rounding shows: exactly 57 of 100 bytes passes a limit of 57 percent. *)
Theorem C33_boundary_refuted : exists c k e used max n,
  limited c k /\ answers e used max n /\ pressed k c used max n /\ evaluate c e = Some false.
Proof. exact boundary_missed. Qed.
Print Assumptions C33_boundary_refuted.

(** The waiting transactions of every queue a transaction can be put in are counted. *)
Theorem C33_counts_every_queue c lane src : 0 < q_number c -> In (queue_of c lane src) (counted c).
Proof. exact (counts_every_queue c lane src). Qed.
Print Assumptions C33_counts_every_queue.

(** A check refuses only on a reading it got, whatever else fails. *)
Theorem C33_refusal_needs_reading c e : evaluate c e = Some true ->
  (e_redis e = true /\ exists i, e_info e = Some i /\ memory_full c (parse_memory i) = true)
  \/ 0 < q_max_pending c /\ exists n, (forall q, In q (counted c) -> e_count e q = Some (n q)) /\ q_max_pending c <= sum_of n (counted c).
Proof. exact (refuses_by c e). Qed.
Print Assumptions C33_refusal_needs_reading.

(** Requests share a remembered verdict, in any interleaving: every decision [v] (true:
    refused) rests on a check that said [v], the request's own or one written down less
    than the interval before; otherwise it lets the transaction in, because backpressure
    is off or the request's own check failed. *)
Theorem C33_decisions c t0 y : bsteps c (binit t0) y -> forall t v, In (t, v) (b_dec y) ->
  rests_on c y t v \/ v = false /\ (q_press c = false \/ exists e, In (t, e) (b_evals y) /\ evaluate c e = None).
Proof. exact (decisions c t0 y). Qed.
Print Assumptions C33_decisions.

(** When a verdict was written down says little about when it was taken: a request can
    be refused on a check older than any interval, after a later check found no
    pressure. *)
Theorem C33_fresh_refuted : exists c y t, bsteps c (binit 0) y /\ In (t, true) (b_dec y)
  /\ exists te, (forall te' e, In (te', e) (b_evals y) -> evaluate c e = Some true -> te' = te) /\ t - te > 1000 * interval c
  /\ exists te' e, In (te', e) (b_evals y) /\ te < te' /\ evaluate c e = Some false.
Proof. exact stale. Qed.
Print Assumptions C33_fresh_refuted.

Example C33_case : evaluate (queue_defaults qc) (env1 85 100) = Some true /\ evaluate (queue_defaults qc) (env1 84 100) = Some false
  /\ evaluate (queue_defaults (with_number 143)) (env1 0 0) = Some true /\ evaluate (queue_defaults (with_number 141)) (env1 0 0) = Some false.
Proof. exact at_limit. Qed.
Example C33_case_answers : answers (env1 85 100) 85 100 (fun _ => 7) /\ limited (queue_defaults qc) 85.
Proof. exact (conj (env1_answers 85 100) default_percent). Qed.
