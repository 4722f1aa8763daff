(** C32: bulk commit and void answer every item, in request order. *)
From Coq Require Import ZArith List String Bool.
From Verif Require Import PoolProof PoolCheck PoolDemo.
From Verif Require Import Base BalanceModel LedgerModel LedgerProgs ConcModel LedgerSafe Sched WorkModel PoolModel PoolSpec.
Import ListNotations.
Open Scope Z_scope.

(** When the call returns, whatever the number of workers asked for, the order in which
    they moved and what others did meanwhile: one outcome per item, the i-th one carrying
    the id of the i-th item and telling what one complete run of the single request for
    it returned; the item's operations in the history are exactly that run. *)
Theorem C32_lines_up : forall cfg (is_void : bool) curs base items want p0 s0 h p s,
  start items want = Some p0 -> history cfg (act_of is_void) curs base p0 s0 h p s -> finished p = true ->
  List.length (p_results p) = List.length items /\
  forall i it, nth_error items i = Some it ->
    exists x r, nth_error (p_results p) i = Some x /\ x_id x = i_id it
      /\ completes (base + i) (single cfg is_void it) (ops_of i h) r /\ tells x r.
Proof. exact bulk_lines_up. Qed.
Print Assumptions C32_lines_up.

(** The response lists the requested ids in order and its counters add up. *)
Theorem C32_response : forall cfg (is_void : bool) curs base items want p0 s0 h p s,
  start items want = Some p0 -> history cfg (act_of is_void) curs base p0 s0 h p s -> finished p = true ->
  let q := api_results (p_results p) in
  map a_id (a_results q) = map i_id items
  /\ a_succeeded q = count "succeeded" (a_results q) /\ a_failed q = count "failed" (a_results q)
  /\ a_succeeded q + a_failed q = Z.of_nat (List.length items).
Proof. exact bulk_response. Qed.
Print Assumptions C32_response.

(** So does the response of a bulk that is queued instead. *)
Theorem C32_queued : forall a enq curs items i n s q s',
  during n (queue_bulk a enq curs i items) s q s' ->
  map a_id (a_results q) = map i_id items
  /\ a_succeeded q = count "queued" (a_results q) /\ a_failed q = count "failed" (a_results q)
  /\ a_succeeded q + a_failed q = Z.of_nat (List.length items).
Proof. exact queued_results. Qed.
Print Assumptions C32_queued.

(** It tells of each item, in place, the outcome of its own check and of its own enqueueing. *)
Theorem C32_queued_tells : forall (is_void : bool) enq curs, (forall i, spaceless (curs i) = true) ->
  forall items i n s q s', during n (queue_bulk (act_of is_void) enq curs i items) s q s' ->
  forall k it, nth_error items k = Some it ->
  exists x v s1 s2, nth_error (a_results q) k = Some x /\ a_id x = i_id it
    /\ during n (prevalidate (act_of is_void) it) s1 v s2 /\ reports x v (enq (i + k)%nat).
Proof. exact queued_items. Qed.
Print Assumptions C32_queued_tells.

(** The check accepts an item only if something is left of a hold found under its id, and
    a commit only up to what is left; it refuses an item as the single request made then
    would be refused, or because nothing is left of any hold found under the id. *)
Theorem C32_checked : forall cfg (is_void : bool) it n m s, s_locks s = [] ->
  checked cfg is_void it m s (snd (run n (prevalidate (act_of is_void) it) s)).
Proof. exact check_ok. Qed.
Print Assumptions C32_checked.

(** Five items, two of which are queued. *)
Example C32_queued_example : exists y q s', steps cfg0 no_recon_flag (init_sys uuids) y /\ s_locks (y_st y) = []
  /\ during 9 (queue_bulk ACommit queue_says (fun _ => "USD"%string) 0 also) (y_st y) q s'
  /\ map (fun x => (a_id x, a_status x, a_code x)) (a_results q)
     = [("txn_3", "queued", "ALREADY_QUEUED"); ("nope", "failed", "NOT_FOUND"); ("txn_3", "failed", "INVALID_AMOUNT");
        ("txn_5", "failed", "ALREADY_VOIDED"); ("txn_3", "queued", "QUEUED")]%string.
Proof. exact queued_four. Qed.

(** The call returns: the goroutines make no infinite sequence of moves, even if others
    change the state between any two of them, and until all have returned one can move. *)
Theorem C32_returns : forall cfg a curs base,
  well_founded (fun q p => exists w s s', move cfg a curs base w p s = Some (q, s'))
  /\ forall p, finished p = false -> exists w, forall s, move cfg a curs base w p s <> None.
Proof. intros. split; [exact (moves_wf cfg a curs base) | exact (somebody_moves cfg a curs base)]. Qed.
Print Assumptions C32_returns.

(** Each failure gets its documented code, for ids and currencies without spaces. *)
Theorem C32_codes : forall a id cur e, spaceless id = true -> spaceless cur = true ->
  classify a id cur (Some e) = documented e.
Proof. exact codes. Qed.
Print Assumptions C32_codes.

(** Two goroutines, four items, one id asked for twice. *)
Example C32_example : exists y p0 h p s,
  steps cfg0 no_recon_flag (init_sys uuids) y /\ start asked 2 = Some p0
  /\ history cfg0 ACommit (fun _ => "USD"%string) 10 p0 (y_st y) h p s /\ finished p = true
  /\ answers p = expected /\ map d_item h = order.
Proof. exact four_answers. Qed.

(** A repeated id may succeed twice (partial commits): the note of the dry run, "only one
    of them can succeed" (api/transactions.go:764-768), does not hold. *)
Theorem C32_only_one_succeeds_refuted : exists y p0 h p s,
  steps cfg0 no_recon_flag (init_sys uuids) y /\ start twice 1 = Some p0
  /\ history cfg0 ACommit (fun _ => "USD"%string) 10 p0 (y_st y) h p s /\ finished p = true
  /\ answers p = [("txn_3", ""); ("txn_3", "")]%string /\ map d_item h = repeat 0%nat 15 ++ repeat 1%nat 15.
Proof. exact same_id_twice. Qed.
Print Assumptions C32_only_one_succeeds_refuted.
