(** C44: rebuilding the search index. *)
From Coq Require Import List String Bool Arith ZArith.
From Verif Require Import SearchModel SearchSpec SearchInv SearchDocs SearchLive SearchAmount SearchNote SearchDemo.
Import ListNotations.
Local Open Scope string_scope.
Local Open Scope nat_scope.

(** Whatever is inserted and changed while it runs, whatever writes the search server refuses and
    whatever tasks index meanwhile: when a rebuilding that no other one disturbed is completed,
    each ledger, identity, balance and transaction there was at its start is found or is in its
    list of errors, if no identity is deleted and no two rows of a table are of the same time. *)
Theorem C44_accounted : forall i es w errors,
  started i w -> alone i es w -> no_delete es -> dated (play es w) -> completed i (play es w) errors ->
  forall c r, rebuilt c -> In r (w_tab w c) -> finds (play es w) c (r_id r) \/ In (c, r_id r) errors.
Proof. exact accounted. Qed.
Print Assumptions C44_accounted.

(** If the server takes all writes it can, and the rows refer to rows, all are found. *)
Theorem C44_found : forall i es w errors,
  started i w -> alone i es w -> no_delete es -> dated (play es w) -> served i es -> closed w es ->
  completed i (play es w) errors ->
  forall c r, rebuilt c -> In r (w_tab w c) -> finds (play es w) c (r_id r) /\ ~ In (c, r_id r) errors.
Proof. exact nothing_refused. Qed.
Print Assumptions C44_found.

Example C44_found_example :
  started 0 (begun 2 (world_of shop)) /\ alone 0 busy_day (begun 2 (world_of shop)) /\ no_delete busy_day
  /\ dated (play busy_day (begun 2 (world_of shop))) /\ served 0 busy_day /\ closed (begun 2 (world_of shop)) busy_day
  /\ completed 0 (play busy_day (begun 2 (world_of shop))) [].
Proof. exact busy_hypotheses. Qed.

(** What is found afterwards is true: a row as it was at some time since the start, or as it was
    when a task that was waiting at the start was queued, or the general ledger as it is set up. *)
Theorem C44_true : forall i es w errors, started i w -> alone i es w -> completed i (play es w) errors ->
  forall c id d, shows (play es w) c id d ->
  (exists es1 es2 r, es = (es1 ++ es2)%list /\ In r (w_tab (play es1 w) c) /\ r_id r = id /\ r_data r = d)
  \/ (exists r, waiting w c r /\ r_id r = id /\ r_data r = d)
  \/ (c = Ledgers /\ id = general_id /\ d = general_doc).
Proof. exact only_true. Qed.
Print Assumptions C44_true.

(** A row nobody changes meanwhile is found just as it is. *)
Theorem C44_unchanged : forall i es w errors,
  started i w -> alone i es w -> no_delete es -> dated (play es w) -> completed i (play es w) errors ->
  forall c r, rebuilt c -> In r (w_tab w c) -> NoDup (map r_id (w_tab w c)) -> unchanged c (r_id r) es ->
  (forall r', waiting w c r' -> r_id r' = r_id r -> r_data r' = r_data r) -> (c, r_id r) <> (Ledgers, general_id) ->
  shows (play es w) c (r_id r) (r_data r) \/ In (c, r_id r) errors.
Proof. exact unchanged_shown. Qed.
Print Assumptions C44_unchanged.

Example C44_unchanged_example : map (fun c => w_ix (play busy_day (begun 2 (world_of shop))) c) every
  = [Some [(general_id, "General Ledger"); ("l1", "Shop")]; Some [("p1", "Ada"); ("p2", "Ben"); ("p3", "Cem"); ("p4", "Dan")];
     Some [("b1", "b1: -10"); ("b2", "b2: 0")]; Some [("t1", "b1 to b2: 10")]; Some []].
Proof. exact busy_shown. Qed.

(** Without a rebuilding: once its tasks are done, what was noted is found, if the server takes
    what it can and each record noted refers to earlier ones or to what is found. *)
Theorem C44_noted : forall es w l, no_run w -> starts_none es -> taken es -> in_order w l ->
  w_tasks (play (ENote l :: es) w) = [] ->
  forall c id, In (c, id) l -> row_of id (w_tab w c) <> None -> finds (play (ENote l :: es) w) c id.
Proof. exact noted_found. Qed.
Print Assumptions C44_noted.

Example C44_noted_example : no_run (world_of shop) /\ starts_none patient /\ taken patient /\ in_order (world_of shop) first_note
  /\ w_tasks (play (ENote first_note :: patient) (world_of shop)) = [].
Proof. exact patient_hypotheses. Qed.

(** From wherever it is, a rebuilding that has not failed can be completed by its own steps. *)
Theorem C44_finishes : forall i es w u,
  started i w -> alone i es w -> nth_error (w_runs (play es w)) i = Some u -> u_status u <> Failed ->
  exists es', (forall e, In e es' -> exists p t, e = EStep i Fine p t) /\ exists errors, completed i (play (es ++ es') w) errors.
Proof. exact can_finish. Qed.
Print Assumptions C44_finishes.

(** The status reported says whether it has begun and whether it has ended, *)
Theorem C44_status : forall es w i u, w_runs w = nil -> nth_error (w_runs (play es w)) i = Some u -> fits u.
Proof. exact status_says. Qed.
Print Assumptions C44_status.
(** so that one that was asked for by a request, has begun and has not ended keeps others from starting. *)
Theorem C44_gate_running : forall es w n i u, w_runs w = nil -> w_last (play es w) = Some i -> nth_error (w_runs (play es w)) i = Some u ->
  u_stage u <> SStart -> u_stage u <> SEnd -> happen (EBegin n) (play es w) = play es w.
Proof. exact gate. Qed.
Example C44_gate_running_met : let w := play [EBegin 10%Z; EStep 0 Fine Ledgers (fun _ => 0)] (world_of small) in
  w_last w = Some 0 /\ exists u, nth_error (w_runs w) 0 = Some u /\ u_stage u <> SStart /\ u_stage u <> SEnd.
Proof. exact under_way. Qed.
Print Assumptions C44_gate_running.

(** While the last one is reported as in progress, a request for another one changes nothing. *)
Theorem C44_gate : forall w n i u,
  w_last w = Some i -> nth_error (w_runs w) i = Some u -> u_status u = InProgress -> happen (EBegin n) w = w.
Proof. exact one_at_a_time. Qed.
Print Assumptions C44_gate.

(** The total reported is no total: it is what has been counted so far. *)
Theorem C44_total : forall i es w u,
  started i w -> alone i es w -> nth_error (w_runs (play es w)) i = Some u -> u_total u = u_processed u.
Proof. exact total_is_processed. Qed.
Print Assumptions C44_total.

(** The amounts a search shows are the nearest numbers a float64 can hold, *)
Theorem C44_amount : forall z s, shown_amount z = Some s ->
  float s /\ forall f, float f -> (Z.abs (s - z) <= Z.abs (f - z))%Z.
Proof. exact shown_nearest. Qed.
Print Assumptions C44_amount.
(** so up to 2 ^ 53 they are exact, and above they are off by at most one part in 2 ^ 53. *)
Theorem C44_amount_exact : forall z, (Z.abs z <= 2 ^ 53)%Z -> shown_amount z = Some z.
Proof. exact shown_exact. Qed.
Print Assumptions C44_amount_exact.
Theorem C44_amount_close : forall z s, shown_amount z = Some s -> (2 ^ 53 * Z.abs (s - z) <= Z.abs z)%Z.
Proof. exact shown_close. Qed.
Print Assumptions C44_amount_close.
Theorem C44_amount_some : forall z, (Z.abs z < 2 ^ 1023)%Z -> shown_amount z <> None.
Proof. exact shown_something. Qed.
Print Assumptions C44_amount_some.
Theorem C44_amount_refuted : shown_amount (2 ^ 53 + 1) = Some (2 ^ 53)%Z.
Proof. exact shown_refuted. Qed.
Print Assumptions C44_amount_refuted.

(** ** What fails without the provisos *)

(** A row that is changed meanwhile can be shown as it was, and stay so, although nothing is
    left to be done. *)
Theorem C44_stale_refuted : exists es w,
  started 0 w /\ alone 0 es w /\ no_delete es /\ dated (play es w) /\ served 0 es
  /\ completed 0 (play es w) [] /\ quiet (play es w)
  /\ exists r, In r (w_tab (play es w) Identities) /\ r_data r = "Ada L." /\ shows (play es w) Identities (r_id r) "Ada".
Proof. exact stale_refuted. Qed.
Print Assumptions C44_stale_refuted.
(** With no rebuilding at all: two tasks for one record, done in the other order. *)
Theorem C44_order_refuted : exists es w, w_runs w = [] /\ quiet (play es w)
  /\ exists r, In r (w_tab (play es w) Identities) /\ r_data r = "Ada Lovelace" /\ shows (play es w) Identities (r_id r) "Ada L.".
Proof. exact swapped_refuted. Qed.
Print Assumptions C44_order_refuted.
(** A PUT of an identity queues nothing, nor does its deletion. *)
Theorem C44_put_refuted : quiet (play put_identity (world_of small))
  /\ exists r, In r (w_tab (play put_identity (world_of small)) Identities) /\ r_data r = "Ada L."
     /\ shows (play put_identity (world_of small)) Identities (r_id r) "Ada".
Proof. exact put_refuted. Qed.
Print Assumptions C44_put_refuted.
Theorem C44_ghost_refuted : quiet (play deleted_identity (world_of small)) /\ w_tab (play deleted_identity (world_of small)) Identities = []
  /\ finds (play deleted_identity (world_of small)) Identities "p1".
Proof. exact ghost_refuted. Qed.
Print Assumptions C44_ghost_refuted.
(** A deletion between two pages hides another identity. *)
Theorem C44_delete_refuted : exists es w,
  started 0 w /\ alone 0 es w /\ dated (play es w) /\ served 0 es /\ completed 0 (play es w) [] /\ quiet (play es w)
  /\ exists r, In r (w_tab w Identities) /\ In r (w_tab (play es w) Identities) /\ ~ finds (play es w) Identities (r_id r).
Proof. exact delete_refuted. Qed.
Print Assumptions C44_delete_refuted.
(** Of two rows of one time one can be missed. *)
Theorem C44_tie_refuted : exists es w,
  started 0 w /\ alone 0 es w /\ no_delete es /\ served 0 es /\ completed 0 (play es w) [] /\ quiet (play es w)
  /\ exists r, In r (w_tab w Identities) /\ ~ finds (play es w) Identities (r_id r).
Proof. exact tie_refuted. Qed.
Print Assumptions C44_tie_refuted.
(** Reconciliations that were found before are not found after it. *)
Theorem C44_reconciliations_refuted : exists es1 es2 w,
  finds (play es1 w) Reconciliations "r1" /\ started 0 (begun 0 (play es1 w))
  /\ alone 0 es2 (begun 0 (play es1 w)) /\ no_delete es2 /\ dated (play es2 (begun 0 (play es1 w))) /\ served 0 es2
  /\ completed 0 (play es2 (begun 0 (play es1 w))) [] /\ quiet (play es2 (begun 0 (play es1 w)))
  /\ (exists r, In r (w_tab (play es2 (begun 0 (play es1 w))) Reconciliations) /\ r_id r = "r1")
  /\ ~ finds (play es2 (begun 0 (play es1 w))) Reconciliations "r1".
Proof. exact reconciliations_refuted. Qed.
Print Assumptions C44_reconciliations_refuted.
(** Two can be started, and the first is completed with rows missing. *)
Theorem C44_alone_refuted : exists es w,
  started 0 w /\ no_delete es /\ dated (play es w) /\ served 0 es /\ completed 0 (play es w) []
  /\ List.length (w_runs (play es w)) = 2
  /\ exists r, In r (w_tab w Ledgers) /\ ~ finds (play es w) Ledgers (r_id r).
Proof. exact both_refuted. Qed.
Print Assumptions C44_alone_refuted.
(** The number of records reported can exceed that of all records. *)
Theorem C44_count_refuted : exists es w u,
  started 0 w /\ alone 0 es w /\ nth_error (w_runs (play es w)) 0 = Some u /\ u_status u = Completed
  /\ (forall c, NoDup (map r_id (w_tab w c))) /\ w_tab (play es w) = w_tab w
  /\ List.length (w_tab w Ledgers ++ w_tab w Identities ++ w_tab w Balances ++ w_tab w Transactions) = 4 /\ u_processed u = 6 /\ u_total u = 6.
Proof. exact count_refuted. Qed.
Print Assumptions C44_count_refuted.
(** Each task puts the general ledger back to how it is set up. *)
Theorem C44_general_refuted : quiet (play overwritten (world_of small))
  /\ exists r, In r (w_tab (play overwritten (world_of small)) Ledgers) /\ r_id r = general_id /\ r_data r = "General Ledger of ACME"
     /\ shows (play overwritten (world_of small)) Ledgers general_id general_doc.
Proof. exact general_refuted. Qed.
Print Assumptions C44_general_refuted.
(** A transaction to what is no balance cannot be shown. *)
Theorem C44_closed_refuted : exists es w,
  started 0 w /\ alone 0 es w /\ no_delete es /\ dated (play es w) /\ served 0 es
  /\ completed 0 (play es w) [(Transactions, "t1")] /\ ~ finds (play es w) Transactions "t1".
Proof. exact rejected_refuted. Qed.
Print Assumptions C44_closed_refuted.
(** A task is given up after 26 failures, and nothing says so. *)
Theorem C44_given_up_refuted : exists l es w,
  no_run w /\ starts_none es /\ taken es /\ quiet (play (ENote l :: es) w)
  /\ exists r, In r (w_tab (play (ENote l :: es) w) Transactions) /\ In (Transactions, r_id r) l
     /\ ~ finds (play (ENote l :: es) w) Transactions (r_id r).
Proof. exact given_up_refuted. Qed.
Print Assumptions C44_given_up_refuted.
