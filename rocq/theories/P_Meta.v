(** C41: updates of metadata. *)
From Coq Require Import List String Bool ZArith.
From Verif Require Import BodyModel MetaModel MetaSpec MetaProof MetaDemo.
Import ListNotations.
Local Open Scope string_scope.

(** However updates interleave and calls fail: from one moment to the next a transaction stays,
    and so does its metadata, unless an update of it or of its parent is carried out, which
    gives the entries sent the values sent and leaves the others. *)
Theorem C41_txn_changes : forall es y e x a, history anything es y -> meta_of y (Txn x) = Some a ->
  exists b, meta_of (happen e y) (Txn x) = Some b
  /\ (b = a \/ exists id m, by_update y e id m /\ meant y id (Txn x)
                /\ forall key, entry b key = match get key m with Some v => Some v | None => entry a key end).
Proof. exact txn_changes. Qed.
Print Assumptions C41_txn_changes.

(** The same for a ledger, a balance or an identity, when changes of it come one after the
    other; a PUT of an identity with metadata replaces it. *)
Theorem C41_one_changes : forall es y e k id a b,
  history alone es y -> meta_of y (One k id) = Some a -> meta_of (happen e y) (One k id) = Some b ->
  b = a
  \/ (exists m, by_update y e id m /\ meant y id (One k id)
        /\ forall key, entry b key = match get key m with Some v => Some v | None => entry a key end)
  \/ (k = KIdentity /\ exists m, e = EWrite (WReplace id m) /\ b = JObj m).
Proof. exact one_changes. Qed.
Print Assumptions C41_one_changes.

(** A confirmed update of a transaction or bulk: there is a transaction it is meant for, every one
    it is meant for has the entries sent, with its own others, and nothing else has changed. *)
Theorem C41_txn_confirmed : forall es y i o j out,
  history anything es y -> nth_error (y_jobs y) i = Some j -> is_txn (j_id j) = true -> ~ is_done (j_prog j) ->
  nth_error (y_jobs (happen (EStep i o) y)) i = Some {| j_id := j_id j; j_sent := j_sent j; j_prog := Done (MOk out) |} ->
  out = j_sent j
  /\ (exists x, meant y (j_id j) (Txn x) /\ meta_of y (Txn x) <> None)
  /\ (forall k id, meta_of (happen (EStep i o) y) (One k id) = meta_of y (One k id))
  /\ (forall x a, meta_of y (Txn x) = Some a -> exists b, meta_of (happen (EStep i o) y) (Txn x) = Some b
       /\ ((~ meant y (j_id j) (Txn x) /\ b = a)
           \/ (meant y (j_id j) (Txn x) /\ forall key, entry b key = match get key (j_sent j) with Some v => Some v | None => entry a key end))).
Proof. exact txn_confirmed. Qed.
Print Assumptions C41_txn_confirmed.

Example C41_txn_confirmed_met : exists es y j, history anything es y /\ nth_error (y_jobs y) 1 = Some j /\ is_txn (j_id j) = true /\ ~ is_done (j_prog j)
  /\ nth_error (y_jobs (happen (EStep 1 Fine) y)) 1 = Some {| j_id := j_id j; j_sent := j_sent j; j_prog := Done (MOk [("l", num 8)]) |}
  /\ map (fun x => meta_of (happen (EStep 1 Fine) y) (Txn x)) ["txn_1"; "txn_2"; "txn_3"]
     = [Some (JObj [("k", num 7); ("l", num 8)]); Some (JObj [("k", num 7); ("l", num 8)]); Some (JObj [("k", num 1)])].
Proof. exact txn_met. Qed.

(** A confirmed update of a ledger, balance or identity, when changes of it come one after the other. *)
Theorem C41_one_confirmed : forall es y i o j out,
  history alone es y -> nth_error (y_jobs y) i = Some j -> is_txn (j_id j) = false -> ~ is_done (j_prog j) ->
  nth_error (y_jobs (happen (EStep i o) y)) i = Some {| j_id := j_id j; j_sent := j_sent j; j_prog := Done (MOk out) |} ->
  exists k a b, meant y (j_id j) (One k (j_id j)) /\ meta_of y (One k (j_id j)) = Some a /\ meta_of (happen (EStep i o) y) (One k (j_id j)) = Some b
  /\ (forall key, entry b key = match get key (j_sent j) with Some v => Some v | None => entry a key end)
  /\ (forall key, get key out = entry b key)
  /\ (forall x, x <> One k (j_id j) -> meta_of (happen (EStep i o) y) x = meta_of y x).
Proof. exact one_confirmed. Qed.
Print Assumptions C41_one_confirmed.

Example C41_one_confirmed_met : exists es y j, history alone es y /\ nth_error (y_jobs y) 0 = Some j /\ is_txn (j_id j) = false /\ ~ is_done (j_prog j)
  /\ nth_error (y_jobs (happen (EStep 0 Fine) y)) 0
     = Some {| j_id := j_id j; j_sent := j_sent j; j_prog := Done (MOk [("a", num 1); ("b", num 3); ("c", JText "x")]) |}.
Proof. exact ledger_met. Qed.

(** An update meant for nothing there is: refused, nothing written. *)
Theorem C41_refused : forall P es y id m, history P es y -> (forall x, ~ meant y id x \/ meta_of y x = None) ->
  forall i, nth_error (y_jobs y) i = Some {| j_id := id; j_sent := m; j_prog := update id m |} ->
  y_tables (happen (EStep i Fine) y) = y_tables y
  /\ exists a, nth_error (y_jobs (happen (EStep i Fine) y)) i = Some {| j_id := id; j_sent := m; j_prog := Done a |} /\ (a = MErr \/ a = MMissing).
Proof. exact refused. Qed.
Print Assumptions C41_refused.

Example C41_refused_met : exists es y, history alone es y
  /\ nth_error (y_jobs y) 0 = Some {| j_id := "acc_1"; j_sent := [("a", num 1)]; j_prog := update "acc_1" [("a", num 1)] |}
  /\ forall x, ~ meant y "acc_1" x \/ meta_of y x = None.
Proof. exact refused_met. Qed.

(** ** What does not hold *)

(** Two updates of a ledger at once are both confirmed, the first is gone. *)
Theorem C41_race_refuted : exists es y, history anything es y
  /\ answers y = [Some (MOk [("a", num 1)]); Some (MOk [("b", num 2)])] /\ meta_of y (One KLedger "ldg_1") = Some (JObj [("b", num 2)]).
Proof. exact race_refuted. Qed.
Print Assumptions C41_race_refuted.

(** The update of an identity that is deleted meanwhile is confirmed. *)
Theorem C41_removed_refuted : exists es y, history anything es y
  /\ answers y = [Some (MOk [("a", num 1)])] /\ meta_of y (One KIdentity "idt_1") = None.
Proof. exact removed_refuted. Qed.
Print Assumptions C41_removed_refuted.

(** For a transaction the answer is not its metadata, only what was sent. *)
Theorem C41_answer_refuted : exists es y, history alone es y
  /\ answers y = [Some (MOk [("l", num 2)])] /\ meta_of y (Txn "txn_1") = Some (JObj [("k", num 1); ("l", num 2)]).
Proof. exact answer_refuted. Qed.
Print Assumptions C41_answer_refuted.
