(** What rebuilding the search index is supposed to do. *)
From Coq Require Import List String Bool Arith ZArith.
From Verif Require Import SearchModel.
Import ListNotations.
Local Open Scope string_scope.
Local Open Scope nat_scope.
Local Open Scope list_scope.

(** The kinds of records a rebuilding reads from the database. *)
Definition rebuilt (c : coll) : Prop := c <> Reconciliations.

(** A search finds the record [id], and shows [d]. *)
Definition shows (w : world) (c : coll) (id d : string) : Prop := look (w_ix w) c id = Some d.
Definition finds (w : world) (c : coll) (id : string) : Prop := exists d, shows w c id d.

(** No other run is under way, from [w] on through [es]. *)
Definition alone (i : nat) (es : list event) (w : world) : Prop :=
  forall es1 es2, es = es1 ++ es2 -> forall j u, j <> i -> nth_error (w_runs (play es1 w)) j = Some u -> u_stage u = SEnd.

(** No identity is deleted. *)
Definition no_delete (es : list event) : Prop := forall id, ~ In (EDelete id) es.

(** No two rows of a table were created at the same time. *)
Definition dated (w : world) : Prop := forall c, NoDup (map r_created (w_tab w c)).

(** Run [i] has been started in [w] and has not moved yet. *)
Definition started (i : nat) (w : world) : Prop := exists n, nth_error (w_runs w) i = Some (fresh n).

(** Run [i] has ended well, with these errors. *)
Definition completed (i : nat) (w : world) (errors : list (coll * string)) : Prop :=
  exists u, nth_error (w_runs w) i = Some u /\ u_status u = Completed /\ u_errors u = errors.

(** The search server takes every write of run [i], at once or when it has memory again, if it
    can. *)
Definition served (i : nat) (es : list event) : Prop := forall o p t, In (EStep i o p t) es -> o <> Fails.

(** What is referred to is earlier in the order of the phases. *)
Definition rank_of (c : coll) : nat :=
  match c with Ledgers => 0 | Identities => 1 | Balances => 2 | Transactions => 3 | Reconciliations => 4 end.
Definition refs_in (w : world) (c : coll) (refs : list (coll * string)) : Prop :=
  forall c' id, In (c', id) refs -> rank_of c' < rank_of c /\ exists r, In r (w_tab w c') /\ r_id r = id.
(** The rows of [w] refer to rows of [w], and go on doing so through [es]. *)
Definition closed (w : world) (es : list event) : Prop :=
  (forall c r, In r (w_tab w c) -> refs_in w c (r_refs r))
  /\ (forall c id refs d, In (EUpdate c id refs d) es -> (exists r, In r (w_tab w c) /\ r_id r = id) -> refs_in w c refs).

(** A task waiting in [w] is going to show [r]. *)
Definition waiting (w : world) (c : coll) (r : row) : Prop :=
  exists t, In t (w_tasks w) /\ (In (c, r) (k_items t) \/ exists rest, k_at t = WItems rest /\ In (c, r) rest).

(** The record [id] does not change through [es]. *)
Definition unchanged (c : coll) (id : string) (es : list event) : Prop := forall refs d, ~ In (EUpdate c id refs d) es.
(** The status a rebuilding reports fits where it is. *)
Definition fits (u : run) : Prop :=
  match u_stage u with
  | SStart => u_status u = Pending
  | SEnd => u_status u = Completed \/ u_status u = Failed
  | _ => u_status u = InProgress
  end.
