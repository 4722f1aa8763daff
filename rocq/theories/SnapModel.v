(** Daily snapshots and balance at a point in time:
    sql/1740493523.sql (take_daily_balance_snapshots_batched), sql/1740373196.sql,
    database/balance.go:1386-1679. Times are microseconds since the Unix epoch. *)
From Coq Require Import ZArith List String Bool.
From Verif Require Import Base ChainModel.
Import ListNotations.
Local Open Scope string_scope.
Open Scope Z_scope.

(** A row of blnk.transactions as far as it matters here; [r_eff] is
    COALESCE(effective_date, created_at), [r_applied]: status = 'APPLIED'. *)
Record trow := { r_src : string; r_dst : string; r_amount : Z; r_applied : bool; r_eff : Z }.

(** A row of blnk.balances: serial id, balance_id and the settled counters. *)
Record brow := { o_pk : Z; o_id : string; o_cr : Z; o_db : Z }.

(** A row of blnk.balance_snapshots. [sn_seen]: how many transactions had been
    posted when the counters were read (not stored; for the theorems). *)
Record snap := { sn_bal : string; sn_cr : Z; sn_db : Z; sn_time : Z; sn_seen : nat }.

(** A run of the snapshot function. NULL is [None]. [u_known]: the balances that
    existed when it began (not stored; for the theorems). *)
Record run := {
  u_now : Z;                 (* v_current_time *)
  u_batch : nat;             (* batch_size *)
  u_max : option Z;          (* v_max_id *)
  u_last : option Z;         (* v_last_processed_id *)
  u_new : list snap;         (* rows inserted so far, visible to others after the commit *)
  u_count : option nat;      (* v_batch_count between the INSERT and the next query *)
  u_done : bool;
  u_known : list brow }.

Record sdb := { g_now : Z; g_bals : list brow; g_rows : list trow; g_snaps : list snap; g_runs : list run }.

(** DATE_TRUNC('day', ...) *)
Definition day (t : Z) : Z := t / 86400000000.

Definition has_today (now : Z) (sn : list snap) (id : string) : bool :=
  existsb (fun s => String.eqb (sn_bal s) id && (day (sn_time s) =? day now)) sn.

(** id > v_last_processed_id: unknown if the latter is NULL. *)
Definition above (last : option Z) (pk : Z) : bool := match last with Some l => l <? pk | None => false end.

(** The batch and its INSERT, sql/1740493523.sql:24-82. *)
Definition take_batch (d : sdb) (u : run) : list snap :=
  map (fun b => {| sn_bal := o_id b; sn_cr := o_cr b; sn_db := o_db b; sn_time := u_now u; sn_seen := List.length (g_rows d) |})
      (firstn (u_batch u) (sort_by o_pk
        (filter (fun b => above (u_last u) (o_pk b) && negb (has_today (u_now u) (g_snaps d ++ u_new u) (o_id b))) (g_bals d)))).

(** MAX(id), NULL on no rows. *)
Fixpoint max_pk (l : list brow) : option Z :=
  match l with
  | [] => None
  | b :: r => Some (match max_pk r with Some m => Z.max (o_pk b) m | None => o_pk b end)
  end.

(** The new v_last_processed_id, sql/1740493523.sql:87-95. *)
Definition next_last (d : sdb) (u : run) : option Z :=
  max_pk (firstn (u_batch u) (sort_by o_pk (filter (fun b => above (u_last u) (o_pk b)) (g_bals d)))).

(** EXIT WHEN v_batch_count = 0 OR v_last_processed_id >= v_max_id (NULL is not true). *)
Definition finished (count : nat) (last max : option Z) : bool :=
  Nat.eqb count 0 || match last, max with Some l, Some m => m <=? l | _, _ => false end.

Definition insert_batch (d : sdb) (u : run) : run :=
  {| u_now := u_now u; u_batch := u_batch u; u_max := u_max u; u_last := u_last u; u_new := u_new u ++ take_batch d u;
     u_count := Some (List.length (take_batch d u)); u_done := false; u_known := u_known u |}.
Definition advance (d : sdb) (u : run) (count : nat) : run :=
  {| u_now := u_now u; u_batch := u_batch u; u_max := u_max u; u_last := next_last d u; u_new := u_new u;
     u_count := None; u_done := finished count (next_last d u) (u_max u); u_known := u_known u |}.

(** sql/1740493523.sql:8-21 *)
Definition start_run (d : sdb) (batch : nat) : run :=
  {| u_now := g_now d; u_batch := batch; u_max := max_pk (g_bals d); u_last := Some 0; u_new := [];
     u_count := None; u_done := false; u_known := g_bals d |}.

(** What a posting does to the counters of one balance (C02). *)
Definition post_to (t : trow) (b : brow) : brow :=
  if r_applied t then
    {| o_pk := o_pk b; o_id := o_id b;
       o_cr := o_cr b + (if String.eqb (r_dst t) (o_id b) then r_amount t else 0);
       o_db := o_db b + (if String.eqb (r_src t) (o_id b) then r_amount t else 0) |}
  else b.

Fixpoint set_at {A} (n : nat) (x : A) (l : list A) : list A :=
  match l, n with [], _ => [] | _ :: r, O => x :: r | y :: r, S m => y :: set_at m x r end.
Fixpoint del_at {A} (n : nat) (l : list A) : list A :=
  match l, n with [], _ => [] | _ :: r, O => r | x :: r, S m => x :: del_at m r end.

Inductive sevent :=
| NTick (d : Z)
| NBalance (pk : Z) (id : string)   (* a balance is created; serial ids may become visible out of order *)
| NPost (t : trow)                  (* a transaction is recorded; the counters change with it *)
| NStart (batch : nat)              (* POST /balances-snapshots; NOW() is the time of the start *)
| NInsert (i : nat)
| NAdvance (i : nat)
| NCommit (i : nat)
| NAbort (i : nat).

Definition with_runs (d : sdb) (us : list run) : sdb :=
  {| g_now := g_now d; g_bals := g_bals d; g_rows := g_rows d; g_snaps := g_snaps d; g_runs := us |}.

Definition sstep (d : sdb) (e : sevent) : option sdb :=
  match e with
  | NTick t => if t <=? 0 then None
               else Some {| g_now := g_now d + t; g_bals := g_bals d; g_rows := g_rows d; g_snaps := g_snaps d; g_runs := g_runs d |}
  | NBalance pk id =>
    if (pk <=? 0) || existsb (fun b => (o_pk b =? pk) || String.eqb (o_id b) id) (g_bals d) then None
    else Some {| g_now := g_now d; g_bals := g_bals d ++ [{| o_pk := pk; o_id := id; o_cr := 0; o_db := 0 |}];
                 g_rows := g_rows d; g_snaps := g_snaps d; g_runs := g_runs d |}
  | NPost t =>
    if existsb (fun b => String.eqb (o_id b) (r_src t)) (g_bals d) && existsb (fun b => String.eqb (o_id b) (r_dst t)) (g_bals d)
    then Some {| g_now := g_now d; g_bals := map (post_to t) (g_bals d); g_rows := g_rows d ++ [t];
                 g_snaps := g_snaps d; g_runs := g_runs d |}
    else None
  | NStart batch => (* api/balance.go:356-362: batch_size must be positive *)
    if Nat.eqb batch 0 then None else Some (with_runs d (g_runs d ++ [start_run d batch]))
  | NInsert i => match nth_error (g_runs d) i with
                 | Some u => match u_done u, u_count u with
                             | false, None => Some (with_runs d (set_at i (insert_batch d u) (g_runs d)))
                             | _, _ => None
                             end
                 | None => None
                 end
  | NAdvance i => match nth_error (g_runs d) i with
                  | Some u => match u_count u with
                              | Some n => Some (with_runs d (set_at i (advance d u n) (g_runs d)))
                              | None => None
                              end
                  | None => None
                  end
  | NCommit i => match nth_error (g_runs d) i with
                 | Some u => if u_done u
                             then Some {| g_now := g_now d; g_bals := g_bals d; g_rows := g_rows d;
                                          g_snaps := g_snaps d ++ u_new u; g_runs := del_at i (g_runs d) |}
                             else None
                 | None => None
                 end
  | NAbort i => match nth_error (g_runs d) i with
                | Some _ => Some (with_runs d (del_at i (g_runs d)))
                | None => None
                end
  end.

Definition snap_init : sdb := {| g_now := 0; g_bals := []; g_rows := []; g_snaps := []; g_runs := [] |}.

(** ** GetBalanceAtTime, database/balance.go:1596-1679 *)

(** time.Time{}: the first instant of year 1. *)
Definition zero_time : Z := -62135596800000000.

(** fetchTransactions, database/balance.go:1484-1505 (its ORDER BY does not matter for a sum). *)
Definition fetch (d : sdb) (id : string) (start target : Z) : list trow :=
  filter (fun t => (String.eqb (r_src t) id || String.eqb (r_dst t) id) && (start <? r_eff t) && (r_eff t <=? target) && r_applied t)
         (g_rows d).

(** applyTransaction and its loop, database/balance.go:1508-1582. *)
Definition apply_row (id : string) (c : Z * Z) (t : trow) : Z * Z :=
  (if String.eqb (r_dst t) id then fst c + r_amount t else fst c,
   if String.eqb (r_src t) id then snd c + r_amount t else snd c).
Definition replay (id : string) (l : list trow) (c : Z * Z) : Z * Z := fold_left (apply_row id) l c.

(** getMostRecentSnapshot, database/balance.go:1437-1480: ORDER BY snapshot_time DESC
    LIMIT 1; which of two equally late ones is taken is not specified. *)
Definition latest_snapshot (d : sdb) (id : string) (target : Z) (s : snap) : Prop :=
  In s (g_snaps d) /\ sn_bal s = id /\ sn_time s <= target /\
  forall s', In s' (g_snaps d) -> sn_bal s' = id -> sn_time s' <= target -> sn_time s' <= sn_time s.
Definition no_snapshot (d : sdb) (id : string) (target : Z) : Prop :=
  forall s, In s (g_snaps d) -> sn_bal s = id -> target < sn_time s.

(** The answer: (credit_balance, debit_balance); the balance is their difference. *)
Inductive answer (d : sdb) (id : string) (target : Z) : bool -> Z * Z -> Prop :=
| AnsSource b : In b (g_bals d) -> o_id b = id -> id <> "" -> target <> zero_time ->
    answer d id target true (replay id (fetch d id zero_time target) (0, 0))
| AnsGenesis b : In b (g_bals d) -> o_id b = id -> id <> "" -> target <> zero_time -> no_snapshot d id target ->
    answer d id target false (replay id (fetch d id zero_time target) (0, 0))
| AnsSnapshot b s : In b (g_bals d) -> o_id b = id -> id <> "" -> target <> zero_time -> latest_snapshot d id target s ->
    answer d id target false (replay id (fetch d id (sn_time s) target) (sn_cr s, sn_db s)).
