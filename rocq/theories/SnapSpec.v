(** What the snapshot theorems talk about. *)
From Coq Require Import ZArith List String Bool.
From Verif Require Import Base ChainModel SnapModel.
Import ListNotations.
Open Scope Z_scope.

Fixpoint sruns (d : sdb) (es : list sevent) : option sdb :=
  match es with
  | [] => Some d
  | e :: r => match sstep d e with Some d' => sruns d' r | None => None end
  end.
Definition sreach (d : sdb) : Prop := exists es, sruns snap_init es = Some d.

(** Executions in which a snapshot run is not begun while another is in progress. *)
Fixpoint one_at_a_time (d : sdb) (es : list sevent) : Prop :=
  match es with
  | [] => True
  | e :: r => match e with NStart _ => g_runs d = [] | _ => True end /\
              match sstep d e with Some d' => one_at_a_time d' r | None => False end
  end.
Definition sreach1 (d : sdb) : Prop := exists es, one_at_a_time snap_init es /\ sruns snap_init es = Some d.

(** The number of snapshots of balance [id] on the day of [t]. *)
Definition snapshots_on (d : sdb) (id : string) (t : Z) : nat :=
  List.length (filter (fun s => String.eqb (sn_bal s) id && (day (sn_time s) =? day t)) (g_snaps d)).

(** Money into and out of a balance in a list of transactions, of those that are
    applied and satisfy [p]. *)
Definition money_in (id : string) (p : trow -> bool) (l : list trow) : Z :=
  sumz (fun t => if String.eqb (r_dst t) id && r_applied t && p t then r_amount t else 0) l.
Definition money_out (id : string) (p : trow -> bool) (l : list trow) : Z :=
  sumz (fun t => if String.eqb (r_src t) id && r_applied t && p t then r_amount t else 0) l.

Definition all_of (x : trow) : bool := true.

(** In force at time [t]. *)
Definition effective_by (t : Z) (x : trow) : bool := r_eff x <=? t.
Definition effective_after (t : Z) (x : trow) : bool := t <? r_eff x.

(** Effective dates are dates of our era. *)
Definition dated (d : sdb) : Prop := forall t, In t (g_rows d) -> zero_time < r_eff t.

(** The transactions posted before and after the counters of a snapshot were read. *)
Definition before_snap (d : sdb) (s : snap) : list trow := firstn (sn_seen s) (g_rows d).
Definition after_snap (d : sdb) (s : snap) : list trow := skipn (sn_seen s) (g_rows d).

(** No transaction of the balance straddles the snapshot. *)
Definition no_straddle (d : sdb) (id : string) (s : snap) : Prop :=
  (forall t, In t (before_snap d s) -> r_applied t = true -> (r_src t = id \/ r_dst t = id) -> r_eff t <= sn_time s) /\
  (forall t, In t (after_snap d s) -> r_applied t = true -> (r_src t = id \/ r_dst t = id) -> sn_time s < r_eff t).

(** [k] rounds of the loop of the only run. *)
Fixpoint iterations (k : nat) : list sevent :=
  match k with O => [] | S n => NInsert 0 :: NAdvance 0 :: iterations n end.

(** Not the beginning of another run. *)
Definition no_start (e : sevent) : Prop := match e with NStart _ => False | _ => True end.
