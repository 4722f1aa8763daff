(** The lineage outbox: which recorded movements must have an entry. *)
From Coq Require Import ZArith QArith List String Bool.
From Verif Require Import Base BalanceModel LedgerModel LedgerSpec ConcModel.
Import ListNotations.
Open Scope Z_scope.

(** The balance exists and tracks fund lineage. *)
Definition tracked (s : state) (id : string) : Prop :=
  exists b, In b (s_bals s) /\ b_id b = id /\ b_track b = true.

Definition provider (r : row) : string := m_provider (t_meta (r_t r)).

(** The movement touches fund lineage: it takes money out of a tracked balance, or
    brings money of a named provider into one. *)
Definition touches_lineage (s : state) (r : row) : Prop :=
  tracked s (source r) \/ (tracked s (destination r) /\ provider r <> EmptyString).

(** The entries recorded for a transaction. *)
Definition entries_of (s : state) (r : row) : list outbox_entry :=
  filter (fun o => String.eqb (o_txn o) (t_id (r_t r))) (s_outbox s).

(** The entry describes the movement. *)
Definition describes (s : state) (o : outbox_entry) (r : row) : Prop :=
  o_txn o = t_id (r_t r) /\ o_src o = source r /\ o_dst o = destination r /\ o_amount o = amount r
  /\ o_provider o = provider r /\ (o_inflight o = true <-> r_kind r = KHold)
  /\ (o_debit o = true <-> tracked s (source r))
  /\ (o_credit o = true <-> tracked s (destination r) /\ provider r <> EmptyString).
