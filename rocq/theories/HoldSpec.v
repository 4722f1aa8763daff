(** Specification vocabulary for holds, queued transactions and refunds as a
    client sees them, and for well-behaved histories. *)
From Coq Require Import ZArith QArith List String Bool.
From Verif Require Import Base BalanceModel LedgerModel LedgerSpec ConcModel BudgetSpec LedgerSafe ProvSpec.
Import ListNotations.
Open Scope Z_scope.

(** Histories in which no balance is created with the reconciliation flag, no lock
    expires under its owner and no client writes the ledger's own metadata keys. *)
Definition honest (y : sys) (e : event) : Prop := no_recon_flag y e /\ no_spoof y e.
Definition careful (y : sys) (e : event) : Prop := no_recon_flag y e /\ polite y e /\ no_spoof y e.

(** Generated UUIDs are pairwise distinct. *)
Definition distinct_uuids (u : nat -> string) : Prop := forall i j, u i = u j -> i = j.

(** What can be committed: an INFLIGHT transaction, or one accepted with
    inflight = true that is still QUEUED. *)
Definition is_hold (h : row) : Prop :=
  t_status (r_t h) = SInflight \/ (t_status (r_t h) = SQueued /\ t_inflight (r_t h) = true).

(** Counters of the balance [id] in a list of balances. *)
Definition moves_on (id : string) (l l' : list balance) (cr db icr idb : Z) : Prop :=
  forall b b', In b l -> In b' l' -> b_id b = id -> b_id b' = id ->
    b_cr b' = b_cr b + cr /\ b_db b' = b_db b + db /\ b_icr b' = b_icr b + icr /\ b_idb b' = b_idb b + idb
    /\ b_bal b' = b_bal b + cr - db /\ b_ibal b' = b_ibal b + icr - idb.

Definition iff_z (c : bool) (z : Z) : Z := if c then z else 0.

(** [r] turns [amount r] of held money into settled money, on both its balances
    and on no other. *)
Definition commits_exactly (r : row) (l l' : list balance) : Prop :=
  forall id, moves_on id l l'
    (iff_z (String.eqb (destination r) id) (amount r)) (iff_z (String.eqb (source r) id) (amount r))
    (- iff_z (String.eqb (destination r) id) (amount r)) (- iff_z (String.eqb (source r) id) (amount r)).

(** [r] releases [amount r] of held money. *)
Definition voids_exactly (r : row) (l l' : list balance) : Prop :=
  forall id, moves_on id l l' 0 0
    (- iff_z (String.eqb (destination r) id) (amount r)) (- iff_z (String.eqb (source r) id) (amount r)).

(** Everything a hold and its commits and void contributed to an account. *)
Definition concerns (h : row) (r : row) : bool :=
  String.eqb (t_id (r_t r)) (t_id (r_t h))
  || (match r_kind r with KCommit | KVoid => String.eqb (t_parent (r_t r)) (t_id (r_t h)) | _ => false end).
Definition held_for (h : row) (j : list row) : Z := sumz (fun r => if concerns h r then held r else 0) j.
Definition settled_for (h : row) (j : list row) : Z := sumz (fun r => if concerns h r then settled r else 0) j.

(** Net settled money of an account from a list of rows. *)
Definition net (id : string) (j : list row) : Z := credits id j - debits id j.
