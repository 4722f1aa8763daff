(** Specification of a double-entry ledger, stated on the journal alone (the rows
    of the transactions table, newest first). Nothing here refers to the code's
    own arithmetic; only the row type is shared with the model. *)
From Coq Require Import ZArith QArith Qabs List String Bool.
From Verif Require Import Base BalanceModel LedgerModel.
Import ListNotations.
Open Scope Z_scope.

Definition amount (r : row) : Z := t_precise (r_t r).
Definition source (r : row) : string := t_src (r_t r).
Definition destination (r : row) : string := t_dst (r_t r).

(** How much a row of a given kind moves, in settled money and in held money. *)
Definition settled (r : row) : Z :=
  match r_kind r with KPost | KCommit => amount r | _ => 0 end.
Definition held (r : row) : Z :=
  match r_kind r with KHold => amount r | KCommit | KVoid => - amount r | _ => 0 end.

(** Totals of an account according to the journal. *)
Definition total (f : row -> Z) (who : row -> string) (id : string) (j : list row) : Z :=
  sumz (fun r => if String.eqb (who r) id then f r else 0) j.
Definition credits := total settled destination.
Definition debits := total settled source.
Definition held_in := total held destination.
Definition held_out := total held source.

(** Money an account can spend. *)
Definition available (id : string) (j : list row) : Z :=
  credits id j - debits id j - held_out id j.

(** The overdraft granted by a transaction, in minor units: its limit times its
    precision, rounded to the nearest unit. *)
Definition grants (t : txn) (l : Z) : Prop :=
  (0 < t_limit t)%Q /\ (Qabs (inject_Z l - t_limit t * inject_Z (t_prec t)) <= 1 # 2)%Q.

(** A row may take [amount r] out of its source given the rows before it. *)
Definition funded (earlier : list row) (r : row) : Prop :=
  (t_allow (r_t r) = true /\ (t_limit (r_t r) == 0)%Q)
  \/ amount r <= available (source r) earlier
  \/ exists l, grants (r_t r) l /\ amount r <= available (source r) earlier + l.

(** A QUEUED row carries a negative amount. A split can produce such a leg (see
    DESIGN.md); with enable_queued_checks on, it raises what its source may spend. *)
Definition negative_queued (j : list row) : Prop :=
  exists r, In r j /\ t_status (r_t r) = SQueued /\ amount r < 0.

Definition legal (queued_checks : bool) (earlier : list row) (r : row) : Prop :=
  match r_kind r with
  | KPost | KHold => 0 < amount r
                     /\ (funded earlier r \/ (queued_checks = true /\ negative_queued earlier))
  | KCommit | KVoid => amount r <> 0
                       /\ amount r <= held_out (source r) earlier
                       /\ amount r <= held_in (destination r) earlier
  | KNone => True
  end.

(** Every row of the journal was legal when it was written. *)
Fixpoint legal_journal (qc : bool) (j : list row) : Prop :=
  match j with
  | [] => True
  | r :: earlier => legal qc earlier r /\ legal_journal qc earlier
  end.

(** A stored balance shows exactly the journal's totals. *)
Definition shows (b : balance) (j : list row) : Prop :=
  b_cr b = credits (b_id b) j /\ b_db b = debits (b_id b) j
  /\ b_icr b = held_in (b_id b) j /\ b_idb b = held_out (b_id b) j
  /\ b_bal b = credits (b_id b) j - debits (b_id b) j
  /\ b_ibal b = held_in (b_id b) j - held_out (b_id b) j.

(** The status a client sees for each kind of row. *)
Definition kind_status (k : kind) (s : status) : Prop :=
  match k with
  | KPost | KCommit => s = SApplied
  | KHold => s = SInflight
  | KVoid => s = SVoid
  | KNone => s = SQueued \/ s = SScheduled \/ s = SRejected
  end.
