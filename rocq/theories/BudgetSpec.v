(** Commits and voids of holds, stated on the journal alone (newest row first). *)
From Coq Require Import ZArith List String Bool.
From Verif Require Import Base BalanceModel LedgerModel LedgerSpec.
Import ListNotations.
Open Scope Z_scope.

(** [r] commits or voids (part of) the hold [h]. *)
Definition is_action (h : string) (r : row) : Prop :=
  (r_kind r = KCommit \/ r_kind r = KVoid) /\ t_parent (r_t r) = h.

(** What has been committed / voided of the hold [h]. *)
Definition committed (h : string) (j : list row) : Z :=
  sumz (fun r => match r_kind r with
                 | KCommit => if String.eqb (t_parent (r_t r)) h then amount r else 0
                 | _ => 0 end) j.
Definition voided (h : string) (j : list row) : Z :=
  sumz (fun r => match r_kind r with
                 | KVoid => if String.eqb (t_parent (r_t r)) h then amount r else 0
                 | _ => 0 end) j.

(** No settled transaction other than commits names [h] as its parent. *)
Definition only_commits (h : string) (j : list row) : Prop :=
  forall r, In r j -> t_parent (r_t r) = h -> r_kind r <> KPost.

(** A commit or void [r] recorded after [earlier] is in order: its hold was
    recorded, had not been voided, concerns the same two balances, and [r] takes
    some, or for a void all, of what had not been committed. (The amounts are only
    promised for a hold of a nonnegative amount: a split can queue a negative leg.) *)
Definition action_in_order (earlier : list row) (r : row) : Prop :=
  exists h, In h earlier /\ t_id (r_t h) = t_parent (r_t r)
    /\ source r = source h /\ destination r = destination h
    /\ t_cur (r_t r) = t_cur (r_t h)
    /\ (forall v, In v earlier -> t_parent (r_t v) = t_parent (r_t r) -> r_kind v <> KVoid)
    /\ (0 <= amount h -> only_commits (t_parent (r_t r)) earlier ->
        0 < amount r <= amount h - committed (t_parent (r_t r)) earlier
        /\ (r_kind r = KVoid -> amount r = amount h - committed (t_parent (r_t r)) earlier)).

Fixpoint actions_in_order (j : list row) : Prop :=
  match j with
  | [] => True
  | r :: earlier => (r_kind r = KCommit \/ r_kind r = KVoid -> action_in_order earlier r)
                    /\ actions_in_order earlier
  end.
