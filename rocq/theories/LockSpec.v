(** What the lock theorems talk about. *)
From Coq Require Import ZArith List String Bool Relations.
From Verif Require Import Base LedgerModel LedgerProgs LockModel.
Import ListNotations.
Open Scope Z_scope.

(** Lexicographic order on keys (Go's < on strings). *)
Definition key_lt (a b : string) : Prop := String.compare a b = Lt.

(** Nothing has happened yet: nothing locked, every locker has its own UUID and a
    positive lease. *)
Definition fresh_client (c : client) : Prop :=
  c_phase c = PIdle /\ c_leak c = false /\ 0 < c_ttl c /\ exists asked, c_keys c = lock_set asked.
Definition lock_start (y : lsys) : Prop :=
  (forall k, l_store y k = None) /\ Forall fresh_client (l_clients y) /\ NoDup (map c_val (l_clients y)).

Fixpoint lruns (y : lsys) (es : list levent) : option lsys :=
  match es with
  | [] => Some y
  | e :: r => match lstep y e with Some y' => lruns y' r | None => None end
  end.
Definition lreach (y : lsys) : Prop := exists y0 es, lock_start y0 /\ lruns y0 es = Some y.

(** Client [c] has taken [k] and not begun to give it back; Redis drops it at [d]. *)
Definition holds (c : client) (k : string) (d : Z) : Prop :=
  match c_phase c with PTaking got _ | PHold got => In (k, d) got | _ => False end.

(** The key that a client is about to ask for. *)
Definition wants (c : client) (k : string) : Prop :=
  match c_phase c with PTaking _ (k' :: _) => k = k' | _ => False end.

(** Client i cannot proceed because client j has the key it asks for. *)
Definition waits_for (y : lsys) (i j : nat) : Prop :=
  exists ci cj k, nth_error (l_clients y) i = Some ci /\ nth_error (l_clients y) j = Some cj /\
    wants ci k /\ live (l_now y) (l_store y) k = Some (c_val cj).

(** Every call of every client was answered, or had no effect. *)
Definition no_leak (y : lsys) : Prop := forall c, In c (l_clients y) -> c_leak c = false.
