(** What "rounded half away from zero" means, without saying how to compute it. *)
From Coq Require Import ZArith QArith Qabs.
Open Scope Q_scope.

(** [z] is a nearest integer to [q], and of two nearest ones the one further from zero. *)
Definition rounds_to (q : Q) (z : Z) : Prop :=
  Qabs (inject_Z z - q) <= 1 # 2 /\ (Qabs (inject_Z z - q) == 1 # 2 -> Qabs q <= Qabs (inject_Z z)).
