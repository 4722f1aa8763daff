(** What starting and stopping a background processor is supposed to do. *)
From Coq Require Import List Bool Arith ZArith.
From Verif Require Import LoopModel.
Import ListNotations.

(** The states a processor gets into from [p] by events [ok] allows, in any order. *)
Inductive reach (ok : proc -> event -> Prop) : proc -> proc -> Prop :=
| reach_refl p : reach ok p p
| reach_step p e p' p'' : ok p e -> step e p = Some p' -> reach ok p' p'' -> reach ok p p''.

Definition anything : proc -> event -> Prop := fun _ _ => True.
(** No call is made while another is under way. *)
Definition one_at_a_time : proc -> event -> Prop :=
  fun p e => match e with ECall _ => Forall (fun c => c_at c = Returned) (p_calls p) | _ => True end.
(** Nobody calls, nobody cancels. *)
Definition left_alone : proc -> event -> Prop :=
  fun _ e => match e with EAct _ | ELoop _ _ => True | _ => False end.

(** The newest call is [k], and it has returned. *)
Definition has_returned (k : kind) (p : proc) : Prop := exists r, p_calls p = {| c_kind := k; c_at := Returned |} :: r.
(** The newest call is a stop that has not returned. *)
Definition stopping (p : proc) : Prop := exists c r, p_calls p = c :: r /\ c_kind c = KStop /\ c_at c <> Returned.

(** The loops there are; the loops that are in the middle of a batch. *)
Definition alive (p : proc) : nat := List.length (p_loops p).
Definition batches (p : proc) : nat := List.length (filter (fun l => match l_at l with Work => true | _ => false end) (p_loops p)).
