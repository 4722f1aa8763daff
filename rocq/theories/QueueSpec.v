(** What an operator means by a memory report, a queue and a pressure limit. *)
From Coq Require Import ZArith List String Ascii Bool.
From Verif Require Import QueueModel.
Import ListNotations.
Local Open Scope string_scope.
Open Scope Z_scope.

(** The text redis answers INFO memory with: a header, then one field per line, lines
    ending in carriage return and newline. *)
Definition eol : string := String "013" (String "010" "").
Fixpoint fields_text (l : list (string * string)) : string :=
  match l with [] => "" | (k, v) :: r => k ++ ":" ++ v ++ eol ++ fields_text r end.
Definition report (l : list (string * string)) : string := "# Memory" ++ eol ++ fields_text l.

Fixpoint chars (s : string) : list ascii := match s with EmptyString => [] | String c r => c :: chars r end.
(** Field names are made of letters, digits, '_' and the like; values are one line. *)
Definition field_name (k : string) : Prop :=
  k <> "" /\ Forall (fun c => space c = false /\ c <> ":"%char /\ c <> "#"%char) (chars k).
Definition one_line (v : string) : Prop := Forall (fun c => c <> newline) (chars v).
Definition reports (l : list (string * string)) (used max : Z) : Prop :=
  Forall (fun f => field_name (fst f) /\ one_line (snd f)) l /\ NoDup (map fst l)
  /\ In ("used_memory", int_text used) l /\ In ("maxmemory", int_text max) l.

(** Waiting tasks over a list of queues. *)
Fixpoint sum_of (n : string -> Z) (qs : list string) : Z :=
  match qs with [] => 0 | q :: r => n q + sum_of n r end.

(** Everything answers: redis reports [used] of [max] bytes, asynq counts [n q] tasks in
    queue [q]. *)
Definition answers (e : qenv) (used max : Z) (n : string -> Z) : Prop :=
  e_redis e = true /\ (exists l, e_info e = Some (report l) /\ reports l used max)
  /\ e_inspector e = true /\ (forall q, e_count e q = Some (n q)).

(** A verdict taken at time [t] rests on an evaluation that said [v]: its own, or one
    written down less than [d] before. *)
Definition rests_on (c : qconfig) (y : bsys) (t : Z) (v : bool) : Prop :=
  exists te e ts, In (te, e) (b_evals y) /\ evaluate c e = Some v /\ te <= ts <= t /\ (ts = t \/ t - ts < interval c).

(** Under pressure with a limit of [k] percent: memory at or above it (redis has a
    memory limit at all), or as many waiting transactions as allowed (if there is such a
    limit). *)
Definition pressed (k : Z) (c : qconfig) (used max : Z) (n : string -> Z) : Prop :=
  0 < max /\ k * max <= 100 * used \/ 0 < q_max_pending c /\ q_max_pending c <= sum_of n (counted c).

(** The limit in force: the configured whole percentage, where zero and below mean 85. *)
Definition limited (c : qconfig) (k : Z) : Prop :=
  exists j, Z.abs j <= 2 ^ 53 /\ q_percent c = to_float j /\ (0 < j /\ k = j \/ j <= 0 /\ k = 85).
