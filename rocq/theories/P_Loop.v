(** C51: a background processor runs once while it is started and not at all once it is stopped. *)
From Coq Require Import List Bool Arith ZArith.
From Verif Require Import LoopModel LoopSpec LoopProof LoopDemo.
Import ListNotations.

(** Whatever is called when: no channel is closed twice, no wait group goes below zero. *)
Theorem C51_no_panic : forall (ok : proc -> event -> Prop) p, reach ok new_proc p -> p_dead p = false.
Proof. exact never_panics. Qed.
Print Assumptions C51_no_panic.

(** Calls that do not overlap. However often it is started, there is at most one loop. *)
Theorem C51_one_loop : forall p, reach one_at_a_time new_proc p -> alive p <= 1.
Proof. exact one_loop. Qed.
Print Assumptions C51_one_loop.

(** Once Stop has returned no loop is left, hence no batch under way, until the next Start. *)
Theorem C51_stopped : forall p, reach one_at_a_time new_proc p -> has_returned KStop p -> alive p = 0 /\ is_running p = false.
Proof. exact stopped. Qed.
Print Assumptions C51_stopped.

(** Once Start has returned there is a loop, and it goes on until Stop, unless a context has
    been cancelled. *)
Theorem C51_started : forall p ctx, reach one_at_a_time new_proc p -> has_returned (KStart ctx) p ->
  is_running p = true /\ (p_cancelled p = [] -> exists l, p_loops p = [l] /\ l_at l <> Leave).
Proof. exact started. Qed.
Print Assumptions C51_started.

(** A Stop under way can always return: nobody else has to do anything. *)
Theorem C51_stop_returns : forall p, reach one_at_a_time new_proc p -> stopping p ->
  exists p', reach left_alone p p' /\ has_returned KStop p'.
Proof. exact stop_returns. Qed.
Print Assumptions C51_stop_returns.

(** A processor is started twice and stopped in the middle of its second batch... *)
Example C51_example : exists p, reach one_at_a_time new_proc p /\ stopping p /\ alive p = 1 /\ batches p = 1 /\ is_running p = false.
Proof. exact life_example. Qed.
(** ... the stop returns, and it is started again. *)
Example C51_example_again : (exists p, reach one_at_a_time new_proc p /\ has_returned KStop p /\ alive p = 0)
  /\ (exists p, reach one_at_a_time new_proc p /\ has_returned (KStart 8) p /\ p_cancelled p = [] /\ alive p = 1).
Proof. exact again_example. Qed.

(** ** Overlapping calls *)

(** Start while Stop waits: the old loop reads the new channel. Two loops from then on, and
    Stop never returns. *)
Theorem C51_start_during_stop_refuted : exists p, reach anything new_proc p /\ In {| c_kind := KStop; c_at := StopWait |} (p_calls p)
  /\ forall p', reach left_alone p p' -> alive p' = 2 /\ In {| c_kind := KStop; c_at := StopWait |} (p_calls p').
Proof. exact stuck_wrong. Qed.
Print Assumptions C51_start_during_stop_refuted.

(** Stop during Start, or during Stop: it returns, and a batch is under way. *)
Theorem C51_stop_during_start_refuted : exists p, reach anything new_proc p
  /\ p_calls p = [{| c_kind := KStop; c_at := Returned |}; {| c_kind := KStart 7; c_at := Returned |}] /\ batches p = 1.
Proof. exact early_wrong. Qed.
Print Assumptions C51_stop_during_start_refuted.
Theorem C51_stop_during_stop_refuted : exists p, reach anything new_proc p
  /\ p_calls p = [{| c_kind := KStop; c_at := Returned |}; {| c_kind := KStop; c_at := StopWait |};
                  {| c_kind := KStart 7; c_at := Returned |}; {| c_kind := KStart 7; c_at := Returned |}] /\ batches p = 1.
Proof. exact two_stops_wrong. Qed.
Print Assumptions C51_stop_during_stop_refuted.

(** ** A cancelled context *)

(** The loop has ended, the processor says that it runs, and Start with another context does
    nothing. *)
Theorem C51_cancelled_refuted : exists p, reach one_at_a_time new_proc p /\ has_returned (KStart 8) p /\ ~ In 8 (p_cancelled p)
  /\ is_running p = true /\ alive p = 0.
Proof. exact cancelled_wrong. Qed.
Print Assumptions C51_cancelled_refuted.
