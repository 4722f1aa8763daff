(** Starting and stopping background processors: examples and what goes wrong. *)
From Coq Require Import List Bool Arith ZArith Lia.
From Verif Require Import LoopModel LoopSpec LoopProof.
Import ListNotations.

Fixpoint play (okb : proc -> event -> bool) (es : list event) (p : proc) : option proc :=
  match es with
  | [] => Some p
  | e :: r => if okb p e then match step e p with Some p' => play okb r p' | None => None end else None
  end.
Lemma play_reach (ok : proc -> event -> Prop) okb es p p' : (forall p e, okb p e = true -> ok p e) -> play okb es p = Some p' -> reach ok p p'.
Proof.
  intros O. revert p. induction es as [|e es IH]; intros p H; cbn in H.
  - injection H as <-. apply reach_refl.
  - destruct (okb p e) eqn:A; [|discriminate H]. destruct (step e p) as [q|] eqn:B; [|discriminate H].
    eapply reach_step; [apply O; exact A|exact B|apply IH; exact H].
Qed.
Definition anyb : proc -> event -> bool := fun _ _ => true.
Definition returnedb (c : call) : bool := match c_at c with Returned => true | _ => false end.
Definition oneb : proc -> event -> bool := fun p e => match e with ECall _ => forallb returnedb (p_calls p) | _ => true end.
Lemma oneb_ok p e : oneb p e = true -> one_at_a_time p e.
Proof.
  destruct e; cbn; auto. intros H. rewrite forallb_forall in H. apply Forall_forall. intros c I. specialize (H c I).
  unfold returnedb in H. destruct (c_at c); try discriminate H. reflexivity.
Qed.
Lemma any_ok p e : anyb p e = true -> anything p e.
Proof. intros _. exact I. Qed.

Definition start_up (i : nat) : list event := [EAct i; EAct i; EAct i].
(** Started twice, a batch, stopped in the middle of the next, started again. *)
Definition life : list event :=
  [ECall (KStart 7)] ++ start_up 0 ++ [ECall (KStart 7); EAct 0; ELoop 0 Tick; ELoop 0 Tick; ELoop 0 Tick; ELoop 0 Tick; ELoop 0 Tick;
   ECall KStop; EAct 0].
Lemma life_example : exists p, reach one_at_a_time new_proc p /\ stopping p /\ alive p = 1 /\ batches p = 1 /\ is_running p = false.
Proof.
  destruct (play oneb life new_proc) as [p|] eqn:E; [|vm_compute in E; discriminate E]. exists p.
  split; [exact (play_reach _ _ _ _ _ oneb_ok E)|]. vm_compute in E. injection E as <-. split; [|repeat split].
  eexists. eexists. split; [reflexivity|]. split; [reflexivity|discriminate].
Qed.
Definition again : list event := life ++ [ELoop 0 Tick; ELoop 0 Tick; ELoop 0 Stopped; ELoop 0 Tick; EAct 0].
Lemma again_example : (exists p, reach one_at_a_time new_proc p /\ has_returned KStop p /\ alive p = 0)
  /\ (exists p, reach one_at_a_time new_proc p /\ has_returned (KStart 8) p /\ p_cancelled p = [] /\ alive p = 1).
Proof.
  split.
  - destruct (play oneb again new_proc) as [p|] eqn:E; [|vm_compute in E; discriminate E]. exists p.
    split; [exact (play_reach _ _ _ _ _ oneb_ok E)|]. vm_compute in E. injection E as <-. split; [eexists; reflexivity|reflexivity].
  - destruct (play oneb (again ++ [ECall (KStart 8)] ++ start_up 0) new_proc) as [p|] eqn:E; [|vm_compute in E; discriminate E]. exists p.
    split; [exact (play_reach _ _ _ _ _ oneb_ok E)|]. vm_compute in E. injection E as <-. split; [eexists; reflexivity|split; reflexivity].
Qed.

(** A start while a stop waits for the batch under way: the old loop reads the new channel. *)
Definition crossing : list event :=
  life ++ [ECall (KStart 7)] ++ start_up 0 ++ [ELoop 0 Tick; ELoop 0 Tick].
Definition stuck (p : proc) : Prop :=
  p_dead p = false /\ p_stop p = 2 /\ p_closed p = [1] /\ p_cancelled p = [] /\ p_wg p = 2%Z
  /\ p_calls p = [{| c_kind := KStart 7; c_at := Returned |}; {| c_kind := KStop; c_at := StopWait |};
                  {| c_kind := KStart 7; c_at := Returned |}; {| c_kind := KStart 7; c_at := Returned |}]
  /\ exists a b, p_loops p = [a; b] /\ (l_at a = Enter \/ l_at a = Work \/ l_at a = Select 2) /\ (l_at b = Enter \/ l_at b = Work \/ l_at b = Select 2).
Lemma stuck_turn p r l x : p_stop p = 2 -> p_closed p = [1] -> p_cancelled p = [] -> (l_at l = Enter \/ l_at l = Work \/ l_at l = Select 2) ->
  forall j p', turn j r l p = Some p' -> p' = set_loops p (put j x (p_loops p)) \/ exists y, p' = set_loops p (put j y (p_loops p)) /\ (l_at y = Enter \/ l_at y = Work \/ l_at y = Select 2).
Proof.
  intros S C X A j p' H. unfold turn in H. rewrite C, X, S in H. right.
  destruct A as [A|[A|A]]; rewrite A in H.
  - injection H as <-. eexists. split; [reflexivity|]. cbn. auto.
  - injection H as <-. eexists. split; [reflexivity|]. cbn. auto.
  - destruct r; cbn in H; try discriminate H. injection H as <-. eexists. split; [reflexivity|]. cbn. auto.
Qed.
Lemma stuck_step p e p' : stuck p -> left_alone p e -> step e p = Some p' -> stuck p'.
Proof.
  intros (D & S & C & X & W & K & a & b & L & A & B) U H. unfold step in H. rewrite D in H. destruct e as [k|i|j r|x]; try destruct U.
  - exfalso. rewrite K in H. destruct i as [|[|[|[|i]]]]; cbn [nth_error] in H; unfold act in H; cbn [c_at] in H; try discriminate H.
    + rewrite W in H. discriminate H.
    + destruct i; discriminate H.
  - rewrite L in H. destruct j as [|[|j]]; cbn [nth_error] in H.
    + destruct (stuck_turn p r a a S C X A _ _ H) as [->|(y & -> & Y)]; unfold stuck; fields; rewrite L; cbn [put]; repeat (split; [assumption|]); eexists; eexists; eauto.
    + destruct (stuck_turn p r b b S C X B _ _ H) as [->|(y & -> & Y)]; unfold stuck; fields; rewrite L; cbn [put]; repeat (split; [assumption|]); eexists; eexists; eauto.
    + destruct j; discriminate H.
Qed.
Lemma stuck_wrong : exists p, reach anything new_proc p /\ In {| c_kind := KStop; c_at := StopWait |} (p_calls p)
  /\ forall p', reach left_alone p p' -> alive p' = 2 /\ In {| c_kind := KStop; c_at := StopWait |} (p_calls p').
Proof.
  destruct (play anyb crossing new_proc) as [p|] eqn:E; [|vm_compute in E; discriminate E]. exists p.
  split; [exact (play_reach _ _ _ _ _ any_ok E)|]. vm_compute in E. injection E as <-. split; [right; left; reflexivity|].
  intros p' R. apply (reach_inv left_alone stuck stuck_step) in R.
  - destruct R as (_ & _ & _ & _ & _ & K & a & b & L & _). unfold alive. rewrite K, L. split; [reflexivity|right; left; reflexivity].
  - unfold stuck. cbn. repeat (split; [reflexivity|]). eexists. eexists. split; [reflexivity|]. cbn. auto.
Qed.

(** A stop between the flag and the Add of a start: it waits for nothing, and a batch follows. *)
Definition early : list event := [ECall (KStart 7); EAct 0; ECall KStop; EAct 0; EAct 0; EAct 1; EAct 1; ELoop 0 Tick; ELoop 0 Tick].
Lemma early_wrong : exists p, reach anything new_proc p
  /\ p_calls p = [{| c_kind := KStop; c_at := Returned |}; {| c_kind := KStart 7; c_at := Returned |}] /\ batches p = 1.
Proof.
  destruct (play anyb early new_proc) as [p|] eqn:E; [|vm_compute in E; discriminate E]. exists p.
  split; [exact (play_reach _ _ _ _ _ any_ok E)|]. vm_compute in E. injection E as <-. split; reflexivity.
Qed.

(** Two stops: the second does not wait. *)
Definition two_stops : list event := life ++ [ECall KStop; EAct 0].
Lemma two_stops_wrong : exists p, reach anything new_proc p
  /\ p_calls p = [{| c_kind := KStop; c_at := Returned |}; {| c_kind := KStop; c_at := StopWait |};
                  {| c_kind := KStart 7; c_at := Returned |}; {| c_kind := KStart 7; c_at := Returned |}] /\ batches p = 1.
Proof.
  destruct (play anyb two_stops new_proc) as [p|] eqn:E; [|vm_compute in E; discriminate E]. exists p.
  split; [exact (play_reach _ _ _ _ _ any_ok E)|]. vm_compute in E. injection E as <-. split; reflexivity.
Qed.

(** The context is cancelled: the processor still says that it runs, and a start does nothing. *)
Definition cancelled : list event :=
  [ECall (KStart 7)] ++ start_up 0 ++ [ELoop 0 Tick; ECancel 7; ELoop 0 Cancelled; ELoop 0 Tick; ECall (KStart 8); EAct 0].
Lemma cancelled_wrong : exists p, reach one_at_a_time new_proc p /\ has_returned (KStart 8) p /\ ~ In 8 (p_cancelled p)
  /\ is_running p = true /\ alive p = 0.
Proof.
  destruct (play oneb cancelled new_proc) as [p|] eqn:E; [|vm_compute in E; discriminate E]. exists p.
  split; [exact (play_reach _ _ _ _ _ oneb_ok E)|]. vm_compute in E. injection E as <-. split; [eexists; reflexivity|].
  split; [intros [X|[]]; discriminate X|split; reflexivity].
Qed.
