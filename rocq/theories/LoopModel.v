(** The processors that work in the background: the lineage outbox, the hash chain and the
    recovery of stuck transactions are started, stopped and looped by the same code:
    lineage_worker.go:31-160, chain_worker.go:37-128, queue_recovery.go:29-117. *)
From Coq Require Import List Bool Arith ZArith.
Import ListNotations.

(** A call of a processor, with the context it is given (numbered). *)
Inductive kind := KStart (ctx : nat) | KStop.

(** What a call does next: lineage_worker.go:100-131, chain_worker.go:74-105,
    queue_recovery.go:59-91. What happens under the mutex is one step, Add, go and Wait are one
    each. *)
Inductive place := StartLock | StartAdd | StartGo | StopLock | StopWait | Returned.
Record call := { c_kind : kind; c_at : place }.

(** What a loop does next: lineage_worker.go:144-160, chain_worker.go:114-128,
    queue_recovery.go:101-117. [Enter]: it reads the field stopCh for the select; [Select ch]: it
    waits on that channel, the context and the ticker; [Work]: it processes a batch; [Leave]: it
    has left [run] and is about to call the deferred Done. *)
Inductive spot := Enter | Select (ch : nat) | Work | Leave.
Record loop := { l_ctx : nat; l_at : spot }.

(** The fields of a processor (lineage_worker.go:31-40), the calls made so far, newest first,
    the loops there are, and the contexts that have been cancelled. Channels are numbered, and
    those that have been closed listed. [p_dead]: something has panicked. Simplified: memory is
    sequentially consistent, although stopCh is read without the mutex. *)
Record proc := {
  p_running : bool; p_stop : nat; p_fresh : nat; p_closed : list nat; p_wg : Z;
  p_calls : list call; p_loops : list loop; p_cancelled : list nat; p_dead : bool }.

(** NewLineageOutboxProcessor, lineage_worker.go:49-57; chain_worker.go:50-71;
    queue_recovery.go:45-56. *)
Definition new_proc : proc :=
  {| p_running := false; p_stop := 0; p_fresh := 1; p_closed := []; p_wg := 0; p_calls := []; p_loops := [];
     p_cancelled := []; p_dead := false |}.

(** IsRunning, lineage_worker.go:137-141; chain_worker.go:108-112; queue_recovery.go:94-98. *)
Definition is_running (p : proc) : bool := p_running p.

(** One field changed. *)
Definition set_calls p l := {| p_running := p_running p; p_stop := p_stop p; p_fresh := p_fresh p; p_closed := p_closed p; p_wg := p_wg p;
  p_calls := l; p_loops := p_loops p; p_cancelled := p_cancelled p; p_dead := p_dead p |}.
Definition set_loops p l := {| p_running := p_running p; p_stop := p_stop p; p_fresh := p_fresh p; p_closed := p_closed p; p_wg := p_wg p;
  p_calls := p_calls p; p_loops := l; p_cancelled := p_cancelled p; p_dead := p_dead p |}.
(** WaitGroup.Add, which panics below zero. *)
Definition add_wg p d := {| p_running := p_running p; p_stop := p_stop p; p_fresh := p_fresh p; p_closed := p_closed p; p_wg := p_wg p + d;
  p_calls := p_calls p; p_loops := p_loops p; p_cancelled := p_cancelled p; p_dead := p_dead p || (p_wg p + d <? 0)%Z |}.
(** lineage_worker.go:106-107: running is set and stopCh replaced. *)
Definition set_started p := {| p_running := true; p_stop := p_fresh p; p_fresh := S (p_fresh p); p_closed := p_closed p; p_wg := p_wg p;
  p_calls := p_calls p; p_loops := p_loops p; p_cancelled := p_cancelled p; p_dead := p_dead p |}.
(** lineage_worker.go:125-126: running is reset and stopCh closed; closing it again panics. *)
Definition set_stopped p := {| p_running := false; p_stop := p_stop p; p_fresh := p_fresh p; p_closed := p_stop p :: p_closed p; p_wg := p_wg p;
  p_calls := p_calls p; p_loops := p_loops p; p_cancelled := p_cancelled p;
  p_dead := p_dead p || existsb (Nat.eqb (p_stop p)) (p_closed p) |}.
Definition set_cancelled p x := {| p_running := p_running p; p_stop := p_stop p; p_fresh := p_fresh p; p_closed := p_closed p; p_wg := p_wg p;
  p_calls := p_calls p; p_loops := p_loops p; p_cancelled := x :: p_cancelled p; p_dead := p_dead p |}.

Fixpoint put {A} (i : nat) (x : A) (l : list A) : list A :=
  match l, i with
  | [], _ => []
  | _ :: r, O => x :: r
  | y :: r, S i => y :: put i x r
  end.
Fixpoint drop_at {A} (i : nat) (l : list A) : list A :=
  match l, i with
  | [], _ => []
  | _ :: r, O => r
  | y :: r, S i => y :: drop_at i r
  end.

(** What the select of a loop finds ready; Go takes any of those that are. *)
Inductive ready := Tick | Stopped | Cancelled.
Inductive event := ECall (k : kind) | EAct (i : nat) | ELoop (j : nat) (r : ready) | ECancel (ctx : nat).

Definition entry_of (k : kind) : place := match k with KStart _ => StartLock | KStop => StopLock end.
Definition context_of (k : kind) : nat := match k with KStart x => x | KStop => 0 end.

(** The next step of call [i]. *)
Definition act (i : nat) (c : call) (p : proc) : option proc :=
  let to q x := Some (set_calls q (put i {| c_kind := c_kind c; c_at := x |} (p_calls q))) in
  match c_at c with
  | StartLock => if p_running p then to p Returned else to (set_started p) StartAdd
  | StartAdd => to (add_wg p 1) StartGo
  | StartGo => to (set_loops p (p_loops p ++ [{| l_ctx := context_of (c_kind c); l_at := Enter |}])) Returned
  | StopLock => if p_running p then to (set_stopped p) StopWait else to p Returned
  | StopWait => if (p_wg p =? 0)%Z then to p Returned else None
  | Returned => None
  end.

(** The next step of loop [j]. *)
Definition turn (j : nat) (r : ready) (l : loop) (p : proc) : option proc :=
  let to x := Some (set_loops p (put j {| l_ctx := l_ctx l; l_at := x |} (p_loops p))) in
  match l_at l with
  | Enter => to (Select (p_stop p))
  | Select ch =>
    match r with
    | Tick => to Work
    | Stopped => if existsb (Nat.eqb ch) (p_closed p) then to Leave else None
    | Cancelled => if existsb (Nat.eqb (l_ctx l)) (p_cancelled p) then to Leave else None
    end
  | Work => to Enter
  | Leave => Some (add_wg (set_loops p (drop_at j (p_loops p))) (-1))
  end.

(** What can happen; [None]: it cannot. *)
Definition step (e : event) (p : proc) : option proc :=
  if p_dead p then None else
  match e with
  | ECall k => Some (set_calls p ({| c_kind := k; c_at := entry_of k |} :: p_calls p))
  | EAct i => match nth_error (p_calls p) i with Some c => act i c p | None => None end
  | ELoop j r => match nth_error (p_loops p) j with Some l => turn j r l p | None => None end
  | ECancel x => Some (set_cancelled p x)
  end.
