(** Model of internal/lock/lock.go on a Redis server with a clock: SET NX PX,
    compare-and-delete, and clients that take several locks call by call. The keys
    of a client are [lock_set] of LedgerProgs (NewMultiLocker, lock.go:186-212); a
    plain Locker (lock.go:73-122) is a client with one key. ExtendLock (131-142) is
    called nowhere in the code and is not modelled. *)
From Coq Require Import ZArith List String Bool.
From Verif Require Import Base LedgerModel LedgerProgs.
Import ListNotations.
Open Scope Z_scope.

(** A key with its value and the time at which Redis drops it. *)
Record entry := { e_val : string; e_until : Z }.
Definition store := string -> option entry.

Definition put (k : string) (e : option entry) (r : store) : store :=
  fun k' => if String.eqb k' k then e else r k'.

(** GET: an expired key is absent. *)
Definition live (now : Z) (r : store) (k : string) : option string :=
  match r k with
  | Some e => if now <? e_until e then Some (e_val e) else None
  | None => None
  end.

(** SetNX, lock.go:88. *)
Definition set_nx (now ttl : Z) (k v : string) (r : store) : store * bool :=
  match live now r k with
  | Some _ => (r, false)
  | None => (put k (Some {| e_val := v; e_until := now + ttl |}) r, true)
  end.

(** The Lua script of Unlock, lock.go:113-114. *)
Definition del_if (now : Z) (k v : string) (r : store) : store * bool :=
  match live now r k with
  | Some v' => if String.eqb v' v then (put k None r, true) else (r, false)
  | None => (r, false)
  end.

(** Where a client is in MultiLocker.Lock 220-234, WaitLock 244-271, Unlock 278-289
    or rollback 295-300. [got]: the keys taken so far, with the times at which Redis
    will drop them (the client does not know these times; they are for the theorems). *)
Inductive phase :=
| PIdle
| PTaking (got : list (string * Z)) (todo : list string)
| PUndo (rest : list string) (held : bool)   (* rollback after an error; [held]: the error was ErrLockHeld *)
| PSleep                                     (* Lock returned ErrLockHeld *)
| PHold (got : list (string * Z))            (* Lock returned nil *)
| PFree (rest : list string)
| PDone (acquired : bool)
| PDead.                                     (* the process died *)

(** [c_val]: the UUID of the locker; [c_leak]: some call of this client may have had
    an effect on the server that the client was not told about. *)
Record client := { c_keys : list string; c_val : string; c_ttl : Z; c_phase : phase; c_leak : bool }.

Definition at_phase (c : client) (p : phase) (leak : bool) : client :=
  {| c_keys := c_keys c; c_val := c_val c; c_ttl := c_ttl c; c_phase := p; c_leak := c_leak c || leak |}.

(** What happened to one Redis call: the server ran it [x_times] times (the Redis
    client resends a command whose reply did not arrive) and the answer to the last
    run reached the caller, or the caller got an error (lost connection, cancelled
    context). *)
Record fate := { x_times : nat; x_answered : bool }.
Definition answered (f : fate) : bool := x_answered f && negb (Nat.eqb (x_times f) 0).

Fixpoint repeat_call (n : nat) (call : store -> store * bool) (r : store) : store * bool :=
  match n with
  | O => (r, false)
  | S O => call r
  | S m => repeat_call m call (fst (call r))
  end.

Definition after_take (got : list (string * Z)) (todo : list string) : phase :=
  match todo with [] => PHold got | _ => PTaking got todo end.
Definition after_undo (rest : list string) (held : bool) : phase :=
  match rest with [] => if held then PSleep else PDone false | _ => PUndo rest held end.
Definition after_free (rest : list string) : phase :=
  match rest with [] => PDone true | _ => PFree rest end.

(** The next Redis call of a client. *)
Definition call (now : Z) (f : fate) (c : client) (r : store) : option (client * store) :=
  match c_phase c with
  | PTaking got (k :: todo) =>                                       (* lock.go:223-231, 87-99 *)
    let '(r', ok) := repeat_call (x_times f) (set_nx now (c_ttl c) k (c_val c)) r in
    if answered f then
      if ok then Some (at_phase c (after_take (got ++ [(k, now + c_ttl c)]) todo) false, r')
      else Some (at_phase c (after_undo (rev (map fst got)) true) (negb (Nat.eqb (x_times f) 1)), r')
    else Some (at_phase c (after_undo (rev (map fst got)) false) (negb (Nat.eqb (x_times f) 0)), r')
  | PUndo (k :: rest) held =>                                        (* lock.go:297-299 *)
    let '(r', _) := repeat_call (x_times f) (del_if now k (c_val c)) r in
    Some (at_phase c (after_undo rest held) (Nat.eqb (x_times f) 0), r')
  | PFree (k :: rest) =>                                             (* lock.go:282-286 *)
    let '(r', _) := repeat_call (x_times f) (del_if now k (c_val c)) r in
    Some (at_phase c (after_free rest) (Nat.eqb (x_times f) 0), r')
  | _ => None
  end.

(** The system: one Redis, any number of clients. *)
Record lsys := { l_now : Z; l_store : store; l_clients : list client }.

Inductive levent :=
| LTick (d : Z)               (* time passes *)
| LStart (i : nat)            (* Lock or WaitLock is called *)
| LCall (i : nat) (f : fate)  (* the next Redis call of client i *)
| LRetry (i : nat)            (* WaitLock tries again, lock.go:251-265 *)
| LGiveUp (i : nat)           (* Lock's error is returned, or the wait is over, lock.go:262-270 *)
| LUnlock (i : nat)           (* Unlock is called *)
| LDie (i : nat).

Fixpoint set_nth {A} (n : nat) (x : A) (l : list A) : list A :=
  match l, n with
  | [], _ => []
  | _ :: r, O => x :: r
  | y :: r, S m => y :: set_nth m x r
  end.

Definition move (y : lsys) (i : nat) (c : client) : lsys :=
  {| l_now := l_now y; l_store := l_store y; l_clients := set_nth i c (l_clients y) |}.

Definition lstep (y : lsys) (e : levent) : option lsys :=
  match e with
  | LTick d => if d <=? 0 then None
               else Some {| l_now := l_now y + d; l_store := l_store y; l_clients := l_clients y |}
  | LStart i => match nth_error (l_clients y) i with
                | Some c => match c_phase c with
                            | PIdle => Some (move y i (at_phase c (after_take [] (c_keys c)) false))
                            | _ => None
                            end
                | None => None
                end
  | LCall i f => match nth_error (l_clients y) i with
                 | Some c => match call (l_now y) f c (l_store y) with
                             | Some (c', r) => Some {| l_now := l_now y; l_store := r; l_clients := set_nth i c' (l_clients y) |}
                             | None => None
                             end
                 | None => None
                 end
  | LRetry i => match nth_error (l_clients y) i with
                | Some c => match c_phase c with
                            | PSleep => Some (move y i (at_phase c (after_take [] (c_keys c)) false))
                            | _ => None
                            end
                | None => None
                end
  | LGiveUp i => match nth_error (l_clients y) i with
                 | Some c => match c_phase c with
                             | PSleep => Some (move y i (at_phase c (PDone false) false))
                             | _ => None
                             end
                 | None => None
                 end
  | LUnlock i => match nth_error (l_clients y) i with
                 | Some c => match c_phase c with
                             | PHold _ => Some (move y i (at_phase c (after_free (rev (c_keys c))) false))
                             | _ => None
                             end
                 | None => None
                 end
  | LDie i => match nth_error (l_clients y) i with
              | Some c => Some (move y i (at_phase c PDead false))
              | None => None
              end
  end.
