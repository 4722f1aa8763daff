(** A bulk commit or void among other requests. *)
From Coq Require Import ZArith List String Ascii Bool.
From Verif Require Import Base BalanceModel LedgerModel LedgerProgs ConcModel WorkModel PoolModel.
Import ListNotations.
Open Scope Z_scope.

(** One operation of the [i]-th item of the bulk. *)
Record done_op := { d_item : nat; d_before : state; d_after : state }.

(** An execution of the pool: its goroutines move in any order, anybody else does
    anything in between. [h] lists the operations of the items as they happened. *)
Inductive history (cfg : config) (a : action) (curs : nat -> string) (base : nat)
  : pool -> state -> list done_op -> pool -> state -> Prop :=
| h_start p s : history cfg a curs base p s [] p s
| h_others p s h p' s' s'' : history cfg a curs base p s h p' s' -> other s' s'' ->
    history cfg a curs base p s h p' s''
| h_silent w p s h p' s' p'' : history cfg a curs base p s h p' s' ->
    match nth_error (p_work p') w with Some (WBusy _ _ (Do _ _)) => False | _ => True end ->
    move cfg a curs base w p' s' = Some (p'', s') -> history cfg a curs base p s h p'' s'
| h_op w i it o k p s h p' s' p'' s'' : history cfg a curs base p s h p' s' ->
    nth_error (p_work p') w = Some (WBusy i it (Do o k)) ->
    move cfg a curs base w p' s' = Some (p'', s'') ->
    history cfg a curs base p s (h ++ [{| d_item := i; d_before := s'; d_after := s'' |}]) p'' s''.

(** The operations of the [i]-th item. *)
Definition ops_of (i : nat) (h : list done_op) : list (state * state) :=
  map (fun d => (d_before d, d_after d)) (filter (fun d => Nat.eqb (d_item d) i) h).

(** The given operations are one complete run of the program by thread [n], and it
    returned [a]. *)
Fixpoint completes (n : nat) {A} (p : prog A) (own : list (state * state)) (a : A) : Prop :=
  match p with
  | Ret b => own = [] /\ a = b
  | Do o k => match own with
              | [] => False
              | (s, s') :: r => s' = fst (exec n o s) /\ completes n (k (snd (exec n o s))) r a
              end
  end.

(** The request for a single item, with the same effect: PUT /transactions/inflight/:id. *)
Definition single (cfg : config) (is_void : bool) (it : item) : prog (res txn) :=
  if is_void then void cfg (i_id it) "" else commit cfg (i_id it) (i_amount it) "".

Definition act_of (is_void : bool) : action := if is_void then AVoid else ACommit.

(** What an outcome says is what the request returned. *)
Definition tells (x : outcome) (r : res txn) : Prop :=
  match r with
  | Ok t => x_txn x = Some t /\ x_err x = None /\ x_code x = EmptyString
  | Err e => x_txn x = None /\ x_err x = Some e /\ x_code x <> EmptyString
  end.

Definition count (status : string) (l : list result) : Z :=
  Z.of_nat (List.length (filter (fun r => String.eqb (a_status r) status) l)).

(** No space in the string. *)
Fixpoint spaceless (s : string) : bool :=
  match s with EmptyString => true | String c r => negb (Ascii.eqb c " ") && spaceless r end.

(** The documented code of each failure, transaction_inflight.go:907-916. *)
Definition documented (e : err) : string :=
  match e with
  | ETxnNotFound | EBalanceNotFound => "NOT_FOUND"
  | EAlreadyVoided => "ALREADY_VOIDED"
  | EAlreadyCommitted => "ALREADY_COMMITTED"
  | ENotInflight => "NOT_INFLIGHT"
  | EOverCommit => "INVALID_AMOUNT"
  | ELockHeld => "LOCKED"
  | _ => "INTERNAL_ERROR"
  end.

(** What of a transaction has not been committed yet. *)
Definition uncommitted (s : state) (h : row) : Z :=
  t_precise (r_t h) - sumz (fun x => if String.eqb (t_parent (r_t x)) (t_id (r_t h)) && status_eqb (t_status (r_t x)) SApplied
                                     then t_precise (r_t x) else 0) (s_txns s).

(** A hold found under an id: its own, its parent's or the one it was queued under. *)
Definition found_under (s : state) (id : string) (h : row) : Prop :=
  In h (s_txns s) /\ (t_id (r_t h) = id \/ t_parent (r_t h) = id \/ m_qparent (meta_of (s_meta s) (r_t h)) = id).

(** One item of a queued bulk is accepted only if there is something left to act on, and a
    commit asks for no more than that; otherwise it is refused as the single request would
    be, or because nothing is left of any hold found under the id. *)
Definition checked (cfg : config) (is_void : bool) (it : item) (m : nat) (s : state) (v : res txn) : Prop :=
  match v with
  | Ok _ => exists h, found_under s (i_id it) h /\ (t_status (r_t h) = SInflight \/ t_status (r_t h) = SQueued)
      /\ uncommitted s h <> 0
      /\ (is_void = false -> t_id (r_t h) = i_id it -> forall t, snd (run m (fetch_inflight (i_id it)) s) = Ok t ->
           i_amount it = 0 \/ 0 < i_amount it <= uncommitted s h)
  | Err e => snd (run m (single cfg is_void it) s) = Err e
      \/ (e = EAlreadyCommitted /\ forall h, found_under s (i_id it) h -> t_status (r_t h) = SInflight -> uncommitted s h = 0)
  end.

(** What the response says about an item, given its check and what the queue answered. *)
Definition reports (x : result) (v : res txn) (q : enqueued) : Prop :=
  match v, q with
  | Ok _, QAccepted => a_status x = "queued" /\ a_code x = "QUEUED"
  | Ok _, QAlready => a_status x = "queued" /\ a_code x = "ALREADY_QUEUED"
  | Ok _, QError => a_status x = "failed" /\ a_code x = "INTERNAL_ERROR"
  | Err e, _ => a_status x = "failed" /\ (spaceless (a_id x) = true -> a_code x = documented e)
  end%string.
