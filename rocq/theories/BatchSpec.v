(** A coalesced batch of queued transactions, among other requests. *)
From Coq Require Import ZArith List String Bool.
From Verif Require Import Base BalanceModel LedgerModel LedgerProgs.
Import ListNotations.
Open Scope Z_scope.

(** Operations of an installation that does not ask for reconciliation: no request
    carries BLNK_RUN_RECONCILIATION (which rewrites a balance from the journal), and
    generated balance ids do not start with '@'. *)
Definition ordinary (o : op) : Prop :=
  match o with
  | OReconcile _ => False
  | OCreateBal id _ _ recon _ => recon = false /\ starts_with_at id = false
  | _ => True
  end.

(** What the others may do between two operations: any ordinary operation of anybody,
    any change to the locks (expiry, theft), jobs being picked up. *)
Inductive others : state -> state -> Prop :=
| os_none s : others s s
| os_op m o s s' : ordinary o -> others (fst (exec m o s)) s' -> others s s'
| os_locks l s s' : others (set_locks s l) s' -> others s s'
| os_jobs l s s' : others (set_jobs s l) s' -> others s s'.

(** Thread [n] runs [p] from [s] with the others at work before each of its operations
    and after the last one. It may die before any operation: then its result is None.
    [own] lists its operations as pairs of the states just before and just after. *)
Fixpoint among (n : nat) {A} (p : prog A) (s : state) (a : option A) (s' : state) (own : list (state * state)) : Prop :=
  match p with
  | Ret b => others s s' /\ a = Some b /\ own = []
  | Do o k =>
    (others s s' /\ a = None /\ own = [])
    \/ exists s1 rest, others s s1 /\ own = (s1, fst (exec n o s1)) :: rest
         /\ among n (k (snd (exec n o s1))) (fst (exec n o s1)) a s' rest
  end.

(** The books of an installation where no reconciliation was ever asked for. *)
Definition tidy (s : state) : Prop :=
  NoDup (map b_id (s_bals s))
  /\ Forall (fun b => b_recon b = false /\ b_queued b = None /\ starts_with_at (b_id b) = false) (s_bals s).

(** An operation that leaves balances, transactions and outbox alone. *)
Definition quiet (x : state * state) : Prop :=
  s_bals (snd x) = s_bals (fst x) /\ s_txns (snd x) = s_txns (fst x) /\ s_outbox (snd x) = s_outbox (fst x).

(** A balance without its version counter (the number of updates it went through). *)
Definition unversioned (b : balance) : balance :=
  {| b_id := b_id b; b_ind := b_ind b; b_cur := b_cur b; b_bal := b_bal b; b_cr := b_cr b; b_db := b_db b;
     b_ibal := b_ibal b; b_icr := b_icr b; b_idb := b_idb b; b_queued := b_queued b; b_ver := 0;
     b_recon := b_recon b; b_track := b_track b |}.

(** Same balances, same transactions in the same order, same outbox. *)
Definition same_books (s s' : state) : Prop :=
  (forall id, option_map unversioned (get_bal id (s_bals s)) = option_map unversioned (get_bal id (s_bals s')))
  /\ s_txns s = s_txns s' /\ s_outbox s = s_outbox s'.

(** Posting the transactions one by one, with nobody else around and no lock held. *)
Definition one_by_one (cfg : config) (ts : list txn) (s : state) : state * list (res txn) :=
  run 0 (for_each (record_single cfg) ts) (set_locks s []).

(** The operations of a batch changed nothing, or exactly one of them did, and it had
    the effect of posting all of [ts] one by one in the state it found. *)
Definition none_or_all (cfg : config) (ts : list txn) (done : option bool) (own : list (state * state)) : Prop :=
  (Forall quiet own /\ done <> Some true)
  \/ exists o1 before after o2 alone results,
       own = o1 ++ (before, after) :: o2 /\ Forall quiet o1 /\ Forall quiet o2 /\ done <> Some false
       /\ one_by_one cfg ts before = (alone, results)
       /\ List.length results = List.length ts /\ Forall (fun r => is_ok r = true) results
       /\ same_books alone after.

(** The same without comparing with posting one by one: nothing is recorded, or one
    operation records every member, in order and under its own reference. *)
Definition recorded_at_once (ts : list txn) (done : option bool) (own : list (state * state)) : Prop :=
  (Forall quiet own /\ done <> Some true)
  \/ exists o1 before after o2 rows,
       own = o1 ++ (before, after) :: o2 /\ Forall quiet o1 /\ Forall quiet o2 /\ done <> Some false
       /\ s_txns after = rev rows ++ s_txns before
       /\ Forall2 (fun t r => t_ref (r_t r) = t_ref t /\ t_id (r_t r) = t_id t /\ t_parent (r_t r) = t_parent t
                              /\ t_src (r_t r) = t_src t /\ t_dst (r_t r) = t_dst t
                              /\ t_status (r_t r) = (if t_inflight t then SInflight else SApplied)) ts rows.

(** [x] is the queue's copy of the recorded row [q]. *)
Definition copy_of (q : row) (x : txn) : Prop :=
  t_status (r_t q) = SQueued /\ t_parent x = t_id (r_t q) /\ t_ref x = (t_ref (r_t q) ++ "_q")%string
  /\ t_src x = t_src (r_t q) /\ t_dst x = t_dst (r_t q) /\ t_cur x = t_cur (r_t q)
  /\ t_precise x = t_precise (r_t q) /\ t_amount x = t_amount (r_t q) /\ t_prec x = t_prec (r_t q).
