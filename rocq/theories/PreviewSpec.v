(** What a dry run is supposed to tell. *)
From Coq Require Import ZArith List String Bool.
From Verif Require Import Base SplitModel BalanceModel LedgerModel LedgerProgs PreviewModel.
Import ListNotations.
Local Open Scope string_scope.
Open Scope Z_scope.

(** An operation that leaves everything a client can see alone: balances, transactions,
    queue, outbox, started jobs, metadata. (Locks are taken and released, and leg ids are
    drawn.) *)
Definition unchanged (x : state * state) : Prop :=
  let (s, s') := x in
  s_bals s' = s_bals s /\ s_txns s' = s_txns s /\ s_queue s' = s_queue s /\ s_outbox s' = s_outbox s
  /\ s_jobs s' = s_jobs s /\ s_meta s' = s_meta s /\ s_spawned s' = s_spawned s.

(** The same six counters. *)
Definition alike (b b' : balance) : Prop :=
  b_bal b' = b_bal b /\ b_cr b' = b_cr b /\ b_db b' = b_db b
  /\ b_ibal b' = b_ibal b /\ b_icr b' = b_icr b /\ b_idb b' = b_idb b.

(** [b] is the balance a request names by [x]: an indicator, with the currency of the
    transaction, or a balance id. *)
Definition named (s : state) (x cur : string) (b : balance) : Prop :=
  In b (s_bals s) /\ if starts_with_at x then b_ind b = x /\ b_cur b = cur else b_id b = x.

(** The balance named [x] exists in [s] and shows the figures of [b]. *)
Definition shows (s : state) (x cur : string) (b : balance) : Prop :=
  exists b', named s x cur b' /\ alike b b'.

(** Entry [p] of a dry run in state [s] is about the balance named [x]. If there is no
    such balance the entry says so and starts from zero. *)
Definition about (s : state) (x cur : string) (p : projection) : Prop :=
  if pj_virtual p
  then starts_with_at x = true /\ (forall b, ~ named s x cur b) /\ pj_before p = stand_in x cur
  else exists b, named s x cur b /\ b_id (pj_before p) = b_id b /\ alike b (pj_before p).

(** Random identifiers still to come are distinct and have not been used yet. *)
Definition new_names (s : state) : Prop :=
  (forall i j, s_uuid s i = s_uuid s j -> i = j)
  /\ forall i, (s_ctr s <= i)%nat -> ~ In ("bln_" ++ s_uuid s i) (map b_id (s_bals s))
       /\ ~ In ("txn_" ++ s_uuid s i) (map (fun r => t_id (r_t r)) (s_txns s)).

(** [x] is not one of the balance ids still to come. *)
Definition unguessed (s : state) (x : string) : Prop :=
  forall i, (s_ctr s <= i)%nat -> x <> "bln_" ++ s_uuid s i.

(** Transaction [t] names [x]: as its source or as its destination. *)
Definition names (t : txn) (x : string) : Prop := x = t_src t \/ x = t_dst t.

(** The transactions of a request name every balance in one way only: two different names
    never mean the same balance, and an indicator comes with one currency only. *)
Definition one_name_each (s : state) (ts : list txn) : Prop :=
  forall t t' x y, In t ts -> In t' ts -> names t x -> names t' y ->
    (x <> y -> forall b, named s x (t_cur t) b -> ~ named s y (t_cur t') b)
    /\ (x = y -> starts_with_at x = true -> t_cur t = t_cur t').

(** A split transaction seen as one transaction per participant it lists. *)
Definition participants (t : txn) : list txn :=
  match t_sources t with
  | [] => map (fun d => with_ends t (t_src t) (d_id d)) (t_dests t)
  | ss => map (fun d => with_ends t (d_id d) (t_dst t)) ss
  end.
(** It is split on one side only, and names every participant. *)
Definition is_split (t : txn) : Prop :=
  (t_sources t <> [] /\ t_dests t = [] \/ t_sources t = [] /\ t_dests t <> [])
  /\ Forall (fun d => d_id d <> "") (t_sources t ++ t_dests t)%list.

(** The dry runs. *)
Inductive dry_run (cfg : config) : prog (res preview) -> Prop :=
| DryTransaction e t : dry_run cfg (preview_transaction cfg e t)
| DryBulk e ts infl skipq : dry_run cfg (preview_bulk cfg e ts infl skipq)
| DryAction id is_void amount : dry_run cfg (preview_action cfg id is_void amount)
| DryRefund id : dry_run cfg (preview_refund cfg id).

(** Dry run [p] of transaction [t] in state [s] tells what happens when it is posted there:
    the answer is [r] and the state [s']. It says "would apply" exactly if the post
    succeeds, its two entries are the source and the destination, and each shows what the
    balance shows afterwards. A rejection names the error the post gives, unless the
    reference is taken as well. *)
Definition foretells (p : preview) (s : state) (t : txn) (s' : state) (r : res txn) : Prop :=
  (would_apply p = true <-> exists t', r = Ok t')
  /\ (would_apply p = true -> exists src dst, pv_balances p = [src; dst]
        /\ about s (t_src t) (t_cur t) src /\ about s (t_dst t) (t_cur t) dst
        /\ shows s' (t_src t) (t_cur t) (pj_after src) /\ shows s' (t_dst t) (t_cur t) (pj_after dst))
  /\ (forall er, pv_rejection p = Some er -> ref_exists (t_ref t) (s_txns s) = false -> r = Err er).

(** The same for a list of transactions: every balance named by one of them has an entry,
    which shows what the balance shows after the last of them. *)
Definition foretells_all (p : preview) (s : state) (ts : list txn) (s' : state) (r : res string) : Prop :=
  (would_apply p = true <-> exists b, r = Ok b)
  /\ (would_apply p = true ->
       (forall t x, In t ts -> names t x -> exists q, In q (pv_balances p) /\ about s x (t_cur t) q /\ shows s' x (t_cur t) (pj_after q))
       /\ (forall q, In q (pv_balances p) -> exists t x, In t ts /\ names t x /\ about s x (t_cur t) q)).

(** The same for a split transaction. A participant that gets no share has no entry and
    shows afterwards what it showed before. *)
Definition foretells_split (p : preview) (s : state) (t : txn) (s' : state) (r : res txn) : Prop :=
  (would_apply p = true /\ pv_balances p <> [] <-> exists t', r = Ok t')
  /\ (would_apply p = true -> pv_balances p <> [] ->
       (forall q, In q (pv_balances p) -> exists l x, In l (participants t) /\ names l x
          /\ about s x (t_cur t) q /\ shows s' x (t_cur t) (pj_after q))
       /\ (forall l x, In l (participants t) -> names l x ->
             (exists q, In q (pv_balances p) /\ about s x (t_cur t) q)
             \/ forall b, named s x (t_cur t) b -> shows s' x (t_cur t) b)).

(** ** Commits and voids *)

(** References the ledger has still to draw have not been used by a client. *)
Definition new_refs (s : state) : Prop :=
  forall i, (s_ctr s <= i)%nat -> ref_exists ("ref_" ++ s_uuid s i) (s_txns s) = false.

(** Transaction [r] belongs to [id]: it is that transaction, or has it as its parent or as
    its queued original. *)
Definition under (s : state) (id : string) (r : row) : Prop :=
  In r (s_txns s) /\ (t_id (r_t r) = id \/ t_parent (r_t r) = id \/ m_qparent (meta_of (s_meta s) (r_t r)) = id).
Definition a_hold (r : row) : Prop := t_status (r_t r) = SInflight.

(** [id] means one hold, or several of which none has been voided; it is not a transaction
    that was queued, nor one all of whose parts are still in the queue. *)
Definition plain_target (s : state) (id : string) : Prop :=
  (forall r, under s id r -> t_status (r_t r) = SQueued -> t_id (r_t r) <> id /\ exists h, under s id h /\ a_hold h)
  /\ (forall h r, under s id h -> a_hold h -> t_id (r_t h) = id -> under s id r -> a_hold r -> r = h)
  /\ (forall h v, under s id h -> a_hold h -> t_id (r_t h) <> id -> In v (s_txns s) -> t_parent (r_t v) = t_id (r_t h) ->
        t_status (r_t v) <> SVoid).

(** Dry run [p] of committing or voiding [id] in state [s] tells what happens when it is
    done there: the answers, one for each hold, are [rs], and the state is [s']. It says
    "would apply" exactly if there is something to do and all of it succeeds. Then every
    balance of one of the holds has an entry, which shows what the balance shows afterwards.
    A rejection is one of the errors the action gives (two ends that are one balance may
    give another one). *)
Definition foretells_action (p : preview) (s : state) (id : string) (s' : state) (rs : list (res txn)) : Prop :=
  (would_apply p = true <-> rs <> [] /\ Forall (fun r => exists t, r = Ok t) rs)
  /\ (would_apply p = true ->
       (forall h x, under s id h -> a_hold h -> names (r_t h) x ->
          exists q, In q (pv_balances p) /\ about s x (t_cur (r_t h)) q /\ shows s' x (t_cur (r_t h)) (pj_after q))
       /\ (forall q, In q (pv_balances p) -> exists h x, under s id h /\ a_hold h /\ names (r_t h) x /\ about s x (t_cur (r_t h)) q))
  /\ (forall er, pv_rejection p = Some er -> rs <> [] -> er <> EConflict -> In (Err er) rs).
