(** What a dry run of a refund is supposed to tell. *)
From Coq Require Import ZArith List String Bool.
From Verif Require Import Base BalanceModel LedgerModel LedgerProgs PreviewModel PreviewSpec.
Import ListNotations.
Local Open Scope string_scope.

Definition settled_row (r : row) : Prop := t_status (r_t r) = SApplied.

(** Refunding [id] means to refund [r]: [r] is the settled transaction [id], one settled or
    voided under it, or one that settles a transaction queued under that id. *)
Definition refundable (s : state) (id : string) (r : row) : Prop :=
  In r (s_txns s)
  /\ (t_id (r_t r) = id /\ settled_row r
      \/ t_parent (r_t r) = id /\ (settled_row r \/ t_status (r_t r) = SVoid)
      \/ settled_row r /\ m_qparent (meta_of (s_meta s) (r_t r)) = id).

(** [r] takes [h] back. *)
Definition takes_back (h r : row) : Prop :=
  t_parent (r_t r) = t_id (r_t h) /\ t_src (r_t r) = t_dst (r_t h) /\ t_dst (r_t r) = t_src (r_t h).

(** The references the refunds of [id] will get have not been used for anything else. *)
Definition refund_refs_free (s : state) (id : string) : Prop :=
  forall h r, refundable s id h -> In r (s_txns s) -> t_ref (r_t r) = t_id (r_t h) ++ "_refund" -> takes_back h r.

(** Dry run [p] of refunding [id] in state [s] tells what happens when it is done there: the
    answers, one for each transaction to refund, are [rs], and the state is [s']. It says
    "would apply" exactly if there is something to refund and all of it is. Then every
    balance of one of these transactions has an entry, which shows what the balance shows
    afterwards. If it says that something has been refunded already, so does the refund. *)
Definition foretells_refund (p : preview) (s : state) (id : string) (s' : state) (rs : list (res txn)) : Prop :=
  (would_apply p = true <-> rs <> [] /\ Forall (fun r => exists t, r = Ok t) rs)
  /\ (would_apply p = true ->
       (forall h x, refundable s id h -> names (r_t h) x ->
          exists q, In q (pv_balances p) /\ about s x (t_cur (r_t h)) q /\ shows s' x (t_cur (r_t h)) (pj_after q))
       /\ (forall q, In q (pv_balances p) -> exists h x, refundable s id h /\ names (r_t h) x /\ about s x (t_cur (r_t h)) q))
  /\ (pv_rejection p = Some EAlreadyRefunded -> In (Err EAlreadyRefunded) rs).
