(** C14: a coalesced batch of queued transactions is posted completely or not at all,
    exactly as if its members had been posted one by one. *)
From Coq Require Import ZArith List String Bool.
From Verif Require Import BatchProof BatchOrd BatchDemo.
From Verif Require Import Base BalanceModel LedgerModel LedgerProgs ConcModel Sched Demo BatchSpec.
Import ListNotations.
Local Open Scope string_scope.
Open Scope Z_scope.

(** The attempt to post a queued transaction [t] together with others, with anything
    going on meanwhile and a crash possible before any of its operations ([r] = None).
    Either nothing is recorded, or a single operation records [t] and the copies
    [rest] of other queued rows, and (unless one of them names one balance at both
    ends) it leaves balances, rows and outbox as posting them one by one would. *)
Theorem C14_none_or_all n cfg force sel t s r s' own :
  c_queued cfg = false -> tidy s -> among n (try_batch cfg force sel t) s r s' own ->
  (Forall quiet own /\ r <> Some true)
  \/ exists rest, rest <> [] /\ Forall (fun x => exists q, In q (s_txns s') /\ copy_of q x) rest
       /\ recorded_at_once (t :: rest) r own
       /\ (Forall (fun x => t_src x <> t_dst x) (t :: rest) -> none_or_all cfg (t :: rest) r own).
Proof. exact (try_batch_whole n cfg force sel t s r s' own). Qed.
Print Assumptions C14_none_or_all.

(** The same for any list of queued transactions given as a batch. *)
Theorem C14_as_one_by_one n cfg ts s r s' own :
  c_queued cfg = false -> tidy s -> ts <> [] -> Forall (fun t => t_status t = SQueued /\ t_src t <> t_dst t) ts ->
  among n (persist_queued_batch cfg ts) s r s' own -> none_or_all cfg ts (option_map is_ok r) own.
Proof. exact (batch_as_one_by_one n cfg ts s r s' own). Qed.
Print Assumptions C14_as_one_by_one.

(** "Anything going on meanwhile" covers every execution of the installation in which
    nobody asks for a reconciliation; every state such an execution reaches is tidy. *)
Theorem C14_meanwhile cfg u y y' : steps cfg plain_start (init_sys u) y -> steps cfg plain_start y y' ->
  tidy (y_st y) /\ others (y_st y) (y_st y').
Proof. exact (others_cover cfg u y y'). Qed.
Print Assumptions C14_meanwhile.

Example C14_example : exists y t s' own,
  steps cfg0 plain_start (init_sys uuids) y /\ In t (s_queue (y_st y))
  /\ among 7 (try_batch cfg0 false three_sel t) (y_st y) (Some true) s' own
  /\ firstn 3 (journal_view s') = three_rows /\ balance_view s' = three_balances.
Proof. exact three_at_once. Qed.

(** A transaction from a balance to itself (named by indicator and by id) is posted by
    a batch although posting it alone always fails. *)
Theorem C14_self_transfer_refuted : exists y t s',
  steps cfg0 plain_start (init_sys uuids) y /\ In t (s_queue (y_st y)) /\ t_src t = t_dst t
  /\ run 5 (try_batch cfg0 false (pick ["txn_5"]) t) (y_st y) = (s', true)
  /\ firstn 2 (journal_view s') = self_rows
  /\ snd (run 5 (record_single cfg0 t) (y_st y)) = Err EConflict.
Proof. exact self_only_in_batch. Qed.
Print Assumptions C14_self_transfer_refuted.
