(** Property theorems about the lineage outbox: C27 (statements only; the words are
    in OutboxSpec, the proofs in OutboxProof and OutboxDemo). Hypotheses on histories:
    [no_spoof]: clients do not write the metadata keys the ledger keeps for itself
    (ProvSpec); [careful]: also no reconciliation flag and no lock expiring under its
    owner. Every step of every history counts as a state here, crashes included, so an
    entry that is there whenever the movement is there was written with it. *)
From Coq Require Import ZArith QArith List String Bool.
From Verif Require Import Base BalanceModel LedgerModel LedgerSpec ConcModel ProvSpec HoldSpec Sched Demo TidyDemo
  LedgerRefute OutboxSpec OutboxProof OutboxDemo.
Import ListNotations.
Local Open Scope string_scope.
Open Scope Z_scope.

(** ** C27 *)
(** A recorded movement that touches fund lineage has exactly one entry, and it
    describes the movement. Missing from the full property: holds that have a parent
    (they went through the queue, a bulk request or a split) get none, see below. *)
Theorem C27_one_entry_partial cfg u y :
  steps cfg no_spoof (init_sys u) y -> forall r, In r (s_txns (y_st y)) ->
  r_kind r = KPost \/ (r_kind r = KHold /\ t_parent (r_t r) = "") -> touches_lineage (y_st y) r ->
  exists o, entries_of (y_st y) r = [o] /\ describes (y_st y) o r.
Proof. exact (one_entry cfg u y). Qed.
Print Assumptions C27_one_entry_partial.

(** And there are no other entries. *)
Theorem C27_no_other_entries cfg u y :
  steps cfg no_spoof (init_sys u) y -> forall o, In o (s_outbox (y_st y)) ->
  exists r, In r (s_txns (y_st y)) /\ describes (y_st y) o r /\ touches_lineage (y_st y) r
  /\ (r_kind r = KPost \/ (r_kind r = KHold /\ t_parent (r_t r) = "")).
Proof. exact (no_stray cfg u y). Qed.
Print Assumptions C27_no_other_entries.

Example C27_entries_example :
  exists y, steps cfg0 careful (init_sys uuids) y
    /\ map (fun o => (o_txn o, o_provider o, (o_credit o, o_debit o), o_amount o, o_inflight o)) (s_outbox (y_st y))
       = [("txn_7", "", (false, true), 50, false); ("txn_4", "", (false, true), 60, true);
          ("txn_3", "acme", (true, false), 70, false)].
Proof. exact recorded_run. Qed.

(** The entries come in the order in which the movements were posted. *)
Theorem C27_journal_order cfg u y : steps cfg no_spoof (init_sys u) y -> exists keep,
  map o_txn (s_outbox (y_st y)) = map (fun r => t_id (r_t r)) (filter keep (s_txns (y_st y))).
Proof. exact (journal_order cfg u y). Qed.
Print Assumptions C27_journal_order.

(** A hold that went through the queue, and its commit, move money out of a tracked
    balance without leaving an entry. *)
Theorem C27_queued_hold_refuted :
  exists y, steps cfg0 careful (init_sys uuids) y
    /\ (exists r, In r (s_txns (y_st y)) /\ t_ref (r_t r) = "q_q" /\ r_kind r = KHold
          /\ tracked (y_st y) (source r) /\ entries_of (y_st y) r = [])
    /\ (exists r, In r (s_txns (y_st y)) /\ t_ref (r_t r) = "done" /\ r_kind r = KCommit
          /\ tracked (y_st y) (source r) /\ entries_of (y_st y) r = []).
Proof. exact queued_hold_forgotten. Qed.
Print Assumptions C27_queued_hold_refuted.

(** So do a hold in a bulk request and a leg of a split hold. *)
Theorem C27_bulk_hold_refuted :
  exists y, steps cfg0 careful (init_sys uuids) y
    /\ (exists r, In r (s_txns (y_st y)) /\ t_ref (r_t r) = "m" /\ r_kind r = KHold
          /\ tracked (y_st y) (source r) /\ entries_of (y_st y) r = [])
    /\ (exists r, In r (s_txns (y_st y)) /\ t_ref (r_t r) = "s-1" /\ r_kind r = KHold
          /\ tracked (y_st y) (source r) /\ entries_of (y_st y) r = []).
Proof. exact bulk_and_split_hold_forgotten. Qed.
Print Assumptions C27_bulk_hold_refuted.

(** A client that sends the metadata key "inflight" hides a queued posting. *)
Theorem C27_spoofed_posting_refuted :
  exists y, steps cfg0 no_expiry (init_sys uuids) y
    /\ exists r, In r (s_txns (y_st y)) /\ t_ref (r_t r) = "h_q" /\ r_kind r = KPost
          /\ tracked (y_st y) (source r) /\ entries_of (y_st y) r = [].
Proof. exact hidden_posting. Qed.
Print Assumptions C27_spoofed_posting_refuted.
