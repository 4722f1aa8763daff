(** C30: a dry run changes nothing and tells what posting would do. *)
From Coq Require Import ZArith QArith List String Bool.
From Verif Require Import PreviewThms PreviewReach PreviewActThms PreviewRefundThms PreviewDemo PreviewActDemo PreviewRefundDemo BulkDemo TidyDemo.
From Verif Require Import Base SplitModel SplitSpec BalanceModel LedgerModel LedgerProgs ConcModel LedgerSafe Sched Demo HoldSpec BatchSpec BulkSpec PreviewModel PreviewSpec PreviewRefundSpec.
Import ListNotations.
Local Open Scope string_scope.
Open Scope Z_scope.

(** Whatever others do between its steps, and wherever it breaks off: no step of a dry run
    (of a transaction, a bulk, a commit or void, a refund) changes a balance, a
    transaction, the queue, the outbox or a background job. *)
Theorem C30_changes_nothing : forall cfg n p s r s' own,
  dry_run cfg p -> among n p s r s' own -> Forall unchanged own.
Proof. exact dry_runs_quiet. Qed.
Print Assumptions C30_changes_nothing.

(** In every reached state in which nobody is posting: the dry run of a transaction tells
    whether posting it there succeeds and which figures its source and destination show
    afterwards. If the dry run itself is answered with an error, so is the post. Asked:
    the transaction is recorded synchronously, and with enable_queued_checks it names its
    source by id. *)
Theorem C30_transaction : forall cfg u y e t n m,
  distinct_uuids u -> steps cfg no_recon_flag (init_sys u) y -> s_locks (y_st y) = [] ->
  api_txn t -> unsplit t -> t_skipq t = true ->
  unguessed (y_st y) (t_src t) -> unguessed (y_st y) (t_dst t) ->
  (c_queued cfg = true -> starts_with_at (t_src t) = false) ->
  let R := run m (queue_transaction cfg e t) (y_st y) in
  match snd (run n (preview_transaction cfg e t) (y_st y)) with
  | Err _ => exists er, snd R = Err er
  | Ok p => foretells p (y_st y) t (fst R) (snd R)
  end.
Proof. exact single_foretold. Qed.
Print Assumptions C30_transaction.

Example C30_transaction_example : exists y p,
  steps cfg0 no_recon_flag (init_sys uuids) y /\ s_locks (y_st y) = []
  /\ snd (run 9 (preview_transaction cfg0 env0 new_hold) (y_st y)) = Ok p /\ would_apply p = true
  /\ map entry (pv_balances p) = [(false, "@ann", (500, 500, 0), (0, 250)); (true, "@carol", (0, 0, 0), (150, 0))]
  /\ balance_view (fst (run 9 (queue_transaction cfg0 env0 new_hold) (y_st y)))
     = [("@carol", (0, 0, 0), (150, 0)); ("@bob", (0, 0, 0), (100, 0)); ("@ann", (500, 500, 0), (0, 250)); ("@bank", (-500, 0, 500), (0, 0))].
Proof. exact single_example. Qed.
Example C30_transaction_example_meets : forall s,
  api_txn new_hold /\ unsplit new_hold /\ t_skipq new_hold = true /\ unguessed s (t_src new_hold) /\ unguessed s (t_dst new_hold).
Proof. exact new_hold_ok. Qed.
Example C30_uuids : distinct_uuids uuids.
Proof. exact uuids_distinct. Qed.

(** The same for a bulk recorded synchronously, atomic or not: the dry run says "would
    apply" exactly if all members are posted, and shows every balance named by a member as
    it is after the last one. Asked: every balance is named in one way only. *)
Theorem C30_bulk : forall cfg u y e ts atomic infl n m,
  distinct_uuids u -> steps cfg no_recon_flag (init_sys u) y -> s_locks (y_st y) = [] -> c_queued cfg = false ->
  Forall api_txn ts -> Forall unsplit ts ->
  (forall t x, In t ts -> names t x -> unguessed (y_st y) x) -> one_name_each (y_st y) ts ->
  let R := run m (bulk cfg e ts atomic infl true) (y_st y) in
  match snd (run n (preview_bulk cfg e ts infl true) (y_st y)) with
  | Err _ => exists er, snd R = Err er
  | Ok p => foretells_all p (y_st y) ts (fst R) (snd R)
  end.
Proof. exact bulk_foretold. Qed.
Print Assumptions C30_bulk.

(** The second member spends what the first one brings. *)
Example C30_bulk_example : exists y p b,
  steps cfg0 no_recon_flag (init_sys uuids) y /\ s_locks (y_st y) = []
  /\ snd (run 9 (preview_bulk cfg0 env0 pay_ts false true) (y_st y)) = Ok p /\ would_apply p = true
  /\ map entry (pv_balances p) = [(false, "@ann", (150, 500, 350), (0, 100)); (false, "@bob", (30, 150, 120), (100, 0)); (true, "@carol", (320, 320, 0), (0, 0))]
  /\ snd (run 9 (bulk cfg0 env0 pay_ts true false true) (y_st y)) = Ok b
  /\ balance_view (fst (run 9 (bulk cfg0 env0 pay_ts true false true) (y_st y)))
     = [("@carol", (320, 320, 0), (0, 0)); ("@bob", (30, 150, 120), (100, 0)); ("@ann", (150, 500, 350), (0, 100)); ("@bank", (-500, 0, 500), (0, 0))].
Proof. exact bulk_example30. Qed.
Example C30_bulk_example_meets : (Forall api_txn pay_ts /\ Forall unsplit pay_ts)
  /\ forall s, one_name_each s pay_ts /\ forall t x, In t pay_ts -> names t x -> unguessed s x.
Proof. exact (conj pay_ok pay_names). Qed.

(** The same for a split transaction, provided that dry run and post break ties between
    the shares in the same way and that none of the references of its legs is taken. It
    "would apply" exactly if posting it succeeds, unless the dry run lists no balance. *)
Theorem C30_split : forall cfg u y e t n m,
  distinct_uuids u -> steps cfg no_recon_flag (init_sys u) y -> s_locks (y_st y) = [] -> c_queued cfg = false ->
  api_txn t -> is_split t -> t_skipq t = true -> fair_env e ->
  (forall l x, In l (participants t) -> names l x -> unguessed (y_st y) x) -> one_name_each (y_st y) (participants t) ->
  (forall i, ref_exists (t_ref t ++ "-" ++ nat_str i) (s_txns (y_st y)) = false) ->
  let R := run m (queue_transaction cfg e t) (y_st y) in
  match snd (run n (preview_transaction cfg e t) (y_st y)) with
  | Err _ => exists er, snd R = Err er
  | Ok p => foretells_split p (y_st y) t (fst R) (snd R)
  end.
Proof. exact split_foretold. Qed.
Print Assumptions C30_split.

(** 33%, half a unit and what is left of two. *)
Example C30_split_example : exists y p b,
  steps cfg0 no_recon_flag (init_sys uuids) y /\ s_locks (y_st y) = []
  /\ (forall i, ref_exists (t_ref thirds ++ "-" ++ nat_str i) (s_txns (y_st y)) = false)
  /\ snd (run 9 (preview_transaction cfg0 env0 thirds) (y_st y)) = Ok p /\ would_apply p = true
  /\ map entry (pv_balances p) = [(false, "@ann", (300, 500, 200), (0, 100)); (true, "@carol", (50, 50, 0), (0, 0));
       (false, "@bob", (66, 66, 0), (100, 0)); (true, "@dan", (84, 84, 0), (0, 0))]
  /\ snd (run 9 (queue_transaction cfg0 env0 thirds) (y_st y)) = Ok b
  /\ balance_view (fst (run 9 (queue_transaction cfg0 env0 thirds) (y_st y)))
     = [("@dan", (84, 84, 0), (0, 0)); ("@carol", (50, 50, 0), (0, 0)); ("@bob", (66, 66, 0), (100, 0)); ("@ann", (300, 500, 200), (0, 100)); ("@bank", (-500, 0, 500), (0, 0))].
Proof. exact split_example30. Qed.
Example C30_split_example_meets : forall s, api_txn thirds /\ is_split thirds /\ t_skipq thirds = true /\ fair_env env0
  /\ one_name_each s (participants thirds) /\ (forall l x, In l (participants thirds) -> names l x -> unguessed s x).
Proof. exact thirds_ok. Qed.

(** The same for committing (part or all of) or voiding a hold, or all holds of a bulk or
    split: the dry run is answered with an error only if there is nothing to commit or
    void. In [polite] histories no lock expires under its owner. *)
Theorem C30_action : forall cfg u y id is_void amount n m,
  distinct_uuids u -> steps cfg (fun y e => no_recon_flag y e /\ polite y e) (init_sys u) y -> s_locks (y_st y) = [] ->
  new_refs (y_st y) -> plain_target (y_st y) id ->
  let R := run m (inflight_action cfg id is_void amount "") (y_st y) in
  match snd (run n (preview_action cfg id is_void amount) (y_st y)) with
  | Err _ => snd R = []
  | Ok p => foretells_action p (y_st y) id (fst R) (snd R)
  end.
Proof. exact action_foretold. Qed.
Print Assumptions C30_action.

(** Two holds of a bulk, 120 and 80, of which 50 have been committed: the rest is. *)
Example C30_action_example : exists y p,
  steps cfg0 polite_run (init_sys uuids) y /\ s_locks (y_st y) = [] /\ new_refs (y_st y) /\ plain_target (y_st y) "bulk_5"
  /\ balance_view (y_st y) = [("@carol", (0, 0, 0), (80, 0)); ("@bob", (50, 50, 0), (170, 0)); ("@ann", (450, 500, 50), (0, 250)); ("@bank", (-500, 0, 500), (0, 0))]
  /\ snd (run 9 (preview_action cfg0 "bulk_5" false 0) (y_st y)) = Ok p /\ would_apply p = true
  /\ map entry (pv_balances p) = [(false, "@ann", (300, 500, 200), (0, 100)); (false, "@carol", (80, 80, 0), (0, 0)); (false, "@bob", (120, 120, 0), (100, 0))]
  /\ okays (snd (run 9 (inflight_action cfg0 "bulk_5" false 0 "") (y_st y))) = [None; None]
  /\ balance_view (fst (run 9 (inflight_action cfg0 "bulk_5" false 0 "") (y_st y)))
     = [("@carol", (80, 80, 0), (0, 0)); ("@bob", (120, 120, 0), (100, 0)); ("@ann", (300, 500, 200), (0, 100)); ("@bank", (-500, 0, 500), (0, 0))].
Proof. exact action_example. Qed.

(** The same for refunding a transaction, or all transactions of a bulk or split, with
    skip_queue: the dry run is answered with an error only if there is nothing to refund. *)
Theorem C30_refund : forall cfg u y id n m,
  distinct_uuids u -> steps cfg no_recon_flag (init_sys u) y -> s_locks (y_st y) = [] -> refund_refs_free (y_st y) id ->
  let R := run m (refund_batch cfg id true) (y_st y) in
  match snd (run n (preview_refund cfg id) (y_st y)) with
  | Err _ => snd R = []
  | Ok p => foretells_refund p (y_st y) id (fst R) (snd R)
  end.
Proof. exact refund_foretold. Qed.
Print Assumptions C30_refund.

(** A bulk of two payments, 120 and 80, refunded by its id. *)
Example C30_refund_example : exists y p,
  steps cfg0 no_recon_flag (init_sys uuids) y /\ s_locks (y_st y) = [] /\ refund_refs_free (y_st y) "bulk_5"
  /\ balance_view (y_st y) = [("@carol", (80, 80, 0), (0, 0)); ("@bob", (120, 120, 0), (100, 0)); ("@ann", (300, 500, 200), (0, 100)); ("@bank", (-500, 0, 500), (0, 0))]
  /\ snd (run 9 (preview_refund cfg0 "bulk_5") (y_st y)) = Ok p /\ would_apply p = true
  /\ map entry (pv_balances p) = [(false, "@carol", (0, 80, 80), (0, 0)); (false, "@ann", (500, 700, 200), (0, 100)); (false, "@bob", (0, 120, 120), (100, 0))]
  /\ okays (snd (run 9 (refund_batch cfg0 "bulk_5" true) (y_st y))) = [None; None]
  /\ balance_view (fst (run 9 (refund_batch cfg0 "bulk_5" true) (y_st y)))
     = [("@carol", (0, 80, 80), (0, 0)); ("@bob", (0, 120, 120), (100, 0)); ("@ann", (500, 700, 200), (0, 100)); ("@bank", (-500, 0, 500), (0, 0))].
Proof. exact refund_example. Qed.

(** What a request names is one balance, so "the balance named x" above is no choice. *)
Theorem C30_one_meaning : forall cfg u y x cur b b',
  distinct_uuids u -> steps cfg no_recon_flag (init_sys u) y ->
  named (y_st y) x cur b -> named (y_st y) x cur b' -> b = b'.
Proof. exact one_meaning. Qed.
Print Assumptions C30_one_meaning.

(** ** Without the provisos: the dry run says "would apply" and the post fails *)

(** enable_queued_checks and a source named by indicator: queued debits are not seen. *)
Theorem C30_queued_refuted : exists y v, steps cfgq no_recon_flag (init_sys uuids) y /\ s_locks (y_st y) = []
    /\ snd (run 9 (preview_transaction cfgq env0 spend) (y_st y)) = Ok v /\ would_apply v = true
    /\ snd (run 9 (queue_transaction cfgq env0 spend) (y_st y)) = Err EInsufficient.
Proof. exact queued_wrong. Qed.
Print Assumptions C30_queued_refuted.
Example C30_queued_meets : forall s, api_txn spend /\ unsplit spend /\ t_skipq spend = true /\ unguessed s (t_src spend) /\ unguessed s (t_dst spend).
Proof. exact spend_ok. Qed.

(** A bulk that names one balance by indicator and by id: it is projected twice. *)
Theorem C30_two_names_refuted : exists y v, steps cfg0 no_recon_flag (init_sys uuids) y /\ s_locks (y_st y) = []
    /\ snd (run 9 (preview_bulk cfg0 env0 two_names false true) (y_st y)) = Ok v /\ would_apply v = true
    /\ snd (run 9 (bulk cfg0 env0 two_names true false true) (y_st y)) = Err EInsufficient.
Proof. exact two_names_wrong. Qed.
Print Assumptions C30_two_names_refuted.

(** A bulk that uses one indicator with two currencies: it is projected as one balance. *)
Theorem C30_two_currencies_refuted : exists y v, steps cfg0 no_recon_flag (init_sys uuids) y /\ s_locks (y_st y) = []
    /\ snd (run 9 (preview_bulk cfg0 env0 two_curs false true) (y_st y)) = Ok v /\ would_apply v = true
    /\ snd (run 9 (bulk cfg0 env0 two_curs true false true) (y_st y)) = Err EInsufficient.
Proof. exact two_curs_wrong. Qed.
Print Assumptions C30_two_currencies_refuted.
Example C30_bulks_meet : (Forall api_txn two_names /\ Forall unsplit two_names) /\ Forall api_txn two_curs /\ Forall unsplit two_curs.
Proof. exact bulks_ok. Qed.

(** A split whose reference has been used: the dry run does not look. *)
Theorem C30_split_reference_refuted : exists y v, steps cfg0 no_recon_flag (init_sys uuids) y /\ s_locks (y_st y) = []
    /\ snd (run 9 (preview_transaction cfg0 env0 retry) (y_st y)) = Ok v /\ would_apply v = true
    /\ snd (run 9 (queue_transaction cfg0 env0 retry) (y_st y)) = Err EDupReference.
Proof. exact split_again_wrong. Qed.
Print Assumptions C30_split_reference_refuted.

(** A split that gives nothing to anyone: it would apply, without any balance. *)
Theorem C30_split_nothing_refuted : exists y v, steps cfg0 no_recon_flag (init_sys uuids) y /\ s_locks (y_st y) = []
    /\ snd (run 9 (preview_transaction cfg0 env0 nobody) (y_st y)) = Ok v /\ would_apply v = true
    /\ snd (run 9 (queue_transaction cfg0 env0 nobody) (y_st y)) = Err EBalanceNotFound.
Proof. exact nobody_wrong. Qed.
Print Assumptions C30_split_nothing_refuted.

(** Who gets the odd cent of a split is random, for the dry run and again for the post. *)
Theorem C30_split_odd_cent_refuted : exists y p,
  steps cfg0 no_recon_flag (init_sys uuids) y /\ s_locks (y_st y) = []
  /\ snd (run 9 (preview_transaction cfg0 env0 halves) (y_st y)) = Ok p /\ would_apply p = true
  /\ map entry (pv_balances p) = [(false, "@ann", (399, 500, 101), (0, 100)); (false, "@bob", (51, 51, 0), (100, 0)); (true, "@carol", (50, 50, 0), (0, 0))]
  /\ balance_view (fst (run 9 (queue_transaction cfg0 env1 halves) (y_st y)))
     = [("@carol", (51, 51, 0), (0, 0)); ("@bob", (50, 50, 0), (100, 0)); ("@ann", (399, 500, 101), (0, 100)); ("@bank", (-500, 0, 500), (0, 0))].
Proof. exact odd_cent_wrong. Qed.
Print Assumptions C30_split_odd_cent_refuted.
Example C30_splits_meet : ((api_txn retry /\ is_split retry) /\ (api_txn nobody /\ is_split nobody) /\ api_txn halves /\ is_split halves)
  /\ fair_env env1.
Proof. exact (conj splits_ok env1_fair). Qed.

(** A bulk one of whose holds has been voided: the dry run of voiding it says "would apply",
    for another hold covers the figures; done, it is refused for that hold. *)
Theorem C30_voided_member_refuted : exists y p, steps cfg0 polite_run (init_sys uuids) y /\ s_locks (y_st y) = [] /\ new_refs (y_st y)
  /\ snd (run 9 (preview_action cfg0 "bulk_5" true 0) (y_st y)) = Ok p /\ would_apply p = true
  /\ okays (snd (run 9 (inflight_action cfg0 "bulk_5" true 0 "") (y_st y))) = [None; Some EAlreadyVoided].
Proof. exact voided_wrong. Qed.
Print Assumptions C30_voided_member_refuted.

(** A hold that went through the queue and was committed in part: the dry run of committing
    the rest by the queued id looks at the whole, and rejects what succeeds. *)
Theorem C30_queued_hold_refuted : exists y p, steps cfg0 polite_run (init_sys uuids) y /\ s_locks (y_st y) = [] /\ new_refs (y_st y)
  /\ snd (run 9 (preview_action cfg0 "txn_5" false 0) (y_st y)) = Ok p /\ would_apply p = false
  /\ okays (snd (run 9 (inflight_action cfg0 "txn_5" false 0 "") (y_st y))) = [None].
Proof. exact queued_hold_wrong. Qed.
Print Assumptions C30_queued_hold_refuted.

(** A client has used the reference the refund will get: the dry run does not look. *)
Theorem C30_refund_reference_refuted : exists y p, steps cfg0 no_recon_flag (init_sys uuids) y /\ s_locks (y_st y) = []
  /\ snd (run 9 (preview_refund cfg0 "txn_5") (y_st y)) = Ok p /\ would_apply p = true
  /\ okays (snd (run 9 (refund_batch cfg0 "txn_5" true) (y_st y))) = [Some EDupReference].
Proof. exact refund_reference_wrong. Qed.
Print Assumptions C30_refund_reference_refuted.
