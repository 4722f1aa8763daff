(** Dry runs of refunds: one that comes true, one that does not; and a refund asked for twice. *)
From Coq Require Import ZArith QArith List String Bool Lia.
From Verif Require Import TidyDemo PreviewAlone PreviewReach BulkDemo PreviewDemo PreviewActDemo.
From Verif Require Import Base SplitModel SplitSpec BalanceModel LedgerModel LedgerProgs ConcModel LedgerSafe Sched Demo HoldSpec BatchSpec BulkSpec PreviewModel PreviewSpec PreviewRefundSpec.
Import ListNotations.
Local Open Scope string_scope.
Open Scope list_scope.
Open Scope Z_scope.

(** The hypothesis, decided. *)
Definition refundableb (s : state) (id : string) (r : row) : bool :=
  (String.eqb (t_id (r_t r)) id && status_eqb (t_status (r_t r)) SApplied)
  || (String.eqb (t_parent (r_t r)) id && (status_eqb (t_status (r_t r)) SApplied || status_eqb (t_status (r_t r)) SVoid))
  || (status_eqb (t_status (r_t r)) SApplied && String.eqb (m_qparent (meta_of (s_meta s) (r_t r))) id).
Definition takes_backb (h r : row) : bool :=
  String.eqb (t_parent (r_t r)) (t_id (r_t h)) && String.eqb (t_src (r_t r)) (t_dst (r_t h)) && String.eqb (t_dst (r_t r)) (t_src (r_t h)).
Definition refs_freeb (s : state) (id : string) : bool :=
  forallb (fun h => negb (refundableb s id h)
    || forallb (fun r => negb (String.eqb (t_ref (r_t r)) (t_id (r_t h) ++ "_refund")%string) || takes_backb h r) (s_txns s)) (s_txns s).
Lemma refs_freeb_ok s id : refs_freeb s id = true -> refund_refs_free s id.
Proof.
  intros H h r [Ih Qh] Ir Er. unfold refs_freeb in H. rewrite forallb_forall in H. specialize (H h Ih).
  apply orb_true_iff in H as [H|H].
  - exfalso. apply negb_true_iff in H. assert (refundableb s id h = true); [|congruence].
    unfold refundableb, settled_row in *. rewrite !orb_true_iff, !andb_true_iff, !orb_true_iff, !String.eqb_eq, !status_is. tauto.
  - rewrite forallb_forall in H. specialize (H r Ir). rewrite Er, String.eqb_refl in H. cbn [negb orb] in H.
    unfold takes_backb in H. rewrite !andb_true_iff, !String.eqb_eq in H. unfold takes_back. tauto.
Qed.

(** A bulk of two payments, refunded by its id. *)
Definition paid_cmds : list cmd := bulk_cmds ++ whole 2 (RBulk env0
  [ctxn "@ann" "@bob" "p1" 120 false false false; ctxn "@ann" "@carol" "p2" 80 false false false] true false true).

Lemma refund_example : exists y p,
  steps cfg0 no_recon_flag (init_sys uuids) y /\ s_locks (y_st y) = [] /\ refund_refs_free (y_st y) "bulk_5"
  /\ balance_view (y_st y) = [("@carol", (80, 80, 0), (0, 0)); ("@bob", (120, 120, 0), (100, 0)); ("@ann", (300, 500, 200), (0, 100)); ("@bank", (-500, 0, 500), (0, 0))]
  /\ snd (run 9 (preview_refund cfg0 "bulk_5") (y_st y)) = Ok p /\ would_apply p = true
  /\ map entry (pv_balances p) = [(false, "@carol", (0, 80, 80), (0, 0)); (false, "@ann", (500, 700, 200), (0, 100)); (false, "@bob", (0, 120, 120), (100, 0))]
  /\ okays (snd (run 9 (refund_batch cfg0 "bulk_5" true) (y_st y))) = [None; None]
  /\ balance_view (fst (run 9 (refund_batch cfg0 "bulk_5" true) (y_st y)))
     = [("@carol", (0, 80, 80), (0, 0)); ("@bob", (0, 120, 120), (100, 0)); ("@ann", (500, 700, 200), (0, 100)); ("@bank", (-500, 0, 500), (0, 0))].
Proof.
  destruct (saw cfg0 paid_cmds (fun s => (s_locks s, refs_freeb s "bulk_5", balance_view s,
      show (snd (run 9 (preview_refund cfg0 "bulk_5") s)),
      okays (snd (run 9 (refund_batch cfg0 "bulk_5" true) s)), balance_view (fst (run 9 (refund_batch cfg0 "bulk_5" true) s))))
    ([], true, [("@carol", (80, 80, 0), (0, 0)); ("@bob", (120, 120, 0), (100, 0)); ("@ann", (300, 500, 200), (0, 100)); ("@bank", (-500, 0, 500), (0, 0))],
     Some (None, [(false, "@carol", (0, 80, 80), (0, 0)); (false, "@ann", (500, 700, 200), (0, 100)); (false, "@bob", (0, 120, 120), (100, 0))]), [None; None],
     [("@carol", (0, 80, 80), (0, 0)); ("@bob", (0, 120, 120), (100, 0)); ("@ann", (500, 700, 200), (0, 100)); ("@bank", (-500, 0, 500), (0, 0))]))
    as (y & Hy & H); [vm_compute; reflexivity|].
  repeat match goal with H : (_, _) = (_, _) |- _ => apply pair_equal_spec in H; destruct H end.
  match goal with H : show _ = Some _ |- _ => apply show_ok in H; destruct H as (p & Q1 & Q2 & Q3) end.
  exists y, p. unfold would_apply. rewrite Q2.
  split; [exact Hy|]. split; [assumption|]. split; [apply refs_freeb_ok; assumption|]. auto 10.
Qed.

(** The dry run does not look whether the reference of the refund is free. *)
Definition once_cmds : list cmd := bulk_cmds ++ whole 2 (RQueue env0 (ctxn "@ann" "@bob" "pay" 120 false false true)).
Definition taken_cmds : list cmd := once_cmds ++ whole 3 (RQueue env0 (ctxn "@ann" "@carol" "txn_5_refund" 20 false false true)).
Lemma refund_reference_wrong : exists y p, steps cfg0 no_recon_flag (init_sys uuids) y /\ s_locks (y_st y) = []
  /\ snd (run 9 (preview_refund cfg0 "txn_5") (y_st y)) = Ok p /\ would_apply p = true
  /\ okays (snd (run 9 (refund_batch cfg0 "txn_5" true) (y_st y))) = [Some EDupReference].
Proof.
  destruct (saw cfg0 taken_cmds (fun s => (s_locks s, answer (snd (run 9 (preview_refund cfg0 "txn_5") s)),
      match snd (run 9 (preview_refund cfg0 "txn_5") s) with Ok p => would_apply p | _ => false end,
      okays (snd (run 9 (refund_batch cfg0 "txn_5" true) s))))
    ([], None, true, [Some EDupReference])) as (y & Hy & H); [vm_compute; reflexivity|].
  repeat match goal with H : (_, _) = (_, _) |- _ => apply pair_equal_spec in H; destruct H end.
  match goal with H : answer _ = None |- _ => apply answer_ok in H; destruct H as (p & Q1) end. rewrite Q1 in *.
  exists y, p. auto.
Qed.

(** A refund asked for twice. The second request also finds the refund, which is settled and
    recorded under the transaction, and refunds that: the money is back with the payee, and
    the answer is an error. *)
Lemma asked_twice : exists y, steps cfg0 no_recon_flag (init_sys uuids) y /\ s_locks (y_st y) = []
  /\ let first := run 9 (refund_batch cfg0 "txn_5" true) (y_st y) in
     let second := run 9 (refund_batch cfg0 "txn_5" true) (fst first) in
     balance_view (y_st y) = [("@bob", (120, 120, 0), (100, 0)); ("@ann", (380, 500, 120), (0, 100)); ("@bank", (-500, 0, 500), (0, 0))]
     /\ okays (snd first) = [None]
     /\ balance_view (fst first) = [("@bob", (0, 120, 120), (100, 0)); ("@ann", (500, 620, 120), (0, 100)); ("@bank", (-500, 0, 500), (0, 0))]
     /\ okays (snd second) = [None; Some EAlreadyRefunded]
     /\ balance_view (fst second) = [("@bob", (120, 240, 120), (100, 0)); ("@ann", (380, 620, 240), (0, 100)); ("@bank", (-500, 0, 500), (0, 0))].
Proof.
  destruct (saw cfg0 once_cmds (fun s => let first := run 9 (refund_batch cfg0 "txn_5" true) s in let second := run 9 (refund_batch cfg0 "txn_5" true) (fst first) in
      (s_locks s, balance_view s, okays (snd first), balance_view (fst first), okays (snd second), balance_view (fst second)))
    ([], [("@bob", (120, 120, 0), (100, 0)); ("@ann", (380, 500, 120), (0, 100)); ("@bank", (-500, 0, 500), (0, 0))], [None],
     [("@bob", (0, 120, 120), (100, 0)); ("@ann", (500, 620, 120), (0, 100)); ("@bank", (-500, 0, 500), (0, 0))],
     [None; Some EAlreadyRefunded],
     [("@bob", (120, 240, 120), (100, 0)); ("@ann", (380, 620, 240), (0, 100)); ("@bank", (-500, 0, 500), (0, 0))])) as (y & Hy & H); [vm_compute; reflexivity|].
  cbv zeta in H |- *. repeat match goal with H : (_, _) = (_, _) |- _ => apply pair_equal_spec in H; destruct H end.
  exists y. auto 10.
Qed.
