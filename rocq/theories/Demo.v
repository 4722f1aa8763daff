(** A concrete history used by the examples beside the theorems: funding, an
    inflight hold partly committed and then voided, a queued transaction posted by
    a worker, a coalesced batch of two, a refund, two interleaved posts, a killed
    request and an expired lock. *)
From Coq Require Import ZArith QArith List String Bool Lia.
From Verif Require Import Base SplitModel BalanceModel LedgerModel LedgerProgs ConcModel LedgerSpec
  LedgerInv LedgerSafe LedgerThms Sched PostSpec PostProof.
Import ListNotations.
Local Open Scope string_scope.
Open Scope Z_scope.

Definition pick (ids : list string) (sc : scope) : list string := ids.

Definition demo : list cmd :=
  (whole 0 (RBalance "@ann" "USD" false true) ++
   whole 1 (RQueue env0 (ctxn "@bank" "@ann" "fund" 50000 false true true)) ++
   whole 2 (RQueue env0 (ctxn "@ann" "@bob" "hold" 3000 true false true)) ++
   whole 3 (RCommit "txn_3" 1000 "") ++
   whole 4 (RVoid "txn_3" "") ++
   whole 5 (RQueue env0 (ctxn "@ann" "@bob" "q1" 700 false false false)) ++
   background 6 0 ++ deliver 7 0 ++
   whole 8 (RQueue env0 (ctxn "@ann" "@bob" "q2" 80 false false false)) ++
   background 9 0 ++
   whole 10 (RQueue env0 (ctxn "@ann" "@bob" "q3" 9 true false false)) ++
   background 11 0 ++
   [CWork false (pick ["txn_13"]) no_sel 0 1; CRun 12 400] ++
   whole 13 (RRefund "txn_1" true (fun m => m)) ++
   [CReq (RQueue env0 (ctxn "@bank" "@cat" "x" 40 false true true));
    CReq (RQueue env0 (ctxn "@bank" "@dan" "y" 60 false true true));
    CRun 14 7; CRun 15 9; CExpire "bln_2"; CRun 15 400; CRun 14 400] ++
   [CReq (RQueue env0 (ctxn "@bank" "@eve" "z" 60 false true true)); CRun 16 3; CKill 16])%list.

Definition no_reconb (y : sys) (e : event) : bool :=
  match e with EStart (RBalance _ _ r _) => negb r | _ => true end.
Lemma no_reconb_ok y e : no_reconb y e = true -> no_recon_flag y e.
Proof. destruct e as [r| | |]; simpl; auto. destruct r; simpl; auto. destruct recon; auto; discriminate. Qed.
Lemma no_recon_step y n : no_recon_flag y (EStep n).
Proof. exact Logic.I. Qed.

(** What it leaves behind (newest row first). *)
Definition journal_view (s : state) : list (string * string * string * status * Z) :=
  map (fun r => (t_id (r_t r), t_parent (r_t r), t_ref (r_t r), t_status (r_t r), t_precise (r_t r))) (s_txns s).
Definition balance_view (s : state) : list (string * (Z * Z * Z) * (Z * Z)) :=
  map (fun b => (b_ind b, (b_bal b, b_cr b, b_db b), (b_icr b, b_idb b))) (s_bals s).

Definition demo_journal : list (string * string * string * status * Z) :=
  [("txn_17", "", "x", SApplied, 40);
   ("txn_19", "", "y", SApplied, 60);
   ("txn_16", "txn_1", "txn_1_refund", SApplied, 50000);
   ("txn_15", "txn_13", "q3_q", SInflight, 9);
   ("txn_12", "txn_11", "q2_q", SApplied, 80);
   ("txn_13", "", "q3", SQueued, 9);
   ("txn_11", "", "q2", SQueued, 80);
   ("txn_10", "txn_9", "q1_q", SApplied, 700);
   ("txn_9", "", "q1", SQueued, 700);
   ("txn_7", "txn_3", "ref_8", SVoid, 2000);
   ("txn_5", "txn_3", "ref_6", SApplied, 1000);
   ("txn_3", "", "hold", SInflight, 3000);
   ("txn_1", "", "fund", SApplied, 50000)].
Definition demo_balances : list (string * (Z * Z * Z) * (Z * Z)) :=
  [("@dan", (60, 60, 0), (0, 0)); ("@cat", (40, 40, 0), (0, 0)); ("@bob", (1780, 1780, 0), (9, 0));
   ("@bank", (-100, 50000, 50100), (0, 0)); ("@ann", (-1780, 50000, 51780), (0, 9))].

Lemma demo_reached :
  exists y, steps cfg0 no_recon_flag (init_sys uuids) y
    /\ journal_view (y_st y) = demo_journal /\ balance_view (y_st y) = demo_balances.
Proof.
  destruct (played cfg0 no_reconb demo uuids) as [s|] eqn:E; [|vm_compute in E; discriminate].
  destruct (played_steps cfg0 no_recon_flag no_reconb demo uuids s no_reconb_ok no_recon_step E) as (y & Hy & Hs).
  exists y. split; [exact Hy|]. rewrite Hs.
  assert (H : option_map journal_view (played cfg0 no_reconb demo uuids) = Some demo_journal
           /\ option_map balance_view (played cfg0 no_reconb demo uuids) = Some demo_balances)
    by (vm_compute; auto).
  rewrite E in H. simpl in H. destruct H as [H1 H2]. split; congruence.
Qed.

(** A history without any overdraft on "@ann": funded, one post, one hold. *)
Definition frugal : list cmd :=
  (whole 0 (RQueue env0 (ctxn "@bank" "@ann" "fund" 500 false true true)) ++
   whole 1 (RQueue env0 (ctxn "@ann" "@bob" "buy" 200 false false true)) ++
   whole 2 (RQueue env0 (ctxn "@ann" "@bob" "hold" 250 true false true)) ++
   whole 3 (RQueue env0 (ctxn "@ann" "@bob" "too much" 100 false false true)))%list.

(** ** Traces *)
Fixpoint seq_trace {A} (n : nat) (p : prog A) (s : state) : list (state * state) :=
  match p with
  | Ret _ => []
  | Do o k => (s, fst (exec n o s)) :: seq_trace n (k (snd (exec n o s))) (fst (exec n o s))
  end.

Lemma seq_traces {A} n (p : prog A) s : traces n p (seq_trace n p s) (Some (snd (run n p s))).
Proof.
  revert s. induction p as [a|o k IH]; intros s; simpl; [auto|].
  right. exists s. eexists. split; [reflexivity|]. specialize (IH (snd (exec n o s)) (fst (exec n o s))).
  destruct (exec n o s) as [s' x]. exact IH.
Qed.

Definition example_post : txn :=
  with_status (with_keys (ctxn "@bank" "@ann" "r" 500 false true true) "txn_x" "" "r") SQueued.

Lemma post_trace_example :
  exists tr t, traces 0 (record_single cfg0 example_post) tr (Some (Ok t))
    /\ exists tr1 x tr2, tr = (tr1 ++ x :: tr2)%list /\ posted t x.
Proof.
  pose proof (seq_traces 0 (record_single cfg0 example_post) (init_state uuids)) as H.
  set (tr := seq_trace 0 (record_single cfg0 example_post) (init_state uuids)) in *.
  assert (E : is_ok (snd (run 0 (record_single cfg0 example_post) (init_state uuids))) = true) by (vm_compute; reflexivity).
  destruct (snd (run 0 (record_single cfg0 example_post) (init_state uuids))) as [t|e] eqn:Er; [|discriminate].
  exists tr, t. split; [exact H|].
  destruct (record_single_aon _ _ _ _ _ H) as [[_ H0]|(tr1 & x & tr2 & t' & Ht & _ & Hp & _ & [Hr|Hr])].
  - specialize (H0 t eq_refl). exfalso.
    assert (Hv : match snd (run 0 (record_single cfg0 example_post) (init_state uuids)) with Ok t => negb (t_precise t =? 0) | _ => false end = true)
      by (vm_compute; reflexivity).
    rewrite Er in Hv. apply negb_true_iff, Z.eqb_neq in Hv. contradiction.
  - discriminate.
  - inversion Hr; subst. eauto.
Qed.

Definition funded_state : state :=
  match played cfg0 no_reconb frugal uuids with Some s => s | None => init_state uuids end.
Definition example_dup : txn := with_status (ctxn "@bank" "@ann" "fund" 500 false true true) SQueued.

Lemma refused_trace_example :
  exists tr e, tr <> [] /\ Forall (fun x => exists w, In w (s_txns (fst x)) /\ t_ref (r_t w) = "fund") tr
    /\ traces 0 (record_single cfg0 example_dup) tr (Some (Err e)).
Proof.
  pose proof (seq_traces 0 (record_single cfg0 example_dup) funded_state) as H.
  set (tr := seq_trace 0 (record_single cfg0 example_dup) funded_state) in *.
  assert (E : snd (run 0 (record_single cfg0 example_dup) funded_state) = Err EDupReference) by (vm_compute; reflexivity).
  rewrite E in H. exists tr, EDupReference.
  split; [|split; [|exact H]].
  - intros Hn. assert (Hl : List.length tr = 0%nat) by (rewrite Hn; reflexivity). vm_compute in Hl. discriminate.
  - apply Forall_forall. intros x Hx.
    assert (Hb : forallb (fun x => existsb (fun w => String.eqb (t_ref (r_t w)) "fund") (s_txns (fst x))) tr = true)
      by (vm_compute; reflexivity).
    rewrite forallb_forall in Hb. specialize (Hb x Hx). apply existsb_exists in Hb as (w & Hw & Hr).
    exists w. split; [exact Hw|apply String.eqb_eq; exact Hr].
Qed.
