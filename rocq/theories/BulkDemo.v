(** Failing bulks: one that is undone, and two that are not. *)
From Coq Require Import ZArith QArith List String Bool Lia.
From Verif Require Import BatchDemo TidyDemo.
From Verif Require Import Base SplitModel BalanceModel LedgerModel LedgerProgs ConcModel LedgerSafe Sched Demo HoldSpec BatchSpec BulkModel BulkSpec.
Import ListNotations.
Local Open Scope string_scope.
Open Scope list_scope.
Open Scope Z_scope.

(** ann has 500, of which 100 are on hold for bob. *)
Definition bulk_cmds : list cmd :=
  whole 0 (RQueue env0 (ctxn "@bank" "@ann" "fund" 500 false true true)) ++
  whole 1 (RQueue env0 (ctxn "@ann" "@bob" "hold" 100 true false true)).
Definition ready : option (state * nat) :=
  match play cfg0 carefulb bulk_cmds (init_sys uuids) with Some y => Some (y_st y, List.length (y_thr y)) | None => None end.
Definition polite_run : sys -> event -> Prop := fun y e => no_recon_flag y e /\ polite y e.

Lemma ready_run {A} (p : prog A) (check : state -> state -> A -> bool) :
  match ready with Some (s, n) => let r := run n p s in check s (fst r) (snd r) | None => false end = true ->
  exists y s' r, steps cfg0 polite_run (init_sys uuids) y /\ run (List.length (y_thr y)) p (y_st y) = (s', r)
    /\ check (y_st y) s' r = true.
Proof.
  unfold ready. destruct (play cfg0 carefulb bulk_cmds (init_sys uuids)) as [y|] eqn:E; [|discriminate].
  intros H. cbv zeta in H. destruct (run (List.length (y_thr y)) p (y_st y)) as [s' r] eqn:R. exists y, s', r.
  split; [|split; [exact R|exact H]].
  eapply (play_steps cfg0 polite_run carefulb); [|intros; repeat split|apply steps_refl|exact E].
  intros y0 e He. destruct (carefulb_ok y0 e He) as (H1 & H2 & _). split; assumption.
Qed.

Definition bulk_ts : list txn :=
  [ctxn "@ann" "@bob" "b1" 150 false false false; ctxn "@ann" "@carol" "b2" 200 false false false;
   ctxn "@ann" "@bob" "b3" 900 false false false].

Definition mentionedb (x : string) (s : state) : bool :=
  existsb (fun r => String.eqb (t_id (r_t r)) x || String.eqb (t_parent (r_t r)) x
                    || String.eqb (m_qparent (meta_of (s_meta s) (r_t r))) x) (s_txns s).
Lemma mentionedb_ok x s : mentionedb x s = false -> never_mentioned x s.
Proof.
  unfold mentionedb, never_mentioned. induction (s_txns s) as [|r l IH]; simpl; [constructor|].
  intros H. apply orb_false_elim in H as [H H2]. apply orb_false_elim in H as [H H1]. apply orb_false_elim in H as [H H0].
  constructor; [|auto]. apply String.eqb_neq in H, H0, H1. auto.
Qed.
Definition succeededb {A} (r : res A) : bool := match r with Ok _ => true | _ => false end.
Lemma succeededb_ok {A} (l : list (res A)) : forallb succeededb l = true -> Forall succeeded l.
Proof. intros H. apply Forall_forall. intros x Hx. rewrite forallb_forall in H. specialize (H x Hx). destruct x as [a|]; [exists a; reflexivity|discriminate]. Qed.

Definition batch_of (s : state) : string := ("bulk_" ++ s_uuid s (s_ctr s))%string.
Definition bulk_rows : list (string * string * string * status * Z) :=
  [("txn_12", "txn_6", "ref_13", SVoid, 150); ("txn_10", "txn_7", "ref_11", SVoid, 200);
   ("txn_7", "bulk_5", "b2", SInflight, 200); ("txn_6", "bulk_5", "b1", SInflight, 150)].
Definition bulk_before : list (string * (Z * Z * Z) * (Z * Z)) :=
  [("@bob", (0, 0, 0), (100, 0)); ("@ann", (500, 500, 0), (0, 100)); ("@bank", (-500, 0, 500), (0, 0))].
Definition bulk_after : list (string * (Z * Z * Z) * (Z * Z)) :=
  [("@carol", (0, 0, 0), (0, 0)); ("@bob", (0, 0, 0), (100, 0)); ("@ann", (500, 500, 0), (0, 100)); ("@bank", (-500, 0, 500), (0, 0))].
Lemma bulk_tsb : Forall api_txn bulk_ts.
Proof. repeat constructor; apply api_txnb_ok; reflexivity. Qed.
Lemma bulk_unsplit : Forall unsplit bulk_ts.
Proof. repeat constructor. Qed.

(** The state of the rollback: refused, with [n] transactions rolled back, none failing. *)
Definition refused (s : state) (r : res string * list (res txn)) (n : nat) : bool :=
  match fst r with Err EInsufficient => true | _ => false end && forallb succeededb (snd r)
  && Nat.eqb (List.length (snd r)) n && negb (mentionedb (batch_of s) s).
Lemma refused_ok s r n : refused s r n = true ->
  exists report, r = (Err EInsufficient, report) /\ Forall succeeded report /\ List.length report = n
    /\ never_mentioned (batch_of s) s.
Proof.
  unfold refused. destruct r as [[x|er] report]; cbn [fst snd]; [discriminate|].
  intros H. apply andb_prop in H as [H H3]. apply andb_prop in H as [H H2]. apply andb_prop in H as [H H1].
  exists report. split; [destruct er; congruence || discriminate H|]. split; [apply succeededb_ok; exact H1|].
  split; [apply Nat.eqb_eq; exact H2|]. apply mentionedb_ok. destruct (mentionedb _ _); [discriminate|reflexivity].
Qed.

Lemma bulk_example : exists y s' report,
  steps cfg0 polite_run (init_sys uuids) y /\ never_mentioned (batch_of (y_st y)) (y_st y)
  /\ run (List.length (y_thr y)) (bulk_report cfg0 env0 bulk_ts true true true) (y_st y) = (s', (Err EInsufficient, report))
  /\ Forall succeeded report /\ List.length report = 2%nat
  /\ firstn 4 (journal_view s') = bulk_rows /\ balance_view (y_st y) = bulk_before /\ balance_view s' = bulk_after.
Proof.
  assert (E : option_map (fun x => let r := run (snd x) (bulk_report cfg0 env0 bulk_ts true true true) (fst x) in
     (refused (fst x) (snd r) 2, firstn 4 (journal_view (fst r)), balance_view (fst x), balance_view (fst r))) ready
     = Some (true, bulk_rows, bulk_before, bulk_after)) by (vm_compute; reflexivity).
  unfold ready in E. destruct (play cfg0 carefulb bulk_cmds (init_sys uuids)) as [y|] eqn:P; [|discriminate].
  cbn [option_map fst snd] in E. cbv zeta in E.
  destruct (run (List.length (y_thr y)) (bulk_report cfg0 env0 bulk_ts true true true) (y_st y)) as [s' r] eqn:R.
  cbn [fst snd] in E.
  assert (refused (y_st y) r 2 = true /\ firstn 4 (journal_view s') = bulk_rows /\ balance_view (y_st y) = bulk_before
          /\ balance_view s' = bulk_after) as (H1 & H2 & H3 & H4) by (repeat split; congruence).
  apply refused_ok in H1 as (report & -> & S & L & M).
  exists y, s', report. split; [|split; [exact M|split; [exact R|split; [exact S|split; [exact L|auto]]]]].
  eapply (play_steps cfg0 polite_run carefulb); [|intros; repeat split|apply steps_refl|exact P].
  intros y0 e He. destruct (carefulb_ok y0 e He) as (Q1 & Q2 & _). split; assumption.
Qed.

(** ann's balance is no longer 500 free and 100 on hold. *)
Definition annb (b : balance) : bool := String.eqb (b_id b) "bln_2".
Definition ann_changed (s s' : state) : bool :=
  existsb annb (s_bals s) && forallb (fun b => negb (annb b) ||
    negb (existsb (fun b0 => annb b0 && (b_bal b =? b_bal b0) && (b_idb b =? b_idb b0)) (s_bals s))) (s_bals s').
Lemma ann_changed_ok s s' : ann_changed s s' = true -> ~ restored s s'.
Proof.
  intros H [R _]. apply andb_prop in H as [H1 H2]. apply existsb_exists in H1 as (b & Ib & Eb). unfold annb in Eb. apply String.eqb_eq in Eb.
  destruct (R b Ib) as (b' & Ib' & E1 & E2 & _ & _ & _ & _ & E3). rewrite forallb_forall in H2. specialize (H2 b' Ib').
  apply orb_prop in H2 as [H2|H2]; apply negb_true_iff in H2.
  - unfold annb in H2. rewrite E1, Eb in H2. discriminate.
  - assert (existsb (fun b0 => annb b0 && (b_bal b' =? b_bal b0) && (b_idb b' =? b_idb b0)) (s_bals s) = true) as Q; [|congruence].
    apply existsb_exists. exists b. split; [exact Ib|]. unfold annb. rewrite Eb, E2, E3, !Z.eqb_refl. reflexivity.
Qed.

(** Without inflight the rollback only starts refunds, in the background. *)
Lemma refunds_later : exists y s' report,
  steps cfg0 polite_run (init_sys uuids) y /\ never_mentioned (batch_of (y_st y)) (y_st y)
  /\ run (List.length (y_thr y)) (bulk_report cfg0 env0 bulk_ts true false true) (y_st y) = (s', (Err EInsufficient, report))
  /\ Forall succeeded report /\ List.length report = 2%nat /\ ~ restored (y_st y) s'.
Proof.
  destruct (ready_run (bulk_report cfg0 env0 bulk_ts true false true) (fun s s' r => refused s r 2 && ann_changed s s'))
    as (y & s' & r & Hy & R & C); [vm_compute; reflexivity|].
  apply andb_prop in C as [C1 C2]. apply refused_ok in C1 as (report & -> & S & L & M). apply ann_changed_ok in C2.
  exists y, s', report. auto 10.
Qed.

(** A member that is itself split: its legs have the member, not the batch, as parent. *)
Definition split_ts : list txn :=
  [{| t_id := ""; t_parent := ""; t_src := "@ann"; t_dst := ""; t_ref := "two"; t_cur := "USD";
      t_status := SNone; t_precise := 100; t_amount := 0; t_prec := 100; t_inflight := false;
      t_allow := false; t_limit := 0; t_skipq := false; t_atomic := false; t_sched := false;
      t_meta := meta0; t_sources := [];
      t_dests := [{|d_id := "@bob"; d_spec := DFixed (1#2)%Q |}; {|d_id := "@carol"; d_spec := DLeft |}] |};
   ctxn "@ann" "@bob" "b3" 900 false false false].
Lemma split_tsb : Forall api_txn split_ts.
Proof. apply Forall_cons; [apply api_txnb_ok; reflexivity|]. apply Forall_cons; [apply api_txnb_ok; reflexivity|]. constructor. Qed.
Lemma split_missed : exists y s' report,
  steps cfg0 polite_run (init_sys uuids) y /\ never_mentioned (batch_of (y_st y)) (y_st y)
  /\ run (List.length (y_thr y)) (bulk_report cfg0 env0 split_ts true true true) (y_st y) = (s', (Err EInsufficient, report))
  /\ report = [] /\ ~ restored (y_st y) s'.
Proof.
  destruct (ready_run (bulk_report cfg0 env0 split_ts true true true) (fun s s' r => refused s r 0 && ann_changed s s'))
    as (y & s' & r & Hy & R & C); [vm_compute; reflexivity|].
  apply andb_prop in C as [C1 C2]. apply refused_ok in C1 as (report & -> & S & L & M). apply ann_changed_ok in C2.
  exists y, s', report. destruct report; [auto 10|discriminate].
Qed.
