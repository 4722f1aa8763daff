(** Dry runs of commits and voids: one that comes true, and two that do not. *)
From Coq Require Import ZArith QArith List String Bool Lia.
From Verif Require Import TidyDemo PreviewAlone PreviewReach BulkDemo PreviewDemo.
From Verif Require Import Base SplitModel SplitSpec BalanceModel LedgerModel LedgerProgs ConcModel LedgerSafe Sched Demo HoldSpec BatchSpec BulkSpec PreviewModel PreviewSpec.
Import ListNotations.
Local Open Scope string_scope.
Open Scope list_scope.
Open Scope Z_scope.

Lemma saw_polite {A} cs (f : state -> A) v : option_map f (played cfg0 carefulb cs uuids) = Some v ->
  exists y, steps cfg0 polite_run (init_sys uuids) y /\ f (y_st y) = v.
Proof.
  unfold played. destruct (play cfg0 carefulb cs (init_sys uuids)) as [y|] eqn:E; [|discriminate]. cbn [option_map]. intros H. exists y.
  split; [|congruence]. eapply (play_steps cfg0 polite_run carefulb); [|intros; repeat split|apply steps_refl|exact E].
  intros y0 e He. destruct (carefulb_ok y0 e He) as (H1 & H2 & _). split; assumption.
Qed.

(** The hypotheses, decided. *)
Definition new_refsb (s : state) : bool :=
  forallb (fun r => negb (String.prefix "ref_" (t_ref (r_t r))) || existsb (fun j => String.eqb (t_ref (r_t r)) ("ref_" ++ s_uuid s j)) (seq 0 (s_ctr s))) (s_txns s).
Lemma prefix_app a b : String.prefix a (a ++ b)%string = true.
Proof. induction a as [|c a IH]; simpl; [destruct b; reflexivity|]. destruct (Ascii.ascii_dec c c); [exact IH|contradiction]. Qed.
Lemma new_refsb_ok s : (forall i j, s_uuid s i = s_uuid s j -> i = j) -> new_refsb s = true -> new_refs s.
Proof.
  intros N H i Hi. unfold new_refsb in H. rewrite forallb_forall in H.
  destruct (ref_exists ("ref_" ++ s_uuid s i) (s_txns s)) eqn:E; [exfalso|reflexivity].
  unfold ref_exists in E. apply existsb_exists in E as (r & Ir & Er). apply String.eqb_eq in Er. specialize (H r Ir).
  apply orb_true_iff in H as [H|H].
  - rewrite Er, prefix_app in H. discriminate.
  - apply existsb_exists in H as (j & Ij & Ej). apply String.eqb_eq in Ej. rewrite Er in Ej. apply in_seq in Ij.
    assert (Q : i = j) by (apply N; simpl in Ej; congruence). lia.
Qed.
Definition underb (s : state) (id : string) (r : row) : bool :=
  String.eqb (t_id (r_t r)) id || String.eqb (t_parent (r_t r)) id || String.eqb (m_qparent (meta_of (s_meta s) (r_t r))) id.
Definition holdb (r : row) : bool := status_eqb (t_status (r_t r)) SInflight.
Definition plain_targetb (s : state) (id : string) : bool :=
  let us := filter (underb s id) (s_txns s) in let hs := filter holdb us in
  forallb (fun r => negb (status_eqb (t_status (r_t r)) SQueued)) us
  && (match hs with [_] => true | _ => forallb (fun h => negb (String.eqb (t_id (r_t h)) id)) hs end)
  && forallb (fun h => String.eqb (t_id (r_t h)) id
       || forallb (fun v => negb (String.eqb (t_parent (r_t v)) (t_id (r_t h)) && status_eqb (t_status (r_t v)) SVoid)) (s_txns s)) hs.
Lemma status_is a b : status_eqb a b = true <-> a = b.
Proof. destruct a, b; simpl; split; congruence. Qed.
Lemma plain_targetb_ok s id : plain_targetb s id = true -> plain_target s id.
Proof.
  unfold plain_targetb. cbv zeta. intros H. apply andb_prop in H as [H H3]. apply andb_prop in H as [H1 H2].
  rewrite forallb_forall in H1, H3.
  assert (U : forall r, under s id r -> In r (filter (underb s id) (s_txns s))).
  { intros r [I Q]. apply filter_In. split; [exact I|]. unfold underb. rewrite !orb_true_iff, !String.eqb_eq. tauto. }
  assert (V : forall r, under s id r -> a_hold r -> In r (filter holdb (filter (underb s id) (s_txns s)))).
  { intros r Q W. apply filter_In. split; [apply U; exact Q|]. unfold holdb. apply status_is. exact W. }
  split; [|split].
  - intros r Ur Sr. specialize (H1 r (U r Ur)). rewrite Sr in H1. discriminate.
  - intros h r Uh Hh Eh Ur Hr. pose proof (V h Uh Hh) as Q1. pose proof (V r Ur Hr) as Q2.
    destruct (filter holdb (filter (underb s id) (s_txns s))) as [|a [|b l]].
    + destruct Q1.
    + destruct Q1 as [<-|[]]. destruct Q2 as [<-|[]]. reflexivity.
    + exfalso. rewrite forallb_forall in H2. specialize (H2 h Q1). rewrite Eh, String.eqb_refl in H2. discriminate.
  - intros h v Uh Hh Nh Iv Pv Sv. specialize (H3 h (V h Uh Hh)). apply orb_true_iff in H3 as [H3|H3]; [apply String.eqb_eq in H3; contradiction|].
    rewrite forallb_forall in H3. specialize (H3 v Iv). rewrite Pv, Sv, String.eqb_refl in H3. discriminate.
Qed.

(** Two holds of one bulk, of which one has been committed in part. *)
Definition hold_ts : list txn :=
  [ctxn "@ann" "@bob" "h1" 120 false false false; ctxn "@ann" "@carol" "h2" 80 false false false].
Definition held_cmds : list cmd := bulk_cmds ++ whole 2 (RBulk env0 hold_ts true true true) ++ whole 3 (RCommit "txn_6" 50 "").
Definition okays (l : list (res txn)) : list (option err) := map answer l.
Lemma uuids_new s : s_uuid s = uuids -> forall i j, s_uuid s i = s_uuid s j -> i = j.
Proof. intros -> i j. apply uuids_distinct. Qed.
Lemma steps_uuid cfg ok u y : steps cfg ok (init_sys u) y -> s_uuid (y_st y) = u.
Proof. intros H. destruct (ids_steps _ _ _ _ H) as (_ & _ & E). exact E. Qed.

Lemma action_example : exists y p,
  steps cfg0 polite_run (init_sys uuids) y /\ s_locks (y_st y) = [] /\ new_refs (y_st y) /\ plain_target (y_st y) "bulk_5"
  /\ balance_view (y_st y) = [("@carol", (0, 0, 0), (80, 0)); ("@bob", (50, 50, 0), (170, 0)); ("@ann", (450, 500, 50), (0, 250)); ("@bank", (-500, 0, 500), (0, 0))]
  /\ snd (run 9 (preview_action cfg0 "bulk_5" false 0) (y_st y)) = Ok p /\ would_apply p = true
  /\ map entry (pv_balances p) = [(false, "@ann", (300, 500, 200), (0, 100)); (false, "@carol", (80, 80, 0), (0, 0)); (false, "@bob", (120, 120, 0), (100, 0))]
  /\ okays (snd (run 9 (inflight_action cfg0 "bulk_5" false 0 "") (y_st y))) = [None; None]
  /\ balance_view (fst (run 9 (inflight_action cfg0 "bulk_5" false 0 "") (y_st y)))
     = [("@carol", (80, 80, 0), (0, 0)); ("@bob", (120, 120, 0), (100, 0)); ("@ann", (300, 500, 200), (0, 100)); ("@bank", (-500, 0, 500), (0, 0))].
Proof.
  destruct (saw_polite held_cmds (fun s => (s_locks s, new_refsb s, plain_targetb s "bulk_5", balance_view s,
      show (snd (run 9 (preview_action cfg0 "bulk_5" false 0) s)),
      okays (snd (run 9 (inflight_action cfg0 "bulk_5" false 0 "") s)), balance_view (fst (run 9 (inflight_action cfg0 "bulk_5" false 0 "") s))))
    ([], true, true, [("@carol", (0, 0, 0), (80, 0)); ("@bob", (50, 50, 0), (170, 0)); ("@ann", (450, 500, 50), (0, 250)); ("@bank", (-500, 0, 500), (0, 0))],
     Some (None, [(false, "@ann", (300, 500, 200), (0, 100)); (false, "@carol", (80, 80, 0), (0, 0)); (false, "@bob", (120, 120, 0), (100, 0))]), [None; None],
     [("@carol", (80, 80, 0), (0, 0)); ("@bob", (120, 120, 0), (100, 0)); ("@ann", (300, 500, 200), (0, 100)); ("@bank", (-500, 0, 500), (0, 0))]))
    as (y & Hy & H); [vm_compute; reflexivity|].
  repeat match goal with H : (_, _) = (_, _) |- _ => apply pair_equal_spec in H; destruct H end.
  match goal with H : show _ = Some _ |- _ => apply show_ok in H; destruct H as (p & Q1 & Q2 & Q3) end.
  exists y, p. unfold would_apply. rewrite Q2.
  split; [exact Hy|]. split; [assumption|]. split; [apply new_refsb_ok; [apply uuids_new; exact (steps_uuid _ _ _ _ Hy)|assumption]|].
  split; [apply plain_targetb_ok; assumption|]. auto 10.
Qed.

(** One hold of the bulk has been voided on its own, and ann has money on hold elsewhere. *)
Definition half_void : list cmd := bulk_cmds ++ whole 2 (RBulk env0 [ctxn "@ann" "@bob" "h1" 90 false false false; ctxn "@ann" "@bob" "h2" 80 false false false] true true true)
  ++ whole 3 (RVoid "txn_6" "").
Lemma voided_wrong : exists y p, steps cfg0 polite_run (init_sys uuids) y /\ s_locks (y_st y) = [] /\ new_refs (y_st y)
  /\ snd (run 9 (preview_action cfg0 "bulk_5" true 0) (y_st y)) = Ok p /\ would_apply p = true
  /\ okays (snd (run 9 (inflight_action cfg0 "bulk_5" true 0 "") (y_st y))) = [None; Some EAlreadyVoided].
Proof.
  destruct (saw_polite half_void (fun s => (s_locks s, new_refsb s, answer (snd (run 9 (preview_action cfg0 "bulk_5" true 0) s)),
      match snd (run 9 (preview_action cfg0 "bulk_5" true 0) s) with Ok p => would_apply p | _ => false end,
      okays (snd (run 9 (inflight_action cfg0 "bulk_5" true 0 "") s))))
    ([], true, None, true, [None; Some EAlreadyVoided])) as (y & Hy & H); [vm_compute; reflexivity|].
  repeat match goal with H : (_, _) = (_, _) |- _ => apply pair_equal_spec in H; destruct H end.
  match goal with H : answer _ = None |- _ => apply answer_ok in H; destruct H as (p & Q1) end. rewrite Q1 in *.
  exists y, p. split; [exact Hy|]. split; [assumption|]. split; [apply new_refsb_ok; [apply uuids_new; exact (steps_uuid _ _ _ _ Hy)|assumption]|]. auto.
Qed.

(** A queued hold that has been committed in part: the dry run looks at the queued row. *)
Definition queued_hold : list cmd := bulk_cmds ++ whole 2 (RQueue env0 (ctxn "@ann" "@carol" "qh" 80 true false false)) ++ background 3 0 ++ deliver 4 0
  ++ whole 5 (RCommit "txn_7" 30 "").
Lemma queued_hold_wrong : exists y p, steps cfg0 polite_run (init_sys uuids) y /\ s_locks (y_st y) = [] /\ new_refs (y_st y)
  /\ snd (run 9 (preview_action cfg0 "txn_5" false 0) (y_st y)) = Ok p /\ would_apply p = false
  /\ okays (snd (run 9 (inflight_action cfg0 "txn_5" false 0 "") (y_st y))) = [None].
Proof.
  destruct (saw_polite queued_hold (fun s => (s_locks s, new_refsb s, answer (snd (run 9 (preview_action cfg0 "txn_5" false 0) s)),
      match snd (run 9 (preview_action cfg0 "txn_5" false 0) s) with Ok p => would_apply p | _ => true end,
      okays (snd (run 9 (inflight_action cfg0 "txn_5" false 0 "") s))))
    ([], true, None, false, [None])) as (y & Hy & H); [vm_compute; reflexivity|].
  repeat match goal with H : (_, _) = (_, _) |- _ => apply pair_equal_spec in H; destruct H end.
  match goal with H : answer _ = None |- _ => apply answer_ok in H; destruct H as (p & Q1) end. rewrite Q1 in *.
  exists y, p. split; [exact Hy|]. split; [assumption|]. split; [apply new_refsb_ok; [apply uuids_new; exact (steps_uuid _ _ _ _ Hy)|assumption]|]. auto.
Qed.
