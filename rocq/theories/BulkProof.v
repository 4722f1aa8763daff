(** Proofs about the rollback of bulk requests. *)
From Coq Require Import ZArith QArith List String Bool Lia.
From Verif Require Import LedgerInv ConcLogic LedgerSafe LedgerThms PostSpec PostProof BudgetSpec BudgetProof BudgetThms
  ProvSpec ProvInv ProvProof ProvThms BatchProof.
From Verif Require Import Base MoneyModel SplitModel BalanceModel LedgerModel LedgerProgs ConcModel LedgerSpec HoldSpec
  BulkModel BulkSpec.
Import ListNotations.
Local Open Scope string_scope.
Open Scope Z_scope.

(** ** Running alone as an execution *)
Fixpoint chain (s : state) (tr : list (state * state)) (s' : state) : Prop :=
  match tr with
  | [] => s = s'
  | (b, a) :: r => b = s /\ chain a r s'
  end.
Lemma run_traces n {A} (p : prog A) s s' a : run n p s = (s', a) -> exists tr, traces n p tr (Some a) /\ chain s tr s'.
Proof.
  revert s. induction p as [x|o k IH]; intros s H; simpl in H.
  - injection H as <- <-. exists []. simpl. auto.
  - destruct (exec n o s) as [s1 x] eqn:E. destruct (IH x s1 H) as (tr & T & C).
    exists ((s, fst (exec n o s)) :: tr). rewrite E. cbn [fst snd]. split; [|simpl; auto].
    simpl. right. exists s, tr. rewrite E. auto.
Qed.
Lemma chain_app s t1 t2 s' : chain s (t1 ++ t2) s' -> exists m, chain s t1 m /\ chain m t2 s'.
Proof.
  revert s. induction t1 as [|[b a] r IH]; intros s H; simpl in *; [eauto|]. destruct H as [-> H].
  destruct (IH a H) as (m & H1 & H2). exists m. auto.
Qed.
Lemma chain_untouched s tr s' : Forall untouched tr -> chain s tr s' -> s_txns s' = s_txns s.
Proof.
  intros F. revert s. induction F as [|[b a] r [H _] _ IH]; intros s C; simpl in C; [congruence|].
  destruct C as [-> C]. rewrite (IH a C). exact H.
Qed.
Lemma aon_rows s tr s' r : all_or_nothing tr (Some r) -> chain s tr s' ->
  match r with
  | Err _ => s_txns s' = s_txns s
  | Ok t => (t_precise t = 0 /\ s_txns s' = s_txns s) \/ exists x, r_t x = t /\ s_txns s' = x :: s_txns s
  end.
Proof.
  intros [[F H]|(t1 & x & t2 & t & -> & F1 & P & F2 & R)] C.
  - rewrite (chain_untouched _ _ _ F C). destruct r as [t|e]; [|reflexivity]. left. auto.
  - destruct R as [R|R]; [discriminate|]. injection R as ->.
    apply chain_app in C as (m & C1 & C2). destruct x as [b a]. simpl in C2. destruct C2 as [-> C2].
    destruct P as [(x & Ex & Rx) _]. right. exists x. split; [exact Ex|]. simpl in Rx.
    rewrite (chain_untouched _ _ _ F2 C2), Rx, (chain_untouched _ _ _ F1 C1). reflexivity.
Qed.

Section RunSteps.
Variables (cfg : config) (ok : sys -> event -> Prop) (y0 : sys).
Hypothesis ok_step : forall y n, ok y (EStep n).
Lemma set_nth_get {A} n (a : A) l : (n < List.length l)%nat -> nth_error (set_nth n a l) n = Some a.
Proof. revert l. induction n as [|n IH]; intros [|x r] H; simpl in *; try lia; [reflexivity|]. apply IH. lia. Qed.
Lemma run_steps n (p : prog unit) : forall y, steps cfg ok y0 y -> nth_error (y_thr y) n = Some p ->
  exists y', steps cfg ok y0 y' /\ y_st y' = fst (run n p (y_st y)).
Proof.
  induction p as [x|o k IH]; intros y H E.
  - exists y. auto.
  - set (y1 := {| y_st := fst (exec n o (y_st y)); y_thr := set_nth n (k (snd (exec n o (y_st y)))) (y_thr y) |}).
    assert (H1 : steps cfg ok y0 y1).
    { apply (steps_step cfg ok y0 y y1 (EStep n) H (ok_step _ _)). simpl. rewrite E. reflexivity. }
    destruct (IH (snd (exec n o (y_st y))) y1 H1) as (y' & H2 & E2).
    { simpl. apply set_nth_get. apply nth_error_Some. congruence. }
    exists y'. split; [exact H2|]. rewrite E2. simpl. destruct (exec n o (y_st y)). reflexivity.
Qed.
Lemma run_steps_bind n {A B} (p : prog A) : forall y (f : A -> prog B) (g : B -> prog unit),
  steps cfg ok y0 y -> nth_error (y_thr y) n = Some (bind (bind p f) g) ->
  exists y', steps cfg ok y0 y' /\ y_st y' = fst (run n p (y_st y)) /\ nth_error (y_thr y') n = Some (bind (f (snd (run n p (y_st y)))) g).
Proof.
  induction p as [x|o k IH]; intros y f g H E.
  - exists y. auto.
  - set (y1 := {| y_st := fst (exec n o (y_st y)); y_thr := set_nth n (bind (bind (k (snd (exec n o (y_st y)))) f) g) (y_thr y) |}).
    assert (H1 : steps cfg ok y0 y1).
    { apply (steps_step cfg ok y0 y y1 (EStep n) H (ok_step _ _)). simpl. rewrite E. reflexivity. }
    destruct (IH (snd (exec n o (y_st y))) y1 f g H1) as (y' & H2 & E2 & E3).
    { simpl. apply set_nth_get. apply nth_error_Some. congruence. }
    exists y'. split; [exact H2|]. rewrite E2, E3. simpl. destruct (exec n o (y_st y)). auto.
Qed.
End RunSteps.

Lemma run_done n {A} (p : prog A) s : fst (run n (done p) s) = fst (run n p s).
Proof. unfold done. rewrite run_bind. reflexivity. Qed.

Lemma bulk_is_report n cfg e ts a i q s :
  run n (bulk cfg e ts a i q) s = (fst (run n (bulk_report cfg e ts a i q) s), fst (snd (run n (bulk_report cfg e ts a i q) s))).
Proof.
  unfold bulk, bulk_report. rewrite !(run_bind n (fresh "bulk")). destruct (run n (fresh "bulk") s) as [s1 b]. cbn [fst snd].
  rewrite !(run_bind n (process_bulk _ _ _ _ _ _)). destruct (run n (process_bulk _ _ _ _ _ _) s1) as [s2 [r|er]]; cbn [fst snd]; [reflexivity|].
  destruct a; [|reflexivity]. rewrite !(run_bind n (rollback_batch _ _ _)). reflexivity.
Qed.

(** A request run alone from a reachable state ends in a reachable state. *)
Lemma alone_reachable cfg u y e ts a i q s' r :
  steps cfg (fun y e => no_recon_flag y e /\ polite y e) (init_sys u) y -> Forall api_txn ts ->
  run (List.length (y_thr y)) (bulk_report cfg e ts a i q) (y_st y) = (s', r) ->
  exists y', steps cfg (fun y e => no_recon_flag y e /\ polite y e) (init_sys u) y' /\ y_st y' = s'.
Proof.
  intros H Ha E.
  set (ok := fun y e => no_recon_flag y e /\ polite y e) in *.
  set (y1 := {| y_st := y_st y; y_thr := (y_thr y ++ [prog_of cfg (RBulk e ts a i q)])%list |}).
  assert (H1 : steps cfg ok (init_sys u) y1).
  { apply (steps_step cfg ok _ y y1 (EStart (RBulk e ts a i q)) H); [split; exact Logic.I|]. simpl. auto. }
  destruct (run_steps cfg ok (init_sys u) (fun _ _ => conj Logic.I Logic.I) (List.length (y_thr y))
              (prog_of cfg (RBulk e ts a i q)) y1 H1) as (y' & H2 & E2).
  { simpl. rewrite nth_error_app2 by lia. rewrite PeanoNat.Nat.sub_diag. reflexivity. }
  exists y'. split; [exact H2|]. rewrite E2. simpl y_st. cbn [prog_of]. rewrite run_done, bulk_is_report, E. reflexivity.
Qed.

(** ** Results of single posts and voids *)
Lemma traces_ret n {A} (a : A) tr r : traces n (Ret a) tr (Some r) -> r = a /\ tr = [].
Proof. intros [-> [H|H]]; [|discriminate]. injection H as ->. auto. Qed.
Lemma traces_bind_some n {A B} (p : prog A) (f : A -> prog B) tr r : traces n (bind p f) tr (Some r) ->
  exists tr1 tr2 a, tr = (tr1 ++ tr2)%list /\ traces n p tr1 (Some a) /\ traces n (f a) tr2 (Some r).
Proof. intros H. apply traces_bind in H as [[H _]|H]; [discriminate|exact H]. Qed.
Lemma traces_bindr_ok n {A B} (p : prog (res A)) (f : A -> prog (res B)) tr r : traces n (bindr p f) tr (Some (Ok r)) ->
  exists tr1 tr2 a, tr = (tr1 ++ tr2)%list /\ traces n p tr1 (Some (Ok a)) /\ traces n (f a) tr2 (Some (Ok r)).
Proof.
  intros H. apply traces_bind_some in H as (t1 & t2 & [a|e] & -> & H1 & H2); [exists t1, t2, a; auto|].
  apply traces_ret in H2 as [H2 _]. discriminate.
Qed.
Lemma traces_do n o {A} (k : resp o -> prog A) tr r : traces n (Do o k) tr (Some r) ->
  exists s tr', tr = (s, fst (exec n o s)) :: tr' /\ traces n (k (snd (exec n o s))) tr' (Some r).
Proof. intros [[_ H]|H]; [discriminate|exact H]. Qed.

Lemma precision_keys t : t_parent (apply_precision_txn t) = t_parent t /\ t_id (apply_precision_txn t) = t_id t
  /\ t_inflight (apply_precision_txn t) = t_inflight t /\ t_status (apply_precision_txn t) = t_status t
  /\ t_src (apply_precision_txn t) = t_src t /\ t_dst (apply_precision_txn t) = t_dst t /\ t_ref (apply_precision_txn t) = t_ref t.
Proof. unfold apply_precision_txn. destruct (apply_precision _ _ _) as [[p a] q]. repeat split. Qed.
Lemma apply_keys t src dst t1 s1 d1 : apply_to_balances t src dst = Ok (t1, s1, d1) ->
  t_parent t1 = t_parent t /\ t_id t1 = t_id t /\ t_inflight t1 = t_inflight t /\ t_status t1 = t_status t
  /\ (t_status t = SVoid -> t_precise t1 = t_precise t).
Proof.
  destruct (precision_keys t) as (P1 & P2 & P3 & P4 & _).
  unfold apply_to_balances, update_balances. destruct (t_status t) eqn:Es; intros H.
  all: repeat match type of H with
    | context[match ?x with _ => _ end] => destruct x eqn:?; try discriminate
    end; injection H as <- <- <-; rewrite ?P1, ?P2, ?P3, ?P4; repeat split; try congruence.
Qed.

Lemma locked_result cfg n t tr t' : traces n (record_locked cfg t) tr (Some (Ok t')) ->
  t_parent t' = t_parent t /\ t_id t' = t_id t /\ t_status t' = final_status t
  /\ (t_status t = SVoid -> t_precise t' = t_precise t).
Proof.
  unfold record_locked. intros H. apply traces_bind_some in H as (_ & t2 & u & _ & _ & H).
  destruct u; [apply traces_ret in H as [H _]; discriminate|].
  apply traces_bindr_ok in H as (_ & t3 & src & _ & _ & H). apply traces_bindr_ok in H as (_ & t4 & dst & _ & _ & H).
  cbv zeta in H. destruct (apply_to_balances _ _ _) as [[[t1 s1] d1]|er] eqn:E; [|apply traces_ret in H as [H _]; discriminate].
  apply apply_keys in E as (E1 & E2 & E3 & E4 & E5). simpl in E1, E2, E3, E4, E5.
  assert (K : forall x, x = update_details t1 s1 d1 \/ x = clear_terminal (update_details t1 s1 d1) ->
    t_parent x = t_parent t /\ t_id x = t_id t /\ t_status x = final_status t /\ (t_status t = SVoid -> t_precise x = t_precise t)).
  { assert (Ef : final_status t1 = final_status t) by (unfold final_status; rewrite E3, E4; reflexivity).
    intros x [-> | ->].
    - simpl. rewrite E1, E2, Ef. auto.
    - assert (Ep : t_precise (clear_terminal (update_details t1 s1 d1)) = t_precise t1)
        by (unfold clear_terminal; destruct (t_status (update_details t1 s1 d1)); reflexivity).
      destruct (clear_rest (update_details t1 s1 d1)) as (C1 & C2 & C3).
      rewrite C1, C2, C3, Ep. simpl. rewrite E1, E2, Ef. auto. }
  destruct (_ =? 0).
  - apply traces_ret in H as [H _]. injection H as ->. apply K. auto.
  - apply traces_bind_some in H as (_ & t5 & [x|er] & _ & _ & H); apply traces_ret in H as [H _]; [|discriminate].
    injection H as ->. apply K. auto.
Qed.

Lemma record_result cfg n t tr t' : traces n (record_single cfg t) tr (Some (Ok t')) ->
  t_parent t' = t_parent t /\ t_id t' = t_id t /\ t_status t' = final_status t
  /\ (t_status t = SVoid -> t_precise t' = t_precise t).
Proof.
  unfold record_single. intros H. apply traces_bindr_ok in H as (_ & t2 & src & _ & _ & H).
  apply traces_bindr_ok in H as (_ & t3 & dst & _ & _ & H). cbv zeta in H.
  apply traces_bind_some in H as (_ & t4 & b & _ & _ & H). destruct b; [|apply traces_ret in H as [H _]; discriminate].
  apply traces_bind_some in H as (t5 & t6 & r & _ & H1 & H2). apply traces_bind_some in H2 as (_ & t7 & [] & _ & _ & H2).
  apply traces_ret in H2 as [H2 _]. subst r. apply locked_result in H1. exact H1.
Qed.

Lemma with_lock_result k n {A} (p : prog (res A)) tr a : traces n (with_lock k p) tr (Some (Ok a)) ->
  exists tr', incl tr' tr /\ traces n p tr' (Some (Ok a)).
Proof.
  unfold with_lock. intros H. apply traces_bind_some in H as (t1 & t2 & b & -> & _ & H).
  destruct b; [|apply traces_ret in H as [H _]; discriminate].
  apply traces_bind_some in H as (t5 & t6 & r & -> & H1 & H2). apply traces_bind_some in H2 as (_ & t7 & b & _ & _ & H2).
  apply traces_ret in H2 as [H2 _]. subst r. exists t5. split; [|exact H1]. intros x Hx. apply in_or_app. right. apply in_or_app. auto.
Qed.
Lemma get_row_id id l t : get_row id l = Some t -> t_id t = id.
Proof.
  induction l as [|x r IH]; simpl; [discriminate|]. destruct (String.eqb_spec (t_id (r_t x)) id); [|exact IH].
  intros [= <-]. assumption.
Qed.
Lemma fetch_result n id tr t : traces n (fetch_inflight id) tr (Some (Ok t)) ->
  t_id t = id /\ exists x o, In x tr /\ get_row id (s_txns (fst x)) = Some o /\ t_precise o = t_precise t.
Proof.
  unfold fetch_inflight. intros H. apply traces_do in H as (s & t2 & -> & H). cbn [exec snd] in H.
  destruct (get_row id (s_txns s)) as [x|] eqn:E; [|apply traces_ret in H as [H _]; discriminate].
  pose proof (get_row_id _ _ _ E) as E'.
  destruct (negb _); [apply traces_ret in H as [H _]; discriminate|].
  apply traces_do in H as (s2 & t3 & _ & H). cbn [exec snd] in H. destruct (parent_void _ _); apply traces_ret in H as [H _]; [discriminate|].
  injection H as ->. split; [exact E'|]. eexists _, x. split; [left; reflexivity|]. auto.
Qed.
Lemma precision_positive t : 0 < t_precise t -> t_precise (apply_precision_txn t) = t_precise t.
Proof.
  intros H. unfold apply_precision_txn, apply_precision. apply Z.ltb_lt in H. rewrite H. reflexivity.
Qed.
Lemma void_result cfg n id ref tr t : traces n (void cfg id ref) tr (Some (Ok t)) ->
  t_status t = SVoid /\ t_parent t = id
  /\ (t_precise t <> 0 \/ exists x x' o, In x tr /\ In x' tr /\ get_row id (s_txns (fst x)) = Some o
                                       /\ t_precise o < total_committed id (s_txns (fst x'))).
Proof.
  intros H. apply with_lock_result in H as (tr' & Hi & H). apply traces_bindr_ok in H as (t1 & t2 & o & -> & H1 & H).
  apply fetch_result in H1 as (Eo & x & o' & Ix & Ex & Ep). apply traces_do in H as (s3 & t3 & -> & H). cbv zeta in H.
  cbn [exec snd] in H. set (c := total_committed (t_id o) (s_txns s3)) in H.
  destruct (Z.eqb_spec (t_precise o - c) 0) as [|Hn]; [apply traces_ret in H as [H _]; discriminate|].
  apply traces_bind_some in H as (_ & t4 & nid & _ & _ & H). apply traces_bind_some in H as (_ & t5 & nref & _ & _ & H).
  apply record_result in H as (E1 & _ & E3 & E4).
  set (v := with_status _ _) in *. destruct (precision_keys v) as (P1 & _ & P3 & P4 & _).
  rewrite P4 in E4. specialize (E4 eq_refl). rewrite E1, E3, P1. unfold final_status. rewrite P3, P4. simpl.
  split; [reflexivity|]. split; [exact Eo|].
  destruct (Z.lt_ge_cases c (t_precise o)) as [Hl|Hl].
  - left. rewrite E4, precision_positive; simpl; lia.
  - right. eexists x, _, o'. split; [apply Hi, in_or_app; auto|]. split; [apply Hi, in_or_app; right; left; reflexivity|].
    split; [exact Ex|]. simpl. rewrite Ep. unfold c in Hl, Hn. rewrite Eo in Hl, Hn. lia.
Qed.

(** ** Operations that leave metadata alone *)
Definition calm (o : op) : Prop := match o with OSetMeta _ _ => False | _ => True end.
Lemma calm_exec n o s : calm o -> s_meta (fst (exec n o s)) = s_meta s.
Proof.
  destruct o; simpl; try reflexivity; try tauto; intros _;
    unfold create_balance, persist_single, persist_batch;
    repeat match goal with |- context[match ?x with _ => _ end] => destruct x end; reflexivity.
Qed.
Lemma calm_run n {A} (p : prog A) s : all_ops calm p -> s_meta (fst (run n p s)) = s_meta s.
Proof.
  revert s. induction p as [a|o k IH]; intros s H; [reflexivity|]. destruct H as [H1 H2].
  simpl. destruct (exec n o s) as [s1 x] eqn:E. rewrite (IH x s1 (H2 x)).
  change s1 with (fst (s1, x)). rewrite <- E. apply calm_exec. exact H1.
Qed.
Create HintDb calm.
Ltac calm := repeat match goal with
  | |- forall _, _ => intro
  | |- all_ops _ (Ret _) => exact Logic.I
  | |- all_ops _ (bindr _ _) => apply all_ops_bindr
  | |- all_ops _ (bind _ _) => apply all_ops_bind
  | |- all_ops _ (act _) => apply all_ops_act; exact Logic.I
  | |- all_ops _ (Do _ _) => split; [exact Logic.I|]
  | |- all_ops _ (match ?x with _ => _ end) => destruct x
  | |- all_ops _ _ => solve [auto with calm]
  | |- _ => progress cbv zeta
  end.
Lemma calm_get_balance cfg id : all_ops calm (get_balance cfg id). Proof. unfold get_balance. calm. Qed.
#[local] Hint Resolve calm_get_balance : calm.
Lemma calm_get_or_create cfg i c : all_ops calm (get_or_create cfg i c). Proof. unfold get_or_create, fresh. calm. Qed.
#[local] Hint Resolve calm_get_or_create : calm.
Lemma calm_resolve cfg s c : all_ops calm (resolve_id cfg s c). Proof. unfold resolve_id. calm. Qed.
Lemma calm_get_end cfg s c : all_ops calm (get_end cfg s c). Proof. unfold get_end. calm. Qed.
Lemma calm_unlock ks : all_ops calm (unlock_keys ks). Proof. induction ks; cbn [unlock_keys]; calm. Qed.
#[local] Hint Resolve calm_resolve calm_get_end calm_unlock : calm.
Lemma calm_lock ks : forall got, all_ops calm (lock_keys ks got). Proof. induction ks; intros got; cbn [lock_keys]; calm. Qed.
#[local] Hint Resolve calm_lock : calm.
Lemma calm_wait n ks : all_ops calm (wait_lock n ks). Proof. induction n; cbn [wait_lock]; calm. Qed.
#[local] Hint Resolve calm_wait : calm.
Lemma calm_locked cfg t : all_ops calm (record_locked cfg t). Proof. unfold record_locked. calm. Qed.
#[local] Hint Resolve calm_locked : calm.
Lemma calm_record cfg t : all_ops calm (record_single cfg t). Proof. unfold record_single. calm. Qed.
#[local] Hint Resolve calm_record : calm.

(** ** The members *)
Definition in_batch (batch : string) (r : row) : Prop := t_status (r_t r) = SInflight /\ t_parent (r_t r) = batch.

Lemma member_alone n cfg e t s s' x : unsplit t -> t_inflight t = true -> t_skipq t = true ->
  run n (queue_transaction cfg e t) s = (s', x) ->
  s_meta s' = s_meta s /\ exists H, s_txns s' = (H ++ s_txns s)%list /\ Forall (in_batch (t_parent t)) H.
Proof.
  intros [U1 U2] Hi Hs. unfold queue_transaction. rewrite U1, U2. unfold queue_nosplit. rewrite run_bind.
  set (t0 := set_metadata t).
  assert (K0 : t_parent t0 = t_parent t /\ t_inflight t0 = true /\ t_skipq t0 = true).
  { unfold t0, set_metadata. simpl. destruct (precision_keys t) as (P1 & _ & P3 & _). rewrite P1, P3, Hi.
    repeat split. unfold apply_precision_txn. destruct (apply_precision _ _ _) as [[? ?] ?]. exact Hs. }
  assert (K1 : let x := run n (ensure_id t0) s in s_txns (fst x) = s_txns s /\ s_meta (fst x) = s_meta s
                 /\ t_parent (snd x) = t_parent t /\ t_inflight (snd x) = true /\ t_skipq (snd x) = true).
  { unfold ensure_id. destruct (String.eqb (t_id t0) ""); simpl; tauto. }
  destruct (run n (ensure_id t0) s) as [s1 t1]. cbn [fst snd] in K1 |- *. destruct K1 as (R1 & M1 & P1 & I1 & S1).
  set (t2 := set_status t1).
  assert (K2 : t_parent t2 = t_parent t /\ t_inflight t2 = true /\ t_skipq t2 = true).
  { unfold t2, set_status. destruct (t_sched t1); [auto|]. destruct (t_status t1); auto. }
  destruct K2 as (P2 & I2 & S2). cbv zeta. intros E.
  destruct (calculate_distributions _ _ _ _ _).
  2:{ simpl in E. injection E as <- <-. split; [exact M1|]. exists []. split; [exact R1|constructor]. }
  rewrite S2 in E. unfold bindr in E. rewrite run_bind in E.
  pose proof (calm_run n _ s1 (calm_record cfg t2)) as M2.
  destruct (run n (record_single cfg t2) s1) as [s2 r] eqn:Er. cbn [fst snd] in E, M2.
  destruct (run_traces _ _ _ _ _ Er) as (tr & T & C). pose proof (aon_rows _ _ _ _ (record_single_aon _ _ _ _ _ T) C) as Q.
  assert (s2 = s') as -> by (destruct r; simpl in E; congruence).
  split; [congruence|].
  destruct r as [t3|er].
  - apply record_result in T as (Q1 & _ & Q3 & _). rewrite P2 in Q1. unfold final_status in Q3. rewrite I2 in Q3.
    destruct Q as [[_ Q]|(w & <- & Q)].
    + exists []. split; [simpl; congruence|constructor].
    + exists [w]. split; [simpl; congruence|]. constructor; [split; assumption|constructor].
  - exists []. split; [simpl; congruence|constructor].
Qed.

Lemma members_alone n cfg e batch ts : forall s s' x, Forall unsplit ts ->
  run n (process_bulk cfg e ts batch true true) s = (s', x) ->
  s_meta s' = s_meta s /\ exists H, s_txns s' = (H ++ s_txns s)%list /\ Forall (in_batch batch) H.
Proof.
  induction ts as [|t r IH]; intros s s' x U E.
  - simpl in E. injection E as <- <-. split; [reflexivity|]. exists []. split; [reflexivity|constructor].
  - inversion U as [|? ? U1 U2]; subst. cbn [process_bulk] in E. cbv zeta in E.
    set (t0 := with_keys _ _ _ _) in E. rewrite run_bind in E.
    destruct (run n (queue_transaction cfg e t0) s) as [s1 y] eqn:E1. cbn [fst snd] in E.
    apply member_alone in E1; [|exact U1|reflexivity|reflexivity]. destruct E1 as (M1 & H1 & R1 & F1). simpl t_parent in F1.
    destruct y as [y|er].
    + destruct (IH _ _ _ U2 E) as (M2 & H2 & R2 & F2). split; [congruence|]. exists (H2 ++ H1)%list.
      split; [rewrite R2, R1, app_assoc; reflexivity|]. apply Forall_app. auto.
    + simpl in E. injection E as <- <-. split; [exact M1|]. exists H1. auto.
Qed.

(** ** The rollback *)
Lemma filter_all {A} (f : A -> bool) l : Forall (fun x => f x = true) l -> filter f l = l.
Proof. induction 1 as [|x r E _ IH]; simpl; [reflexivity|]. rewrite E, IH. reflexivity. Qed.
Lemma filter_none {A} (f : A -> bool) l : Forall (fun x => f x = false) l -> filter f l = [].
Proof. induction 1 as [|x r E _ IH]; simpl; [reflexivity|]. rewrite E. exact IH. Qed.

Lemma found_holds ov batch H l : Forall (in_batch batch) H ->
  Forall (fun r => t_id (r_t r) <> batch /\ t_parent (r_t r) <> batch /\ m_qparent (meta_of ov (r_t r)) <> batch) l ->
  inflight_by_parent ov batch (H ++ l) = map (fun x => db_view (meta_of ov (r_t x)) (r_t x)) H.
Proof.
  intros F1 F2. unfold inflight_by_parent. rewrite map_app, filter_app.
  rewrite filter_all.
  2:{ rewrite Forall_map. eapply Forall_impl; [|exact F1]. intros r [E1 E2]. simpl. rewrite E1, E2, String.eqb_refl.
      rewrite Bool.orb_true_r. reflexivity. }
  rewrite filter_none.
  2:{ rewrite Forall_map. eapply Forall_impl; [|exact F2]. intros r (E1 & E2 & E3). simpl.
      apply String.eqb_neq in E1, E2, E3. rewrite E1, E2, E3. reflexivity. }
  rewrite app_nil_r. destruct H as [|h r]; [|reflexivity]. cbn [map app].
  apply filter_none. rewrite Forall_map. eapply Forall_impl; [|exact F2]. intros r (E1 & E2 & E3). simpl.
  apply String.eqb_neq in E1, E2. rewrite E1, E2. reflexivity.
Qed.

Definition voids_of (id : string) (v : row) : Prop := t_status (r_t v) = SVoid /\ t_parent (r_t v) = id.
(** A hold that nobody has committed anything of. *)
Definition intact (id : string) (l : list row) : Prop :=
  total_committed id l = 0 /\ exists t, get_row id l = Some t /\ 0 < t_precise t.
Lemma get_row_exists id l t : get_row id l = Some t -> id_exists id l = true.
Proof.
  unfold id_exists. induction l as [|x r IH]; simpl; [discriminate|]. destruct (String.eqb (t_id (r_t x)) id); [reflexivity|exact IH].
Qed.
Lemma chain_rows s tr s' : Forall untouched tr -> chain s tr s' -> forall x, In x tr -> s_txns (fst x) = s_txns s.
Proof.
  intros F. revert s. induction F as [|[b a] r [H _] _ IH]; intros s C x Hx; [destruct Hx|]. simpl in C. destruct C as [-> C].
  destruct Hx as [<-|Hx]; [reflexivity|]. rewrite (IH a C x Hx). exact H.
Qed.
Lemma void_alone n cfg id s s' t : run n (void cfg id "") s = (s', Ok t) -> intact id (s_txns s) ->
  exists v, s_txns s' = v :: s_txns s /\ voids_of id v.
Proof.
  intros E (Hc & o & Ho & Hp). destruct (run_traces _ _ _ _ _ E) as (tr & T & C).
  pose proof (void_aon _ _ _ _ _ _ T) as Q. apply void_result in T as (Q1 & Q2 & Q3).
  destruct Q as [[F Z]|(t1 & [b a] & t2 & t' & -> & F1 & P & F2 & Er)].
  - exfalso. destruct Q3 as [Q3|(x & x' & o' & Ix & Ix' & Eo & Le)]; [apply Q3; apply Z; reflexivity|].
    rewrite (chain_rows _ _ _ F C x Ix) in Eo. rewrite (chain_rows _ _ _ F C x' Ix') in Le.
    rewrite Ho in Eo. injection Eo as <-. lia.
  - destruct Er as [Er|Er]; [discriminate|]. injection Er as <-.
    apply chain_app in C as (m & C1 & C2). simpl in C2. destruct C2 as [-> C2].
    destruct P as [(v & <- & Rv) _]. exists v. simpl in Rv. split; [|split; assumption].
    rewrite (chain_untouched _ _ _ F2 C2), Rv, (chain_untouched _ _ _ F1 C1). reflexivity.
Qed.
Lemma run_journal n {A} (p : prog A) s : exists l, s_txns (fst (run n p s)) = (l ++ s_txns s)%list.
Proof.
  revert s. induction p as [a|o k IH]; intros s; [exists []; reflexivity|].
  simpl. destruct (exec n o s) as [s1 x] eqn:E. destruct (IH x s1) as (l & El). destruct (exec_journal n o s) as (l' & El').
  rewrite E in El'. simpl in El'. exists (l ++ l')%list. rewrite El, El', app_assoc. reflexivity.
Qed.
Lemma get_row_in id l t : get_row id l = Some t -> In id (map (fun r => t_id (r_t r)) l).
Proof.
  induction l as [|x r IH]; simpl; [discriminate|]. destruct (String.eqb_spec (t_id (r_t x)) id); auto.
Qed.
Lemma voids_alone n cfg (legs : list txn) : forall s s' rs, Forall (fun l => t_status l = SInflight) legs ->
  Forall (fun l => intact (t_id l) (s_txns s)) legs ->
  run n (for_each (fun l => if negb (is_inflight l) then Ret (Err ENotInflight) else void cfg (t_id l) "") legs) s = (s', rs) ->
  Forall succeeded rs -> NoDup (map (fun r => t_id (r_t r)) (s_txns s')) ->
  exists V, s_txns s' = (rev V ++ s_txns s)%list /\ Forall2 (fun v l => voids_of (t_id l) v) V legs.
Proof.
  induction legs as [|l r IH]; intros s s' rs F G E S N.
  - simpl in E. injection E as <- <-. exists []. split; [reflexivity|constructor].
  - inversion F as [|? ? F1 F2]; subst. inversion G as [|? ? G1 G2]; subst. cbn [for_each] in E. rewrite run_bind in E.
    assert (Hi : is_inflight l = true) by (unfold is_inflight; rewrite F1; reflexivity).
    cbv beta in E. rewrite Hi in E. cbn [negb] in E.
    destruct (run n (void cfg (t_id l) "") s) as [s1 x] eqn:E1. cbn [fst snd] in E.
    rewrite run_bind in E.
    destruct (run n (for_each _ r) s1) as [s2 xs] eqn:E2. simpl in E. injection E as <- <-.
    inversion S as [|? ? [t Ex] S2]; subst. destruct (void_alone _ _ _ _ _ _ E1 G1) as (v & Rv & Ev).
    assert (G' : Forall (fun l => intact (t_id l) (s_txns s1)) r).
    { rewrite Forall_forall in G2 |- *. intros l' Hl'. destruct (G2 l' Hl') as (Hc & t' & Ht' & Hp). rewrite Rv. split.
      - unfold total_committed in *. simpl. destruct Ev as [Ev _]. rewrite Ev, Bool.andb_false_r. exact Hc.
      - exists t'. split; [|exact Hp]. simpl. destruct (String.eqb_spec (t_id (r_t v)) (t_id l')) as [Ei|_]; [|exact Ht'].
        exfalso. destruct (run_journal n (for_each (fun l => if negb (is_inflight l) then Ret (Err ENotInflight) else void cfg (t_id l) "") r) s1) as (w & Ew).
        rewrite E2 in Ew. simpl in Ew. rewrite Ew, Rv, map_app in N. apply nodup_r in N. inversion N as [|? ? N1 _]; subst.
        apply N1. rewrite Ei. apply (get_row_in _ _ _ Ht'). }
    destruct (IH s1 s2 xs F2 G' E2 S2 N) as (V & R & FV).
    exists (v :: V). split; [rewrite R, Rv; simpl; rewrite <- app_assoc; reflexivity|]. constructor; assumption.
Qed.

(** ** Everything together *)
Lemma total_app f who id l1 l2 : total f who id (l1 ++ l2) = total f who id l1 + total f who id l2.
Proof. unfold total. apply sumz_app. Qed.
Lemma total_rev f who id l : total f who id (rev l) = total f who id l.
Proof. induction l as [|x r IH]; simpl; [reflexivity|]. rewrite total_app, IH. unfold total. simpl. lia. Qed.

Lemma voided_in (V H : list row) : Forall2 (fun v h => voids_of (t_id (r_t h)) v) V H -> forall r, In r V -> exists x, voids_of x r.
Proof.
  induction 1 as [|a b la lb H1 _ IH]; intros r Ir; [destruct Ir|]. destruct Ir as [<-|Ir]; [exists (t_id (r_t b)); exact H1|].
  apply IH. exact Ir.
Qed.
Section Undone.
Variables (cfg : config) (u : nat -> string) (y : sys) (old H V : list row) (batch : string).
Hypothesis Hu : distinct_uuids u.
Hypothesis Hy : steps cfg (fun y e => no_recon_flag y e /\ polite y e) (init_sys u) y.
Hypothesis Er : s_txns (y_st y) = (rev V ++ H ++ old)%list.
Hypothesis HH : Forall (in_batch batch) H.
Hypothesis HV : Forall2 (fun v h => voids_of (t_id (r_t h)) v) V H.

Lemma undone_pair v h : In v V -> In h H -> voids_of (t_id (r_t h)) v ->
  r_kind v = KVoid /\ r_kind h = KHold /\ amount v = amount h /\ source v = source h /\ destination v = destination h.
Proof.
  intros Iv Ih [Sv Pv]. destruct (reach_polite cfg u y Hu Hy) as (A & B & C).
  assert (Jv : In v (s_txns (y_st y))) by (rewrite Er; apply in_or_app; left; rewrite <- in_rev; exact Iv).
  assert (Jh : In h (s_txns (y_st y))) by (rewrite Er; apply in_or_app; right; apply in_or_app; left; exact Ih).
  rewrite Forall_forall in HH. destruct (HH h Ih) as [Sh Ph].
  assert (Kv : r_kind v = KVoid).
  { pose proof (ProvThms.kind_of _ _ A v Jv) as K. rewrite Sv in K. destruct (r_kind v); simpl in K; try congruence. destruct K as [K|[K|K]]; congruence. }
  pose proof (proj1 (inflight_hold _ _ A h Jh Sh)) as Kh.
  destruct (void_releases cfg u y Hu Hy h v Jh Sh Jv Kv Pv) as (_ & _ & Ea).
  pose proof (i_ids _ _ A) as Nd.
  assert (C0 : committed (t_id (r_t h)) (s_txns (y_st y)) = 0).
  { assert (N : forall r, In r (s_txns (y_st y)) -> t_parent (r_t r) = t_id (r_t h) -> r_kind r <> KCommit).
    { intros r Ir Pr Kr. rewrite Er in Ir. apply in_app_iff in Ir as [Ir|Ir].
      - rewrite <- in_rev in Ir.
        destruct (voided_in _ _ HV r Ir) as (x & Sx & _).
        pose proof (ProvThms.kind_of _ _ A r) as K. rewrite Er in K. specialize (K (in_or_app _ _ _ (or_introl (proj1 (in_rev _ _) Ir)))).
        rewrite Kr, Sx in K. discriminate.
      - apply in_app_iff in Ir as [Ir|Ir].
        + destruct (HH r Ir) as [Sr _]. pose proof (ProvThms.kind_of _ _ A r) as K. rewrite Er in K.
          specialize (K (in_or_app _ _ _ (or_intror (in_or_app _ _ _ (or_introl Ir))))). rewrite Kr, Sr in K. discriminate.
        + apply in_split in Ir as (l1 & l2 & ->). rewrite Er in C, Nd. apply in_order_app, in_order_app, in_order_app in C.
          destruct C as [C _]. destruct (C (or_introl Kr)) as (g & Ig & Eg & _).
          rewrite map_app in Nd. apply nodup_r in Nd. rewrite map_app in Nd.
          apply (nodup_disj _ _ (t_id (r_t h)) Nd).
          * apply (in_map (fun r => t_id (r_t r))). exact Ih.
          * rewrite <- Pr, <- Eg. apply (in_map (fun r => t_id (r_t r))). apply in_or_app. right. right. exact Ig. }
    revert N. generalize (s_txns (y_st y)). induction l as [|r l IH]; intros N; [reflexivity|].
    rewrite committed_cons. rewrite IH by (intros x Hx; apply N; right; exact Hx).
    specialize (N r (or_introl eq_refl)). destruct (r_kind r) eqn:Ek; try reflexivity.
    destruct (String.eqb_spec (t_parent (r_t r)) (t_id (r_t h))) as [E|E]; [exfalso; apply (N E); reflexivity|reflexivity]. }
  split; [exact Kv|]. split; [exact Kh|]. split; [lia|].
  assert (exists g, In g (s_txns (y_st y)) /\ t_id (r_t g) = t_parent (r_t v) /\ source v = source g /\ destination v = destination g) as (g & Ig & Eg & E1 & E2).
  { pose proof Jv as Jv'. apply in_split in Jv' as (l1 & l2 & El). rewrite El in C. apply in_order_app in C. destruct C as [C _].
    destruct (C (or_intror Kv)) as (g & Ig & Eg & E1 & E2 & _). exists g. split; [rewrite El; apply in_or_app; right; right; exact Ig|auto]. }
  assert (g = h) as -> by (apply (same_id _ _ A g h Ig Jh); congruence). auto.
Qed.

Lemma undone f who id : (f = settled \/ f = held) -> (who = source \/ who = destination) ->
  total f who id (s_txns (y_st y)) = total f who id old.
Proof.
  intros Hf Hw. rewrite Er, !total_app, total_rev.
  cut (total f who id V + total f who id H = 0); [lia|].
  pose proof undone_pair as P. clear Er. revert P HH.
  induction HV as [|v h la lb H1 _ IH]; intros P F; [reflexivity|].
  inversion F as [|? ? F1 F2]; subst.
  destruct (P v h (or_introl eq_refl) (or_introl eq_refl) H1) as (Kv & Kh & Ea & Es & Ed).
  assert (IH' : total f who id la + total f who id lb = 0).
  { apply IH; [inversion HV; assumption| |exact F2]. intros v' h' Iv Ih. apply P; right; assumption. }
  unfold total in *. simpl. cut ((if String.eqb (who v) id then f v else 0) + (if String.eqb (who h) id then f h else 0) = 0); [lia|].
  assert (who v = who h) as -> by (destruct Hw as [-> | ->]; assumption).
  destruct (String.eqb _ _); [|reflexivity].
  destruct Hf as [-> | ->]; unfold settled, held; rewrite Kv, Kh; lia.
Qed.
End Undone.

Lemma shows_same b b' j j' : b_id b' = b_id b -> shows b j -> shows b' j' ->
  (forall f who id, (f = settled \/ f = held) -> (who = source \/ who = destination) -> total f who id j' = total f who id j) ->
  b_bal b' = b_bal b /\ b_cr b' = b_cr b /\ b_db b' = b_db b /\ b_ibal b' = b_ibal b /\ b_icr b' = b_icr b /\ b_idb b' = b_idb b.
Proof.
  intros Ei (A1 & A2 & A3 & A4 & A5 & A6) (B1 & B2 & B3 & B4 & B5 & B6) T. rewrite Ei in *.
  unfold credits, debits, held_in, held_out in *.
  rewrite (T settled source), (T settled destination), (T held source), (T held destination) in * by auto.
  repeat split; congruence.
Qed.

Lemma no_rows_no_total f who id j : (forall r, In r j -> who r <> id) -> total f who id j = 0.
Proof.
  induction j as [|r l IH]; intros N; [reflexivity|]. unfold total in *. simpl.
  destruct (String.eqb_spec (who r) id) as [E|_]; [exfalso; apply (N r); [left; reflexivity|exact E]|].
  rewrite IH by (intros x Hx; apply N; right; exact Hx). reflexivity.
Qed.

Lemma run_fresh n pre s : run n (fresh pre) s = (fst (exec n OFresh s), pre ++ "_" ++ s_uuid s (s_ctr s)).
Proof. reflexivity. Qed.

(** Balances never disappear. *)
Lemma update_ids rows w l l' : update_balance rows w l = Some l' -> map b_id l' = map b_id l.
Proof. intros H. exact (update_set_ids rows [w] l l' ltac:(simpl; rewrite H; reflexivity)). Qed.
Lemma exec_ids n o s x : In x (map b_id (s_bals s)) -> In x (map b_id (s_bals (fst (exec n o s)))).
Proof.
  destruct o; simpl; auto.
  - unfold create_balance. destruct (get_bal _ _); [auto|]. destruct (_ && _); simpl; auto.
  - destruct (lock_owner _ _); auto.
  - destruct (lock_owner _ _) as [m|]; [destruct (Nat.eqb m n)|]; auto.
  - destruct (insert_txn _ _ _ _); auto.
  - unfold persist_single. destruct (update_balance _ _ (s_bals s)) as [b1|] eqn:E1; [|auto].
    destruct (update_balance _ _ b1) as [b2|] eqn:E2; [|auto]. destruct (insert_txn _ _ _ _); [|auto]. simpl.
    rewrite (update_ids _ _ _ _ E2), (update_ids _ _ _ _ E1). auto.
  - unfold persist_batch. destruct (update_balance_set _ _ _) as [b|] eqn:E1; [|auto]. destruct (insert_txns _ _ _); [|auto]. simpl.
    rewrite (update_set_ids _ _ _ _ E1). auto.
  - rewrite reconcile_ids. auto.
Qed.
Lemma run_ids n {A} (p : prog A) s x : In x (map b_id (s_bals s)) -> In x (map b_id (s_bals (fst (run n p s)))).
Proof.
  revert s. induction p as [a|o k IH]; intros s H; [exact H|]. apply (exec_ids n o) in H.
  simpl. destruct (exec n o s) as [s1 r]. apply IH. exact H.
Qed.

(** The state when the members have been processed is reachable. *)
Lemma members_reachable cfg u y e ts (a i q : bool) s1 r :
  let n := List.length (y_thr y) in let s := y_st y in
  steps cfg (fun y e => no_recon_flag y e /\ polite y e) (init_sys u) y -> Forall api_txn ts ->
  run n (process_bulk cfg e ts ("bulk" ++ "_" ++ s_uuid s (s_ctr s)) i q) (fst (exec n OFresh s)) = (s1, r) ->
  exists y1, steps cfg (fun y e => no_recon_flag y e /\ polite y e) (init_sys u) y1 /\ y_st y1 = s1.
Proof.
  intros n s H Ha E.
  set (ok := fun y e => no_recon_flag y e /\ polite y e) in *.
  set (y1 := {| y_st := y_st y; y_thr := (y_thr y ++ [prog_of cfg (RBulk e ts a i q)])%list |}).
  assert (H1 : steps cfg ok (init_sys u) y1).
  { apply (steps_step cfg ok _ y y1 (EStart (RBulk e ts a i q)) H); [split; exact Logic.I|]. simpl. auto. }
  assert (E1 : nth_error (y_thr y1) n = Some (prog_of cfg (RBulk e ts a i q))).
  { simpl. unfold n. rewrite nth_error_app2 by lia. rewrite PeanoNat.Nat.sub_diag. reflexivity. }
  destruct (run_steps_bind cfg ok (init_sys u) (fun _ _ => conj Logic.I Logic.I) n _ y1 _ _ H1 E1) as (y2 & H2 & E2 & T2).
  rewrite run_fresh in E2, T2. cbn [fst snd] in E2, T2.
  destruct (run_steps_bind cfg ok (init_sys u) (fun _ _ => conj Logic.I Logic.I) n _ y2 _ _ H2 T2) as (y3 & H3 & E3 & _).
  exists y3. split; [exact H3|]. rewrite E3, E2. change (y_st y1) with s. rewrite E. reflexivity.
Qed.

Lemma hold_intact cfg u y old H batch : distinct_uuids u ->
  steps cfg (fun y e => no_recon_flag y e /\ polite y e) (init_sys u) y ->
  s_txns (y_st y) = (H ++ old)%list -> Forall (in_batch batch) H ->
  forall h, In h H -> intact (t_id (r_t h)) (s_txns (y_st y)).
Proof.
  intros Hu Hy Er HH h Ih. destruct (reach_polite cfg u y Hu Hy) as (A & B & C).
  assert (Jh : In h (s_txns (y_st y))) by (rewrite Er; apply in_or_app; auto).
  rewrite Forall_forall in HH. destruct (HH h Ih) as [Sh Ph].
  destruct (inflight_hold _ _ A h Jh Sh) as [Kh Pos].
  pose proof (hold_only_commits _ _ _ _ A B h Jh Sh) as Oc. pose proof (i_ids _ _ A) as Nd.
  split.
  - assert (N : forall r, In r (s_txns (y_st y)) -> t_parent (r_t r) = t_id (r_t h) -> t_status (r_t r) <> SApplied).
    { intros r Ir Pr Sr. pose proof (ProvThms.kind_of _ _ A r Ir) as K. rewrite Sr in K.
      assert (Kr : r_kind r = KCommit).
      { pose proof (Oc r Ir Pr). destruct (r_kind r); simpl in K; try congruence. destruct K as [K|[K|K]]; discriminate. }
      rewrite Er in Ir. apply in_app_iff in Ir as [Ir|Ir]; [destruct (HH r Ir); congruence|].
      apply in_split in Ir as (l1 & l2 & ->). rewrite Er in C, Nd. apply in_order_app, in_order_app in C.
      destruct C as [C _]. destruct (C (or_introl Kr)) as (g & Ig & Eg & _).
      rewrite map_app in Nd. apply (nodup_disj _ _ (t_id (r_t h)) Nd).
      - apply (in_map (fun r => t_id (r_t r))). exact Ih.
      - rewrite <- Pr, <- Eg. apply (in_map (fun r => t_id (r_t r))). apply in_or_app. right. right. exact Ig. }
    revert N. unfold total_committed. generalize (s_txns (y_st y)). induction l as [|r l IH]; intros N; [reflexivity|]. simpl.
    rewrite IH by (intros x Hx; apply N; right; exact Hx). specialize (N r (or_introl eq_refl)).
    destruct (String.eqb_spec (t_parent (r_t r)) (t_id (r_t h))) as [E|E]; [|reflexivity]. specialize (N E).
    destruct (t_status (r_t r)); simpl; congruence.
  - exists (r_t h). split; [|exact Pos].
    revert Jh Nd. generalize (s_txns (y_st y)). induction l as [|r l IH]; intros Jh Nd; [destruct Jh|]. simpl.
    destruct Jh as [->|Jh]; [rewrite String.eqb_refl; reflexivity|]. simpl in Nd. inversion Nd as [|? ? N1 N2]; subst.
    destruct (String.eqb_spec (t_id (r_t r)) (t_id (r_t h))) as [E|_]; [|auto].
    exfalso. apply N1. rewrite E. apply (in_map (fun r => t_id (r_t r))). exact Jh.
Qed.

Theorem bulk_restores cfg u y e ts s' er report :
  distinct_uuids u -> steps cfg (fun y e => no_recon_flag y e /\ polite y e) (init_sys u) y ->
  Forall api_txn ts -> Forall unsplit ts ->
  never_mentioned ("bulk_" ++ s_uuid (y_st y) (s_ctr (y_st y))) (y_st y) ->
  run (List.length (y_thr y)) (bulk_report cfg e ts true true true) (y_st y) = (s', (Err er, report)) ->
  Forall succeeded report -> restored (y_st y) s'.
Proof.
  intros Hu Hy Ha Hs Hn E S.
  destruct (alone_reachable _ _ _ _ _ _ _ _ _ _ Hy Ha E) as (y' & Hy' & Ey').
  set (n := List.length (y_thr y)) in *. set (s := y_st y) in *. pose proof E as E0.
  unfold bulk_report in E. rewrite run_bind, run_fresh in E. cbn [fst snd] in E.
  set (batch := ("bulk" ++ "_" ++ s_uuid s (s_ctr s))%string) in E.
  set (s0 := fst (exec n OFresh s)) in E. rewrite run_bind in E.
  destruct (run n (process_bulk cfg e ts batch true true) s0) as [s1 x] eqn:E1. cbn [fst snd] in E.
  destruct (members_alone _ _ _ _ _ _ _ _ Hs E1) as (M1 & H & R1 & F1).
  destruct x as [x|er']; [simpl in E; congruence|].
  rewrite run_bind in E. unfold rollback_batch, inflight_action in E.
  cbn [act bind run exec] in E.
  change (s_txns s0) with (s_txns s) in R1. change (s_meta s0) with (s_meta s) in M1.
  rewrite R1, M1, (found_holds (s_meta s) batch H (s_txns s) F1 Hn) in E.
  cbn [String.eqb] in E.
  destruct (run n (for_each _ (map _ H)) s1) as [s2 rs] eqn:E2. simpl in E.
  assert (s2 = s') as -> by congruence. assert (rs = report) as -> by congruence. clear E.
  destruct (reach_polite cfg u y' Hu Hy') as (A' & _ & _).
  destruct (voids_alone n cfg (map (fun x => db_view (meta_of (s_meta s) (r_t x)) (r_t x)) H) s1 s' report) as (V & R2 & FV).
  { rewrite Forall_map. eapply Forall_impl; [|exact F1]. intros r [Q _]. exact Q. }
  { destruct (members_reachable cfg u y e ts true true true s1 (Err er') Hy Ha E1) as (y1 & Hy1 & Ey1).
    rewrite Forall_map. rewrite <- Ey1. rewrite Forall_forall. intros h Hh.
    apply (hold_intact cfg u y1 (s_txns s) H batch Hu Hy1); [rewrite Ey1; exact R1|exact F1|exact Hh]. }
  { exact E2. }
  { exact S. }
  { rewrite <- Ey'. exact (i_ids _ _ A'). }
  assert (FV' : Forall2 (fun v h => voids_of (t_id (r_t h)) v) V H).
  { clear -FV. revert V FV. induction H as [|h r IH]; intros V FV; simpl in FV; inversion FV; subst; constructor; auto. }
  rewrite R1 in R2. rewrite <- Ey' in R2.
  pose proof (undone cfg u y' (s_txns s) H V batch Hu Hy' R2 F1 FV') as T.
  destruct (reach_polite cfg u y Hu Hy) as (A & _ & _). fold s in A.
  rewrite <- Ey'. split.
  - intros b Ib.
    assert (exists b', In b' (s_bals (y_st y')) /\ b_id b' = b_id b) as (b' & Ib' & Eb').
    { apply (in_map b_id) in Ib. apply (run_ids n (bulk_report cfg e ts true true true) s) in Ib. rewrite E0 in Ib. simpl in Ib.
      rewrite <- Ey' in Ib. apply in_map_iff in Ib as (b' & E3 & Ib). eauto. }
    exists b'. split; [exact Ib'|]. split; [exact Eb'|].
    apply (shows_same b b' (s_txns s) (s_txns (y_st y')) Eb' (proj1 (i_shows _ _ A b Ib)) (proj1 (i_shows _ _ A' b' Ib')) T).
  - intros b' Ib' Nb. destruct (proj1 (i_shows _ _ A' b' Ib')) as (B1 & B2 & B3 & B4 & B5 & B6).
    unfold credits, debits, held_in, held_out in *.
    assert (Z0 : forall f who, who = source \/ who = destination -> total f who (b_id b') (s_txns s) = 0).
    { intros f who Hw. apply no_rows_no_total. intros r Ir Ew. apply Nb. rewrite <- Ew.
      pose proof (i_ends _ _ A) as Q. rewrite Forall_forall in Q. destruct (Q r Ir). destruct Hw as [-> | ->]; assumption. }
    assert (Z1 : forall f who, f = settled \/ f = held -> who = source \/ who = destination -> total f who (b_id b') (s_txns (y_st y')) = 0)
      by (intros f who Hf Hw; rewrite (T f who (b_id b') Hf Hw); apply Z0; exact Hw).
    pose proof (Z1 settled source (or_introl eq_refl) (or_introl eq_refl)). pose proof (Z1 settled destination (or_introl eq_refl) (or_intror eq_refl)).
    pose proof (Z1 held source (or_intror eq_refl) (or_introl eq_refl)). pose proof (Z1 held destination (or_intror eq_refl) (or_intror eq_refl)).
    unfold empty_balance. repeat split; lia.
Qed.
