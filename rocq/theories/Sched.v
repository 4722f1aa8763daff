(** A computable scheduler for concrete executions: every run it performs is an
    execution of ConcModel (used by examples and refutations only). *)
From Coq Require Import ZArith QArith List String Bool Lia.
From Verif Require Import Base SplitModel BalanceModel LedgerModel LedgerProgs ConcModel.
Import ListNotations.

Local Open Scope nat_scope.

Inductive cmd :=
| CReq (r : request)                 (* a client request or a sweep *)
| CWork (hot : bool) (s1 s2 : scope -> list string) (retry : Z) (i : nat) (* deliver the i-th payload *)
| CJob (i : nat)                     (* start the i-th waiting goroutine *)
| CRun (n k : nat)                   (* thread n makes at most k operations *)
| CKill (n : nat)
| CExpire (k : string).

Definition nonempty (s : string) : bool := negb (String.eqb s "").
Definition has {A} (l : list A) : bool := match l with [] => false | _ => true end.

Definition api_txnb (t : txn) : bool :=
  String.eqb (t_id t) "" && String.eqb (t_parent t) "" && status_eqb (t_status t) SNone
  && nonempty (t_ref t) && nonempty (t_cur t)
  && (0 <=? t_prec t)%Z && Qle_bool 0 (t_amount t) && (0 <=? t_precise t)%Z
  && (Qeq_bool (t_amount t) 0 || (t_precise t =? 0)%Z)
  && Bool.eqb (String.eqb (t_src t) "") (has (t_sources t))
  && Bool.eqb (String.eqb (t_dst t) "") (has (t_dests t))
  && (String.eqb (t_src t) "" || negb (String.eqb (t_dst t) (t_src t)))
  && (String.eqb (t_src t) "" || forallb (fun d => negb (String.eqb (d_id d) (t_src t))) (t_dests t))
  && (String.eqb (t_dst t) "" || forallb (fun d => negb (String.eqb (d_id d) (t_dst t))) (t_sources t)).

Lemma status_eqb_eq a b : status_eqb a b = true <-> a = b.
Proof. destruct a, b; simpl; split; congruence. Qed.

Lemma has_iff {A} (l : list A) : has l = true <-> l <> [].
Proof. destruct l; simpl; split; congruence. Qed.

Lemma eqb_iff_spec a (b : bool) : Bool.eqb (String.eqb a "") b = true -> (a = EmptyString <-> b = true).
Proof. intros H. apply Bool.eqb_prop in H. rewrite <- H. symmetry. apply String.eqb_eq. Qed.

Lemma api_txnb_ok t : api_txnb t = true -> api_txn t.
Proof.
  unfold api_txnb, nonempty. intros H. repeat rewrite andb_true_iff in H.
  destruct H as [[[[[[[[[[[[[H1 H2] H3] H4] H5] H6] H7] H8] H9] H10] H11] H12] H13] H14].
  apply String.eqb_eq in H1, H2. apply status_eqb_eq in H3.
  apply negb_true_iff, String.eqb_neq in H4, H5. apply Z.leb_le in H6, H8. apply Qle_bool_imp_le in H7.
  apply orb_true_iff in H9, H12, H13, H14. apply eqb_iff_spec in H10, H11. rewrite has_iff in H10, H11.
  assert (Hf : forall l x, forallb (fun d => negb (String.eqb (d_id d) x)) l = true -> Forall (fun d => d_id d <> x) l).
  { intros l x Hl. apply Forall_forall. intros d Hd. rewrite forallb_forall in Hl. specialize (Hl d Hd).
    apply negb_true_iff, String.eqb_neq in Hl. exact Hl. }
  unfold api_txn. repeat (split; [solve [auto]|]).
  split. { destruct H9 as [H9|H9]; [left; apply Qeq_bool_eq; exact H9|right; apply Z.eqb_eq; exact H9]. }
  split; [exact H10|]. split; [exact H11|].
  split; [|split].
  - intros Hn. destruct H12 as [H12|H12]; [apply String.eqb_eq in H12; contradiction|].
    apply negb_true_iff, String.eqb_neq in H12. exact H12.
  - intros Hn. destruct H13 as [H|H]; [apply String.eqb_eq in H; contradiction|]. apply Hf; exact H.
  - intros Hn. destruct H14 as [H|H]; [apply String.eqb_eq in H; contradiction|]. apply Hf; exact H.
Qed.

Definition startable (r : request) : bool :=
  match r with
  | RJob _ | RWorker _ _ _ _ _ => false
  | RQueue _ t => api_txnb t
  | RBulk _ ts _ _ _ => forallb api_txnb ts
  | _ => true
  end.

Definition step1 (n : nat) (y : sys) : option sys :=
  match nth_error (y_thr y) n with
  | Some (Do o k) =>
    let '(s', x) := exec n o (y_st y) in
    Some {| y_st := s'; y_thr := set_nth n (k x) (y_thr y) |}
  | _ => None
  end.

Fixpoint run_thread (n k : nat) (y : sys) : sys :=
  match k with
  | O => y
  | S m => match step1 n y with Some y' => run_thread n m y' | None => y end
  end.

Definition add_thread (y : sys) (p : prog unit) : sys := {| y_st := y_st y; y_thr := y_thr y ++ [p] |}.

Fixpoint remove_nth {A} (i : nat) (l : list A) : list A :=
  match l, i with
  | [], _ => []
  | _ :: r, O => r
  | x :: r, S j => x :: remove_nth j r
  end.

(** [okb] decides which events are allowed. *)
Definition play1 (cfg : config) (okb : sys -> event -> bool) (c : cmd) (y : sys) : option sys :=
  match c with
  | CReq r => if startable r && okb y (EStart r) then Some (add_thread y (prog_of cfg r)) else None
  | CWork h s1 s2 r i =>
    match nth_error (s_queue (y_st y)) i with
    | Some t => if okb y (EStart (RWorker h s1 s2 r t)) then Some (add_thread y (prog_of cfg (RWorker h s1 s2 r t))) else None
    | None => None
    end
  | CJob i =>
    match nth_error (s_jobs (y_st y)) i with
    | Some j => if okb y (EStart (RJob j))
                then Some {| y_st := set_jobs (y_st y) (remove_nth i (s_jobs (y_st y)));
                             y_thr := y_thr y ++ [prog_of cfg (RJob j)] |}
                else None
    | None => None
    end
  | CRun n k => Some (run_thread n k y)
  | CKill n => if okb y (EKill n) then Some {| y_st := y_st y; y_thr := set_nth n (Ret tt) (y_thr y) |} else None
  | CExpire k => if okb y (EExpire k)
                 then Some {| y_st := set_locks (y_st y) (del_lock k (s_locks (y_st y))); y_thr := y_thr y |}
                 else None
  end.

Fixpoint play (cfg : config) (okb : sys -> event -> bool) (cs : list cmd) (y : sys) : option sys :=
  match cs with
  | [] => Some y
  | c :: r => match play1 cfg okb c y with Some y' => play cfg okb r y' | None => None end
  end.

Section Play.
Variables (cfg : config) (ok : sys -> event -> Prop) (okb : sys -> event -> bool).
Hypothesis okb_ok : forall y e, okb y e = true -> ok y e.
Hypothesis step_ok : forall y n, ok y (EStep n).

Lemma step1_step n y y' : step1 n y = Some y' -> step cfg y (EStep n) y'.
Proof.
  unfold step1. simpl. destruct (nth_error (y_thr y) n) as [[a|o k]|]; try discriminate.
  destruct (exec n o (y_st y)) as [s' x] eqn:E. intros H. inversion H. simpl. reflexivity.
Qed.

Lemma run_thread_steps y0 n k y : steps cfg ok y0 y -> steps cfg ok y0 (run_thread n k y).
Proof.
  revert y. induction k as [|m IH]; intros y H; simpl; auto.
  destruct (step1 n y) as [y'|] eqn:E; auto.
  apply IH. eapply steps_step; [exact H|apply step_ok|apply step1_step; exact E].
Qed.

Lemma nth_split {A} i (l : list A) a :
  nth_error l i = Some a -> exists l1 l2, l = l1 ++ a :: l2 /\ remove_nth i l = l1 ++ l2.
Proof.
  revert i. induction l as [|x r IH]; intros [|i] H; simpl in *; try discriminate.
  - inversion H; subst. exists [], r. auto.
  - destruct (IH i H) as (l1 & l2 & E1 & E2). exists (x :: l1), l2. simpl. rewrite E1 at 1. rewrite E2. auto.
Qed.

Lemma play1_steps y0 c y y' : steps cfg ok y0 y -> play1 cfg okb c y = Some y' -> steps cfg ok y0 y'.
Proof.
  intros Hs. destruct c as [r|h s1 s2 rt i|i|n k|n|k]; simpl.
  - destruct (startable r && okb y (EStart r)) eqn:E; [|discriminate]. intros H; inversion H; subst.
    apply andb_prop in E as [E1 E2].
    eapply steps_step; [exact Hs|apply okb_ok; exact E2|].
    destruct r; simpl in *; try discriminate; split; auto.
    + apply api_txnb_ok; exact E1.
    + apply Forall_forall. intros t Ht. rewrite forallb_forall in E1. apply api_txnb_ok; auto.
  - destruct (nth_error (s_queue (y_st y)) i) as [t|] eqn:En; [|discriminate].
    destruct (okb _ _) eqn:E; [|discriminate]. intros H; inversion H; subst.
    eapply steps_step; [exact Hs|apply okb_ok; exact E|]. simpl. split; [|reflexivity].
    eapply nth_error_In; exact En.
  - destruct (nth_error (s_jobs (y_st y)) i) as [j|] eqn:En; [|discriminate].
    destruct (okb _ _) eqn:E; [|discriminate]. intros H; inversion H; subst.
    eapply steps_step; [exact Hs|apply okb_ok; exact E|]. simpl.
    destruct (nth_split _ _ _ En) as (l1 & l2 & E1 & E2). exists l1, l2. rewrite E2. auto.
  - intros H; inversion H; subst. apply run_thread_steps; exact Hs.
  - destruct (okb _ _) eqn:E; [|discriminate]. intros H; inversion H; subst.
    eapply steps_step; [exact Hs|apply okb_ok; exact E|]. reflexivity.
  - destruct (okb _ _) eqn:E; [|discriminate]. intros H; inversion H; subst.
    eapply steps_step; [exact Hs|apply okb_ok; exact E|]. reflexivity.
Qed.

Lemma play_steps cs y0 y y' : steps cfg ok y0 y -> play cfg okb cs y = Some y' -> steps cfg ok y0 y'.
Proof.
  revert y. induction cs as [|c r IH]; intros y Hs; simpl; [intros H; inversion H; subst; exact Hs|].
  destruct (play1 cfg okb c y) as [y1|] eqn:E; [|discriminate]. apply IH. eapply play1_steps; eauto.
Qed.
End Play.

(** Only the state of the final system (programs do not print). *)
Definition played (cfg : config) okb cs u : option state :=
  match play cfg okb cs (init_sys u) with Some y => Some (y_st y) | None => None end.

Lemma played_steps cfg (ok : sys -> event -> Prop) okb cs u s :
  (forall y e, okb y e = true -> ok y e) -> (forall y n, ok y (EStep n)) ->
  played cfg okb cs u = Some s -> exists y, steps cfg ok (init_sys u) y /\ y_st y = s.
Proof.
  intros H1 H2. unfold played. destruct (play cfg okb cs (init_sys u)) as [y|] eqn:E; [|discriminate].
  intros H; inversion H; subst. exists y. split; auto.
  eapply play_steps; eauto. apply steps_refl.
Qed.

(** UUIDs of the examples: "0", "1", ... *)
Definition uuids : nat -> string := nat_str.

Definition cfg0 : config :=
  {| c_queued := false; c_lock_attempts := 0; c_coalesce := true; c_refcheck := true;
     c_funds_retry := true; c_reject_lock := false; c_max_retry := 3 |}.

(** A client transaction of [p] minor units with precision 100. *)
Definition ctxn (src dst ref : string) (p : Z) (infl allow skipq : bool) : txn :=
  {| t_id := ""; t_parent := ""; t_src := src; t_dst := dst; t_ref := ref; t_cur := "USD";
     t_status := SNone; t_precise := p; t_amount := 0; t_prec := 100; t_inflight := infl;
     t_allow := allow; t_limit := 0; t_skipq := skipq; t_atomic := false; t_sched := false;
     t_meta := meta0; t_sources := []; t_dests := [] |}.

Definition env0 : split_env := {| se_q := fun m => m; se_z := fun m => m; se_l := fun m => m |}.
Definition all_ok (y : sys) (e : event) : bool := true.
Definition no_sel (sc : scope) : list string := [].

Lemma played_witness cfg (ok : sys -> event -> Prop) okb cs u (check : state -> bool) (P : state -> Prop) :
  (forall y e, okb y e = true -> ok y e) -> (forall y n, ok y (EStep n)) ->
  (forall s, check s = true -> P s) ->
  match played cfg okb cs u with Some s => check s | None => false end = true ->
  exists y, steps cfg ok (init_sys u) y /\ P (y_st y).
Proof.
  intros H1 H2 H3 H. destruct (played cfg okb cs u) as [s|] eqn:E; [|discriminate].
  destruct (played_steps cfg ok okb cs u s H1 H2 E) as (y & Hy & <-). eauto.
Qed.

(** A request run to completion as thread [n]. *)
Definition whole (n : nat) (r : request) : list cmd := [CReq r; CRun n 400].
Definition deliver (n i : nat) : list cmd := [CWork false no_sel no_sel 0 i; CRun n 400].
Definition background (n i : nat) : list cmd := [CJob i; CRun n 400].
Definition with_meta (t : txn) (m : meta) : txn :=
  with_flags t (t_inflight t) (t_allow t) (t_skipq t) (t_atomic t) m.
