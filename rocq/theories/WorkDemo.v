(** Concrete histories of queued transactions: settled by workers and recovery, and
    the ones nobody settles. *)
From Coq Require Import ZArith QArith List String Bool Lia.
From Verif Require Import Base SplitModel BalanceModel LedgerModel LedgerProgs ConcModel LedgerSpec LedgerSafe LedgerThms
  ProvSpec HoldSpec LedgerRefute Sched Demo TidyDemo ProvThms WorkModel WorkSpec WorkProof.
Import ListNotations.
Local Open Scope string_scope.
Open Scope list_scope.
Open Scope Z_scope.

Definition find_ref (ref : string) (s : state) : option row :=
  find (fun r => String.eqb (t_ref (r_t r)) ref) (s_txns s).
Lemma find_ref_ok ref s r : find_ref ref s = Some r -> In r (s_txns s) /\ t_ref (r_t r) = ref.
Proof. intros H. apply find_some in H as [H1 H2]. split; [exact H1|apply String.eqb_eq; exact H2]. Qed.
Lemma careful_plain cfg y y' : steps cfg careful y y' -> steps cfg no_recon_flag y y'.
Proof. apply steps_mono. unfold careful. tauto. Qed.

(** ** The reference of the outcome is taken *)
Definition squat_cmds : list cmd :=
  (whole 0 (RQueue env0 (ctxn "@bank" "@ann" "fund" 500 false true true)) ++
   whole 1 (RQueue env0 (ctxn "@ann" "@bob" "a_q" 10 false false true)) ++
   whole 2 (RQueue env0 (ctxn "@ann" "@bob" "a" 100 false false false)) ++
   background 3 0 ++ deliver 4 0)%list.
Lemma squatted :
  exists y o, steps cfg0 careful (init_sys uuids) y /\ In o (s_txns (y_st y)) /\ t_status (r_t o) = SQueued /\ amount o = 100
    /\ forall y', steps cfg0 no_recon_flag y y' -> forall r, In r (s_txns (y_st y')) -> ~ outcome_of o r.
Proof.
  pose (P := fun s => exists o x, In o (s_txns s) /\ In x (s_txns s) /\ t_ref (r_t o) = "a" /\ t_ref (r_t x) = "a_q"
    /\ t_status (r_t o) = SQueued /\ amount o = 100 /\ t_parent (r_t x) = "" /\ t_id (r_t o) <> "").
  assert (H : exists y, steps cfg0 careful (init_sys uuids) y /\ P (y_st y)).
  { apply (witness squat_cmds (fun s => match find_ref "a" s, find_ref "a_q" s with
      | Some o, Some x => status_eqb (t_status (r_t o)) SQueued && (amount o =? 100) && String.eqb (t_parent (r_t x)) ""
                          && negb (String.eqb (t_id (r_t o)) "")
      | _, _ => false end) P).
    - intros s. destruct (find_ref "a" s) as [o|] eqn:E1; [|discriminate]. destruct (find_ref "a_q" s) as [x|] eqn:E2; [|discriminate].
      intros H. repeat rewrite andb_true_iff in H. destruct H as [[[H1 H2] H3] H4].
      apply find_ref_ok in E1 as [I1 R1]. apply find_ref_ok in E2 as [I2 R2]. exists o, x.
      repeat split; auto; [destruct (t_status (r_t o)); try discriminate; reflexivity|apply Z.eqb_eq; exact H2|apply String.eqb_eq; exact H3|].
      intros E. rewrite E in H4. discriminate.
    - vm_compute. reflexivity. }
  destruct H as (y & Hy & o & x & I1 & I2 & R1 & R2 & Hq & Ha & Hp & Hi). exists y, o.
  split; [exact Hy|]. split; [exact I1|]. split; [exact Hq|]. split; [exact Ha|].
  intros y' Hy'. eapply (squatted_forever cfg0 uuids y uuids_distinct (careful_plain _ _ _ Hy) o x); auto.
  - left. exact Hq.
  - rewrite R1, R2. reflexivity.
  - intros [C _]. unfold child_of in C. congruence.
Qed.

(** ** A scheduled transaction whose task was never put in the queue *)
Definition sched_txn : txn :=
  {| t_id := ""; t_parent := ""; t_src := "@ann"; t_dst := "@bob"; t_ref := "later"; t_cur := "USD";
     t_status := SNone; t_precise := 100; t_amount := 0; t_prec := 100; t_inflight := false;
     t_allow := true; t_limit := 0; t_skipq := false; t_atomic := false; t_sched := true;
     t_meta := meta0; t_sources := []; t_dests := [] |}.
Definition lost_cmds : list cmd :=
  (whole 0 (RQueue env0 sched_txn) ++ [CJob 0; CRun 1 10; CKill 1])%list.

Lemma run_during n {A} (p : prog A) : forall s s' a, run n p s = (s', a) -> during n p s a s'.
Proof.
  induction p as [b|o k IH]; simpl; intros s s' a H; [inversion H; subst; split; [apply o_none|reflexivity]|].
  exists s. split; [apply o_none|]. destruct (exec n o s) as [s1 x] eqn:E. simpl. apply IH. exact H.
Qed.

Lemma scheduled_lost :
  exists y o, steps cfg0 careful (init_sys uuids) y /\ s_txns (y_st y) = [o] /\ t_status (r_t o) = SScheduled
    /\ t_ref (r_t o) = "later" /\ s_queue (y_st y) = [] /\ s_jobs (y_st y) = []
    /\ forall n cfg hot sel ex skip, run n (recover cfg hot sel ex skip (t_id (r_t o))) (y_st y) = (y_st y, Ok tt).
Proof.
  pose (P := fun s => exists o, s_txns s = [o] /\ t_status (r_t o) = SScheduled
    /\ t_ref (r_t o) = "later" /\ s_queue s = [] /\ s_jobs s = []).
  assert (H : exists y, steps cfg0 careful (init_sys uuids) y /\ P (y_st y)).
  { apply (witness lost_cmds (fun s => match s_txns s, s_queue s, s_jobs s with
      | [o], [], [] => status_eqb (t_status (r_t o)) SScheduled && String.eqb (t_ref (r_t o)) "later"
      | _, _, _ => false end) P).
    - intros s H. unfold P. destruct (s_txns s) as [|o [|]]; try discriminate. destruct (s_queue s); [|discriminate].
      destruct (s_jobs s); [|discriminate]. apply andb_prop in H as [H1 H2]. exists o.
      repeat split; [destruct (t_status (r_t o)); try discriminate; reflexivity|apply String.eqb_eq; exact H2].
    - vm_compute. reflexivity. }
  destruct H as (y & Hy & o & E1 & E2 & E3 & E4 & E5). exists y, o. repeat split; auto.
  intros n cfg hot sel ex skip. unfold recover. simpl. rewrite E1. simpl. rewrite String.eqb_refl. simpl. unfold is_stuck. rewrite E2. reflexivity.
Qed.

(** ** A transaction accepted and lost before anything was recorded *)
Definition accept_txn : txn := ctxn "@ann" "@bob" "a" 100 false true false.
Definition vanish_cmds : list cmd := (whole 0 (RQueue env0 accept_txn) ++ [CJob 0; CKill 1])%list.
Definition accepted : option txn :=
  match snd (run 0 (queue_transaction cfg0 env0 accept_txn) (init_state uuids)) with Ok t => Some t | Err _ => None end.
Lemma vanished :
  (exists t, snd (run 0 (queue_transaction cfg0 env0 accept_txn) (init_state uuids)) = Ok t /\ t_status t = SQueued /\ t_ref t = "a")
  /\ exists y, steps cfg0 careful (init_sys uuids) y
    /\ s_ctr (y_st y) = s_ctr (fst (run 0 (queue_transaction cfg0 env0 accept_txn) (init_state uuids)))
    /\ s_txns (y_st y) = [] /\ s_queue (y_st y) = [] /\ s_jobs (y_st y) = [].
Proof.
  split.
  - assert (H : match accepted with Some t => status_eqb (t_status t) SQueued && String.eqb (t_ref t) "a" | None => false end = true)
      by (vm_compute; reflexivity).
    unfold accepted in H. destruct (snd (run 0 (queue_transaction cfg0 env0 accept_txn) (init_state uuids))) as [t|e]; [|discriminate].
    apply andb_prop in H as [H1 H2]. exists t. split; [reflexivity|].
    split; [destruct (t_status t); try discriminate; reflexivity|apply String.eqb_eq; exact H2].
  - apply (witness vanish_cmds (fun s => match s_txns s, s_queue s, s_jobs s with
      | [], [], [] => Nat.eqb (s_ctr s) (s_ctr (fst (run 0 (queue_transaction cfg0 env0 accept_txn) (init_state uuids))))
      | _, _, _ => false end)
      (fun s => s_ctr s = s_ctr (fst (run 0 (queue_transaction cfg0 env0 accept_txn) (init_state uuids)))
        /\ s_txns s = [] /\ s_queue s = [] /\ s_jobs s = [])).
    + intros s H. destruct (s_txns s); [|discriminate]. destruct (s_queue s); [|discriminate].
      destruct (s_jobs s); [|discriminate]. apply Nat.eqb_eq in H. auto.
    + vm_compute. reflexivity.
Qed.

(** ** Recovery at work: no money, so the third pass rejects *)
Definition poor_cmds : list cmd :=
  (whole 0 (RQueue env0 (ctxn "@ann" "@bob" "p" 100 false false false)) ++ background 1 0)%list.
Definition pass_run (n : nat) (id : string) (a : Z) (s : state) : state * (Z * res unit) :=
  run n (recovery_pass cfg0 false no_sel 2 false id a) s.
Definition three (id : string) (s : state) : state :=
  fst (pass_run 4 id 2 (fst (pass_run 3 id 1 (fst (pass_run 2 id 0 s))))).
Definition good_pass (a : Z) (x : state * (Z * res unit)) : bool :=
  match snd x with (b, r) => (b =? a) && match r with Err EDupId => false | _ => true end end.
Definition threeb (id : string) (s : state) : bool :=
  good_pass 1 (pass_run 2 id 0 s) && good_pass 2 (pass_run 3 id 1 (fst (pass_run 2 id 0 s)))
  && good_pass 3 (pass_run 4 id 2 (fst (pass_run 3 id 1 (fst (pass_run 2 id 0 s))))).
Lemma good_pass_ok n id a b s : good_pass b (pass_run n id a s) = true ->
  exists r, r <> Err EDupId /\ during n (recovery_pass cfg0 false no_sel 2 false id a) s (b, r) (fst (pass_run n id a s)).
Proof.
  unfold good_pass. destruct (pass_run n id a s) as [s' [b' r]] eqn:E. cbn [fst snd]. intros H. apply andb_prop in H as [H1 H2].
  apply Z.eqb_eq in H1. subst b'. exists r. split; [intros ->; discriminate|]. apply run_during. exact E.
Qed.
Lemma three_passes id s : threeb id s = true -> passes cfg0 2 id 3 0 s (three id s).
Proof.
  unfold threeb. intros H. repeat rewrite andb_true_iff in H. destruct H as [[H1 H2] H3].
  apply good_pass_ok in H1 as (r1 & N1 & D1). apply good_pass_ok in H2 as (r2 & N2 & D2). apply good_pass_ok in H3 as (r3 & N3 & D3).
  eapply p_pass; [apply o_none|exact D1|exact N1|]. eapply p_pass; [apply o_none|exact D2|exact N2|].
  eapply p_pass; [apply o_none|exact D3|exact N3|]. apply p_none.
Qed.
Lemma recovery_rejects :
  exists y o, steps cfg0 careful (init_sys uuids) y /\ In o (s_txns (y_st y)) /\ t_status (r_t o) = SQueued
    /\ exists s', passes cfg0 2 (t_id (r_t o)) 3 0 (y_st y) s'
    /\ exists r, In r (s_txns s') /\ outcome_of o r /\ t_status (r_t r) = SRejected.
Proof.
  pose (P := fun s => exists o, In o (s_txns s) /\ t_status (r_t o) = SQueued
    /\ exists s', passes cfg0 2 (t_id (r_t o)) 3 0 s s'
    /\ exists r, In r (s_txns s') /\ outcome_of o r /\ t_status (r_t r) = SRejected).
  assert (H : exists y, steps cfg0 careful (init_sys uuids) y /\ P (y_st y)).
  { apply (witness poor_cmds (fun s => match find_ref "p" s with
      | Some o => status_eqb (t_status (r_t o)) SQueued && threeb (t_id (r_t o)) s &&
                  match find_ref "p_q" (three (t_id (r_t o)) s) with
                  | Some r => status_eqb (t_status (r_t r)) SRejected && String.eqb (t_parent (r_t r)) (t_id (r_t o))
                  | None => false end
      | None => false end) P).
    - intros s. destruct (find_ref "p" s) as [o|] eqn:E1; [|discriminate]. intros H.
      repeat rewrite andb_true_iff in H. destruct H as [[H1 H2] H3].
      apply find_ref_ok in E1 as [I1 R1]. exists o. split; [exact I1|].
      split; [destruct (t_status (r_t o)); try discriminate; reflexivity|]. exists (three (t_id (r_t o)) s).
      split; [apply three_passes; exact H2|]. destruct (find_ref "p_q" (three (t_id (r_t o)) s)) as [r|] eqn:E2; [|discriminate].
      apply andb_prop in H3 as [H3 H4]. apply find_ref_ok in E2 as [I2 R2]. exists r. split; [exact I2|].
      assert (t_status (r_t r) = SRejected) by (destruct (t_status (r_t r)); try discriminate; reflexivity).
      split; [split; [apply String.eqb_eq; exact H4|right; assumption]|assumption].
    - vm_compute. reflexivity. }
  destruct H as (y & Hy & o & H1 & H2 & H3). exists y, o. auto.
Qed.

(** ** The worker at work *)
Definition cfgneg : config :=
  {| c_queued := false; c_lock_attempts := 0; c_coalesce := true; c_refcheck := true;
     c_funds_retry := true; c_reject_lock := false; c_max_retry := -1 |}.
Definition work_at (cfg : config) (retry : Z) (s : state) : option (txn * (state * verdict)) :=
  match s_queue s with t :: _ => Some (t, run 7 (worker cfg false no_sel no_sel retry t) s) | [] => None end.
Definition verdict_is (v v' : verdict) : bool :=
  match v, v' with VDone, VDone | VReject, VReject | VRetry, VRetry => true | _, _ => false end.

(** The same poor transaction: retried while retries are left, rejected at the limit. *)
Lemma worker_examples :
  exists y t, steps cfg0 careful (init_sys uuids) y /\ In t (s_queue (y_st y))
    /\ (exists s', during 7 (worker cfg0 false no_sel no_sel 0 t) (y_st y) VRetry s' /\ asynq (c_max_retry cfg0) 0 VRetry = Again 1)
    /\ (exists s', during 7 (worker cfg0 false no_sel no_sel 3 t) (y_st y) VReject s' /\ rejected t s').
Proof.
  pose (P := fun s => exists t, In t (s_queue s)
    /\ (exists s', during 7 (worker cfg0 false no_sel no_sel 0 t) s VRetry s' /\ asynq (c_max_retry cfg0) 0 VRetry = Again 1)
    /\ (exists s', during 7 (worker cfg0 false no_sel no_sel 3 t) s VReject s' /\ rejected t s')).
  assert (H : exists y, steps cfg0 careful (init_sys uuids) y /\ P (y_st y)).
  { apply (witness poor_cmds (fun s => match s_queue s with
      | t :: _ => verdict_is (snd (run 7 (worker cfg0 false no_sel no_sel 0 t) s)) VRetry
                  && verdict_is (snd (run 7 (worker cfg0 false no_sel no_sel 3 t) s)) VReject
                  && status_eqb (t_status t) SQueued
      | [] => false end) P).
    - intros s. destruct (s_queue s) as [|t l] eqn:E; [discriminate|]. intros H. repeat rewrite andb_true_iff in H.
      destruct H as [[H1 H2] H3]. exists t. split; [rewrite E; left; reflexivity|].
      destruct (run 7 (worker cfg0 false no_sel no_sel 0 t) s) as [s1 v1] eqn:R1.
      destruct (run 7 (worker cfg0 false no_sel no_sel 3 t) s) as [s2 v2] eqn:R2. simpl in H1, H2.
      destruct v1; try discriminate. destruct v2; try discriminate. apply run_during in R1. apply run_during in R2.
      split; [exists s1; split; [exact R1|reflexivity]|]. exists s2. split; [exact R2|].
      refine (worker_does _ _ _ _ _ _ _ _ _ _ _ R2). left. destruct (t_status t); try discriminate; reflexivity.
    - vm_compute. reflexivity. }
  destruct H as (y & Hy & t & H1 & H2 & H3). exists y, t. auto.
Qed.

(** With a negative retry limit the first failure archives the task, nothing recorded. *)
Lemma negative_limit :
  exists cfg y t s', steps cfg no_expiry (init_sys uuids) y /\ In t (s_queue (y_st y))
    /\ during 7 (worker cfg false no_sel no_sel 0 t) (y_st y) VRetry s'
    /\ asynq (c_max_retry cfg) 0 VRetry = Archived
    /\ ~ posted t s' /\ ~ rejected t s' /\ ~ used (t_ref t) s'.
Proof.
  exists cfgneg.
  pose (P := fun s => exists t s', In t (s_queue s)
    /\ during 7 (worker cfgneg false no_sel no_sel 0 t) s VRetry s' /\ ~ used (t_ref t) s').
  assert (H : exists y, steps cfgneg no_expiry (init_sys uuids) y /\ P (y_st y)).
  { apply (played_witness cfgneg no_expiry no_expiryb poor_cmds uuids (fun s => match s_queue s with
      | t :: _ => verdict_is (snd (run 7 (worker cfgneg false no_sel no_sel 0 t) s)) VRetry
                  && negb (existsb (fun r => String.eqb (t_ref (r_t r)) (t_ref t)) (s_txns (fst (run 7 (worker cfgneg false no_sel no_sel 0 t) s))))
      | [] => false end) P).
    - exact no_expiryb_ok.
    - exact no_expiry_step.
    - intros s. destruct (s_queue s) as [|t l] eqn:E; [discriminate|]. intros H. apply andb_prop in H as [H1 H2].
      exists t. destruct (run 7 (worker cfgneg false no_sel no_sel 0 t) s) as [s1 v1] eqn:R1. simpl in H1, H2.
      destruct v1; try discriminate. exists s1. split; [rewrite E; left; reflexivity|]. split; [apply run_during; exact R1|].
      intros (r & Hr & Er). apply negb_true_iff in H2. assert (X : existsb (fun r => String.eqb (t_ref (r_t r)) (t_ref t)) (s_txns s1) = true).
      { apply existsb_exists. exists r. split; [exact Hr|]. rewrite Er. apply String.eqb_refl. }
      congruence.
    - vm_compute. reflexivity. }
  destruct H as (y & Hy & t & s' & H1 & H2 & H3). exists y, t, s'. split; [exact Hy|]. split; [exact H1|]. split; [exact H2|].
  split; [reflexivity|]. repeat split; [intros (r & Hr & _ & E & _)|intros (r & Hr & _ & E & _)|exact H3]; apply H3; exists r; auto.
Qed.

(** The acknowledged task may never have been posted: its reference belongs to
    someone else's transaction. *)
Lemma foreign_ack :
  exists y t s' o, steps cfg0 careful (init_sys uuids) y /\ In t (s_queue (y_st y))
    /\ during 7 (worker cfg0 false no_sel no_sel 0 t) (y_st y) VDone s'
    /\ In o (s_txns (y_st y)) /\ t_status (r_t o) = SQueued /\ t_parent t = t_id (r_t o)
    /\ forall r, In r (s_txns s') -> ~ outcome_of o r.
Proof.
  pose (P := fun s => exists t s' o, In t (s_queue s)
    /\ during 7 (worker cfg0 false no_sel no_sel 0 t) s VDone s'
    /\ In o (s_txns s) /\ t_status (r_t o) = SQueued /\ t_parent t = t_id (r_t o)
    /\ forall r, In r (s_txns s') -> ~ outcome_of o r).
  assert (H : exists y, steps cfg0 careful (init_sys uuids) y /\ P (y_st y)).
  { apply (witness squat_cmds (fun s => match s_queue s, find_ref "a" s with
      | t :: _, Some o => verdict_is (snd (run 7 (worker cfg0 false no_sel no_sel 0 t) s)) VDone
                  && status_eqb (t_status (r_t o)) SQueued && String.eqb (t_parent t) (t_id (r_t o))
                  && forallb (fun r => negb (String.eqb (t_parent (r_t r)) (t_id (r_t o)))) (s_txns (fst (run 7 (worker cfg0 false no_sel no_sel 0 t) s)))
      | _, _ => false end) P).
    - intros s. destruct (s_queue s) as [|t l] eqn:E; [discriminate|]. destruct (find_ref "a" s) as [o|] eqn:E1; [|discriminate].
      intros H. repeat rewrite andb_true_iff in H. destruct H as [[[H1 H2] H3] H4]. rewrite forallb_forall in H4.
      apply find_ref_ok in E1 as [I1 _]. destruct (run 7 (worker cfg0 false no_sel no_sel 0 t) s) as [s1 v1] eqn:R1. simpl in H1, H4.
      destruct v1; try discriminate. exists t, s1, o. split; [rewrite E; left; reflexivity|]. split; [apply run_during; exact R1|].
      split; [exact I1|]. split; [destruct (t_status (r_t o)); try discriminate; reflexivity|].
      split; [apply String.eqb_eq; exact H3|]. intros r Hr [C _]. specialize (H4 r Hr). unfold child_of in C. rewrite C, String.eqb_refl in H4. discriminate.
    - vm_compute. reflexivity. }
  destruct H as (y & Hy & t & s' & o & H). exists y, t, s', o. split; [exact Hy|exact H].
Qed.
