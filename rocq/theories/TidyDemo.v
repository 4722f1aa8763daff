(** A concrete well-behaved history for the examples about holds, queued
    transactions and refunds, and the refutations of stronger claims about them. *)
From Coq Require Import ZArith QArith List String Bool Lia Decimal DecimalNat DecimalString.
From Verif Require Import Base SplitModel BalanceModel LedgerModel LedgerProgs ConcModel LedgerSpec
  BudgetSpec LedgerInv LedgerSafe LedgerThms LedgerRefute ProvSpec HoldSpec Sched PostSpec PostProof Demo.
Import ListNotations.
Local Open Scope string_scope.
Open Scope list_scope.
Open Scope Z_scope.

Lemma uuids_distinct : distinct_uuids uuids.
Proof.
  intros i j H. unfold uuids, nat_str in H.
  assert (E : Some (Nat.to_uint i) = Some (Nat.to_uint j)).
  { rewrite <- (NilZero.usu (Nat.to_uint i)), <- (NilZero.usu (Nat.to_uint j)), H; auto;
      intros E; pose proof (f_equal Nat.of_uint E) as E0; rewrite DecimalNat.Unsigned.of_to in E0; rewrite E0 in E; discriminate E. }
  inversion E as [E']. apply DecimalNat.Unsigned.to_uint_inj. exact E'.
Qed.

Definition plainb (m : meta) : bool := negb (m_inflight m) && negb (m_allow m).
Lemma plainb_ok m : plainb m = true -> plain_meta m.
Proof. unfold plainb, plain_meta. destruct (m_inflight m), (m_allow m); simpl; intros; split; congruence. Qed.

Definition carefulb (y : sys) (e : event) : bool :=
  match e with
  | EExpire k => match lock_owner k (s_locks (y_st y)) with
                 | Some n => match nth_error (y_thr y) n with Some (Ret _) | None => true | _ => false end
                 | None => true
                 end
  | EStart (RBalance _ _ recon _) => negb recon
  | EStart (RQueue _ t) => plainb (t_meta t)
  | EStart (RBulk _ ts _ _ _) => forallb (fun t => plainb (t_meta t)) ts
  | EStart (RRefund _ _ _) => false
  | EStart (RSetMeta _ _) => false
  | _ => true
  end.
Lemma carefulb_ok y e : carefulb y e = true -> careful y e.
Proof.
  intros H. split; [|split].
  - destruct e as [r| | |]; simpl; auto. destruct r; simpl in *; auto. destruct recon; auto; discriminate.
  - destruct e as [r| | |k]; simpl in *; auto. destruct (lock_owner k (s_locks (y_st y))) as [n|]; auto.
    destruct (nth_error (y_thr y) n) as [[[]|]|]; auto; discriminate.
  - destruct e as [r| | |k]; simpl in *; auto. destruct r; simpl in *; auto; try discriminate.
    + apply plainb_ok; exact H.
    + apply Forall_forall. intros t Ht. rewrite forallb_forall in H. apply plainb_ok; auto.
Qed.
Lemma careful_step y n : careful y (EStep n).
Proof. repeat split. Qed.

Definition tidy : list cmd :=
  (whole 0 (RBalance "@ann" "USD" false true) ++
   whole 1 (RQueue env0 (ctxn "@bank" "@ann" "fund" 50000 false true true)) ++
   whole 2 (RQueue env0 (ctxn "@ann" "@bob" "hold" 3000 true false true)) ++
   whole 3 (RCommit "txn_3" 1000 "") ++
   [CReq (RVoid "txn_3" ""); CReq (RVoid "txn_3" ""); CRun 4 4; CRun 5 9; CRun 4 400] ++
   whole 6 (RQueue env0 (ctxn "@ann" "@bob" "q1" 700 false false false)) ++
   background 7 0 ++ deliver 8 0 ++ deliver 9 0 ++
   whole 10 (RQueue env0 (ctxn "@ann" "@bob" "q2" 9 true false false)) ++
   background 11 0 ++ deliver 12 0 ++
   whole 13 (RQueue env0 (ctxn "@cat" "@bob" "q3" 50 false false false)) ++
   background 14 0 ++
   [CWork false no_sel no_sel 3 0; CRun 15 400] ++
   whole 16 (RRefundBatch "txn_9" true) ++
   whole 17 (RQueue env0 (ctxn "@ann" "@bob" "q4" 80 false false false)) ++
   background 18 0 ++ deliver 19 0 ++
   whole 20 (RRefundBatch "txn_17" false) ++
   background 21 0 ++ deliver 22 0 ++
   whole 23 (RRefundBatch "txn_17" false))%list.

Definition tidy_journal : list (string * string * string * status * Z) :=
  [("txn_20", "txn_19", "txn_18_refund_q", SApplied, 80);
   ("txn_19", "txn_18", "txn_18_refund", SQueued, 80);
   ("txn_18", "txn_17", "q4_q", SApplied, 80);
   ("txn_17", "", "q4", SQueued, 80);
   ("txn_16", "txn_10", "txn_10_refund", SApplied, 700);
   ("txn_15", "txn_13", "q3_q", SRejected, 50);
   ("txn_13", "", "q3", SQueued, 50);
   ("txn_12", "txn_11", "q2_q", SInflight, 9);
   ("txn_11", "", "q2", SQueued, 9);
   ("txn_10", "txn_9", "q1_q", SApplied, 700);
   ("txn_9", "", "q1", SQueued, 700);
   ("txn_7", "txn_3", "ref_8", SVoid, 2000);
   ("txn_5", "txn_3", "ref_6", SApplied, 1000);
   ("txn_3", "", "hold", SInflight, 3000);
   ("txn_1", "", "fund", SApplied, 50000)].


Definition tidy_balances : list (string * (Z * Z * Z) * (Z * Z)) :=
  [("@cat", (0, 0, 0), (0, 0)); ("@bob", (1000, 1780, 780), (9, 0));
   ("@bank", (-50000, 0, 50000), (0, 0)); ("@ann", (49000, 50780, 1780), (0, 9))].

Definition opt_check {A} (f : A -> bool) (o : option A) : bool := match o with Some a => f a | None => false end.

Lemma witness cs (check : state -> bool) (P : state -> Prop) :
  (forall s, check s = true -> P s) -> opt_check check (played cfg0 carefulb cs uuids) = true ->
  exists y, steps cfg0 careful (init_sys uuids) y /\ P (y_st y).
Proof.
  intros H1 H2.
  exact (played_witness cfg0 careful carefulb cs uuids check P carefulb_ok careful_step H1 H2).
Qed.

Lemma tidy_reached :
  exists y, steps cfg0 careful (init_sys uuids) y
    /\ journal_view (y_st y) = tidy_journal /\ balance_view (y_st y) = tidy_balances.
Proof.
  destruct (played cfg0 carefulb tidy uuids) as [s|] eqn:E; [|vm_compute in E; discriminate].
  destruct (played_steps cfg0 careful carefulb tidy uuids s carefulb_ok careful_step E) as (y & Hy & Hs).
  exists y. split; [exact Hy|]. rewrite Hs.
  assert (H : option_map journal_view (played cfg0 carefulb tidy uuids) = Some tidy_journal
           /\ option_map balance_view (played cfg0 carefulb tidy uuids) = Some tidy_balances)
    by (vm_compute; auto).
  rewrite E in H. simpl in H. destruct H as [H1 H2]. split; congruence.
Qed.

(** The journal of [tidy] has no negative queued row; one hold was committed in part
    and voided; three queued transactions were posted or rejected; one was refunded
    directly and one through the queue. *)
Definition neg_queuedb (j : list row) : bool :=
  existsb (fun r => status_eqb (t_status (r_t r)) SQueued && (amount r <? 0)) j.
Lemma neg_queuedb_ok j : neg_queuedb j = false -> ~ negative_queued j.
Proof.
  intros H (r & Hr & E & Hn). assert (T : neg_queuedb j = true).
  { apply existsb_exists. exists r. split; [exact Hr|]. rewrite E. simpl. apply Z.ltb_lt. exact Hn. }
  congruence.
Qed.

Lemma tidy_no_negative :
  exists y, steps cfg0 careful (init_sys uuids) y /\
    (~ negative_queued (s_txns (y_st y)) /\ (4 <= List.length (s_bals (y_st y)))%nat).
Proof.
  apply (witness tidy (fun s => negb (neg_queuedb (s_txns s)) && Nat.leb 4 (List.length (s_bals s)))
    (fun s => ~ negative_queued (s_txns s) /\ (4 <= List.length (s_bals s))%nat)).
  - intros s H. apply andb_prop in H as [H1 H2]. split; [apply neg_queuedb_ok, negb_true_iff, H1|apply Nat.leb_le; exact H2].
  - vm_compute. reflexivity.
Qed.

Lemma frugal_reached :
  exists y, steps cfg0 careful (init_sys uuids) y /\
    exists b, In b (s_bals (y_st y)) /\ ~ negative_queued (s_txns (y_st y))
      /\ overdraft_at_most (b_id b) 0 (s_txns (y_st y)) /\ b_bal b - b_idb b = 50.
Proof.
  apply (witness frugal (fun s => existsb (fun b => negb (neg_queuedb (s_txns s))
      && never_overdraft (b_id b) (s_txns s) && (b_bal b - b_idb b =? 50)) (s_bals s))
    (fun s => exists b, In b (s_bals s) /\ ~ negative_queued (s_txns s)
      /\ overdraft_at_most (b_id b) 0 (s_txns s) /\ b_bal b - b_idb b = 50)).
  - intros s H. apply existsb_exists in H as (b & Hb & H). apply andb_prop in H as [H H3]. apply andb_prop in H as [H1 H2].
    exists b. split; [exact Hb|]. split; [apply neg_queuedb_ok, negb_true_iff, H1|].
    split; [apply never_overdraft_ok; exact H2|apply Z.eqb_eq; exact H3].
  - vm_compute. reflexivity.
Qed.

Lemma tidy_hold :
  exists y, steps cfg0 careful (init_sys uuids) y /\
    exists h v, In h (s_txns (y_st y)) /\ t_status (r_t h) = SInflight
      /\ committed (t_id (r_t h)) (s_txns (y_st y)) = 1000
      /\ voided (t_id (r_t h)) (s_txns (y_st y)) = 2000 /\ amount h = 3000
      /\ In v (s_txns (y_st y)) /\ r_kind v = KVoid /\ t_parent (r_t v) = t_id (r_t h).
Proof.
  apply (witness tidy (fun s => existsb (fun h => existsb (fun v => status_eqb (t_status (r_t h)) SInflight
      && (committed (t_id (r_t h)) (s_txns s) =? 1000) && (voided (t_id (r_t h)) (s_txns s) =? 2000) && (amount h =? 3000)
      && match r_kind v with KVoid => true | _ => false end && String.eqb (t_parent (r_t v)) (t_id (r_t h))) (s_txns s)) (s_txns s))
    (fun s => exists h v, In h (s_txns s) /\ t_status (r_t h) = SInflight
      /\ committed (t_id (r_t h)) (s_txns s) = 1000
      /\ voided (t_id (r_t h)) (s_txns s) = 2000 /\ amount h = 3000
      /\ In v (s_txns s) /\ r_kind v = KVoid /\ t_parent (r_t v) = t_id (r_t h))).
  - intros s H. apply existsb_exists in H as (h & Hh & H). apply existsb_exists in H as (v & Hv & H).
    repeat rewrite andb_true_iff in H. destruct H as [[[[[H1 H2] H3] H4] H5] H6].
    exists h, v. split; [exact Hh|]. split; [apply status_eqb_eq; exact H1|]. split; [apply Z.eqb_eq; exact H2|].
    split; [apply Z.eqb_eq; exact H3|]. split; [apply Z.eqb_eq; exact H4|]. split; [exact Hv|].
    split; [destruct (r_kind v); congruence|apply String.eqb_eq; exact H6].
  - vm_compute. reflexivity.
Qed.

Definition full_run : list cmd :=
  (whole 0 (RQueue env0 (ctxn "@bank" "@ann" "fund" 50000 false true true)) ++
   whole 1 (RQueue env0 (ctxn "@ann" "@bob" "hold" 3000 true false true)) ++
   whole 2 (RCommit "txn_3" 1000 "") ++ whole 3 (RCommit "txn_3" 0 "") ++
   whole 4 (RCommit "txn_3" 1 "") ++ whole 5 (RVoid "txn_3" ""))%list.

Lemma full_hold :
  exists y, steps cfg0 careful (init_sys uuids) y /\
    exists h, In h (s_txns (y_st y)) /\ t_status (r_t h) = SInflight
      /\ committed (t_id (r_t h)) (s_txns (y_st y)) = amount h.
Proof.
  apply (witness full_run (fun s => existsb (fun h => status_eqb (t_status (r_t h)) SInflight
      && (committed (t_id (r_t h)) (s_txns s) =? amount h)) (s_txns s))
    (fun s => exists h, In h (s_txns s) /\ t_status (r_t h) = SInflight
      /\ committed (t_id (r_t h)) (s_txns s) = amount h)).
  - intros s H. apply existsb_exists in H as (h & Hh & H). apply andb_prop in H as [H1 H2].
    exists h. split; [exact Hh|]. split; [apply status_eqb_eq; exact H1|apply Z.eqb_eq; exact H2].
  - vm_compute. reflexivity.
Qed.

(** A commit and a void that are each the last thing that happened. *)
Definition commit_run : list cmd :=
  (whole 0 (RQueue env0 (ctxn "@bank" "@ann" "fund" 50000 false true true)) ++
   whole 1 (RQueue env0 (ctxn "@ann" "@bob" "hold" 3000 true false true)))%list.
Definition last_kind (k : kind -> bool) (cs : list cmd) (n : nat) : bool :=
  match play cfg0 carefulb cs (init_sys uuids) with
  | Some y => match step1 n y with
              | Some y' => match s_txns (y_st y') with
                           | r :: _ => k (r_kind r) && Nat.eqb (List.length (s_txns (y_st y'))) (S (List.length (s_txns (y_st y))))
                           | [] => false
                           end
              | None => false
              end
  | None => false
  end.
Lemma last_kind_step (k : kind -> bool) cs n : last_kind k cs n = true ->
  exists y y' r, steps cfg0 careful (init_sys uuids) y /\ careful y (EStep n) /\ step cfg0 y (EStep n) y'
    /\ s_txns (y_st y') = r :: s_txns (y_st y) /\ k (r_kind r) = true.
Proof.
  unfold last_kind. destruct (play cfg0 carefulb cs (init_sys uuids)) as [y|] eqn:E; [|discriminate].
  destruct (step1 n y) as [y'|] eqn:E1; [|discriminate].
  destruct (s_txns (y_st y')) as [|r l] eqn:El; [discriminate|]. intros H. apply andb_prop in H as [Hk Hl].
  apply Nat.eqb_eq in Hl. pose proof (step1_step cfg0 n y y' E1) as Hs.
  exists y, y', r. split; [eapply play_steps; [exact carefulb_ok|exact careful_step|apply steps_refl|exact E]|].
  split; [apply careful_step|]. split; [exact Hs|]. split; [|exact Hk].
  destruct (step_journal _ _ _ _ Hs) as (x & Ex). rewrite El in Ex. rewrite El.
  destruct x as [|a [|b x]].
  - exfalso. apply (f_equal (@List.length row)) in Ex. simpl in Ex, Hl. lia.
  - inversion Ex; subst. reflexivity.
  - exfalso. apply (f_equal (@List.length row)) in Ex. rewrite app_length in Ex. simpl in Ex, Hl. lia.
Qed.
(** The overdraft limit of a queued transaction is lost when a sibling's worker
    picks it up from the database. *)
Definition with_limit (t : txn) (l : Q) : txn :=
  {| t_id := t_id t; t_parent := t_parent t; t_src := t_src t; t_dst := t_dst t; t_ref := t_ref t;
     t_cur := t_cur t; t_status := t_status t; t_precise := t_precise t; t_amount := t_amount t;
     t_prec := t_prec t; t_inflight := t_inflight t; t_allow := t_allow t; t_limit := l; t_skipq := t_skipq t;
     t_atomic := t_atomic t; t_sched := t_sched t; t_meta := t_meta t; t_sources := t_sources t; t_dests := t_dests t |}.
Definition limit_run : list cmd :=
  (whole 0 (RQueue env0 (with_limit (ctxn "@x" "@y" "big" 90000 false true false) 10%Q)) ++
   background 1 0 ++
   whole 2 (RQueue env0 (ctxn "@x" "@y" "other" 5 false true false)) ++
   background 3 0 ++
   [CWork false (pick ["txn_0"]) no_sel 0 0; CRun 4 400])%list.
Definition neg_split : txn :=
  {| t_id := ""; t_parent := ""; t_src := "@x"; t_dst := ""; t_ref := "neg"; t_cur := "USD";
     t_status := SNone; t_precise := 100; t_amount := 0; t_prec := 100; t_inflight := true;
     t_allow := false; t_limit := 0; t_skipq := false; t_atomic := false; t_sched := false;
     t_meta := meta0; t_sources := [];
     t_dests := [{|d_id := "@a"; d_spec := DFixed (-5)%Q |}; {|d_id := "@b"; d_spec := DLeft |}] |}.
Definition neg_run : list cmd :=
  (whole 0 (RQueue env0 (ctxn "@bank" "@x" "fund" 50000 false true true)) ++
   whole 1 (RQueue env0 neg_split) ++
   background 2 0 ++ whole 3 (RCommit "txn_4" 0 ""))%list.

Lemma limit_lost :
  exists y, steps cfg0 careful (init_sys uuids) y /\
    exists o r later earlier, s_txns (y_st y) = later ++ r :: earlier /\ In o earlier /\ waiting o
      /\ outcome_of o r /\ posts r /\ (exists l, grants (r_t o) l)
      /\ forall l, grants (r_t o) l -> available (source r) earlier + l < amount r.
Proof.
  set (ok := fun (o r : row) (earlier : list row) =>
     status_eqb (t_status (r_t o)) SQueued && String.eqb (t_parent (r_t r)) (t_id (r_t o))
     && match r_kind r with KPost => true | _ => false end
     && Qeq_bool (t_limit (r_t o)) 10 && (t_prec (r_t o) =? 100)
     && (available (source r) earlier + 1000 <? amount r)).
  set (check := fix check (j : list row) : bool := match j with
     | [] => false | r :: e => existsb (fun o => ok o r e) e || check e end).
  assert (Hc : forall j, check j = true -> exists o r later earlier, j = later ++ r :: earlier /\ In o earlier /\ ok o r earlier = true).
  { induction j as [|r e IH]; [discriminate|]. simpl. intros H. apply orb_prop in H as [H|H].
    - apply existsb_exists in H as (o & Ho & H). exists o, r, [], e. auto.
    - destruct (IH H) as (o & r' & la & ea & -> & H1 & H2). exists o, r', (r :: la), ea. auto. }
  apply (witness limit_run (fun s => check (s_txns s)) (fun s => exists o r later earlier, s_txns s = later ++ r :: earlier /\ In o earlier /\ waiting o
      /\ outcome_of o r /\ posts r /\ (exists l, grants (r_t o) l)
      /\ forall l, grants (r_t o) l -> available (source r) earlier + l < amount r)).
  - intros s H. destruct (Hc _ H) as (o & r & later & earlier & E & Hin & Hok). exists o, r, later, earlier.
    unfold ok in Hok. repeat rewrite andb_true_iff in Hok. destruct Hok as [[[[[H1 H2] H3] H4] H5] H6].
    apply status_eqb_eq in H1. apply String.eqb_eq in H2. apply Qeq_bool_eq in H4. apply Z.eqb_eq in H5. apply Z.ltb_lt in H6.
    assert (Hk : r_kind r = KPost) by (destruct (r_kind r); congruence).
    split; [exact E|]. split; [exact Hin|]. split; [left; exact H1|]. split; [split; [exact H2|left; left; exact Hk]|].
    assert (Hl : (t_limit (r_t o) * inject_Z (t_prec (r_t o)) == 1000)%Q).
    { rewrite H5. setoid_rewrite H4. reflexivity. }
    split; [left; exact Hk|]. unfold grants. split.
    + exists 1000. split; [setoid_rewrite H4; reflexivity|]. setoid_rewrite Hl. vm_compute. discriminate.
    + intros l [_ Hg]. rewrite Hl in Hg. rewrite Qabs.Qabs_Qle_condition in Hg. destruct Hg as [_ Hg].
      unfold Qle in Hg. simpl in Hg. lia.
  - vm_compute. reflexivity.
Qed.

(** A negative leg of a split, accepted as a queued hold, can be committed: money is
    taken from a balance that has none and never allowed an overdraft. *)
Lemma negative_leg :
  exists y, steps cfg0 careful (init_sys uuids) y /\
    exists b, In b (s_bals (y_st y)) /\ overdraft_at_most (b_id b) 0 (s_txns (y_st y))
      /\ b_cr b < 0 /\ b_bal b - b_idb b < 0.
Proof.
  apply (witness neg_run (fun s => existsb (fun b => never_overdraft (b_id b) (s_txns s) && (b_cr b <? 0) && (b_bal b - b_idb b <? 0)) (s_bals s))
    (fun s => exists b, In b (s_bals s) /\ overdraft_at_most (b_id b) 0 (s_txns s) /\ b_cr b < 0 /\ b_bal b - b_idb b < 0)).
  - intros s H. apply existsb_exists in H as (b & Hb & H). apply andb_prop in H as [H H3]. apply andb_prop in H as [H1 H2].
    exists b. split; [exact Hb|]. split; [apply never_overdraft_ok; exact H1|].
    split; [apply Z.ltb_lt; exact H2|apply Z.ltb_lt; exact H3].
  - vm_compute. reflexivity.
Qed.

Definition outcomeb (o r : row) : bool :=
  String.eqb (t_parent (r_t r)) (t_id (r_t o))
  && (match r_kind r with KPost | KHold => true | _ => false end || status_eqb (t_status (r_t r)) SRejected).
Lemma outcomeb_ok o r : outcomeb o r = true -> outcome_of o r.
Proof.
  unfold outcomeb. intros H. apply andb_prop in H as [H1 H2]. apply String.eqb_eq in H1. split; [exact H1|].
  apply orb_prop in H2 as [H2|H2]; [left; unfold posts; destruct (r_kind r); auto; discriminate|right; apply status_eqb_eq; exact H2].
Qed.
Definition waitingb (o : row) : bool := status_eqb (t_status (r_t o)) SQueued.

Lemma tidy_outcomes :
  exists y, steps cfg0 careful (init_sys uuids) y /\
    exists o1 r1 o2 r2 o3 r3, In o1 (s_txns (y_st y)) /\ In r1 (s_txns (y_st y)) /\ In o2 (s_txns (y_st y))
      /\ In r2 (s_txns (y_st y)) /\ In o3 (s_txns (y_st y)) /\ In r3 (s_txns (y_st y))
      /\ waiting o1 /\ waiting o2 /\ waiting o3
      /\ outcome_of o1 r1 /\ t_status (r_t r1) = SApplied /\ outcome_of o2 r2 /\ t_status (r_t r2) = SInflight
      /\ outcome_of o3 r3 /\ t_status (r_t r3) = SRejected.
Proof.
  set (has := fun s st => existsb (fun o => existsb (fun r => waitingb o && outcomeb o r && status_eqb (t_status (r_t r)) st) (s_txns s)) (s_txns s)).
  assert (Hh : forall s st, has s st = true -> exists o r, In o (s_txns s) /\ In r (s_txns s) /\ waiting o /\ outcome_of o r /\ t_status (r_t r) = st).
  { intros s st H. apply existsb_exists in H as (o & Ho & H). apply existsb_exists in H as (r & Hr & H).
    apply andb_prop in H as [H H3]. apply andb_prop in H as [H1 H2]. exists o, r. split; [exact Ho|]. split; [exact Hr|].
    split; [left; apply status_eqb_eq; exact H1|]. split; [apply outcomeb_ok; exact H2|apply status_eqb_eq; exact H3]. }
  destruct (witness tidy (fun s => has s SApplied && has s SInflight && has s SRejected)
    (fun s => has s SApplied = true /\ has s SInflight = true /\ has s SRejected = true)) as (y & Hy & H1 & H2 & H3).
  - intros s H. apply andb_prop in H as [H H3]. apply andb_prop in H as [H1 H2]. auto.
  - vm_compute. reflexivity.
  - exists y. split; [exact Hy|].
    destruct (Hh _ _ H1) as (o1 & r1 & A1 & A2 & A3 & A4 & A5).
    destruct (Hh _ _ H2) as (o2 & r2 & B1 & B2 & B3 & B4 & B5).
    destruct (Hh _ _ H3) as (o3 & r3 & C1 & C2 & C3 & C4 & C5).
    exists o1, r1, o2, r2, o3, r3. tauto.
Qed.

Definition directb (o r : row) : bool :=
  status_eqb (t_status (r_t o)) SApplied && String.eqb (t_parent (r_t r)) (t_id (r_t o))
  && match r_kind r with KPost => true | _ => false end && (0 <? amount o).
Definition viab (o q r : row) : bool :=
  status_eqb (t_status (r_t o)) SApplied && String.eqb (t_parent (r_t q)) (t_id (r_t o))
  && waitingb q && String.eqb (t_parent (r_t r)) (t_id (r_t q))
  && match r_kind r with KPost => true | _ => false end && (0 <? amount o).

Lemma tidy_refunds :
  exists y, steps cfg0 careful (init_sys uuids) y /\
    exists o1 r1 o2 q2 r2, In o1 (s_txns (y_st y)) /\ In r1 (s_txns (y_st y)) /\ In o2 (s_txns (y_st y)) /\ In r2 (s_txns (y_st y))
      /\ t_status (r_t o1) = SApplied /\ 0 < amount o1 /\ child_of o1 r1 /\ gives_back (s_txns (y_st y)) o1 r1
      /\ t_status (r_t o2) = SApplied /\ 0 < amount o2 /\ child_of o2 q2 /\ child_of q2 r2 /\ gives_back (s_txns (y_st y)) o2 r2.
Proof.
  set (c1 := fun s => existsb (fun o => existsb (directb o) (s_txns s)) (s_txns s)).
  set (c2 := fun s => existsb (fun o => existsb (fun q => existsb (viab o q) (s_txns s)) (s_txns s)) (s_txns s)).
  destruct (witness tidy (fun s => c1 s && c2 s) (fun s => c1 s = true /\ c2 s = true)) as (y & Hy & H1 & H2).
  - intros s H. apply andb_prop in H. exact H.
  - vm_compute. reflexivity.
  - exists y. split; [exact Hy|].
    apply existsb_exists in H1 as (o1 & Ho1 & H1). apply existsb_exists in H1 as (r1 & Hr1 & H1).
    apply existsb_exists in H2 as (o2 & Ho2 & H2). apply existsb_exists in H2 as (q2 & Hq2 & H2).
    apply existsb_exists in H2 as (r2 & Hr2 & H2).
    unfold directb in H1. unfold viab in H2. repeat rewrite andb_true_iff in H1. repeat rewrite andb_true_iff in H2.
    destruct H1 as [[[A1 A2] A3] A4]. destruct H2 as [[[[[B1 B2] B3] B4] B5] B6].
    apply status_eqb_eq in A1, B1, B3. apply String.eqb_eq in A2, B2, B4. apply Z.ltb_lt in A4, B6.
    assert (K1 : r_kind r1 = KPost) by (destruct (r_kind r1); congruence).
    assert (K2 : r_kind r2 = KPost) by (destruct (r_kind r2); congruence).
    exists o1, r1, o2, q2, r2. repeat (split; [assumption|]).
    split; [split; [left; exact K1|left; exact A2]|]. repeat (split; [assumption|]).
    split; [left; exact K2|]. right. exists q2. split; [exact Hq2|]. split; [left; exact B3|]. split; assumption.
Qed.

Lemma tidy_queued_hold :
  exists y, steps cfg0 careful (init_sys uuids) y /\
    exists h, In h (s_txns (y_st y)) /\ is_hold h /\ t_status (r_t h) = SQueued /\ 0 < amount h
      /\ committed (t_id (r_t h)) (s_txns (y_st y)) = amount h.
Proof.
  apply (witness queued_hold_run (fun s => existsb (fun h => status_eqb (t_status (r_t h)) SQueued && t_inflight (r_t h) && (0 <? amount h)
      && (committed (t_id (r_t h)) (s_txns s) =? amount h)) (s_txns s))
    (fun s => exists h, In h (s_txns s) /\ is_hold h /\ t_status (r_t h) = SQueued /\ 0 < amount h
      /\ committed (t_id (r_t h)) (s_txns s) = amount h)).
  - intros s H. apply existsb_exists in H as (h & Hh & H). repeat rewrite andb_true_iff in H. destruct H as [[[H1 H2] H3] H4].
    apply status_eqb_eq in H1. exists h. split; [exact Hh|]. split; [right; auto|]. split; [exact H1|].
    split; [apply Z.ltb_lt; exact H3|apply Z.eqb_eq; exact H4].
  - vm_compute. reflexivity.
Qed.
Lemma commit_step_case :
  exists y y' r, steps cfg0 careful (init_sys uuids) y /\ careful y (EStep 2) /\ step cfg0 y (EStep 2) y'
    /\ s_txns (y_st y') = r :: s_txns (y_st y) /\ r_kind r = KCommit.
Proof.
  destruct (last_kind_step (fun k => match k with KCommit => true | _ => false end)
    (commit_run ++ [CReq (RCommit "txn_3" 1000 ""); CRun 2 11]) 2) as (y & y' & r & H1 & H2 & H3 & H4 & H5); [vm_compute; reflexivity|].
  exists y, y', r. repeat (split; [assumption|]). destruct (r_kind r); congruence.
Qed.
Lemma void_step_case :
  exists y y' r, steps cfg0 careful (init_sys uuids) y /\ careful y (EStep 2) /\ step cfg0 y (EStep 2) y'
    /\ s_txns (y_st y') = r :: s_txns (y_st y) /\ r_kind r = KVoid.
Proof.
  destruct (last_kind_step (fun k => match k with KVoid => true | _ => false end)
    (commit_run ++ [CReq (RVoid "txn_3" ""); CRun 2 11]) 2) as (y & y' & r & H1 & H2 & H3 & H4 & H5); [vm_compute; reflexivity|].
  exists y, y', r. repeat (split; [assumption|]). destruct (r_kind r); congruence.
Qed.
