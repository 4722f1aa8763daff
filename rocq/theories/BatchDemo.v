(** A concrete batch of three, and a batch that does what posting one by one cannot. *)
From Coq Require Import ZArith QArith List String Bool Lia.
From Verif Require Import BatchProof BatchOrd.
From Verif Require Import Base SplitModel BalanceModel LedgerModel LedgerProgs ConcModel Sched Demo BatchSpec.
Import ListNotations.
Local Open Scope string_scope.
Open Scope list_scope.
Open Scope Z_scope.

Fixpoint trace (n : nat) {A} (p : prog A) (s : state) : list (state * state) :=
  match p with
  | Ret _ => []
  | Do o k => (s, fst (exec n o s)) :: trace n (k (snd (exec n o s))) (fst (exec n o s))
  end.
Lemma run_among n {A} (p : prog A) : forall s, among n p s (Some (snd (run n p s))) (fst (run n p s)) (trace n p s).
Proof.
  induction p as [b|o k IH]; intros s; simpl; [split; [apply os_none|auto]|].
  right. exists s, (trace n (k (snd (exec n o s))) (fst (exec n o s))). split; [apply os_none|]. split; [reflexivity|].
  specialize (IH (snd (exec n o s)) (fst (exec n o s))). destruct (exec n o s) as [s1 x]. exact IH.
Qed.

Definition plain_startb (y : sys) (e : event) : bool :=
  match e with
  | EStart (RBalance _ _ recon _) => negb recon
  | EStart (RReconcile _) => false
  | _ => true
  end.
Lemma plain_startb_ok y e : plain_startb y e = true -> plain_start y e.
Proof. destruct e as [r| | |]; simpl; auto. destruct r; simpl; auto; try discriminate. destruct recon; auto; discriminate. Qed.
Lemma plain_start_step y n : plain_start y (EStep n).
Proof. exact Logic.I. Qed.

(** Three queued transactions of ann's: two payments and a hold. *)
Definition three_cmds : list cmd :=
  (whole 0 (RQueue env0 (ctxn "@bank" "@ann" "fund" 500 false true true)) ++
   whole 1 (RQueue env0 (ctxn "@ann" "@bob" "a" 100 false false false)) ++ background 2 0 ++
   whole 3 (RQueue env0 (ctxn "@ann" "@bob" "b" 50 true false false)) ++ background 4 0 ++
   whole 5 (RQueue env0 (ctxn "@ann" "@bob" "c" 30 false false false)) ++ background 6 0)%list.
Definition three_sel : scope -> list string := pick ["txn_6"; "txn_8"].
Definition leader (s : state) : txn := nth 2 (s_queue s) (ctxn "" "" "" 0 false false false).
Definition three_rows : list (string * string * string * status * Z) :=
  [("txn_11", "txn_8", "c_q", SApplied, 30); ("txn_10", "txn_6", "b_q", SInflight, 50); ("txn_5", "txn_3", "a_q", SApplied, 100)].
Definition three_balances : list (string * (Z * Z * Z) * (Z * Z)) :=
  [("@bob", (130, 130, 0), (50, 0)); ("@ann", (370, 500, 130), (0, 50)); ("@bank", (-500, 0, 500), (0, 0))].
Definition batch_view (s : state) :=
  let r := run 7 (try_batch cfg0 false three_sel (leader s)) s in
  (snd r, firstn 3 (journal_view (fst r)), balance_view (fst r)).
Lemma three_at_once : exists y t s' own,
  steps cfg0 plain_start (init_sys uuids) y /\ In t (s_queue (y_st y))
  /\ among 7 (try_batch cfg0 false three_sel t) (y_st y) (Some true) s' own
  /\ firstn 3 (journal_view s') = three_rows /\ balance_view s' = three_balances.
Proof.
  destruct (played cfg0 plain_startb three_cmds uuids) as [s|] eqn:E; [|vm_compute in E; discriminate].
  destruct (played_steps cfg0 plain_start plain_startb three_cmds uuids s plain_startb_ok plain_start_step E) as (y & Hy & Hs).
  assert (H : option_map (fun s => List.length (s_queue s)) (played cfg0 plain_startb three_cmds uuids) = Some 3%nat
           /\ option_map batch_view (played cfg0 plain_startb three_cmds uuids) = Some (true, three_rows, three_balances))
    by (vm_compute; auto).
  rewrite E in H. cbn [option_map] in H. destruct H as [H1 H2].
  exists y, (leader s). rewrite Hs.
  exists (fst (run 7 (try_batch cfg0 false three_sel (leader s)) s)), (trace 7 (try_batch cfg0 false three_sel (leader s)) s).
  split; [exact Hy|]. split; [apply nth_In; injection H1 as ->; lia|].
  pose proof (run_among 7 (try_batch cfg0 false three_sel (leader s)) s) as R.
  unfold batch_view in H2. cbv zeta in H2.
  destruct (run 7 (try_batch cfg0 false three_sel (leader s)) s) as [s' r]. cbn [fst snd] in H2, R |- *.
  assert (r = true /\ firstn 3 (journal_view s') = three_rows /\ balance_view s' = three_balances) as (-> & E2 & E3)
    by (split; [|split]; congruence).
  split; [exact R|]. split; assumption.
Qed.

(** A client names ann's balance once by its indicator and once by its id. *)
Definition self_cmds : list cmd :=
  (whole 0 (RQueue env0 (ctxn "@bank" "@ann" "fund" 500 false true true)) ++
   whole 1 (RQueue env0 (ctxn "@ann" "bln_2" "self" 10 false false false)) ++ background 2 0 ++
   whole 3 (RQueue env0 (ctxn "@ann" "@bob" "b" 20 false false false)) ++ background 4 0)%list.
Definition self_task (s : state) : txn := nth 1 (s_queue s) (ctxn "" "" "" 0 false false false).
Definition self_view (s : state) :=
  let r := run 5 (try_batch cfg0 false (pick ["txn_5"]) (self_task s)) s in
  (List.length (s_queue s), snd r, firstn 2 (journal_view (fst r)), String.eqb (t_src (self_task s)) (t_dst (self_task s)),
   match snd (run 5 (record_single cfg0 (self_task s)) s) with Err EConflict => true | _ => false end).
Definition self_rows : list (string * string * string * status * Z) :=
  [("txn_8", "txn_5", "b_q", SApplied, 20); ("txn_4", "txn_3", "self_q", SApplied, 10)].
Lemma self_only_in_batch : exists y t s',
  steps cfg0 plain_start (init_sys uuids) y /\ In t (s_queue (y_st y)) /\ t_src t = t_dst t
  /\ run 5 (try_batch cfg0 false (pick ["txn_5"]) t) (y_st y) = (s', true)
  /\ firstn 2 (journal_view s') = self_rows
  /\ snd (run 5 (record_single cfg0 t) (y_st y)) = Err EConflict.
Proof.
  destruct (played cfg0 plain_startb self_cmds uuids) as [s|] eqn:E; [|vm_compute in E; discriminate].
  destruct (played_steps cfg0 plain_start plain_startb self_cmds uuids s plain_startb_ok plain_start_step E) as (y & Hy & Hs).
  assert (H : option_map self_view (played cfg0 plain_startb self_cmds uuids) = Some (2%nat, true, self_rows, true, true)) by (vm_compute; auto).
  rewrite E in H. cbn [option_map] in H. unfold self_view in H. cbv zeta in H.
  exists y, (self_task s). rewrite Hs.
  destruct (run 5 (try_batch cfg0 false (pick ["txn_5"]) (self_task s)) s) as [s' r]. cbn [fst snd] in H.
  destruct (snd (run 5 (record_single cfg0 (self_task s)) s)) as [x|[]]; try congruence.
  assert (List.length (s_queue s) = 2%nat /\ r = true /\ firstn 2 (journal_view s') = self_rows /\ String.eqb (t_src (self_task s)) (t_dst (self_task s)) = true)
    as (H1 & -> & H3 & H4) by (repeat split; congruence).
  exists s'. split; [exact Hy|]. split; [apply nth_In; lia|]. split; [apply String.eqb_eq; exact H4|]. auto.
Qed.
