(** A concrete bulk commit by two goroutines taking turns. *)
From Coq Require Import ZArith QArith List String Bool Lia.
From Verif Require Import LedgerSafe WorkDemo PoolProof.
From Verif Require Import Base SplitModel BalanceModel LedgerModel LedgerProgs ConcModel Sched Demo WorkModel PoolModel PoolSpec.
Import ListNotations.
Local Open Scope string_scope.
Open Scope list_scope.
Open Scope Z_scope.

(** The goroutines move in the given order; a goroutine that cannot move is passed over. *)
Fixpoint drive (cfg : config) (a : action) (curs : nat -> string) (base : nat) (sched : list nat)
    (p : pool) (s : state) (h : list done_op) : pool * state * list done_op :=
  match sched with
  | [] => (p, s, h)
  | w :: r =>
    match move cfg a curs base w p s with
    | None => drive cfg a curs base r p s h
    | Some (p', s') =>
      match nth_error (p_work p) w with
      | Some (WBusy i _ (Do _ _)) => drive cfg a curs base r p' s' (h ++ [{| d_item := i; d_before := s; d_after := s' |}])
      | _ => drive cfg a curs base r p' s' h
      end
    end
  end.

Lemma drive_history cfg a curs base sched : forall p0 s0 h p s,
  history cfg a curs base p0 s0 h p s ->
  let '(p', s', h') := drive cfg a curs base sched p s h in history cfg a curs base p0 s0 h' p' s'.
Proof.
  induction sched as [|w r IH]; intros p0 s0 h p s H; cbn [drive]; [exact H|].
  destruct (move cfg a curs base w p s) as [[p' s']|] eqn:Em; [|apply IH; exact H].
  assert (Hs : match nth_error (p_work p) w with Some (WBusy _ _ (Do _ _)) => False | _ => True end -> s' = s).
  { unfold move in Em. destruct (nth_error (p_work p) w) as [[|i it [x|o k]|]|]; intros Hx; try contradiction; try congruence.
    destruct (p_jobs p) as [|[i it] l]; congruence. }
  destruct (nth_error (p_work p) w) as [[|i it [x|o k]|]|] eqn:Ew; apply IH.
  - assert (s' = s) by (apply Hs; exact Logic.I). subst s'. eapply h_silent with (w := w); [exact H|rewrite Ew; exact Logic.I|exact Em].
  - assert (s' = s) by (apply Hs; exact Logic.I). subst s'. eapply h_silent with (w := w); [exact H|rewrite Ew; exact Logic.I|exact Em].
  - eapply h_op; eassumption.
  - unfold move in Em. rewrite Ew in Em. discriminate.
  - unfold move in Em. rewrite Ew in Em. discriminate.
Qed.

Lemma driven_history cfg a curs base sched p0 s0 p s h :
  drive cfg a curs base sched p0 s0 [] = (p, s, h) -> history cfg a curs base p0 s0 h p s.
Proof.
  intros E. pose proof (drive_history cfg a curs base sched _ s0 [] _ s0 (h_start _ _ _ _ p0 s0)) as H.
  rewrite E in H. exact H.
Qed.

Definition two_holds : list cmd :=
  (whole 0 (RQueue env0 (ctxn "@bank" "@ann" "fund" 50000 false true true)) ++
   whole 1 (RQueue env0 (ctxn "@ann" "@bob" "h1" 3000 true false true)) ++
   whole 2 (RQueue env0 (ctxn "@cat" "@dan" "h2" 700 true true true)) ++
   whole 3 (RVoid "txn_5" ""))%list.

Fixpoint turns (n : nat) : list nat := match n with O => [] | S m => (0 :: 1 :: turns m)%nat end.
Definition asked : list item :=
  [{| i_id := "txn_3"; i_amount := 1000 |}; {| i_id := "nope"; i_amount := 0 |};
   {| i_id := "txn_3"; i_amount := 9000 |}; {| i_id := "txn_5"; i_amount := 5 |}].
Definition answers (p : pool) : list (string * string) := map (fun x => (x_id x, x_code x)) (p_results p).
Definition expected : list (string * string) :=
  [("txn_3", ""); ("nope", "NOT_FOUND"); ("txn_3", "LOCKED"); ("txn_5", "ALREADY_VOIDED")].
Definition order : list nat := [0;1;0;1;0;1;0;0;0;2;0;0;0;3;0;3;0;3;0;3;0;0;0]%nat.

Definition driven (cs : list cmd) (items : list item) (want : Z) (sched : list nat) : option (bool * list (string * string) * list nat) :=
  match played cfg0 no_reconb cs uuids, start items want with
  | Some s, Some p0 =>
    let '(p, s', h) := drive cfg0 ACommit (fun _ => "USD") 10 sched p0 s [] in
    Some (finished p, answers p, map d_item h)
  | _, _ => None
  end.

Lemma driven_bulk cs items want sched ans ord :
  driven cs items want sched = Some (true, ans, ord) ->
  exists y p0 h p s,
  steps cfg0 no_recon_flag (init_sys uuids) y /\ start items want = Some p0
  /\ history cfg0 ACommit (fun _ => "USD") 10 p0 (y_st y) h p s /\ finished p = true
  /\ answers p = ans /\ map d_item h = ord.
Proof.
  unfold driven. intros H. destruct (played cfg0 no_reconb cs uuids) as [s|] eqn:E; [|discriminate].
  destruct (played_steps cfg0 no_recon_flag no_reconb cs uuids s no_reconb_ok no_recon_step E) as (y & Hy & Hs).
  destruct (start items want) as [p0|]; [|discriminate].
  destruct (drive cfg0 ACommit (fun _ => "USD") 10 sched p0 s []) as [[p s'] h] eqn:Ed. apply driven_history in Ed.
  exists y, p0, h, p, s'. rewrite Hs. split; [exact Hy|]. split; [reflexivity|]. split; [exact Ed|].
  split; [congruence|]. split; congruence.
Qed.

Lemma four_answers : exists y p0 h p s,
  steps cfg0 no_recon_flag (init_sys uuids) y /\ start asked 2 = Some p0
  /\ history cfg0 ACommit (fun _ => "USD") 10 p0 (y_st y) h p s /\ finished p = true
  /\ answers p = expected /\ map d_item h = order.
Proof. apply (driven_bulk two_holds asked 2 (turns 60)). vm_compute. reflexivity. Qed.

(** A repeated id can be settled twice: the second item finds part of the hold left. *)
Definition twice : list item := [{| i_id := "txn_3"; i_amount := 1000 |}; {| i_id := "txn_3"; i_amount := 2000 |}].
Lemma same_id_twice : exists y p0 h p s,
  steps cfg0 no_recon_flag (init_sys uuids) y /\ start twice 1 = Some p0
  /\ history cfg0 ACommit (fun _ => "USD") 10 p0 (y_st y) h p s /\ finished p = true
  /\ answers p = [("txn_3", ""); ("txn_3", "")] /\ map d_item h = repeat 0%nat 15 ++ repeat 1%nat 15.
Proof. apply (driven_bulk two_holds twice 1 (turns 60)). vm_compute. reflexivity. Qed.

(** The same four items queued instead: the queue takes the first, and would have refused the second. *)
Definition queue_says (i : nat) : enqueued := match i with O => QAlready | 1%nat => QError | _ => QAccepted end.
Definition queued_demo (cs : list cmd) (items : list item) : option (list (string * string * string) * bool) :=
  match played cfg0 no_reconb cs uuids with
  | Some s => Some (map (fun x => (a_id x, a_status x, a_code x)) (a_results (snd (run 9 (queue_bulk ACommit queue_says (fun _ => "USD") 0 items) s))),
      match s_locks s with [] => true | _ => false end)
  | None => None
  end.
Definition also : list item := asked ++ [{| i_id := "txn_3"; i_amount := 3000 |}].
Lemma queued_demo_ok cs items rs : queued_demo cs items = Some (rs, true) ->
  exists y q s', steps cfg0 no_recon_flag (init_sys uuids) y /\ s_locks (y_st y) = []
    /\ during 9 (queue_bulk ACommit queue_says (fun _ => "USD") 0 items) (y_st y) q s'
    /\ map (fun x => (a_id x, a_status x, a_code x)) (a_results q) = rs.
Proof.
  unfold queued_demo. intros H. destruct (played cfg0 no_reconb cs uuids) as [s|] eqn:E; [|discriminate].
  destruct (played_steps cfg0 no_recon_flag no_reconb cs uuids s no_reconb_ok no_recon_step E) as (y & Hy & Hs).
  destruct (run 9 (queue_bulk ACommit queue_says (fun _ => "USD") 0 items) s) as [s' q] eqn:R.
  exists y, q, s'. split; [exact Hy|]. rewrite Hs. cbn [snd] in H. destruct (s_locks s); [|discriminate].
  split; [reflexivity|]. split; [apply run_during; exact R|]. congruence.
Qed.
Lemma queued_four : exists y q s', steps cfg0 no_recon_flag (init_sys uuids) y /\ s_locks (y_st y) = []
    /\ during 9 (queue_bulk ACommit queue_says (fun _ => "USD") 0 also) (y_st y) q s'
    /\ map (fun x => (a_id x, a_status x, a_code x)) (a_results q)
       = [("txn_3", "queued", "ALREADY_QUEUED"); ("nope", "failed", "NOT_FOUND"); ("txn_3", "failed", "INVALID_AMOUNT");
          ("txn_5", "failed", "ALREADY_VOIDED"); ("txn_3", "queued", "QUEUED")].
Proof. apply (queued_demo_ok two_holds also). vm_compute. reflexivity. Qed.
