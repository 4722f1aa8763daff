(** Concrete histories for the snapshot theorems. *)
From Coq Require Import ZArith List String Bool Lia.
From Verif Require Import Base ChainModel SnapModel SnapSpec SnapProof.
Import ListNotations.
Local Open Scope string_scope.
Open Scope Z_scope.

Definition pay (a b : string) (n eff : Z) : trow := {| r_src := a; r_dst := b; r_amount := n; r_applied := true; r_eff := eff |}.
Definition hold (a b : string) (n eff : Z) : trow := {| r_src := a; r_dst := b; r_amount := n; r_applied := false; r_eff := eff |}.

Definition final (es : list sevent) : sdb := match sruns snap_init es with Some d => d | None => snap_init end.
Lemma final_reach es : sruns snap_init es <> None -> sreach (final es).
Proof. intros H. exists es. unfold final. destruct (sruns snap_init es); congruence. Qed.

(** Three balances; two of them get a snapshot with a batch size of one, then the third
    appears and a second run is made on the same day. *)
Definition quiet : list sevent :=
  [NTick 1000; NBalance 1 "a"; NBalance 2 "b"; NPost (pay "a" "b" 70 900); NPost (hold "a" "b" 5 950);
   NStart 1; NInsert 0; NAdvance 0; NInsert 0; NAdvance 0; NCommit 0;
   NTick 500; NBalance 3 "c"; NPost (pay "b" "c" 30 1400);
   NStart 1; NInsert 0; NAdvance 0; NInsert 0; NAdvance 0].
Example quiet_runs : (List.length (g_snaps (final quiet)), map (fun u => (List.length (u_new u), u_done u)) (g_runs (final quiet))) = (2%nat, [(1%nat, true)]).
Proof. vm_compute. reflexivity. Qed.
Example quiet_reach : sreach (final quiet).
Proof. apply final_reach. vm_compute. discriminate. Qed.
Example quiet_reach1 : sreach1 (final quiet).
Proof. exists quiet. split; vm_compute; repeat split. Qed.
Example quiet_dated : dated (final quiet).
Proof. intros t H. vm_compute in H. repeat (destruct H as [<-|H]; [vm_compute; reflexivity|]). destruct H. Qed.

Lemma in_final_b : In {| o_pk := 2; o_id := "b"; o_cr := 70; o_db := 30 |} (g_bals (final quiet)).
Proof. vm_compute. auto. Qed.
Example quiet_source : answer (final quiet) "b" 1400 true (70, 30).
Proof.
  assert (E : (70, 30) = replay "b" (fetch (final quiet) "b" zero_time 1400) (0, 0)) by (vm_compute; reflexivity).
  rewrite E. apply (AnsSource _ _ _ _ in_final_b); [reflexivity|discriminate|vm_compute; discriminate].
Qed.
Definition quiet_snap : snap := {| sn_bal := "b"; sn_cr := 70; sn_db := 0; sn_time := 1000; sn_seen := 2 |}.
Example quiet_latest : latest_snapshot (final quiet) "b" 1400 quiet_snap.
Proof.
  split; [vm_compute; auto|]. split; [reflexivity|]. split; [vm_compute; discriminate|].
  intros s H _ _. vm_compute in H. destruct H as [<-|[<-|[]]]; vm_compute; discriminate.
Qed.
Example quiet_from_snapshot : answer (final quiet) "b" 1400 false (70, 30).
Proof.
  assert (E : (70, 30) = replay "b" (fetch (final quiet) "b" (sn_time quiet_snap) 1400) (sn_cr quiet_snap, sn_db quiet_snap)) by (vm_compute; reflexivity).
  rewrite E. apply (AnsSnapshot _ _ _ _ _ in_final_b); [reflexivity|discriminate|vm_compute; discriminate|exact quiet_latest].
Qed.
Example quiet_no_straddle s : latest_snapshot (final quiet) "b" 1400 s -> no_straddle (final quiet) "b" s.
Proof.
  intros [L1 [L2 [L3 _]]]. vm_compute in L1. destruct L1 as [<-|[<-|[]]]; [discriminate|]. split.
  - intros t H A O. vm_compute in H. destruct H as [<-|[<-|[]]]; [vm_compute; discriminate|discriminate].
  - intros t H A O. vm_compute in H. destruct H as [<-|[]]. vm_compute. reflexivity.
Qed.
(** The past stays answerable: at 999 there was no snapshot yet. *)
Example quiet_before : answer (final quiet) "b" 999 false (70, 0).
Proof.
  assert (E : (70, 0) = replay "b" (fetch (final quiet) "b" zero_time 999) (0, 0)) by (vm_compute; reflexivity).
  rewrite E. apply (AnsGenesis _ _ _ _ in_final_b); [reflexivity|discriminate|vm_compute; discriminate|].
  intros s H _. vm_compute in H. destruct H as [<-|[<-|[]]]; vm_compute; reflexivity.
Qed.

(** The hypotheses of the exactly-one theorem, with a posting and a new balance amid the run. *)
Example busy_run : exists d0 d1 d2 d3,
  sreach1 d0 /\ g_runs d0 = [] /\ List.length (g_bals d0) = 3%nat /\ sstep d0 (NStart 2) = Some d1 /\
  sruns d1 [NInsert 0; NPost (pay "b" "c" 30 1400); NAdvance 0; NBalance 3 "d"; NTick 7; NInsert 0; NAdvance 0] = Some d2 /\
  sstep d2 (NCommit 0) = Some d3 /\ List.length (g_snaps d3) = 4%nat.
Proof.
  set (es := [NBalance 1 "a"; NBalance 2 "b"; NBalance 4 "c"; NTick 1000; NPost (pay "a" "b" 70 900)]).
  exists (final es). do 3 eexists. split; [exists es; split; vm_compute; repeat split|].
  split; [reflexivity|]. split; [reflexivity|]. repeat (split; [vm_compute; reflexivity|]). reflexivity.
Qed.

(** Accepted for the queue at 900, posted after the snapshot of 1000. *)
Definition late : list sevent :=
  [NBalance 1 "a"; NBalance 2 "b"; NTick 1000; NStart 10; NInsert 0; NAdvance 0; NCommit 0; NTick 50; NPost (pay "a" "b" 70 900)].
(** Dated 2000, posted before the snapshot of 1000. *)
Definition early : list sevent :=
  [NBalance 1 "a"; NBalance 2 "b"; NTick 1000; NPost (pay "a" "b" 70 2000); NStart 10; NInsert 0; NAdvance 0; NCommit 0; NTick 2000].
(** Accepted and posted at 1005 while the run begun at 1000 is between two batches. *)
Definition amid : list sevent :=
  [NBalance 1 "a"; NBalance 2 "b"; NTick 1000; NStart 1; NInsert 0; NAdvance 0; NTick 5; NPost (pay "a" "b" 70 1005); NInsert 0; NAdvance 0;
   NCommit 0; NTick 50].

Lemma two_answers es b s t x y : sruns snap_init es <> None ->
  In b (g_bals (final es)) -> o_id b = "b" -> t <> zero_time ->
  (In s (g_snaps (final es)) /\ sn_bal s = "b" /\ sn_time s <= t /\ forallb (fun s' => sn_time s' <=? sn_time s) (g_snaps (final es)) = true) ->
  replay "b" (fetch (final es) "b" zero_time t) (0, 0) = x ->
  replay "b" (fetch (final es) "b" (sn_time s) t) (sn_cr s, sn_db s) = y ->
  sreach (final es) /\ answer (final es) "b" t true x /\ answer (final es) "b" t false y.
Proof.
  intros R B1 B2 T [L1 [L2 [L3 L4]]] <- <-. split; [apply final_reach; exact R|]. split.
  - eapply AnsSource; eauto. discriminate.
  - eapply AnsSnapshot; eauto; [discriminate|]. repeat split; auto. intros s' H' _ _.
    rewrite forallb_forall in L4. apply L4, Z.leb_le in H'. exact H'.
Qed.

Lemma late_missed : exists d, sreach d /\ dated d /\ answer d "b" 1100 true (70, 0) /\ answer d "b" 1100 false (0, 0).
Proof.
  exists (final late).
  destruct (two_answers late {| o_pk := 2; o_id := "b"; o_cr := 70; o_db := 0 |}
    {| sn_bal := "b"; sn_cr := 0; sn_db := 0; sn_time := 1000; sn_seen := 0 |} 1100 (70, 0) (0, 0)) as [R [A B]];
  [vm_compute; discriminate|vm_compute; auto|reflexivity|vm_compute; discriminate|
   split; [vm_compute; auto|split; [reflexivity|split; [vm_compute; discriminate|vm_compute; reflexivity]]]|
   vm_compute; reflexivity|vm_compute; reflexivity|].
  - split; [exact R|]. split; [|auto]. intros t H. vm_compute in H. destruct H as [<-|[]]. vm_compute. reflexivity.
Qed.
Lemma early_twice : exists d, sreach d /\ dated d /\ answer d "b" 2500 true (70, 0) /\ answer d "b" 2500 false (140, 0).
Proof.
  exists (final early).
  destruct (two_answers early {| o_pk := 2; o_id := "b"; o_cr := 70; o_db := 0 |}
    {| sn_bal := "b"; sn_cr := 70; sn_db := 0; sn_time := 1000; sn_seen := 1 |} 2500 (70, 0) (140, 0)) as [R [A B]];
  [vm_compute; discriminate|vm_compute; auto|reflexivity|vm_compute; discriminate|
   split; [vm_compute; auto|split; [reflexivity|split; [vm_compute; discriminate|vm_compute; reflexivity]]]|
   vm_compute; reflexivity|vm_compute; reflexivity|].
  - split; [exact R|]. split; [|auto]. intros t H. vm_compute in H. destruct H as [<-|[]]. vm_compute. reflexivity.
Qed.
Lemma amid_twice : exists d, sreach1 d /\ dated d /\ answer d "b" 1050 true (70, 0) /\ answer d "b" 1050 false (140, 0).
Proof.
  exists (final amid).
  destruct (two_answers amid {| o_pk := 2; o_id := "b"; o_cr := 70; o_db := 0 |}
    {| sn_bal := "b"; sn_cr := 70; sn_db := 0; sn_time := 1000; sn_seen := 1 |} 1050 (70, 0) (140, 0)) as [R [A B]];
  [vm_compute; discriminate|vm_compute; auto|reflexivity|vm_compute; discriminate|
   split; [vm_compute; auto|split; [reflexivity|split; [vm_compute; discriminate|vm_compute; reflexivity]]]|
   vm_compute; reflexivity|vm_compute; reflexivity|].
  - split; [exists amid; split; vm_compute; repeat split|]. split; [|auto]. intros t H. vm_compute in H. destruct H as [<-|[]]. vm_compute. reflexivity.
Qed.

(** Two runs at once. *)
Definition overlap : list sevent :=
  [NBalance 1 "a"; NTick 1000; NStart 10; NStart 10; NInsert 0; NAdvance 0; NInsert 1; NAdvance 1; NCommit 0; NCommit 0].
Lemma overlap_doubles : exists d, sreach d /\ snapshots_on d "a" 1000 = 2%nat.
Proof. exists (final overlap). split; [apply final_reach; vm_compute; discriminate|vm_compute; reflexivity]. Qed.
