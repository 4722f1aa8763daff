(** Lineage at work, and where it goes wrong. *)
From Coq Require Import ZArith List String Bool Lia.
From Verif Require Import Base ChainModel LineageModel LineageSpec AllocProof LineageProof LineageBudget LineageLocks LineageDone.
Import ListNotations.
Local Open Scope string_scope.
Open Scope Z_scope.

Definition tracks (b : string) : bool := String.eqb b "alice" || String.eqb b "bob".
Definition lk (strat : string) : lcfg := {| k_track := tracks; k_ident := fun b => b; k_strat := fun _ => strat; k_lock := 30 |}.
Definition ent (ref : string) (amt : Z) (src dst prov : string) : entry :=
  {| en_ref := ref; en_amt := amt; en_src := src; en_dst := dst; en_prov := prov; en_inflight := false; en_status := EPending; en_attempts := 0; en_max := 5; en_until := None |}.
Definition hold (e : entry) : entry :=
  {| en_ref := en_ref e; en_amt := en_amt e; en_src := en_src e; en_dst := en_dst e; en_prov := en_prov e; en_inflight := true; en_status := EPending; en_attempts := 0; en_max := 5; en_until := None |}.
Definition oks (id n : nat) : list levent := repeat (LStep id OOk) n.
(** A whole attempt. *)
Definition attempt_ok (i id n : nat) : list levent := (LClaim i :: oks id n ++ [LFinish id])%list.

(** Alice gets 100 from p1 and 100 from p2. *)
Definition funded : list levent :=
  ([LTick 1; LAccept (ent "c1" 100 "world" "alice" "p1")] ++ attempt_ok 0 0 5 ++
   [LTick 1; LAccept (ent "c2" 100 "world" "alice" "p2")] ++ attempt_ok 1 1 5)%list.

Definition state (k : lcfg) (es : list levent) : lst := match lruns k linit es with Some s => s | None => linit end.
Definition ran (k : lcfg) (es : list levent) : bool := match lruns k linit es with Some _ => true | None => false end.
Lemma ran_reach k es : ran k es = true -> lreach k (state k es).
Proof. unfold ran, state. intros H. exists es. destruct (lruns k linit es); [reflexivity|discriminate]. Qed.
(** In time: decidable along a schedule. *)
Fixpoint timely (k : lcfg) (s : lst) (es : list levent) : bool :=
  match es with
  | [] => true
  | e :: r => match e with
              | LStep id _ | LFinish id => match find_att (l_atts s) id with Some a => l_now s <=? at_until a | None => true end
              | _ => true
              end && match lstep k s e with Some s' => timely k s' r | None => false end
  end.
Lemma timely_along k es : forall s, timely k s es = true -> along k in_time s es.
Proof.
  induction es as [|e es IH]; intros s H; cbn [timely along] in *; [exact Logic.I|]. apply andb_true_iff in H. destruct H as [H1 H2]. split.
  - destruct e; cbn [in_time]; try exact Logic.I; intros a Ha; rewrite Ha in H1; apply Z.leb_le in H1; exact H1.
  - destruct (lstep k s e); [apply IH; exact H2|discriminate].
Qed.
Lemma timely_reach k es : timely k linit es = true -> ran k es = true -> lreach_with k in_time (state k es).
Proof. intros T R. exists es. split; [apply timely_along; exact T|]. unfold ran, state in *. destruct (lruns k linit es); [reflexivity|discriminate]. Qed.

(** Alice pays Bob 150: 100 of p1's money and 50 of p2's. *)
Definition pay : list levent := (funded ++ [LTick 1; LAccept (ent "t" 150 "alice" "bob" "")] ++ attempt_ok 2 2 12)%list.
Example pay_runs : ran (lk "FIFO") pay = true /\ timely (lk "FIFO") linit pay = true.
Proof. vm_compute. auto. Qed.
Example pay_done : let s := state (lk "FIFO") pay in
  released s 2 = 150 /\ map (fun w => (w_prov w, w_amt w)) (releases s 2) = [("p1", 100); ("p2", 50)] /\
  map (fun w => (w_prov w, w_amt w)) (receives s 2) = [("p1", 100); ("p2", 50)] /\
  available (l_rows s) (shadow_of (lk "FIFO") "bob" "p1") = 100 /\ available (l_rows s) (shadow_of (lk "FIFO") "alice" "p2") = 50 /\
  map en_status (l_entries s) = [ECompleted; ECompleted; ECompleted].
Proof. vm_compute. repeat split. Qed.

(** The leases of a crashed attempt on Alice's and Bob's balances end. *)
Definition leases : list levent :=
  map (fun x => LExpire x) ["@p1_alice_lineage"; "@p2_alice_lineage"; "@alice_lineage"; "@p1_bob_lineage"; "@p2_bob_lineage"; "@bob_lineage"].

(** A crash between a release and its receive. *)
Definition crash_between : list levent :=
  (funded ++ [LTick 1; LAccept (ent "t" 50 "alice" "bob" ""); LClaim 2] ++ oks 2 6 ++ [LCrash 2] ++ leases ++ [LTick 31] ++ attempt_ok 2 3 4)%list.
Lemma receive_lost : let k := lk "FIFO" in let s := state k crash_between in
  lreach_with k in_time s /\ map en_status (l_entries s) = [ECompleted; ECompleted; ECompleted] /\ released s 2 = 50 /\ receives s 2 = [].
Proof. cbv zeta. split; [apply timely_reach; vm_compute; reflexivity|]. vm_compute. auto. Qed.

(** The payer names a provider: the credit is posted, the worker dies, every later attempt fails. *)
Definition retry (id : nat) : list levent := ([LTick 31] ++ leases ++ [LClaim 2] ++ oks id 3)%list.
Definition credit_then_crash : list levent :=
  (funded ++ [LTick 1; LAccept (ent "t" 50 "alice" "bob" "p1"); LClaim 2] ++ oks 2 3 ++ [LCrash 2] ++
   retry 3 ++ retry 4 ++ retry 5 ++ retry 6 ++ retry 7)%list.
Lemma debit_never_happens : let k := lk "FIFO" in let s := state k credit_then_crash in
  lreach_with k in_time s /\ map en_status (l_entries s) = [ECompleted; ECompleted; EFailed] /\ released s 2 = 0 /\
  available (l_rows s) (shadow_of k "alice" "p1") = 100 /\ available (l_rows s) (shadow_of k "bob" "p1") = 50.
Proof. cbv zeta. split; [apply timely_reach; vm_compute; reflexivity|]. vm_compute. auto 10. Qed.

(** An attempt that outlives its claim. *)
Definition late : list levent :=
  ([LTick 1; LAccept (ent "c1" 100 "world" "alice" "p1")] ++ attempt_ok 0 0 5 ++
   [LAccept (ent "t" 100 "alice" "shop" ""); LClaim 1] ++ oks 1 2 ++
   [LTick 31; LAccept (ent "c2" 100 "world" "alice" "p2")] ++ attempt_ok 2 2 5 ++
   attempt_ok 1 3 6 ++ oks 1 4)%list.
Lemma released_twice : let k := lk "LIFO" in let s := state k late in
  lreach k s /\ released s 1 = 200 /\ option_map en_amt (nth_error (l_entries s) 1) = Some 100.
Proof. cbv zeta. split; [apply ran_reach; vm_compute; reflexivity|]. vm_compute. auto. Qed.

(** Two holds on the same money, both settled. *)
Definition two_holds : list levent :=
  ([LTick 1; LAccept (ent "c1" 100 "world" "alice" "p1")] ++ attempt_ok 0 0 5 ++
   [LAccept (hold (ent "h1" 100 "alice" "shop" "")); LAccept (hold (ent "h2" 100 "alice" "shop" ""))] ++
   attempt_ok 1 1 6 ++ attempt_ok 2 2 6 ++ [LSettle (release_ref "h1" "p1"); LSettle (release_ref "h2" "p1")])%list.
Lemma holds_overdraw : let k := lk "FIFO" in let s := state k two_holds in
  lreach_with k in_time s /\ available (l_rows s) (shadow_of k "alice" "p1") = - 100.
Proof. cbv zeta. split; [apply timely_reach; vm_compute; reflexivity|]. vm_compute. reflexivity. Qed.

(** The payer names a provider: the payee's share is counted twice. *)
Definition named : list levent := (funded ++ [LTick 1; LAccept (ent "t" 50 "alice" "bob" "p1")] ++ attempt_ok 2 2 12)%list.
Lemma counted_twice : let k := lk "FIFO" in let s := state k named in
  lreach_with k in_time s /\ map en_status (l_entries s) = [ECompleted; ECompleted; ECompleted] /\ released s 2 = 50 /\ available (l_rows s) (shadow_of k "bob" "p1") = 100.
Proof. cbv zeta. split; [apply timely_reach; vm_compute; reflexivity|]. vm_compute. auto. Qed.

(** A crash after the first of two proportional releases. *)
Definition half_way : list levent :=
  (funded ++ [LTick 1; LAccept (ent "t" 100 "alice" "shop" ""); LClaim 2] ++ oks 2 6 ++ [LCrash 2] ++ leases ++ [LTick 31] ++ attempt_ok 2 3 7)%list.
Lemma released_short : let k := lk "PROPORTIONAL" in let s := state k half_way in
  lreach_with k in_time s /\ map en_status (l_entries s) = [ECompleted; ECompleted; ECompleted] /\ released s 2 = 84.
Proof. cbv zeta. split; [apply timely_reach; vm_compute; reflexivity|]. vm_compute. auto. Qed.

(** Three sources of 1 for a debit of 2. *)
Definition thirds : list source := [{| so_id := "a"; so_bal := 1; so_at := 1 |}; {| so_id := "b"; so_bal := 1; so_at := 2 |}; {| so_id := "c"; so_bal := 1; so_at := 3 |}].
Lemma thirds_good : good_sources thirds.
Proof. split; [repeat constructor; cbn; intuition discriminate|]. intros s [<-|[<-|[<-|[]]]]; cbn; lia. Qed.
Lemma thirds_short : allocated (calculate_allocation thirds 2 "PROPORTIONAL") = 1 /\ total_of thirds = 3.
Proof. vm_compute. auto. Qed.
Definition mixed : list source := [{| so_id := "a"; so_bal := 70; so_at := 1 |}; {| so_id := "b"; so_bal := 30; so_at := 2 |}; {| so_id := "c"; so_bal := 45; so_at := 3 |}].
Lemma mixed_good : good_sources mixed.
Proof. split; [repeat constructor; cbn; intuition discriminate|]. intros s [<-|[<-|[<-|[]]]]; cbn; lia. Qed.
Example mixed_allocations :
  map (fun a => (al_id a, al_amt a)) (calculate_allocation mixed 80 "FIFO") = [("a", 70); ("b", 10)] /\
  map (fun a => (al_id a, al_amt a)) (calculate_allocation mixed 80 "LIFO") = [("c", 45); ("b", 30); ("a", 5)] /\
  map (fun a => (al_id a, al_amt a)) (calculate_allocation mixed 80 "PROPORTIONAL") = [("a", 38); ("b", 16); ("c", 26)].
Proof. vm_compute. auto. Qed.
Lemma thirds_refute : good_sources thirds /\ 0 < 2 <= sumz so_bal thirds /\ allocated (calculate_allocation thirds 2 "PROPORTIONAL") < 2.
Proof. split; [exact thirds_good|]. vm_compute. repeat split; discriminate. Qed.

Lemma holds_refute : exists k s sh, lreach_with k in_time s /\ available (l_rows s) sh < 0.
Proof.
  exists (lk "FIFO"), (state (lk "FIFO") two_holds), (shadow_of (lk "FIFO") "alice" "p1"). split; [exact (proj1 holds_overdraw)|]. vm_compute. reflexivity.
Qed.
Lemma late_refute : exists k s i e, lreach k s /\ nth_error (l_entries s) i = Some e /\ en_amt e < released s i.
Proof.
  exists (lk "LIFO"), (state (lk "LIFO") late), 1%nat. eexists. split; [exact (proj1 released_twice)|]. split; [vm_compute; reflexivity|]. repeat split; vm_compute; reflexivity.
Qed.
Lemma received_refute : exists k s i e, lreach_with k in_time s /\ nth_error (l_entries s) i = Some e /\
  en_status e = ECompleted /\ k_track k (en_dst e) = true /\ released s i = en_amt e /\ receives s i = [].
Proof.
  exists (lk "FIFO"), (state (lk "FIFO") crash_between), 2%nat. eexists. split; [exact (proj1 receive_lost)|]. split; [vm_compute; reflexivity|]. repeat split; vm_compute; reflexivity.
Qed.
Lemma credit_refute : exists k s i e, lreach_with k in_time s /\ nth_error (l_entries s) i = Some e /\
  en_status e = EFailed /\ released s i = 0 /\ available (l_rows s) (shadow_of k (en_dst e) (en_prov e)) = en_amt e.
Proof.
  exists (lk "FIFO"), (state (lk "FIFO") credit_then_crash), 2%nat. eexists. split; [exact (proj1 debit_never_happens)|]. split; [vm_compute; reflexivity|]. repeat split; vm_compute; reflexivity.
Qed.
Lemma twice_refute : exists k s i e, lreach_with k in_time s /\ nth_error (l_entries s) i = Some e /\
  en_status e = ECompleted /\ available (l_rows s) (shadow_of k (en_dst e) (en_prov e)) = 2 * en_amt e.
Proof.
  exists (lk "FIFO"), (state (lk "FIFO") named), 2%nat. eexists. split; [exact (proj1 counted_twice)|]. split; [vm_compute; reflexivity|]. repeat split; vm_compute; reflexivity.
Qed.
Lemma short_refute : exists k s i e, lreach_with k in_time s /\ nth_error (l_entries s) i = Some e /\
  en_status e = ECompleted /\ released s i < en_amt e /\
  0 < available (l_rows s) (shadow_of k (en_src e) "p1") + available (l_rows s) (shadow_of k (en_src e) "p2").
Proof.
  exists (lk "PROPORTIONAL"), (state (lk "PROPORTIONAL") half_way), 2%nat. eexists. split; [exact (proj1 released_short)|]. split; [vm_compute; reflexivity|]. repeat split; vm_compute; reflexivity.
Qed.

(** A debit taken up while the credit before it is being worked on goes back to pending. *)
Definition early : list levent :=
  [LTick 1; LAccept (ent "c1" 100 "world" "alice" "p1"); LAccept (ent "t" 50 "alice" "bob" ""); LClaim 0; LClaim 1; LStep 1 OOk; LStep 1 OOk].
Example early_waits : ran (lk "FIFO") early = true /\
  map (fun e => (en_status e, en_attempts e)) (l_entries (state (lk "FIFO") early)) = [(EProcessing, 0%nat); (EPending, 1%nat)].
Proof. vm_compute. auto. Qed.
