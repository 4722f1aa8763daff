(** Concrete runs of the lock model. *)
From Coq Require Import ZArith List String Bool Lia Relations.
From Verif Require Import Base LedgerModel LedgerProgs LockModel LockSpec LockProof.
Import ListNotations.
Local Open Scope string_scope.
Open Scope Z_scope.

Definition locker (asked : list string) (v : string) : client :=
  {| c_keys := lock_set asked; c_val := v; c_ttl := 30; c_phase := PIdle; c_leak := false |}.
(** Two transfers between the same two balances, in opposite directions, and a third. *)
Definition lock_demo : lsys :=
  {| l_now := 0; l_store := fun _ => None;
     l_clients := [locker ["bln_a"; "bln_b"] "u1"; locker ["bln_b"; "bln_a"; ""; "bln_b"] "u2"; locker ["bln_b"; "bln_c"] "u3"] |}.

Lemma lock_demo_start : lock_start lock_demo.
Proof.
  split; [reflexivity|]. split.
  - repeat apply Forall_cons; try apply Forall_nil; (split; [reflexivity|split; [reflexivity|split; [reflexivity|eexists; reflexivity]]]).
  - repeat constructor; cbn; intuition discriminate.
Qed.

Definition good : fate := {| x_times := 1; x_answered := true |}.

(** All that the examples look at. *)
Definition lview (y : lsys) (ks : list string) := (l_now y, map (live (l_now y) (l_store y)) ks, map c_phase (l_clients y), map c_leak (l_clients y)).
Definition lrun (es : list levent) : lsys := match lruns lock_demo es with Some y => y | None => lock_demo end.
Lemma lrun_reach es : (exists y, lruns lock_demo es = Some y) -> lreach (lrun es).
Proof. intros [y E]. exists lock_demo, es. split; [apply lock_demo_start|]. unfold lrun. rewrite E. reflexivity. Qed.

(** Client 0 holds both keys; client 1 fails on the first one, client 2 waits for
    bln_b; time passes. *)
Definition busy : list levent :=
  [LStart 0; LCall 0 good; LStart 2; LCall 0 good; LStart 1; LCall 1 good; LTick 10; LCall 2 good; LRetry 2].
Lemma busy_reach : lreach (lrun busy).
Proof. apply lrun_reach. vm_compute. eauto. Qed.
Lemma busy_view : lview (lrun busy) ["bln_a"; "bln_b"; "bln_c"] =
  (10, [Some "u1"; Some "u1"; None],
   [PHold [("bln_a", 30); ("bln_b", 30)]; PSleep; PTaking [] ["bln_b"; "bln_c"]], [false; false; false]).
Proof. vm_compute. reflexivity. Qed.

(** Two clients wait in a chain: 1 for 2's bln_b, 2 for nobody. *)
Definition chain2 : list levent := [LStart 2; LCall 2 good; LStart 1; LCall 1 good].
Lemma chain2_reach : lreach (lrun chain2).
Proof. apply lrun_reach. vm_compute. eauto. Qed.
Lemma chain2_waits : waits_for (lrun chain2) 1 2.
Proof.
  eexists; eexists; exists "bln_b". split; [vm_compute; reflexivity|]. split; [vm_compute; reflexivity|].
  split; vm_compute; reflexivity.
Qed.
Lemma chain2_no_leak : no_leak (lrun chain2).
Proof. intros c Hc. vm_compute in Hc. destruct Hc as [<-|[<-|[<-|[]]]]; reflexivity. Qed.

(** The server took the lock but the reply was lost: the call fails and the key stays locked. *)
Definition lost_reply : list levent := [LStart 0; LCall 0 {| x_times := 1; x_answered := false |}].
Lemma lost_reply_leaks : lreach (lrun lost_reply) /\
  lview (lrun lost_reply) ["bln_a"; "bln_b"] = (0, [Some "u1"; None], [PDone false; PIdle; PIdle], [true; false; false]).
Proof. split; [apply lrun_reach; vm_compute; eauto|vm_compute; reflexivity]. Qed.

(** The command was resent after a lost reply: the client is told that somebody else
    holds the key, although it is itself, and waits for itself. *)
Definition resent : list levent := [LStart 0; LCall 0 {| x_times := 2; x_answered := true |}; LTick 5; LRetry 0].
Lemma resent_waits : lreach (lrun resent) /\ waits_for (lrun resent) 0 0.
Proof.
  split; [apply lrun_reach; vm_compute; eauto|].
  eexists; eexists; exists "bln_a". split; [vm_compute; reflexivity|]. split; [vm_compute; reflexivity|].
  split; vm_compute; reflexivity.
Qed.

(** A lock that ran out is given to another client while the first one goes on. *)
Definition overrun : list levent :=
  [LStart 0; LCall 0 good; LCall 0 good; LTick 30; LStart 1; LCall 1 good; LCall 1 good].
Lemma overrun_both : lreach (lrun overrun) /\
  map c_phase (l_clients (lrun overrun)) = [PHold [("bln_a", 30); ("bln_b", 30)]; PHold [("bln_a", 60); ("bln_b", 60)]; PIdle].
Proof. split; [apply lrun_reach; vm_compute; eauto|vm_compute; reflexivity]. Qed.

(** ... and when the first one then unlocks, the locks of the second stay. *)
Definition late_unlock : list levent := overrun ++ [LUnlock 0; LCall 0 good; LCall 0 good].
Lemma late_unlock_view : lreach (lrun late_unlock) /\
  lview (lrun late_unlock) ["bln_a"; "bln_b"] =
  (30, [Some "u2"; Some "u2"], [PDone true; PHold [("bln_a", 60); ("bln_b", 60)]; PIdle], [false; false; false]).
Proof. split; [apply lrun_reach; vm_compute; eauto|vm_compute; reflexivity]. Qed.
