(** C18: distributed locks. *)
From Coq Require Import ZArith List String Bool Relations Sorted.
From Verif Require Import Base LedgerModel LedgerProgs LockModel LockSpec LockProof LockDemo.
Import ListNotations.
Local Open Scope string_scope.
Open Scope Z_scope.

(** Within their leases two different clients never hold the same key, and Redis
    records the holder's UUID for it. *)
Theorem C18_mutual_exclusion : forall y i j ci cj k di dj,
  lreach y -> nth_error (l_clients y) i = Some ci -> nth_error (l_clients y) j = Some cj ->
  holds ci k di -> holds cj k dj -> l_now y < di -> l_now y < dj -> i = j.
Proof. exact mutual_exclusion. Qed.
Print Assumptions C18_mutual_exclusion.

Theorem C18_held_in_redis : forall y i c k d,
  lreach y -> nth_error (l_clients y) i = Some c -> holds c k d -> l_now y < d ->
  live (l_now y) (l_store y) k = Some (c_val c).
Proof. exact lock_is_held. Qed.
Print Assumptions C18_held_in_redis.

(** "Unless the lock expired" is needed: two clients believe they hold both keys. *)
Theorem C18_exclusion_after_expiry_refuted : exists y i j ci cj k di dj,
  lreach y /\ i <> j /\ nth_error (l_clients y) i = Some ci /\ nth_error (l_clients y) j = Some cj /\
  holds ci k di /\ holds cj k dj.
Proof.
  exists (lrun overrun), 0%nat, 1%nat. eexists; eexists; exists "bln_a", 30, 60.
  split; [apply overrun_both|]. split; [discriminate|]. split; [vm_compute; reflexivity|]. split; [vm_compute; reflexivity|].
  split; vm_compute; auto.
Qed.
Print Assumptions C18_exclusion_after_expiry_refuted.

(** A client whose acquisition failed (or that has unlocked) has no key left, if no
    reply was lost. *)
Theorem C18_failed_acquire_leaves_nothing : forall y i c k,
  lreach y -> nth_error (l_clients y) i = Some c -> c_leak c = false ->
  (c_phase c = PSleep \/ (exists b, c_phase c = PDone b)) ->
  live (l_now y) (l_store y) k <> Some (c_val c).
Proof. exact nothing_left. Qed.
Print Assumptions C18_failed_acquire_leaves_nothing.

(** With a lost reply it can: the key stays locked until the lease runs out. *)
Theorem C18_lost_reply_refuted : exists y i c k,
  lreach y /\ nth_error (l_clients y) i = Some c /\ c_phase c = PDone false /\
  live (l_now y) (l_store y) k = Some (c_val c).
Proof.
  exists (lrun lost_reply), 0%nat. eexists; exists "bln_a".
  split; [apply lost_reply_leaks|]. split; [vm_compute; reflexivity|]. split; vm_compute; reflexivity.
Qed.
Print Assumptions C18_lost_reply_refuted.

(** Nothing a client does (taking, rolling back, unlocking late) touches a key that
    another client has locked. *)
Theorem C18_never_removes_others_lock : forall y e y' i j cj k,
  lreach y -> lstep y e = Some y' -> event_of e i -> i <> j ->
  nth_error (l_clients y) j = Some cj -> live (l_now y) (l_store y) k = Some (c_val cj) ->
  l_store y' k = l_store y k.
Proof. exact only_own. Qed.
Print Assumptions C18_never_removes_others_lock.

(** All clients ask for the same keys in the same order, whatever order they were given. *)
Theorem C18_fixed_order : forall asked,
  StronglySorted key_lt (lock_set asked) /\ forall k, In k (lock_set asked) <-> In k asked /\ k <> "".
Proof. exact (fun asked => conj (lock_set_sorted asked) (lock_set_in asked)). Qed.
Print Assumptions C18_fixed_order.

(** There is never a circle of clients each waiting for a key of the next. *)
Theorem C18_no_deadlock : forall y, lreach y -> no_leak y -> forall i, ~ clos_trans nat (waits_for y) i i.
Proof. exact no_deadlock. Qed.
Print Assumptions C18_no_deadlock.

(** A resent command makes a client wait for itself. *)
Theorem C18_resent_command_refuted : exists y i, lreach y /\ clos_trans nat (waits_for y) i i.
Proof. exact (ex_intro _ _ (ex_intro _ _ (conj (proj1 resent_waits) (t_step _ _ _ _ (proj2 resent_waits))))). Qed.
Print Assumptions C18_resent_command_refuted.

(** Whatever was lost and whoever died: once the longest lease has passed, every key is free. *)
Theorem C18_no_lock_is_forever : forall y k T,
  lreach y -> (forall c, In c (l_clients y) -> c_ttl c <= T) -> live (l_now y + T) (l_store y) k = None.
Proof. exact locks_expire. Qed.
Print Assumptions C18_no_lock_is_forever.

(** Concrete cases. *)
Example C18_busy : lreach (lrun busy) /\ lview (lrun busy) ["bln_a"; "bln_b"; "bln_c"] =
  (10, [Some "u1"; Some "u1"; None],
   [PHold [("bln_a", 30); ("bln_b", 30)]; PSleep; PTaking [] ["bln_b"; "bln_c"]], [false; false; false]).
Proof. exact (conj busy_reach busy_view). Qed.
Example C18_waiting : lreach (lrun chain2) /\ no_leak (lrun chain2) /\ waits_for (lrun chain2) 1 2.
Proof. exact (conj chain2_reach (conj chain2_no_leak chain2_waits)). Qed.
Example C18_late_unlock : lreach (lrun late_unlock) /\
  lview (lrun late_unlock) ["bln_a"; "bln_b"] =
  (30, [Some "u2"; Some "u2"], [PDone true; PHold [("bln_a", 60); ("bln_b", 60)]; PIdle], [false; false; false]).
Proof. exact late_unlock_view. Qed.
