(** C56: a name such as @World stands for one balance in each currency, whoever uses it first. *)
From Coq Require Import ZArith List String Bool.
From Verif Require Import Base BalanceModel LedgerModel LedgerProgs ConcModel Sched NameSpec NameProof NameDemo.
Import ListNotations.
Local Open Scope string_scope.
Local Open Scope list_scope.

(** In every reachable state, under every schedule, no two balances share a name and a currency. *)
Theorem C56_one : forall cfg ok u y, steps cfg ok (init_sys u) y -> one_per_name (y_st y).
Proof. exact names_unique. Qed.
Print Assumptions C56_one.

(** A balance never loses its id, name or currency. *)
Theorem C56_lasting : forall cfg ok y y' b, steps cfg ok y y' -> In b (s_bals (y_st y)) ->
  exists x, In x (s_bals (y_st y')) /\ b_id x = b_id b /\ b_ind x = b_ind b /\ b_cur x = b_cur b.
Proof. exact names_last. Qed.
Print Assumptions C56_lasting.

(** What threads do, and dying, expiring and starting, is among what [others] may do. *)
Theorem C56_others : forall cfg ok y y', steps cfg ok y y' -> others (y_st y) (y_st y').
Proof. exact threads_are_others. Qed.
Print Assumptions C56_others.

(** A request that resolves a name, with anything happening in between, gets the balance that has the name then and ever after. *)
Theorem C56_resolves : forall cfg ok u y n ind cur s1 s2 b, steps cfg ok (init_sys u) y -> ind <> "" ->
  amid n (get_or_create cfg ind cur) (y_st y) s1 (Ok b) -> others s1 s2 ->
  exists x, In x (s_bals s2) /\ b_id x = b_id b /\ b_ind x = ind /\ b_cur x = cur /\
    forall z, In z (s_bals s2) -> b_ind z = ind -> b_cur z = cur -> z = x.
Proof. exact resolves. Qed.
Print Assumptions C56_resolves.

(** Two requests, at once or one after the other, get the same balance. *)
Theorem C56_same : forall cfg ok u y y' n n' ind cur s1 s1' s2 b b', steps cfg ok (init_sys u) y -> steps cfg ok (init_sys u) y' -> ind <> "" ->
  amid n (get_or_create cfg ind cur) (y_st y) s1 (Ok b) -> amid n' (get_or_create cfg ind cur) (y_st y') s1' (Ok b') ->
  others s1 s2 -> others s1' s2 -> b_id b = b_id b'.
Proof. exact both_same. Qed.
Print Assumptions C56_same.

(** A name in use always resolves, to the balance that has it. *)
Theorem C56_in_use : forall cfg ok u y n ind cur s1 r x, steps cfg ok (init_sys u) y -> ind <> "" -> In x (s_bals (y_st y)) -> b_ind x = ind -> b_cur x = cur ->
  amid n (get_or_create cfg ind cur) (y_st y) s1 r -> exists b, r = Ok b /\ b_id b = b_id x.
Proof. exact in_use. Qed.
Print Assumptions C56_in_use.

(** A new name fails only if the id made up for it was already some balance's; losing a race is no failure. *)
Theorem C56_fails_only : forall cfg n ind cur s s' e, amid n (get_or_create cfg ind cur) s s' (Err e) ->
  e = EBalanceNotFound /\ exists k s3 x, others s s3 /\ others s3 s' /\ In (k, n) (s_owner s3) /\ In x (s_bals s3) /\ b_id x = ("bln_" ++ s_uuid s k)%string.
Proof. exact fails_only. Qed.
Print Assumptions C56_fails_only.

(** The hypotheses are met: thread 0 finds no @World and makes up an id, thread 1 creates it, thread 0 runs into the conflict and gets thread 1's. *)
Example C56_example : amid 0 (get_or_create cfg0 "@World" "USD") (init_state uuids) t2 (Ok made) /\ snd (run 1 (get_or_create cfg0 "@World" "USD") t1) = Ok made
  /\ snd (exec 0 (OCreateBal ("bln_" ++ uuids 0) "@World" "USD" false false) t2) = Err EConflict /\ world t2 = [("bln_" ++ uuids 1, "@World", "USD")%string].
Proof. exact race. Qed.
