(** Two requests that make @World at once. *)
From Coq Require Import ZArith List String Bool.
From Verif Require Import Base BalanceModel LedgerModel LedgerProgs ConcModel Sched Demo NameSpec NameProof.
Import ListNotations.
Local Open Scope string_scope.
Local Open Scope list_scope.

Definition world (s : state) := map (fun b => (b_id b, b_ind b, b_cur b)) (s_bals s).
(** Thread 0 finds nothing and makes up an id; thread 1 is faster; thread 0 is told of the conflict and reads again. *)
Definition t1 : state := fst (exec 0 OFresh (init_state uuids)).
Definition t2 : state := fst (run 1 (get_or_create cfg0 "@World" "USD") t1).
Definition made : balance := fresh_balance ("bln_" ++ uuids 1) "@World" "USD" false false.

Lemma race : amid 0 (get_or_create cfg0 "@World" "USD") (init_state uuids) t2 (Ok made) /\ snd (run 1 (get_or_create cfg0 "@World" "USD") t1) = Ok made
  /\ snd (exec 0 (OCreateBal ("bln_" ++ uuids 0) "@World" "USD" false false) t2) = Err EConflict /\ world t2 = [("bln_" ++ uuids 1, "@World", "USD")%string].
Proof.
  split; [|split; [|split]; vm_compute; reflexivity].
  unfold get_or_create. cbn [bind act amid exec fst snd]. exists (init_state uuids). split; [apply others_none|]. cbn [init_state s_bals get_bal_ind].
  unfold fresh. cbn [bind act amid]. exists (init_state uuids). split; [apply others_none|].
  exists t2. split.
  - change t2 with (fst (exec 1 (OCreateBal ("bln_" ++ uuids 1) "@World" "USD" false false) (fst (exec 1 OFresh t1)))). apply others_op, others_op, others_none.
  - change (snd (exec 0 (OCreateBal ("bln_" ++ snd (exec 0 OFresh (init_state uuids)))%string "@World" "USD" false false) t2)) with (@Err unit EConflict).
    change (fst (exec 0 (OCreateBal ("bln_" ++ snd (exec 0 OFresh (init_state uuids)))%string "@World" "USD" false false) t2)) with t2.
    cbn beta iota. cbn [bind act amid]. exists t2. split; [apply others_none|]. 
    change (snd (exec 0 (OGetInd "@World" "USD") t2)) with (Some made). change (fst (exec 0 (OGetInd "@World" "USD") t2)) with t2.
    change (c_queued cfg0) with false. cbn beta iota. cbn [amid]. split; [apply others_none|reflexivity].
Qed.
