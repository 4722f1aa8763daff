(** Concrete commit requests: the case of C10 and the amount that rounds to nothing. *)
From Coq Require Import ZArith QArith Qabs List String Bool Lia.
From Verif Require Import Base MoneySpec MoneyThms SplitModel BalanceModel LedgerModel LedgerProgs ConcModel LedgerSpec
  BudgetSpec LedgerSafe LedgerThms HoldSpec Sched Demo TidyDemo CommitModel.
Import ListNotations.
Local Open Scope string_scope.
Open Scope list_scope.
Open Scope Z_scope.

(** After a hold of 3000 minor units at precision 100 a client asks to commit [a]
    major units; [found z]: the ledger then records a commit of [z] minor units. *)
Definition found (a : Q) (z : Z) (s : state) : Prop :=
  exists h, In h (s_txns s) /\ t_status (r_t h) = SInflight /\ amount h = 3000 /\ t_prec (r_t h) = 100 /\
    exists r, In r (s_txns (fst (run 9 (commit_request cfg0 (t_id (r_t h)) a None (Some 100) "") s)))
      /\ ~ In r (s_txns s) /\ r_kind r = KCommit /\ t_parent (r_t r) = t_id (r_t h) /\ amount r = z.

Definition is_commit_of (id : string) (z : Z) (r : row) : bool :=
  match r_kind r with KCommit => true | _ => false end && String.eqb (t_parent (r_t r)) id && (amount r =? z).
Definition foundb (a : Q) (z : Z) (s : state) : bool :=
  existsb (fun h => status_eqb (t_status (r_t h)) SInflight && (amount h =? 3000) && (t_prec (r_t h) =? 100)
    && existsb (is_commit_of (t_id (r_t h)) z) (s_txns (fst (run 9 (commit_request cfg0 (t_id (r_t h)) a None (Some 100) "") s)))
    && negb (existsb (is_commit_of (t_id (r_t h)) z) (s_txns s))) (s_txns s).

Lemma foundb_ok a z s : foundb a z s = true -> found a z s.
Proof.
  intros H. apply existsb_exists in H as (h & Hh & H). rewrite !andb_true_iff in H.
  destruct H as ((((H1 & H2) & H3) & H4) & H5).
  exists h. split; [exact Hh|]. split; [apply status_eqb_eq; exact H1|]. split; [apply Z.eqb_eq; exact H2|].
  split; [apply Z.eqb_eq; exact H3|]. apply existsb_exists in H4 as (r & Hr & H4).
  exists r. split; [exact Hr|]. split.
  - intros Hin. apply negb_true_iff in H5.
    assert (E : existsb (is_commit_of (t_id (r_t h)) z) (s_txns s) = true) by (apply existsb_exists; eauto). congruence.
  - unfold is_commit_of in H4. rewrite !andb_true_iff in H4. destruct H4 as ((A & B) & C).
    split; [destruct (r_kind r); auto; discriminate|]. split; [apply String.eqb_eq; exact B|apply Z.eqb_eq; exact C].
Qed.

Lemma partial_commit_case : exists y, steps cfg0 careful (init_sys uuids) y /\ found (2469 # 200) 1235 (y_st y).
Proof. apply (witness commit_run (foundb (2469 # 200) 1235)); [apply foundb_ok|]. vm_compute. reflexivity. Qed.

(** 0.001 major units is a tenth of a minor unit; the whole hold is committed. *)
Lemma tiny_commits_all : exists y, steps cfg0 careful (init_sys uuids) y /\
  exists a z, (0 < a)%Q /\ found a z (y_st y) /\ ~ rounds_to (a * inject_Z 100) z.
Proof.
  destruct (witness commit_run (foundb (1 # 1000) 3000) (found (1 # 1000) 3000)) as (y & H1 & H2);
    [apply foundb_ok|vm_compute; reflexivity|].
  exists y. split; [exact H1|]. exists (1 # 1000)%Q, 3000. split; [reflexivity|]. split; [exact H2|].
  intros [A _]. vm_compute in A. apply A. reflexivity.
Qed.
