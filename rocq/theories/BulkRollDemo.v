(** The hypotheses of the rollback theorem are met by the failing bulk of BulkDemo. *)
From Coq Require Import ZArith QArith List String Bool Lia.
From Verif Require Import BatchDemo TidyDemo PreviewAlone PreviewReach BulkDemo PreviewDemo PreviewActDemo BulkRollback BulkProof.
From Verif Require Import Base SplitModel BalanceModel LedgerModel LedgerProgs ConcModel LedgerSafe Sched Demo HoldSpec BatchSpec BulkModel BulkSpec PreviewSpec.
Import ListNotations.
Local Open Scope string_scope.
Open Scope list_scope.
Open Scope Z_scope.

Lemma rolled_back_example : exists y s' report,
  steps cfg0 polite_run (init_sys uuids) y /\ s_locks (y_st y) = [] /\ new_refs (y_st y)
  /\ (forall t i, In t bulk_ts -> (s_ctr (y_st y) <= i)%nat -> t_ref t <> ("ref_" ++ s_uuid (y_st y) i)%string)
  /\ never_mentioned ("bulk_" ++ s_uuid (y_st y) (s_ctr (y_st y))) (y_st y)
  /\ run (List.length (y_thr y)) (bulk_report cfg0 env0 bulk_ts true true true) (y_st y) = (s', (Err EInsufficient, report))
  /\ List.length report = 2%nat.
Proof.
  destruct (ready_run (bulk_report cfg0 env0 bulk_ts true true true)
    (fun s s' r => refused s r 2 && new_refsb s && (match s_locks s with [] => true | _ => false end))) as (y & s' & r & Hy & R & H);
    [vm_compute; reflexivity|].
  apply andb_true_iff in H as [H H3]. apply andb_true_iff in H as [H1 H2].
  apply refused_ok in H1 as (report & -> & _ & L & M). exists y, s', report.
  split; [exact Hy|]. split; [destruct (s_locks (y_st y)); [reflexivity|discriminate H3]|].
  split; [apply new_refsb_ok; [apply uuids_new; exact (steps_uuid _ _ _ _ Hy)|exact H2]|].
  split; [|split; [exact M|split; [exact R|exact L]]].
  intros t i [<-|[<-|[<-|[]]]] _ Q; discriminate Q.
Qed.

Lemma bulk_undone cfg u y e ts s' er report :
  distinct_uuids u -> steps cfg (fun y e => no_recon_flag y e /\ polite y e) (init_sys u) y ->
  s_locks (y_st y) = [] -> new_refs (y_st y) ->
  Forall api_txn ts -> Forall unsplit ts ->
  (forall t i, In t ts -> (s_ctr (y_st y) <= i)%nat -> t_ref t <> ("ref_" ++ s_uuid (y_st y) i)%string) ->
  never_mentioned ("bulk_" ++ s_uuid (y_st y) (s_ctr (y_st y))) (y_st y) ->
  run (List.length (y_thr y)) (bulk_report cfg e ts true true true) (y_st y) = (s', (Err er, report)) ->
  Forall succeeded report /\ restored (y_st y) s'.
Proof.
  intros Hu Hy Hl Hr Ha Hs Hg Hn R.
  pose proof (bulk_rolled_back cfg u Hu y e ts s' er report Hy Hl Hr Ha Hs Hg Hn R) as S1.
  split; [exact S1|]. exact (bulk_restores cfg u y e ts s' er report Hu Hy Ha Hs Hn R S1).
Qed.
