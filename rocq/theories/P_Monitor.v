(** C19: balance monitors. *)
From Coq Require Import ZArith QArith List String Bool.
From Verif Require Import Base SplitModel BalanceModel MonitorModel MonitorSpec MonitorProof MonitorDemo.
Import ListNotations.
Local Open Scope string_scope.
Open Scope Z_scope.

(** When a balance is updated, exactly those of its monitors fire whose named field
    compares as stated with the configured value in minor units. *)
Theorem C19_monitors_fire_exactly : forall y b y' out,
  mreach y -> mstep y (MCheck b) = Some (y', out) ->
  forall m, plain_threshold (m_cond m) -> q_op (m_cond m) <> "=" ->
  (In m out <-> In m (y_table y) /\ m_bal m = b_id b /\ condition_holds (m_cond m) b).
Proof. exact fires_exactly. Qed.
Print Assumptions C19_monitors_fire_exactly.

(** ... each of them once. *)
Theorem C19_each_fires_once : forall y b y' out,
  mreach y -> mstep y (MCheck b) = Some (y', out) -> NoDup (map m_id out).
Proof. exact each_fires_once. Qed.
Print Assumptions C19_each_fires_once.

Theorem C19_created_is_watched : forall y id bal q y' out,
  mstep y (MCreate id bal q) = Some (y', out) ->
  In {| m_id := id; m_bal := bal; m_cond := q; m_precise := precise_value q |} (y_table y').
Proof. exact created_is_watched. Qed.
Print Assumptions C19_created_is_watched.

Theorem C19_deleted_is_gone : forall y id y' out,
  mstep y (MDelete id) = Some (y', out) -> forall m, In m (y_table y') -> m_id m <> id.
Proof. exact deleted_is_gone. Qed.
Print Assumptions C19_deleted_is_gone.

(** "=" is accepted and never fires. *)
Theorem C19_equality_refuted : exists y b y' out m,
  mreach y /\ mstep y (MCheck b) = Some (y', out) /\ In m (y_table y) /\ m_bal m = b_id b /\
  condition_holds (m_cond m) b /\ ~ In m out.
Proof.
  destruct three_fires as [y' E]. destruct equality_missed as [H1 H2].
  exists (mstate three), (bal_demo "a" 6000), y', [mon_demo "m1" "a" ">" 50 5000], (mon_demo "m2" "a" "=" 60 6000).
  split; [exact three_reach|]. split; [exact E|]. split; [exact H1|]. split; [reflexivity|]. split; [exact H2|].
  intros [H|[]]. discriminate.
Qed.
Print Assumptions C19_equality_refuted.

(** Updating the value leaves the old threshold in force. *)
Theorem C19_updated_value_refuted : exists y b y' out m,
  mreach_any y /\ mstep y (MCheck b) = Some (y', out) /\ In m out /\ plain_threshold (m_cond m) /\
  ~ condition_holds (m_cond m) b.
Proof.
  destruct raised_fires as [y' E].
  exists (mstate raised), (bal_demo "a" 6000), y', [mon_demo "m1" "a" ">" 80 5000], (mon_demo "m1" "a" ">" 80 5000).
  split; [exact raised_reach|]. split; [exact E|]. split; [left; reflexivity|].
  split; [exists 8000; split; [reflexivity|split; vm_compute; [discriminate|reflexivity]]|exact raised_not].
Qed.
Print Assumptions C19_updated_value_refuted.

(** A monitor moved to another balance still fires for the old one. *)
Theorem C19_moved_monitor_refuted : exists y b y' out m,
  mreach_any y /\ mstep y (MCheck b) = Some (y', out) /\ In m out /\
  forall m', In m' (y_table y) -> m_bal m' <> b_id b.
Proof.
  destruct moved_fires as [y' E].
  exists (mstate moved), (bal_demo "a" 6000), y', [mon_demo "m1" "a" ">" 50 5000], (mon_demo "m1" "a" ">" 50 5000).
  split; [exact moved_reach|]. split; [exact E|]. split; [left; reflexivity|].
  rewrite moved_table. intros m' [<-|[]]. discriminate.
Qed.
Print Assumptions C19_moved_monitor_refuted.

(** A monitor created during a lookup is missed until its cache entry expires. *)
Theorem C19_concurrent_create_refuted : exists y b y' m,
  mreach_any y /\ mstep y (MCheck b) = Some (y', []) /\ In m (y_table y) /\ m_bal m = b_id b /\
  plain_threshold (m_cond m) /\ condition_holds (m_cond m) b.
Proof.
  destruct raced_silent as [y' E]. destruct three_case as (_ & H2 & H3 & _).
  exists (mstate raced), (bal_demo "a" 6000), y', (mon_demo "m1" "a" ">" 50 5000).
  split; [exact raced_reach|]. split; [exact E|]. rewrite raced_table. split; [left; reflexivity|].
  split; [reflexivity|]. exact (conj H2 H3).
Qed.
Print Assumptions C19_concurrent_create_refuted.

Example C19_case : mreach (mstate three) /\
  (exists y', mstep (mstate three) (MCheck (bal_demo "a" 6000)) = Some (y', [mon_demo "m1" "a" ">" 50 5000])) /\
  In (mon_demo "m1" "a" ">" 50 5000) (y_table (mstate three)) /\
  plain_threshold (cond_demo ">" 50) /\ condition_holds (cond_demo ">" 50) (bal_demo "a" 6000) /\
  ~ condition_holds (cond_demo ">" 50) (bal_demo "a" 5000).
Proof. exact (conj three_reach (conj three_fires three_case)). Qed.
