(** Every request is made of ordinary operations. *)
From Coq Require Import ZArith List String Bool Lia.
From Verif Require Import WorkProof BatchProof.
From Verif Require Import Base MoneyModel SplitModel BalanceModel LedgerModel LedgerProgs ConcModel BatchSpec.
Import ListNotations.
Local Open Scope string_scope.
Open Scope Z_scope.

Notation plain := (all_ops ordinary).
Create HintDb ord.
Ltac ord := repeat match goal with
  | |- forall _, _ => intro
  | |- all_ops _ (Ret _) => exact Logic.I
  | |- all_ops _ (bindr _ _) => apply all_ops_bindr
  | |- all_ops _ (bind _ _) => apply all_ops_bind
  | |- all_ops _ (act _) => apply all_ops_act; exact Logic.I
  | |- all_ops _ (Do _ _) => split; [exact Logic.I|]
  | |- all_ops _ (match ?x with _ => _ end) => destruct x
  | |- all_ops _ _ => solve [auto with ord]
  | |- _ => progress cbv zeta
  end.

Lemma plain_fresh p : plain (fresh p). Proof. unfold fresh. ord. Qed.
#[local] Hint Resolve plain_fresh : ord.
Lemma plain_get_balance cfg id : plain (get_balance cfg id). Proof. unfold get_balance. ord. Qed.
#[local] Hint Resolve plain_get_balance : ord.
Lemma plain_get_or_create cfg i c : plain (get_or_create cfg i c).
Proof.
  unfold get_or_create. cbv zeta. apply all_ops_bind; [ord|]. intros [b|]; [ord|].
  unfold fresh. cbn [bind act all_ops]. split; [exact Logic.I|]. intros u. split; [split; reflexivity|]. ord.
Qed.
#[local] Hint Resolve plain_get_or_create : ord.
Lemma plain_resolve cfg s c : plain (resolve_id cfg s c). Proof. unfold resolve_id. ord. Qed.
Lemma plain_get_end cfg s c : plain (get_end cfg s c). Proof. unfold get_end. ord. Qed.
Lemma plain_unlock ks : plain (unlock_keys ks). Proof. exact (all_ops_impl _ _ _ silent_ordinary (silent_unlock ks)). Qed.
Lemma plain_wait n ks : plain (wait_lock n ks). Proof. exact (all_ops_impl _ _ _ silent_ordinary (silent_wait n ks)). Qed.
#[local] Hint Resolve plain_resolve plain_get_end plain_unlock plain_wait : ord.
Lemma plain_record_locked cfg t : plain (record_locked cfg t). Proof. unfold record_locked. ord. Qed.
#[local] Hint Resolve plain_record_locked : ord.
Lemma plain_record cfg t : plain (record_single cfg t). Proof. unfold record_single. ord. Qed.
#[local] Hint Resolve plain_record : ord.
Lemma plain_fetch id : plain (fetch_inflight id). Proof. unfold fetch_inflight. ord. Qed.
Lemma plain_with_lock k {A} (p : prog (res A)) : plain p -> plain (with_lock k p). Proof. intros H. unfold with_lock. ord. Qed.
Lemma plain_choose r : plain (choose_ref r). Proof. unfold choose_ref. ord. Qed.
#[local] Hint Resolve plain_fetch plain_choose : ord.
Lemma plain_commit cfg i a r : plain (commit cfg i a r). Proof. unfold commit. apply plain_with_lock. ord. Qed.
Lemma plain_void cfg i r : plain (void cfg i r). Proof. unfold void. apply plain_with_lock. ord. Qed.
Lemma plain_ensure t : plain (ensure_id t). Proof. unfold ensure_id. ord. Qed.
Lemma plain_copy t r : plain (queue_copy t r). Proof. unfold queue_copy. ord. Qed.
#[local] Hint Resolve plain_commit plain_void plain_ensure plain_copy : ord.
Lemma plain_prepare cfg t : plain (prepare_for_queue cfg t). Proof. unfold prepare_for_queue. ord. Qed.
#[local] Hint Resolve plain_prepare : ord.
Lemma plain_psingle cfg t r : plain (process_single cfg t r). Proof. unfold process_single. ord. Qed.
#[local] Hint Resolve plain_psingle : ord.
Lemma plain_psplit cfg l : plain (process_split cfg l). Proof. induction l; simpl process_split; ord. Qed.
#[local] Hint Resolve plain_psplit : ord.
Lemma plain_enqueue l : plain (enqueue_all l). Proof. induction l; cbn [enqueue_all]; ord. Qed.
#[local] Hint Resolve plain_enqueue : ord.
Lemma plain_job cfg j : plain (async_job cfg j). Proof. unfold async_job. ord. Qed.
#[local] Hint Resolve plain_job : ord.
Lemma plain_legs t m : forall i, plain (make_legs t i m).
Proof. induction m as [|[who p] r IH]; intros i; cbn [make_legs]; ord. Qed.
#[local] Hint Resolve plain_legs : ord.
Lemma plain_split e t : plain (split_txn e t). Proof. unfold split_txn. ord. Qed.
Lemma plain_qasync t l r i : plain (queue_async t l r i). Proof. unfold queue_async. ord. Qed.
#[local] Hint Resolve plain_split plain_qasync : ord.
Lemma plain_qns cfg t : plain (queue_nosplit cfg t). Proof. unfold queue_nosplit. ord. Qed.
Lemma plain_ro i : plain (refund_original i). Proof. unfold refund_original. ord. Qed.
#[local] Hint Resolve plain_qns plain_ro : ord.
Lemma plain_refund cfg i s u : plain (refund cfg i s u). Proof. unfold refund. apply plain_with_lock. ord. Qed.
#[local] Hint Resolve plain_refund : ord.
Lemma plain_for_each {A B} (f : A -> prog B) l : (forall x, plain (f x)) -> plain (for_each f l).
Proof. intros H. induction l; cbn [for_each]; ord. Qed.
Lemma plain_action cfg p v a i : plain (inflight_action cfg p v a i).
Proof. unfold inflight_action. apply all_ops_bind; [ord|]. intros legs. apply plain_for_each. ord. Qed.
Lemma plain_refunds cfg p s : plain (refund_batch cfg p s).
Proof. unfold refund_batch. apply all_ops_bind; [ord|]. intros ts. apply plain_for_each. ord. Qed.
#[local] Hint Resolve plain_action plain_refunds : ord.
Lemma plain_rollback cfg b i : plain (rollback_batch cfg b i). Proof. unfold rollback_batch. ord. Qed.
#[local] Hint Resolve plain_rollback : ord.
Lemma plain_rlegs cfg l i : plain (record_legs cfg l i). Proof. induction l; cbn [record_legs]; ord. Qed.
#[local] Hint Resolve plain_rlegs : ord.
Lemma plain_qt cfg e t : plain (queue_transaction cfg e t). Proof. unfold queue_transaction. ord. Qed.
#[local] Hint Resolve plain_qt : ord.
Lemma plain_pb cfg e ts b i s : plain (process_bulk cfg e ts b i s). Proof. induction ts; cbn [process_bulk]; ord. Qed.
#[local] Hint Resolve plain_pb : ord.
Lemma plain_bulk cfg e ts a i s : plain (bulk cfg e ts a i s). Proof. unfold bulk. ord. Qed.
Lemma plain_reject cfg t : plain (reject cfg t). Proof. unfold reject. ord. Qed.
Lemma plain_copies l : plain (copies l). Proof. induction l; cbn [copies]; ord. Qed.
#[local] Hint Resolve plain_bulk plain_reject plain_copies : ord.
Lemma plain_build l scs sel : plain (build_batch l scs sel). Proof. induction scs; cbn [build_batch]; ord. Qed.
Lemma plain_members cfg ts ex seen m : plain (prepare_members cfg ts ex seen m).
Proof. exact (all_ops_impl _ _ _ silent_ordinary (silent_members cfg ts ex seen m)). Qed.
Lemma plain_load_each cfg ids : plain (load_each cfg ids). Proof. induction ids; cbn [load_each]; ord. Qed.
#[local] Hint Resolve plain_build plain_members plain_load_each : ord.
Lemma plain_load cfg ids : plain (load_balances cfg ids). Proof. unfold load_balances. ord. Qed.
#[local] Hint Resolve plain_load : ord.
Lemma plain_blocked cfg ids ts : plain (batch_locked cfg ids ts). Proof. unfold batch_locked. ord. Qed.
#[local] Hint Resolve plain_blocked : ord.
Lemma plain_pqb cfg ts : plain (persist_queued_batch cfg ts). Proof. unfold persist_queued_batch. ord. Qed.
#[local] Hint Resolve plain_pqb : ord.
Lemma plain_try cfg f s t : plain (try_batch cfg f s t). Proof. unfold try_batch. ord. Qed.
#[local] Hint Resolve plain_try : ord.
Lemma plain_pq cfg h s t : plain (process_queued cfg h s t). Proof. unfold process_queued. ord. Qed.
#[local] Hint Resolve plain_pq : ord.
Lemma plain_worker cfg h s1 s2 r t : plain (worker cfg h s1 s2 r t). Proof. unfold worker. ord. Qed.
Lemma plain_recover cfg h s e k i : plain (recover cfg h s e k i). Proof. unfold recover. ord. Qed.
#[local] Hint Resolve plain_worker plain_recover : ord.

Definition plain_start (y : sys) (e : event) : Prop :=
  match e with
  | EStart (RBalance _ _ recon _) => recon = false
  | EStart (RReconcile _) => False
  | _ => True
  end.
Lemma plain_request cfg r : plain_start (init_sys (fun _ => "")) (EStart r) -> plain (prog_of cfg r).
Proof.
  destruct r; simpl plain_start; intros H; unfold prog_of, done; try (ord; fail).
  - apply all_ops_bind; [|ord]. unfold new_balance, fresh. cbn [bind act all_ops]. split; [exact Logic.I|]. intros u. split; [split; [exact H|reflexivity]|]. ord.
  - destruct H.
Qed.

Lemma Forall_set_nth {A} (P : A -> Prop) n a l : P a -> Forall P l -> Forall P (set_nth n a l).
Proof. intros Ha F. revert n. induction F as [|x r Hx F IH]; intros [|n]; simpl; constructor; auto. Qed.
Lemma plain_step cfg y e y' : Forall plain (y_thr y) -> plain_start y e -> step cfg y e y' ->
  Forall plain (y_thr y') /\ others (y_st y) (y_st y').
Proof.
  intros F P S. destruct e as [r|n|n|k].
  - assert (Pr : plain (prog_of cfg r)) by (apply plain_request; destruct r; exact P).
    assert (Fr : Forall plain (y_thr y ++ [prog_of cfg r])) by (apply Forall_app; auto).
    destruct r; cbn [step] in S; try (destruct S as [_ ->]; split; [exact Fr|apply os_none]; fail).
    destruct S as (l1 & l2 & _ & ->). split; [exact Fr|]. simpl. eapply os_jobs. apply os_none.
  - cbn [step] in S. destruct (nth_error (y_thr y) n) as [[u|o k]|] eqn:En; try contradiction. subst y'. simpl.
    assert (Hp : plain (Do o k)). { rewrite Forall_forall in F. apply F. eapply nth_error_In; eauto. }
    destruct Hp as [Ho Hk]. split; [apply Forall_set_nth; auto|]. eapply os_op; [exact Ho|apply os_none].
  - cbn [step] in S. subst y'. simpl. split; [apply Forall_set_nth; [exact Logic.I|exact F]|apply os_none].
  - cbn [step] in S. subst y'. simpl. split; [exact F|eapply os_locks; apply os_none].
Qed.
Lemma plain_steps cfg y y' : Forall plain (y_thr y) -> steps cfg plain_start y y' ->
  Forall plain (y_thr y') /\ others (y_st y) (y_st y').
Proof.
  intros F H. induction H as [y|y1 y2 y3 e H IH P S]; [split; [exact F|apply os_none]|].
  destruct (IH F) as [F2 O2]. destruct (plain_step _ _ _ _ F2 P S) as [F3 O3]. split; [exact F3|eapply others_trans; eauto].
Qed.
(** What [others] allows covers every step of an installation in which nobody asks
    for a reconciliation, and its books are tidy. *)
Theorem others_cover cfg u y y' : steps cfg plain_start (init_sys u) y -> steps cfg plain_start y y' ->
  tidy (y_st y) /\ others (y_st y) (y_st y').
Proof.
  intros H1 H2. destruct (plain_steps cfg (init_sys u) y) as [F O]; [constructor|exact H1|].
  split; [|apply (plain_steps cfg y y' F H2)].
  apply (others_tame _ _ O). split; constructor.
Qed.

Lemma among_rows n {A} (p : prog A) s r s' own : among n p s r s' own -> incl (s_txns s) (s_txns s').
Proof.
  assert (Ho : forall s s', others s s' -> incl (s_txns s) (s_txns s')).
  { induction 1 as [q|m o q q' Ho Hs IH|l q q' Hs IH|l q q' Hs IH]; [apply incl_refl| |exact IH|exact IH].
    eapply incl_tran; [apply exec_rows|exact IH]. }
  revert s own. induction p as [a|o k IH]; intros s own; simpl.
  - intros (H & _). apply Ho, H.
  - intros [(H & _)|(s1 & rest & H & _ & H3)]; [apply Ho, H|]. eapply incl_tran; [apply Ho, H|].
    eapply incl_tran; [apply exec_rows|eapply IH, H3].
Qed.
Lemma pick_rows_queued ov p sel l x : In x (pick_rows ov p sel l) ->
  exists q, In q l /\ t_status (r_t q) = SQueued /\ x = db_view (meta_of ov (r_t q)) (r_t q).
Proof.
  induction sel as [|i r IH]; simpl; [tauto|]. destruct (get_row i l) as [t|] eqn:E; [|exact IH].
  destruct (is_stuck l t && p t) eqn:Ep; [|exact IH]. intros [<-|H]; [|apply IH, H].
  apply andb_prop in Ep as [Es _]. unfold is_stuck in Es. apply andb_prop in Es as [Es _].
  assert (Hin : exists q, In q l /\ r_t q = t).
  { clear -E. induction l as [|y m IH]; simpl in *; [discriminate|]. destruct (String.eqb _ _).
    - injection E as <-. exists y. auto.
    - destruct (IH E) as (q & Hq & Eq). exists q. auto. }
  destruct Hin as (q & Hq & <-). exists q. split; [exact Hq|]. split; [|reflexivity].
  destruct (t_status (r_t q)); try discriminate; reflexivity.
Qed.
Lemma copies_of n sibs : forall s cs s' own, among n (copies sibs) s (Some cs) s' own ->
  Forall (fun c => exists x i, In x sibs /\ t_status x = SQueued /\ c = with_keys (restore_flags x) i (t_id x) (t_ref x ++ "_q")) cs.
Proof.
  induction sibs as [|x r IH]; intros s cs s' own; cbn [copies].
  - intros (_ & E & _). injection E as ->. constructor.
  - assert (Hw : forall l, Forall (fun c => exists y i, In y r /\ t_status y = SQueued /\ c = with_keys (restore_flags y) i (t_id y) (t_ref y ++ "_q")) l ->
             Forall (fun c => exists y i, In y (x :: r) /\ t_status y = SQueued /\ c = with_keys (restore_flags y) i (t_id y) (t_ref y ++ "_q")) l).
    { intros l. apply Forall_impl. intros c (y & i & Hy & E). exists y, i. split; [right; exact Hy|exact E]. }
    cbv zeta. destruct (can_coalesce_original (restore_flags x)) eqn:Ec; [|intros H; apply Hw; eapply IH; exact H].
    intros H. apply among_bind in H as [[E _]|(c & s1 & o1 & o2 & _ & H1 & H)]; [discriminate|].
    apply among_bind in H as [[E _]|(l & s2 & o3 & o4 & _ & H2 & H)]; [discriminate|].
    destruct H as (_ & E & _). injection E as ->. constructor; [|apply Hw; eapply IH; exact H2].
    unfold queue_copy in H1. apply among_bind in H1 as [[E _]|(i & s3 & o5 & o6 & _ & _ & H)]; [discriminate|].
    destruct H as (_ & E & _). injection E as ->. exists x, i. split; [left; reflexivity|]. split; [|reflexivity].
    unfold can_coalesce_original in Ec. apply andb_prop in Ec as [Ec _]. apply andb_prop in Ec as [Ec _]. apply andb_prop in Ec as [Ec _].
    apply andb_prop in Ec as [Ec _]. simpl in Ec. destruct (t_status x); try discriminate; reflexivity.
Qed.

Lemma build_run n t scs sel s r s' own : among n (build_batch t scs sel) s r s' own ->
  Forall quiet own /\ match r with
    | Some (x :: rest) => x = t /\ rest <> [] /\ Forall (fun x => t_status x = SQueued /\ exists q, In q (s_txns s') /\ copy_of q x) rest
    | _ => True
    end.
Proof.
  intros H. split.
  - eapply among_quiet; [|exact H]. clear. induction scs as [|sc scs IH]; cbn [build_batch]; [exact Logic.I|].
    apply all_ops_bind; [apply all_ops_act; exact Logic.I|]. intros sibs. apply all_ops_bind.
    + induction sibs as [|x q IHq]; cbn [copies]; [exact Logic.I|]. cbv zeta. destruct (can_coalesce_original _); [|exact IHq].
      apply all_ops_bind; [split; [exact Logic.I|intros ?; exact Logic.I]|]. intros c. apply all_ops_bind; [exact IHq|intros ?; exact Logic.I].
    + intros [|c cs]; [exact IH|exact Logic.I].
  - destruct r as [[|x rest]|]; [exact Logic.I| |exact Logic.I]. revert s own H. induction scs as [|sc scs IH]; intros s own H; cbn [build_batch] in H.
    + destruct H as (_ & E & _). discriminate.
    + apply among_bind in H as [[E _]|(sibs & s1 & o1 & o2 & _ & H1 & H)]; [discriminate|].
      apply among_bind in H as [[E _]|(cs & s2 & o3 & o4 & _ & H2 & H)]; [discriminate|].
      destruct cs as [|c cs]; [eapply IH; exact H|]. pose proof (copies_of _ _ _ _ _ _ H2) as C. pose proof (among_rows _ _ _ _ _ _ H2) as R2.
      pose proof (among_rows n (Ret (t :: c :: cs)) _ _ _ _ H) as R3.
      destruct H as (_ & E & _). injection E as -> ->. split; [reflexivity|]. split; [discriminate|].
      eapply Forall_impl; [|exact C]. intros a (y & i & Hy & Hst & ->).
      unfold act in H1. cbn [among] in H1. destruct H1 as [(_ & E & _)|(s3 & q1 & _ & _ & Ho & E & _)]; [discriminate|]. injection E as ->.
      cbn [exec snd fst] in *. apply pick_rows_queued in Hy as (q & Hq & Hqs & ->). split; [exact Hst|].
      exists q. split; [|repeat split; assumption].
      apply R3, R2. assert (Hi : incl (s_txns s3) (s_txns s1)) by exact (among_rows n (Ret tt) s3 (Some tt) s1 [] (conj Ho (conj eq_refl eq_refl))).
      apply Hi, Hq.
Qed.

Lemma Forall_quiet_app o1 o2 : Forall quiet o1 -> Forall quiet o2 -> Forall quiet (o1 ++ o2).
Proof. intros; apply Forall_app; auto. Qed.
Lemma at_once_app ts d own o1 : Forall quiet o1 -> recorded_at_once ts d own -> recorded_at_once ts d (o1 ++ own).
Proof.
  intros Q [[H1 H2]|(p1 & b & a & p2 & rows & -> & A1 & A2)]; [left; split; [apply Forall_quiet_app; auto|exact H2]|].
  right. exists (o1 ++ p1)%list, b, a, p2, rows. split; [rewrite app_assoc; reflexivity|]. split; [apply Forall_quiet_app; auto|exact A2].
Qed.
Lemma none_or_all_app cfg ts d own o1 : Forall quiet o1 -> none_or_all cfg ts d own -> none_or_all cfg ts d (o1 ++ own).
Proof.
  intros Q [[H1 H2]|(p1 & b & a & p2 & al & rs & -> & A1 & A2)]; [left; split; [apply Forall_quiet_app; auto|exact H2]|].
  right. exists (o1 ++ p1)%list, b, a, p2, al, rs. split; [rewrite app_assoc; reflexivity|]. split; [apply Forall_quiet_app; auto|exact A2].
Qed.
Lemma plain_tame n {A} (p : prog A) s r s' own : plain p -> among n p s r s' own -> tidy s -> tidy s'.
Proof. intros Hp H T. exact (proj1 (among_tame _ _ _ _ _ _ Hp H T)). Qed.

Theorem try_batch_whole n cfg force sel t s r s' own :
  c_queued cfg = false -> tidy s -> among n (try_batch cfg force sel t) s r s' own ->
  (Forall quiet own /\ r <> Some true)
  \/ exists rest, rest <> [] /\ Forall (fun x => exists q, In q (s_txns s') /\ copy_of q x) rest
       /\ recorded_at_once (t :: rest) r own
       /\ (Forall (fun x => t_src x <> t_dst x) (t :: rest) -> none_or_all cfg (t :: rest) r own).
Proof.
  intros Q T. unfold try_batch. destruct (can_coalesce t) eqn:Ec; [|intros (_ & -> & ->); left; split; [constructor|discriminate]].
  cbn [negb]. destruct (negb _); [intros (_ & -> & ->); left; split; [constructor|discriminate]|].
  intros H. apply among_bind in H as [[-> H]|(b & s1 & o1 & o2 & -> & H1 & H)].
  { left. split; [exact (proj1 (build_run _ _ _ _ _ _ _ _ H))|discriminate]. }
  destruct (build_run _ _ _ _ _ _ _ _ H1) as [Q1 Hb]. pose proof (plain_tame _ _ _ _ _ _ (plain_build _ _ _) H1 T) as T1.
  destruct b as [|x rest]; [destruct H as (_ & -> & ->); left; rewrite app_nil_r; split; [exact Q1|discriminate]|].
  destruct Hb as (-> & Hne & Hc). right. exists rest. split; [exact Hne|].
  assert (Hq : t_status t = SQueued).
  { unfold can_coalesce, can_coalesce_original in Ec. apply andb_prop in Ec as [_ Ec]. apply andb_prop in Ec as [Ec _]. apply andb_prop in Ec as [Ec _].
    apply andb_prop in Ec as [Ec _]. apply andb_prop in Ec as [Ec _]. destruct (t_status t); try discriminate; reflexivity. }
  assert (Fq : Forall (fun x => t_status x = SQueued) (t :: rest)).
  { constructor; [exact Hq|]. eapply Forall_impl; [|exact Hc]. simpl. tauto. }
  assert (Hr : exists d, among n (persist_queued_batch cfg (t :: rest)) s1 d s' o2 /\ r = option_map is_ok d
               \/ exists s2, among n (persist_queued_batch cfg (t :: rest)) s1 d s2 o2 /\ r = option_map is_ok d).
  { apply among_bind in H as [[-> H]|(x & s2 & o3 & o4 & -> & H2 & H)].
    - exists None. left. auto.
    - destruct H as (_ & -> & ->). exists (Some x). right. exists s2. rewrite app_nil_r. auto. }
  assert (Hr' : exists d s2, among n (persist_queued_batch cfg (t :: rest)) s1 d s2 o2 /\ r = option_map is_ok d).
  { destruct Hr as (d & [[A B]|(s2 & A & B)]); eauto. }
  pose proof (among_rows _ _ _ _ _ _ H) as R. clear H Hr. destruct Hr' as (d & s2 & H & ->).
  split. { eapply Forall_impl; [|exact Hc]. intros a (_ & q & Hq' & C). exists q. split; [apply R, Hq'|exact C]. }
  split.
  - apply at_once_app; [exact Q1|]. eapply batch_at_once; eauto. discriminate.
  - intros F. apply none_or_all_app; [exact Q1|]. eapply batch_as_one_by_one; eauto; [discriminate|].
    rewrite Forall_forall in F, Fq |- *. auto.
Qed.
