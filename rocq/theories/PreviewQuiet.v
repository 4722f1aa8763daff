(** Dry runs change nothing, whatever runs beside them. *)
From Coq Require Import ZArith List String Bool Lia.
From Verif Require Import BatchSpec BatchProof.
From Verif Require Import Base SplitModel BalanceModel LedgerModel LedgerProgs PreviewModel PreviewSpec.
Import ListNotations.
Local Open Scope string_scope.

Definition harmless (o : op) : Prop :=
  match o with
  | OCreateBal _ _ _ _ _ | OInsert _ | OPersist _ _ _ _ _ | OPersistBatch _ _ _ | OReconcile _
  | OEnqueue _ | OSpawn _ | OSetMeta _ _ => False
  | _ => True
  end.
Lemma harmless_unchanged n o s : harmless o -> unchanged (s, fst (exec n o s)).
Proof.
  intros H. unfold unchanged. destruct o; simpl in *; try tauto; repeat split.
  all: try (destruct (lock_owner _ _); reflexivity).
  all: destruct (lock_owner _ _); [destruct (Nat.eqb _ _)|]; reflexivity.
Qed.
Lemma among_unchanged n {A} (p : prog A) s r s' own : all_ops harmless p -> among n p s r s' own -> Forall unchanged own.
Proof.
  revert s own. induction p as [a|o k IH]; intros s own Hp; simpl.
  - intros (_ & _ & ->). constructor.
  - intros [(_ & _ & ->)|(s1 & rest & _ & -> & H3)]; [constructor|]. destruct Hp as [Ho Hk].
    constructor; [apply harmless_unchanged, Ho|eapply IH; eauto].
Qed.
Lemma run_unchanged n {A} (p : prog A) s : all_ops harmless p -> unchanged (s, fst (run n p s)).
Proof.
  revert s. induction p as [a|o k IH]; intros s Hp.
  - repeat split.
  - destruct Hp as [Ho Hk]. simpl. pose proof (harmless_unchanged n o s Ho) as H. destruct (exec n o s) as [s1 x]. simpl in H.
    pose proof (IH x s1 (Hk x)) as H1. unfold unchanged in *. destruct (run n (k x) s1) as [s2 y]. simpl in *. intuition congruence.
Qed.

Lemma h_unlock ks : all_ops harmless (unlock_keys ks).
Proof. induction ks as [|k r IH]; simpl; auto. Qed.
Lemma h_lock ks got : all_ops harmless (lock_keys ks got).
Proof.
  revert got. induction ks as [|k r IH]; intros got; simpl; [auto|]. split; [exact Logic.I|]. intros [|]; [apply IH|].
  apply all_ops_bind; [apply h_unlock|]. intros a. exact Logic.I.
Qed.
Lemma h_wait n ks : all_ops harmless (wait_lock n ks).
Proof. induction n as [|n IH]; simpl; (apply all_ops_bind; [apply h_lock|]; intros [|]); simpl; auto. Qed.
Lemma h_balance cfg x : all_ops harmless (get_balance cfg x).
Proof.
  unfold get_balance. apply all_ops_bind; [apply all_ops_act; exact Logic.I|]. intros [b|]; [|exact Logic.I].
  destruct (c_queued cfg); simpl; auto.
Qed.
Lemma h_end cfg x cur : all_ops harmless (preview_end cfg x cur).
Proof.
  unfold preview_end. destruct (String.eqb x ""); [exact Logic.I|]. destruct (starts_with_at x).
  - apply all_ops_bind; [apply all_ops_act; exact Logic.I|]. intros [b|]; exact Logic.I.
  - apply all_ops_bindr; [apply h_balance|]. intros; exact Logic.I.
Qed.
Lemma h_single cfg t : all_ops harmless (preview_single cfg t).
Proof.
  unfold preview_single. apply all_ops_bindr; [apply h_end|]. intros a. apply all_ops_bindr; [apply h_end|]. intros b.
  cbv zeta. apply all_ops_bind; [apply h_wait|]. intros [|]; [|exact Logic.I].
  apply all_ops_bind; [destruct (String.eqb _ _); [exact Logic.I|apply all_ops_act; exact Logic.I]|]. intros u.
  apply all_ops_bind; [apply h_unlock|]. intros _. destruct (project t (fst a) (fst b)) as [[w s'] d']. exact Logic.I.
Qed.
Lemma h_resolve cfg w x cur : all_ops harmless (set_resolve cfg w x cur).
Proof.
  unfold set_resolve. destruct (set_get x w); [exact Logic.I|]. apply all_ops_bindr; [apply h_end|]. intros; exact Logic.I.
Qed.
Lemma h_leg cfg w t : all_ops harmless (project_leg cfg w t).
Proof.
  unfold project_leg. apply all_ops_bindr; [apply h_resolve|]. intros a. apply all_ops_bindr; [apply h_resolve|]. intros b.
  destruct (same_balance _ _); [exact Logic.I|]. destruct (project t (snd a) (snd b)) as [[why s'] d']. exact Logic.I.
Qed.
Lemma h_legs cfg w legs : all_ops harmless (project_legs cfg w legs).
Proof.
  revert w. induction legs as [|l r IH]; intros w; simpl; [auto|]. apply all_ops_bindr; [apply h_leg|]. intros [w' [e|]]; simpl; auto.
Qed.
Lemma h_apart cfg legs : all_ops harmless (project_apart cfg legs).
Proof.
  induction legs as [|l r IH]; simpl; [auto|]. apply all_ops_bindr; [apply h_leg|]. intros x.
  apply all_ops_bindr; [apply IH|]. intros; exact Logic.I.
Qed.
Lemma h_make t i m : all_ops harmless (make_legs t i m).
Proof.
  revert i. induction m as [|[w p] r IH]; intros i; [exact Logic.I|]. cbn [make_legs]. unfold fresh.
  apply all_ops_bind; [apply all_ops_bind; [apply all_ops_act; exact Logic.I|intros; exact Logic.I]|]. intros x.
  apply all_ops_bind; [apply IH|]. intros; exact Logic.I.
Qed.
Lemma h_splittxn e t : all_ops harmless (split_txn e t).
Proof.
  unfold split_txn. cbv zeta. destruct (calculate_distributions _ _ _ _ _); [|exact Logic.I].
  apply all_ops_bind; [apply h_make|]. intros; exact Logic.I.
Qed.
Lemma h_split cfg e t : all_ops harmless (preview_split cfg e t).
Proof.
  unfold preview_split. apply all_ops_bindr; [apply h_splittxn|]. intros l. destruct (t_skipq t); [|apply h_apart].
  apply all_ops_bindr; [apply h_legs|]. intros; exact Logic.I.
Qed.
Lemma preview_harmless cfg e t : all_ops harmless (preview_transaction cfg e t).
Proof.
  unfold preview_transaction. cbv zeta. destruct (t_sources _); [destruct (t_dests _)|]; [apply h_single|apply h_split|apply h_split].
Qed.
Lemma h_item cfg e w t : all_ops harmless (cumulative_item cfg e w t).
Proof.
  assert (H : all_ops harmless (legs <-? split_txn e (ready_leg t) ;; project_legs cfg w legs)%prog) by
    (apply all_ops_bindr; [apply h_splittxn|]; intros; apply h_legs).
  unfold cumulative_item. cbv zeta. destruct (t_sources _); [destruct (t_dests _)|]; [apply h_legs|exact H|exact H].
Qed.
Lemma h_items cfg e infl skipq w seen ts : all_ops harmless (bulk_items cfg e infl skipq w seen ts).
Proof.
  revert w seen. induction ts as [|t r IH]; intros w seen; simpl; [auto|].
  apply all_ops_bind.
  { unfold duplicate_ref. destruct (String.eqb _ _); [exact Logic.I|]. destruct (existsb _ _); [exact Logic.I|]. apply all_ops_act; exact Logic.I. }
  intros [|].
  - apply all_ops_bindr; [apply IH|]. intros; exact Logic.I.
  - apply all_ops_bindr.
    + destruct skipq; [apply h_item|]. apply all_ops_bindr; [apply preview_harmless|]. intros; exact Logic.I.
    + intros y. apply all_ops_bindr; [apply IH|]. intros; exact Logic.I.
Qed.
Lemma bulk_harmless cfg e ts infl skipq : all_ops harmless (preview_bulk cfg e ts infl skipq).
Proof. unfold preview_bulk. apply all_ops_bindr; [apply h_items|]. intros; exact Logic.I. Qed.
Lemma h_inflight id : all_ops harmless (fetch_inflight id).
Proof.
  unfold fetch_inflight. repeat (apply all_ops_bind || (apply all_ops_act; exact Logic.I) || intros [?|] || intros ? || exact Logic.I
    || match goal with |- all_ops _ (if ?b then _ else _) => destruct b end || match goal with |- all_ops _ (match ?b with _ => _ end) => destruct b end).
Qed.
Lemma h_action cfg v amount w legs : all_ops harmless (action_legs cfg v amount w legs).
Proof.
  revert w. induction legs as [|l r IH]; intros w; simpl; [auto|]. split; [exact Logic.I|]. intros c.
  apply all_ops_bindr; [destruct (settlement _ _ _ _); [apply h_leg|exact Logic.I]|]. intros y.
  apply all_ops_bindr; [apply IH|]. intros; exact Logic.I.
Qed.
Lemma action_harmless cfg id v amount : all_ops harmless (preview_action cfg id v amount).
Proof.
  assert (H : forall legs, all_ops harmless (x <-? action_legs cfg v amount [] legs ;;
    Ret (Ok {| pv_rejection := snd x; pv_balances := projections (fst x) |}))%prog).
  { intros legs. apply all_ops_bindr; [apply h_action|]. intros; exact Logic.I. }
  unfold preview_action. cbv zeta. apply all_ops_bind; [apply h_inflight|].
  intros [t|e]; [apply H|]. destruct e; try exact Logic.I; (apply all_ops_bind; [apply all_ops_act; exact Logic.I|]; intros [|l ls]; [exact Logic.I|apply H]).
Qed.
Lemma h_refund cfg w legs : all_ops harmless (refund_legs cfg w legs).
Proof.
  revert w. induction legs as [|l r IH]; intros w; simpl; [auto|]. split; [exact Logic.I|]. intros c.
  apply all_ops_bindr; [destruct c; [exact Logic.I|apply h_leg]|]. intros y.
  apply all_ops_bindr; [apply IH|]. intros; exact Logic.I.
Qed.
Lemma refund_harmless cfg id : all_ops harmless (preview_refund cfg id).
Proof.
  unfold preview_refund. apply all_ops_bind; [apply all_ops_act; exact Logic.I|]. intros [|l ls]; [exact Logic.I|].
  apply all_ops_bindr; [apply h_refund|]. intros; exact Logic.I.
Qed.
