(** A commit request records nothing but commits of the requested amount (C10). *)
From Coq Require Import ZArith QArith Qabs List String Bool Lia Lqa.
From Verif Require Import Base MoneyModel MoneyProof MoneySpec MoneyThms SplitModel BalanceModel LedgerModel LedgerProgs
  ConcLogic LedgerInv LedgerPure LedgerSafe PostSpec PostProof CommitModel.
Import ListNotations.
Local Open Scope string_scope.
Open Scope Z_scope.

Definition posts_only (z : Z) (x : state * state) : Prop := untouched x \/ exists t, posted t x /\ t_precise t = z.

Lemma po_quiet z tr : Forall untouched tr -> Forall (posts_only z) tr.
Proof. intros H. eapply Forall_impl; [|exact H]. intros x Hx. left; exact Hx. Qed.

(** What we follow: the writes, and the amount of a success. *)
Definition exact_amount (z : Z) (tr : list (state * state)) (r : option (res txn)) : Prop :=
  Forall (posts_only z) tr /\ forall t, r = Some (Ok t) -> t_precise t = z.

Lemma ea_quiet z tr : Forall untouched tr -> exact_amount z tr None.
Proof. intros H. split; [apply po_quiet; exact H|discriminate]. Qed.
Lemma ea_err z n e tr r : traces n (Ret (Err e)) tr r -> exact_amount z tr r.
Proof. intros [-> [-> | ->]]; (split; [constructor|discriminate]). Qed.

Lemma ea_bind {A} z n (p : prog A) (f : A -> prog (res txn)) :
  all_ops harmless p -> (forall a tr r, traces n (f a) tr r -> exact_amount z tr r) ->
  forall tr r, traces n (bind p f) tr r -> exact_amount z tr r.
Proof.
  intros Hp Hf tr r H. apply traces_bind in H as [[-> H]|(tr1 & tr2 & a & -> & H1 & H2)].
  - apply ea_quiet. eapply quiet_traces; eauto.
  - destruct (Hf _ _ _ H2) as [X Y]. split; [|exact Y].
    apply Forall_app; split; [apply po_quiet; eapply quiet_traces; eauto|exact X].
Qed.
Lemma ea_bindr {A} z n (p : prog (res A)) (f : A -> prog (res txn)) :
  all_ops harmless p -> (forall a tr r, traces n (f a) tr r -> exact_amount z tr r) ->
  forall tr r, traces n (bindr p f) tr r -> exact_amount z tr r.
Proof. intros Hp Hf. apply ea_bind; [exact Hp|]. intros [a|e]; [apply Hf|apply ea_err]. Qed.
Lemma ea_end {A} z n (p : prog (res txn)) (q : prog A) :
  (forall tr r, traces n p tr r -> exact_amount z tr r) -> all_ops harmless q ->
  forall tr r, traces n (bind p (fun r => bind q (fun _ => Ret r))) tr r -> exact_amount z tr r.
Proof.
  intros Hp Hq tr r H. apply traces_bind in H as [[-> H]|(tr1 & tr2 & a & -> & H1 & H2)].
  - apply (Hp _ _ H).
  - destruct (Hp _ _ H1) as [X Y].
    apply traces_bind in H2 as [[-> H2]|(t1 & t2 & b & -> & H2 & [-> H3])].
    + split; [|discriminate]. apply Forall_app; split; [exact X|]. apply po_quiet. eapply quiet_traces; eauto.
    + rewrite app_nil_r. split.
      * apply Forall_app; split; [exact X|]. apply po_quiet. eapply quiet_traces; eauto.
      * intros t E. destruct H3 as [-> | ->]; [|discriminate]. apply Y. exact E.
Qed.

Lemma apply_commit_amount t src dst t1 s d : t_status t = SCommit -> 0 < t_precise t ->
  apply_to_balances t src dst = Ok (t1, s, d) -> t_precise t1 = t_precise t.
Proof.
  intros Hs Hp. unfold apply_to_balances. rewrite Hs.
  assert (E : t_precise (apply_precision_txn t) = t_precise t).
  { unfold apply_precision_txn, apply_precision. apply Z.ltb_lt in Hp. rewrite Hp. reflexivity. }
  destruct (commit_inflight_debit _ _); [|discriminate]. destruct (commit_inflight_credit _ _); [|discriminate].
  intros H. inversion H; subst. exact E.
Qed.

Lemma record_locked_amount cfg n t : t_status t = SCommit -> 0 < t_precise t ->
  forall tr r, traces n (record_locked cfg t) tr r -> exact_amount (t_precise t) tr r.
Proof.
  intros Hs Hp. unfold record_locked. apply ea_bind; [simpl; auto using h_ref|].
  intros [|]; [apply ea_err|].
  apply ea_bindr; [apply q_get_end|]. intros src. apply ea_bindr; [apply q_get_end|]. intros dst.
  destruct (apply_to_balances (with_ends t (b_id src) (b_id dst)) src dst) as [[[t1 src'] dst']|e] eqn:Ea;
    [|apply ea_err].
  apply apply_commit_amount in Ea; [|exact Hs|exact Hp]. cbn in Ea.
  set (t2 := update_details t1 src' dst').
  assert (E2 : t_precise t2 = t_precise t) by exact Ea.
  destruct (t_precise t2 =? 0) eqn:Ez; [apply Z.eqb_eq in Ez; lia|].
  intros tr r H. cbv zeta in H.
  pose proof (clear_terminal_fields t2) as Hc. cbv zeta in Hc.
  destruct Hc as (C1 & C2 & C3 & C4 & _).
  assert (E3 : t_precise (clear_terminal t2) = t_precise t).
  { rewrite <- E2. unfold clear_terminal. destruct (t_status t2); reflexivity. }
  set (t3 := clear_terminal t2) in *. set (ob := prepare_outbox t2 src' dst') in *.
  destruct H as [[-> ->]|(s & tr' & -> & H)]; [split; [constructor|discriminate]|].
  pose proof (persist_outcome n (kind_of t1) t3 src' dst' ob s C3 C4) as Ho.
  set (o := OPersist (kind_of t1) t3 src' dst' ob) in *.
  destruct (snd (exec n o s)) as [v|e] eqn:Ex.
  - destruct H as [-> H]. split.
    + constructor; [right; exists t3; split; [exact Ho|exact E3]|constructor].
    + intros t' E. destruct H as [-> | ->]; [|discriminate]. inversion E; subst t'. exact E3.
  - destruct H as [-> H]. split; [constructor; [left; exact Ho|constructor]|].
    intros t' E. destruct H as [-> | ->]; discriminate.
Qed.

Lemma record_single_amount cfg n t : t_status t = SCommit -> 0 < t_precise t ->
  forall tr r, traces n (record_single cfg t) tr r -> exact_amount (t_precise t) tr r.
Proof.
  intros Hs Hp. unfold record_single.
  apply ea_bindr; [apply q_resolve|]. intros a. apply ea_bindr; [apply q_resolve|]. intros b.
  apply ea_bind; [apply q_wait|]. intros [|]; [|apply ea_err].
  apply ea_end; [|apply q_unlock]. intros tr r. apply (record_locked_amount cfg n (with_ends t a b) Hs Hp).
Qed.

Lemma commit_exact cfg n id z ref : 0 < z ->
  forall tr r, traces n (commit cfg id z ref) tr r -> exact_amount z tr r.
Proof.
  intros Hz. unfold commit, with_lock. apply ea_bind; [simpl; auto using h_lock|]. intros [|]; [|apply ea_err].
  apply ea_end; [|simpl; auto using h_unlock]. apply ea_bindr; [apply q_fetch|]. intros t.
  apply ea_bind; [simpl; auto using h_committed|]. intros c.
  destruct (commit_amount t z (t_precise t - c)) as [[p q]|e] eqn:Ec; [|apply ea_err].
  assert (p = z).
  { unfold commit_amount in Ec. destruct (_ =? 0); [discriminate|]. destruct (z <? 0); [discriminate|].
    destruct (z =? 0) eqn:E0; [apply Z.eqb_eq in E0; lia|].
    destruct (_ <? _); [discriminate|]. destruct (_ <? _); [discriminate|]. inversion Ec; reflexivity. }
  subst p.
  apply ea_bind; [apply q_fresh|]. intros nid. apply ea_bind; [apply q_choose|]. intros nref.
  intros tr r H.
  match type of H with traces _ (record_single _ ?t0) _ _ => exact (record_single_amount cfg n t0 eq_refl Hz tr r H) end.
Qed.

Definition all_exact (z : Z) (tr : list (state * state)) (r : option (list (res txn))) : Prop :=
  Forall (posts_only z) tr /\ forall l t, r = Some l -> In (Ok t) l -> t_precise t = z.

Lemma for_each_exact {A} (z : Z) (n : nat) (f : A -> prog (res txn)) :
  (forall a tr r, traces n (f a) tr r -> exact_amount z tr r) ->
  forall l tr r, traces n (for_each f l) tr r -> all_exact z tr r.
Proof.
  intros Hf. induction l as [|a l IH]; intros tr r H; cbn [for_each] in H.
  - destruct H as [-> H]. split; [constructor|]. intros l t E Hin. destruct H as [-> | ->]; [|discriminate].
    inversion E; subst. destruct Hin.
  - apply traces_bind in H as [[-> H]|(tr1 & tr2 & x & -> & H1 & H2)].
    + destruct (Hf _ _ _ H) as [X _]. split; [exact X|discriminate].
    + destruct (Hf _ _ _ H1) as [X1 Y1].
      apply traces_bind in H2 as [[-> H2]|(t1 & t2 & ys & -> & H2 & [-> H3])].
      * destruct (IH _ _ H2) as [X2 _]. split; [apply Forall_app; auto|discriminate].
      * destruct (IH _ _ H2) as [X2 Y2]. rewrite app_nil_r. split; [apply Forall_app; auto|].
        intros l' t E Hin. destruct H3 as [-> | ->]; [|discriminate]. inversion E; subst l'; clear E.
        destruct Hin as [-> |Hin]; [apply Y1; reflexivity|eapply Y2; [reflexivity|exact Hin]].
Qed.

Lemma h_inflight i : harmless (OInflightBy i).
Proof. intros n s. apply untouched_refl; reflexivity. Qed.

Lemma action_exact cfg n parent z aid : 0 < z ->
  forall tr r, traces n (inflight_action cfg parent false z aid) tr r -> all_exact z tr r.
Proof.
  intros Hz tr r H. unfold inflight_action in H.
  apply traces_bind in H as [[-> H]|(tr1 & tr2 & x & -> & H1 & H2)].
  - split; [|discriminate]. apply po_quiet. eapply quiet_traces; [|exact H]. simpl; auto using h_inflight.
  - assert (Hq : Forall (posts_only z) tr1).
    { apply po_quiet. eapply quiet_traces; [|exact H1]. simpl; auto using h_inflight. }
    apply (for_each_exact z) in H2.
    + destruct H2 as [X Y]. split; [apply Forall_app; auto|exact Y].
    + intros a t r0 Ht. destruct (negb (is_inflight a)); [apply (ea_err _ _ _ _ _ Ht)|].
      eapply commit_exact; eauto.
Qed.

Lemma requested_rounds a prec z : 1 <= prec ->
  requested_amount a None (Some prec) = Some z -> rounds_to (a * inject_Z prec) z.
Proof.
  intros Hp H. unfold requested_amount, precision_or_one in H.
  assert (E : (0 <? prec) = true) by (apply Z.ltb_lt; lia). rewrite E in H. inversion H; subst; clear H.
  unfold apply_precision. replace (prec =? 0) with false by (symmetry; apply Z.eqb_neq; lia).
  cbn [Z.ltb Z.compare fst]. apply round_spec.
Qed.

Lemma half_rounds_up (q : Q) (z : Z) : (1 # 2 <= q)%Q -> rounds_to q z -> 0 < z.
Proof.
  intros Hq H. assert (1 <= z); [|lia].
  apply (rounds_le (1 # 2) q 1 z Hq); [|exact H]. split; [discriminate|]. intros _. discriminate.
Qed.

Lemma commit_request_exact cfg n id a prec aid : 1 <= prec -> (1 # 2 <= a * inject_Z prec)%Q ->
  forall tr r, traces n (commit_request cfg id a None (Some prec) aid) tr r ->
  exists z, rounds_to (a * inject_Z prec) z /\ 0 < z /\ Forall (posts_only z) tr
    /\ forall l t, r = Some (Some l) -> In (Ok t) l -> t_precise t = z.
Proof.
  intros Hp Ha tr r H. unfold commit_request in H.
  destruct (requested_amount a None (Some prec)) as [z|] eqn:E; [|discriminate].
  pose proof (requested_rounds _ _ _ Hp E) as Hr. pose proof (half_rounds_up _ _ Ha Hr) as Hz.
  exists z. split; [exact Hr|]. split; [exact Hz|].
  apply traces_bind in H as [[-> H]|(tr1 & tr2 & x & -> & H1 & [-> H2])].
  - destruct (action_exact _ _ _ _ _ Hz _ _ H) as [X _]. split; [exact X|discriminate].
  - destruct (action_exact _ _ _ _ _ Hz _ _ H1) as [X Y]. rewrite app_nil_r. split; [exact X|].
    intros l t Er Hin. destruct H2 as [-> | ->]; [|discriminate]. inversion Er; subst l. eapply Y; eauto.
Qed.

Lemma precise_request_exact cfg n id a p prec aid :
  forall tr r, traces n (commit_request cfg id a (Some p) prec aid) tr r ->
  (p <= 0 -> tr = [] /\ (r = Some None \/ r = None)) /\
  (0 < p -> Forall (posts_only p) tr /\ forall l t, r = Some (Some l) -> In (Ok t) l -> t_precise t = p).
Proof.
  intros tr r H. unfold commit_request, requested_amount in H. destruct (p <=? 0) eqn:E.
  - apply Z.leb_le in E. split; [|lia]. intros _. exact H.
  - apply Z.leb_gt in E. split; [lia|]. intros _.
    apply traces_bind in H as [[-> H]|(tr1 & tr2 & x & -> & H1 & [-> H2])].
    + destruct (action_exact _ _ _ _ _ E _ _ H) as [X _]. split; [exact X|discriminate].
    + destruct (action_exact _ _ _ _ _ E _ _ H1) as [X Y]. rewrite app_nil_r. split; [exact X|].
      intros l t Er Hin. destruct H2 as [-> | ->]; [|discriminate]. inversion Er; subst l. eapply Y; eauto.
Qed.
