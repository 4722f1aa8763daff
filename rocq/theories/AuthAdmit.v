(** A good key is let in. *)
From Coq Require Import ZArith List String Ascii Bool Lia.
From Verif Require Import Base AuthModel AuthSpec AuthProof AuthInv AuthThms.
Import ListNotations.
Local Open Scope string_scope.
Local Open Scope list_scope.
Open Scope Z_scope.

Ltac conjs := repeat match goal with |- _ /\ _ => split end.

Section Admit.
Variables (cfg : aconfig) (q : request) (x : chance) (i : nat) (k : akey).
Hypothesis Hok : x_ok x = true.
Hypothesis Hsec : k_secret k = q_key q.
Hypothesis Hrev : k_revoked k = false.
Hypothesis Hmay : may k q.

Definition gets_in (m : nat) (y : system) : Prop :=
  exists n j c, (n <= m)%nat /\ nth_error (y_jobs (play cfg (repeat (EStep i x) n) y)) i = Some j /\ j_req j = q
    /\ j_phase j = PServe (Holder c) /\ k_id c = k_id k.

Lemma gets_step m y : gets_in m (happen cfg (EStep i x) y) -> gets_in (S m) y.
Proof. intros (n & j & c & A & B). exists (S n), j, c. split; [lia|exact B]. Qed.

Lemma nth_set {A} (l : list A) : forall n a b, nth_error l n = Some b -> nth_error (set_at n a l) n = Some a.
Proof. induction l as [|z l IH]; intros [|n] a b E; try discriminate; simpl in *; [reflexivity|eauto]. Qed.

(** The state while the request is being checked. *)
Record at_phase (y : system) (ph : phase) : Prop := {
  a_sound : sound cfg y;
  a_key : In k (y_keys y);
  a_time : y_now y < k_expires k;
  a_job : exists j, nth_error (y_jobs y) i = Some j /\ j_req j = q /\ j_phase j = ph }.

Lemma at_step y ph : at_phase y ph -> checking ph ->
  exists j, j_req j = q /\ j_phase j = ph /\ at_phase (happen cfg (EStep i x) y) (snd (step cfg x j y)).
Proof.
  intros [A1 A2 A3 (j & E & Eq & Ep)] Ch. exists j. split; [exact Eq|]. split; [exact Ep|]. constructor.
  - apply sound_happen. exact A1.
  - cbn [happen]. rewrite E. assert (K : y_keys (fst (step cfg x j y)) = y_keys y).
    { unfold step. rewrite Ep. destruct ph; try contradiction; cbn [fst]; auto.
      - destruct (negb _); [auto|]. destruct (fresh _ _); auto.
      - destruct (x_ok x); auto.
      - destruct (judge _ _ _); auto. }
    destruct (step cfg x j y) as [y' ph']. simpl in *. rewrite K. exact A2.
  - cbn [happen]. rewrite E. pose proof (step_now cfg x j y) as N. destruct (step cfg x j y) as [y' ph']. simpl in *. rewrite N. exact A3.
  - cbn [happen]. rewrite E. destruct (step cfg x j y) as [y' ph']. simpl. exists (with_phase j ph'). split; [exact (nth_set _ _ _ _ E)|]. auto.
Qed.

Lemma my_copy y c : sound cfg y -> In k (y_keys y) -> copy (y_keys y) c -> k_secret c = q_key q ->
  k_id c = k_id k /\ k_scopes c = k_scopes k /\ k_expires c = k_expires k /\ k_revoked c = false.
Proof.
  intros S0 Hk (r & Hr & S1&S2&S3&S4&S5&S6&S7) E.
  assert (r = k) by (apply (by_secret (y_keys y)); [exact (s_secrets _ _ S0)|exact Hr|exact Hk|congruence]). subst r.
  conjs; auto. destruct (k_revoked c); auto. rewrite S7 in Hrev; auto.
Qed.

Lemma gets_judge y c : at_phase y (PJudge c) -> gets_in 1 y.
Proof.
  intros A. destruct (at_step y _ A I) as (j & Eq & Ep & A'). apply gets_step. destruct A' as [_ _ _ (j' & E' & Eq' & Ep')].
  destruct A as [A1 A2 A3 (j0 & E & Eq0 & Ep0)].
  destruct (s_jobs _ _ A1 j0 c (nth_error_In _ _ E) ltac:(rewrite Ep0; reflexivity)) as [Hc Hs].
  assert (C : k_id c = k_id k /\ k_scopes c = k_scopes k /\ k_expires c = k_expires k /\ k_revoked c = false) by (apply (my_copy y); auto; congruence).
  destruct C as (C1 & C2 & C3 & C4).
  destruct Hmay as (res & act & B & O & G). destruct (belongs_resource _ _ B) as (Fr & Nr & Er).
  assert (Na : act <> "") by (intros ->; simpl in O; repeat destruct O as [O|O]; congruence).
  pose proof (proj2 (action_ops _ _ Na) O) as Ea.
  assert (J : judge (y_now y) q c = PServe (Holder c)).
  { unfold judge, is_valid. rewrite C4, C3. destruct (Z.ltb_spec (y_now y) (k_expires k)); [|lia]. simpl.
    rewrite Er. destruct (String.eqb_spec res "") as [|_]; [contradiction|].
    rewrite C2, (grants_perm (k_scopes k) res (q_method q)); [reflexivity|rewrite Ea; exact Na|exact Fr|rewrite Ea; exact G]. }
  exists 0%nat, j', c. conjs; auto. rewrite Ep'. unfold step. rewrite Ep, Eq, J. reflexivity.
Qed.

Lemma gets_kept y c : at_phase y (PKeepShared c) -> gets_in 2 y.
Proof.
  intros A. destruct (at_step y _ A I) as (j & Eq & Ep & A'). apply gets_step. apply (gets_judge _ c).
  unfold step in A'. rewrite Ep in A'. exact A'.
Qed.
Lemma gets_keep y c : at_phase y (PKeepLocal c) -> gets_in 3 y.
Proof.
  intros A. destruct (at_step y _ A I) as (j & Eq & Ep & A'). apply gets_step. apply (gets_kept _ c).
  unfold step in A'. rewrite Ep in A'. exact A'.
Qed.
Lemma gets_query y : at_phase y PQuery -> gets_in 4 y.
Proof.
  intros A. destruct (at_step y _ A I) as (j & Eq & Ep & A'). apply gets_step.
  unfold step in A'. rewrite Ep, Eq, Hok in A'. cbn [negb snd] in A'.
  destruct (find _ (y_keys y)) as [c|] eqn:F; [exact (gets_keep _ c A')|].
  exfalso. pose proof (find_none _ _ F _ (a_key _ _ A)) as N. cbv beta in N. rewrite Hsec, !String.eqb_refl in N. discriminate.
Qed.
Lemma gets_more m m' y : (m <= m')%nat -> gets_in m y -> gets_in m' y.
Proof. intros H (n & j & c & A & B). exists n, j, c. split; [lia|exact B]. Qed.
Lemma gets_shared y : at_phase y PShared -> gets_in 5 y.
Proof.
  intros A. destruct (at_step y _ A I) as (j & Eq & Ep & A'). apply gets_step.
  unfold step in A'. rewrite Ep, Eq, Hok in A'. cbn [negb] in A'.
  destruct (fresh _ _) as [c|]; cbn [snd] in A'; [|exact (gets_query _ A')].
  destruct (String.eqb _ _); [|exact (gets_query _ A')]. apply (gets_more 1); [lia|]. exact (gets_judge _ c A').
Qed.
Lemma gets_local y : at_phase y PLocal -> gets_in 6 y.
Proof.
  intros A. destruct (at_step y _ A I) as (j & Eq & Ep & A'). apply gets_step.
  unfold step in A'. rewrite Ep, Eq in A'. cbn [snd] in A'.
  destruct (fresh _ _) as [c|]; [|exact (gets_shared _ A')].
  destruct (String.eqb _ _); [apply (gets_more 1); [lia|]; exact (gets_judge _ c A')|]. apply (gets_more 4); [lia|]. exact (gets_query _ A').
Qed.
End Admit.

Lemma good_key_admitted cfg es q x k : let y := play cfg es nothing in
  In k (y_keys y) -> k_secret k = q_key q -> k_revoked k = false -> y_now y < k_expires k -> may k q ->
  q_key q <> "" -> q_key q <> c_secret cfg -> x_ok x = true ->
  exists n j w, (n <= 6)%nat
    /\ nth_error (y_jobs (play cfg (ERequest q :: repeat (EStep (List.length (y_jobs y)) x) n) y)) (List.length (y_jobs y)) = Some j
    /\ j_req j = q /\ j_phase j = PServe w /\ (c_secure cfg = true -> exists c, w = Holder c /\ k_id c = k_id k).
Proof.
  intros y Hk Hs Hr Ht Hm N1 N2 Hok. cbn [play].
  assert (S1 : sound cfg (happen cfg (ERequest q) y)) by apply sound_happen, sound_always.
  assert (Nth : forall ph y0, nth_error (y_jobs y ++ [{| j_req := q; j_start := y0; j_phase := ph |}]) (List.length (y_jobs y))
    = Some {| j_req := q; j_start := y0; j_phase := ph |}).
  { intros. rewrite nth_error_app2, Nat.sub_diag by lia. reflexivity. }
  assert (Op : existsb (String.eqb (q_path q)) ["/"; "/health"; "/metrics"] = false).
  { destruct Hm as (res & act & B & _). destruct (belongs_resource _ _ B) as (_ & Nr & Er).
    destruct (existsb _ _) eqn:E; [|reflexivity]. exfalso. apply existsb_exists in E. destruct E as (z & Hz & E). apply String.eqb_eq in E.
    rewrite E in Er. apply Nr. rewrite <- Er. simpl in Hz. destruct Hz as [<-|[<-|[<-|[]]]]; reflexivity. }
  destruct (c_secure cfg) eqn:Sec.
  - assert (Ar : arrival cfg q = PLocal).
    { unfold arrival. rewrite Op, Sec. simpl. destruct (String.eqb_spec (q_key q) "") as [|_]; [contradiction|].
      destruct (String.eqb_spec (c_secret cfg) (q_key q)); [congruence|]. rewrite andb_false_r. reflexivity. }
    assert (A : at_phase cfg q (List.length (y_jobs y)) k (happen cfg (ERequest q) y) PLocal).
    { constructor; [exact S1| | |]; cbn [happen]; rewrite Ar; simpl; auto. eexists. split; [apply Nth|]. auto. }
    destruct (gets_local cfg q x _ k Hok Hs Hr Hm _ A) as (n & j & c & Hn & E & Eq & Ep & Ec).
    exists n, j, (Holder c). conjs; auto. intros _. exists c. auto.
  - exists 0%nat. cbn [repeat play happen]. assert (Ar : arrival cfg q = PServe Anyone) by (unfold arrival; rewrite Op, Sec; reflexivity).
    rewrite Ar. cbn [y_jobs with_jobs]. eexists. exists Anyone. split; [lia|]. split; [apply Nth|]. conjs; auto. discriminate.
Qed.
