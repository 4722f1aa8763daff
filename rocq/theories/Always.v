(** Facts about a program that hold whatever its operations answer. *)
From Coq Require Import ZArith List String Bool.
From Verif Require Import Base SplitModel BalanceModel LedgerModel LedgerProgs.
Import ListNotations.

Definition possible (o : op) (x : resp o) : Prop := exists n s, snd (exec n o s) = x.

(** Every operation satisfies [ok] and every result satisfies [Q]. *)
Fixpoint always {A} (ok : op -> Prop) (p : prog A) (Q : A -> Prop) : Prop :=
  match p with
  | Ret a => Q a
  | Do o k => ok o /\ forall x, possible o x -> always ok (k x) Q
  end.

Lemma always_bind {A B} ok (p : prog A) (f : A -> prog B) M Q :
  always ok p M -> (forall a, M a -> always ok (f a) Q) -> always ok (bind p f) Q.
Proof.
  intros Hp Hf. induction p as [a|o k IH]; simpl in *; [auto|].
  destruct Hp as [Ho Hk]. split; [exact Ho|]. intros x Hx. apply IH. apply Hk. exact Hx.
Qed.

Lemma always_bindr {A B} ok (p : prog (res A)) (f : A -> prog (res B)) (M : A -> Prop) (Q : res B -> Prop) :
  always ok p (fun r => match r with Ok a => M a | Err _ => True end) ->
  (forall a, M a -> always ok (f a) Q) -> (forall e, Q (Err e)) -> always ok (bindr p f) Q.
Proof.
  intros Hp Hf He. unfold bindr. eapply always_bind; [exact Hp|]. intros [a|e] H; simpl; auto.
Qed.

Lemma always_weaken {A} (ok ok' : op -> Prop) (p : prog A) (Q Q' : A -> Prop) :
  (forall o, ok o -> ok' o) -> (forall a, Q a -> Q' a) -> always ok p Q -> always ok' p Q'.
Proof.
  intros H1 H2. induction p as [a|o k IH]; simpl; [auto|]. intros [Ho Hk]. split; auto.
Qed.

Lemma always_post {A} ok (p : prog A) (Q Q' : A -> Prop) :
  (forall a, Q a -> Q' a) -> always ok p Q -> always ok p Q'.
Proof. apply always_weaken; auto. Qed.

Lemma always_act {A} (ok : op -> Prop) o (f : resp o -> prog A) (Q : A -> Prop) :
  ok o -> (forall x, possible o x -> always ok (f x) Q) -> always ok (bind (act o) f) Q.
Proof. intros Ho Hf. simpl. auto. Qed.

Lemma possible_siblings p sel x :
  possible (OSiblings p sel) x -> Forall (fun t => t_status t = SQueued) x.
Proof.
  intros (n & s & <-). simpl. induction sel as [|i r IH]; simpl; [constructor|].
  destruct (get_row i (s_txns s)) as [t|]; [|exact IH].
  destruct (is_stuck (s_txns s) t && p t) eqn:E; [|exact IH]. constructor; [|exact IH].
  apply andb_prop in E as [E _]. unfold is_stuck in E. apply andb_prop in E as [E _]. simpl.
  destruct (t_status t); simpl in E; congruence.
Qed.

Lemma possible_inflight id x : possible (OInflightBy id) x -> Forall (fun t => is_inflight t = true) x.
Proof.
  intros (n & s & <-). simpl. unfold inflight_by_parent.
  set (v := map _ (s_txns s)). set (f1 := filter _ v). destruct f1 as [|y r] eqn:E.
  - apply Forall_forall. intros t Ht. apply filter_In in Ht as [_ Ht].
    repeat rewrite andb_true_iff in Ht. destruct Ht as [[[[_ H2] H3] _] _].
    unfold is_inflight. rewrite H2, H3. apply orb_true_r.
  - rewrite <- E. apply Forall_forall. intros t Ht. unfold f1 in Ht. apply filter_In in Ht as [_ Ht].
    apply andb_prop in Ht as [_ H]. unfold is_inflight. rewrite H. reflexivity.
Qed.
