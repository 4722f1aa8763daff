(** A rely/guarantee logic for the programs of LedgerModel and its adequacy with
    respect to the interleaving semantics of ConcModel. *)
From Coq Require Import ZArith List String Bool Lia.
From Verif Require Import Base BalanceModel LedgerModel LedgerProgs ConcModel.
Import ListNotations.

Local Open Scope nat_scope.

Section Logic.
(** [J]: background invariant established elsewhere; [I]: the invariant at hand;
    [Rel n s s']: steps of the others that thread [n] tolerates. *)
Variables (J I : state -> Prop) (Rel : nat -> state -> state -> Prop).

Definition stable (n : nat) (P : state -> Prop) : Prop :=
  forall s s', J s -> I s -> J s' -> I s' -> Rel n s s' -> P s -> P s'.

Fixpoint safe {A} (n : nat) (P : state -> Prop) (p : prog A) (Q : A -> state -> Prop) : Prop :=
  match p with
  | Ret a => forall s, J s -> I s -> P s -> Q a s
  | Do o k =>
    exists R : resp o -> state -> Prop,
      (forall s, J s -> I s -> P s -> J (fst (exec n o s)) ->
         I (fst (exec n o s)) /\ (forall m, m <> n -> Rel m s (fst (exec n o s)))
         /\ R (snd (exec n o s)) (fst (exec n o s)))
      /\ (forall x, stable n (R x))
      /\ (forall x, safe n (R x) (k x) Q)
  end.

Lemma safe_pre {A} n (P P' : state -> Prop) (p : prog A) Q :
  (forall s, J s -> I s -> P s -> P' s) -> safe n P' p Q -> safe n P p Q.
Proof.
  intros HP Hs. destruct p as [a|o k]; simpl in *.
  - intros s Hj Hi Hp. apply Hs; auto.
  - destruct Hs as (R & H1 & H2 & H3). exists R. split; [|split]; auto.
Qed.

Lemma safe_post {A} n (P : state -> Prop) (p : prog A) (Q Q' : A -> state -> Prop) :
  (forall a s, J s -> I s -> Q a s -> Q' a s) -> safe n P p Q -> safe n P p Q'.
Proof.
  intros HQ. revert P. induction p as [a|o k IH]; intros P Hs; simpl in *.
  - intros s Hj Hi Hp. apply HQ; auto.
  - destruct Hs as (R & H1 & H2 & H3). exists R. split; [|split]; auto.
Qed.

Lemma safe_bind {A B} n (P : state -> Prop) (p : prog A) (f : A -> prog B) (M : A -> state -> Prop) Q :
  safe n P p M -> (forall a, safe n (M a) (f a) Q) -> safe n P (bind p f) Q.
Proof.
  intros Hp Hf. revert P Hp. induction p as [a|o k IH]; intros P Hp; simpl in *.
  - eapply safe_pre; [|apply Hf]. intros s Hj Hi HP. apply Hp; auto.
  - destruct Hp as (R & H1 & H2 & H3). exists R. split; [|split]; auto.
Qed.

Lemma safe_ret {A} n (P : state -> Prop) (a : A) (Q : A -> state -> Prop) :
  (forall s, J s -> I s -> P s -> Q a s) -> safe n P (Ret a) Q.
Proof. simpl. auto. Qed.

Lemma safe_ex {A} n (T : Type) (P : T -> state -> Prop) (p : prog A) Q :
  (forall i, safe n (P i) p Q) -> safe n (fun s => exists i, P i s) p Q.
Proof.
  revert T P. induction p as [a|o k IH]; intros T P H; simpl in *.
  - intros s Hj Hi [i Hp]. eapply H; eauto.
  - pose (cond := fun (i : T) (R : resp o -> state -> Prop) =>
      (forall s, J s -> I s -> P i s -> J (fst (exec n o s)) ->
         I (fst (exec n o s)) /\ (forall m, m <> n -> Rel m s (fst (exec n o s)))
         /\ R (snd (exec n o s)) (fst (exec n o s)))
      /\ (forall x, stable n (R x)) /\ (forall x, safe n (R x) (k x) Q)).
    exists (fun x s => exists w : {i : T & {R : resp o -> state -> Prop | cond i R}},
                         proj1_sig (projT2 w) x s).
    split; [|split].
    + intros s Hj Hi [i Hp] Hj'. destruct (H i) as (R & H1 & H2 & H3).
      destruct (H1 s Hj Hi Hp Hj') as (X & Y & Z). split; [exact X|]. split; [exact Y|].
      pose (c := exist (cond i) R (conj H1 (conj H2 H3))).
      exists (existT (fun i => {R : resp o -> state -> Prop | cond i R}) i c). exact Z.
    + intros x s s' Hj Hi Hj' Hi' Hr [[i [R (H1 & H2 & H3)]] HR]. simpl in HR.
      pose (c := exist (cond i) R (conj H1 (conj H2 H3))).
      exists (existT (fun i => {R : resp o -> state -> Prop | cond i R}) i c). simpl. exact (H2 x s s' Hj Hi Hj' Hi' Hr HR).
    + intros x. apply IH. intros [i [R (H1 & H2 & H3)]]. simpl. apply H3.
Qed.

Lemma safe_pure {A} n (P : state -> Prop) (c : Prop) (p : prog A) Q :
  (c -> safe n P p Q) -> safe n (fun s => P s /\ c) p Q.
Proof.
  intros H. apply (safe_pre n _ (fun s => exists i : c, P s)).
  - intros s _ _ [HP Hc]. exists Hc. exact HP.
  - apply safe_ex. exact H.
Qed.

(** ** Adequacy *)
Variable cfg : config.
Variable ok : sys -> event -> Prop.

Definition sys_inv (y : sys) : Prop :=
  J (y_st y) /\ I (y_st y) /\
  forall n p, nth_error (y_thr y) n = Some p ->
    exists P, P (y_st y) /\ stable n P /\ safe n P p (fun _ _ => True).

Hypothesis J_always : forall s, J s.
Hypothesis start_ok : forall y r n y',
  sys_inv y -> ok y (EStart r) -> step cfg y (EStart r) y' ->
  exists P, P (y_st y') /\ stable n P /\ safe n P (prog_of cfg r) (fun _ _ => True).
Hypothesis jobs_ok : forall s j l1 l2, I s -> s_jobs s = l1 ++ j :: l2 ->
  I (set_jobs s (l1 ++ l2)) /\ forall n, Rel n s (set_jobs s (l1 ++ l2)).
Hypothesis expire_ok : forall y k, sys_inv y -> ok y (EExpire k) ->
  I (set_locks (y_st y) (del_lock k (s_locks (y_st y)))) /\
  forall n p, nth_error (y_thr y) n = Some p -> p <> Ret tt ->
    Rel n (y_st y) (set_locks (y_st y) (del_lock k (s_locks (y_st y)))).

Lemma nth_set_nth_eq {A} n (a : A) l p : nth_error l n = Some p -> nth_error (set_nth n a l) n = Some a.
Proof. revert n; induction l as [|x r IH]; intros [|n]; simpl; try discriminate; auto. Qed.

Lemma nth_set_nth_neq {A} n m (a : A) l : n <> m -> nth_error (set_nth n a l) m = nth_error l m.
Proof.
  revert n m; induction l as [|x r IH]; intros [|n] [|m] H; simpl; auto; try congruence.
Qed.

Lemma nth_app_one {A} (l : list A) a n p :
  nth_error (l ++ [a]) n = Some p -> nth_error l n = Some p \/ (n = List.length l /\ p = a).
Proof.
  intros H. destruct (Nat.lt_ge_cases n (List.length l)) as [Hl|Hl].
  - left. rewrite nth_error_app1 in H; auto.
  - right. rewrite nth_error_app2 in H; auto.
    destruct (n - List.length l) eqn:E; simpl in H.
    + inversion H. split; auto. lia.
    + destruct n0; discriminate.
Qed.

Lemma safe_ret_any n P : safe n P (Ret tt) (fun _ _ => True).
Proof. simpl; auto. Qed.

Lemma adequacy_step y e y' : sys_inv y -> ok y e -> step cfg y e y' -> sys_inv y'.
Proof.
  intros Hinv Hok Hst. pose proof Hinv as (HJ & HI & HT).
  destruct e as [r|n|n|k].
  - pose proof (fun n => start_ok y r n y' Hinv Hok Hst) as Hsafe.
    assert (Hst' : (exists l1 l2 j, s_jobs (y_st y) = l1 ++ j :: l2 /\
               y' = {| y_st := set_jobs (y_st y) (l1 ++ l2); y_thr := y_thr y ++ [prog_of cfg r] |})
            \/ y' = {| y_st := y_st y; y_thr := y_thr y ++ [prog_of cfg r] |}).
    { destruct r; simpl in Hst; try (right; apply Hst); try (right; destruct Hst; assumption).
      left. destruct Hst as (l1 & l2 & H1 & H2). exists l1, l2, j. auto. }
    destruct Hst' as [(l1 & l2 & j & Hj & ->)| ->].
    + destruct (jobs_ok _ _ _ _ HI Hj) as [HI' HR].
      split; [apply J_always|]. split; [exact HI'|]. simpl.
      intros n p Hn. apply nth_app_one in Hn as [Hn|[-> ->]].
      * destruct (HT n p Hn) as (P & HP & Hstab & Hs). exists P. split; auto.
        eapply Hstab; [apply J_always|exact HI|apply J_always|exact HI'|apply HR|exact HP].
      * exact (Hsafe _).
    + split; [apply J_always|]. split; [exact HI|]. simpl.
      intros n p Hn. apply nth_app_one in Hn as [Hn|[-> ->]].
      * apply HT; auto.
      * exact (Hsafe _).
  - simpl in Hst. destruct (nth_error (y_thr y) n) as [[a|o k]|] eqn:En; try contradiction.
    subst y'. destruct (HT n _ En) as (P & HP & Hstab & (R & H1 & H2 & H3)).
    destruct (H1 (y_st y) HJ HI HP (J_always _)) as (HI' & HG & HR).
    split; [apply J_always|]. split; [exact HI'|]. simpl.
    intros m p Hm. destruct (Nat.eq_dec n m) as [<-|Hne].
    + rewrite (nth_set_nth_eq _ _ _ _ En) in Hm. inversion Hm; subst.
      exists (R (snd (exec n o (y_st y)))). auto.
    + rewrite nth_set_nth_neq in Hm by auto.
      destruct (HT m p Hm) as (P' & HP' & Hstab' & Hs'). exists P'. split; auto.
      eapply Hstab'; [exact HJ|exact HI|apply J_always|exact HI'|apply HG; auto|exact HP'].
  - simpl in Hst. subst y'. split; [exact HJ|]. split; [exact HI|]. simpl.
    intros m p Hm. destruct (Nat.eq_dec n m) as [<-|Hne].
    + destruct (nth_error (y_thr y) n) eqn:En.
      * rewrite (nth_set_nth_eq _ _ _ _ En) in Hm. inversion Hm; subst.
        exists (fun _ => True). split; [exact Logic.I|]. split; [intros ? ? ? ? ? ? ? ?; exact Logic.I|]; auto using safe_ret_any.
      * assert (Hx : forall (l : list (prog unit)) n a, nth_error l n = None -> nth_error (set_nth n a l) n = None).
        { clear. induction l as [|x r IH]; intros [|n] a H; simpl in *; auto; discriminate. }
        rewrite Hx in Hm by auto. discriminate.
    + rewrite nth_set_nth_neq in Hm by auto. apply HT; auto.
  - simpl in Hst. subst y'. destruct (expire_ok y k Hinv Hok) as [HI' HR].
    split; [apply J_always|]. split; [exact HI'|]. simpl.
    intros m p Hm. destruct p as [[]|o kk].
    + exists (fun _ => True). split; [exact Logic.I|]. split; [intros ? ? ? ? ? ? ? ?; exact Logic.I|]; auto using safe_ret_any.
    + destruct (HT m _ Hm) as (P & HP & Hstab & Hs). exists P. split; auto.
      eapply Hstab; [exact HJ|exact HI|apply J_always|exact HI'|eapply HR; eauto; discriminate|exact HP].
Qed.

Theorem adequacy y y' : sys_inv y -> steps cfg ok y y' -> sys_inv y'.
Proof. intros H Hs. induction Hs as [|y1 y2 y3 e Hs IH Hok Hst]; auto.
  exact (adequacy_step _ _ _ (IH H) Hok Hst).
Qed.

End Logic.

(** Layering: a proof of I1 and a proof of I2 that may use I1 everywhere combine. *)
Lemma safe_layer {A} (J I1 I2 : state -> Prop) (R1 R2 : nat -> state -> state -> Prop) n
    (P1 P2 : state -> Prop) (p : prog A) (Q1 Q2 : A -> state -> Prop) :
  safe J I1 R1 n P1 p Q1 ->
  safe (fun s => J s /\ I1 s) I2 R2 n P2 p Q2 ->
  safe J (fun s => I1 s /\ I2 s) (fun m s s' => R1 m s s' /\ R2 m s s') n
       (fun s => P1 s /\ P2 s) p (fun a s => Q1 a s /\ Q2 a s).
Proof.
  revert P1 P2. induction p as [a|o k IH]; intros P1 P2 H1 H2; simpl in *.
  - intros s Hj [Hi1 Hi2] [Hp1 Hp2]. split; auto.
  - destruct H1 as (Ra & A1 & A2 & A3). destruct H2 as (Rb & B1 & B2 & B3).
    exists (fun x s => Ra x s /\ Rb x s). split; [|split].
    + intros s Hj [Hi1 Hi2] [Hp1 Hp2] Hj'.
      destruct (A1 s Hj Hi1 Hp1 Hj') as (X1 & X2 & X3).
      destruct (B1 s (conj Hj Hi1) Hi2 Hp2 (conj Hj' X1)) as (Y1 & Y2 & Y3).
      split; [split; auto|]. split; [intros; split; auto|split; auto].
    + intros x s s' Hj [Hi1 Hi2] Hj' [Hi1' Hi2'] [Hr1 Hr2] [Hp1 Hp2]. split.
      * exact (A2 x s s' Hj Hi1 Hj' Hi1' Hr1 Hp1).
      * exact (B2 x s s' (conj Hj Hi1) Hi2 (conj Hj' Hi1') Hi2' Hr2 Hp2).
    + intros x. apply IH; auto.
Qed.
