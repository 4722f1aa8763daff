(** No call is dropped before its last attempt. *)
From Coq Require Import List String Bool Arith ZArith Lia.
From Verif Require Import HookModel HookSpec HookBase HookStage.
Import ListNotations.
Local Open Scope string_scope.
Local Open Scope nat_scope.
Local Open Scope list_scope.

(** The call waits, or an attempt at it is under way. *)
Definition kept (t : task) (w : world) : Prop :=
  (exists m, In (t, m) (w_queue w)) \/ (exists i m p, nth_error (w_runs w) i = Some (JTry t m, p)).
(** There was an attempt that was accepted, or the last one allowed. *)
Definition finished (t : task) (es : list event) : Prop :=
  exists es1 es2 i m p, es = es1 ++ es2 /\ nth_error (w_runs (play es1 blank)) i = Some (JTry t m, p) /\ (m = 0 \/ p = Done AOk).

Definition positive (w : world) : Prop := forall t m, In (t, m) (w_queue w) -> m <> 0.

Lemma command_keeps i j o order r p w w' p' : command i j o order r p w = (w', p') ->
  w_runs w' = w_runs w /\ (exists l, w_queue w' = w_queue w ++ l /\ (forall x, In x l -> snd x <> 0))
  /\ (forall k t, In (k, t) (w_made w') -> In (k, t) (w_made w) \/ exists m, In (t, m) (w_queue w')).
Proof.
  assert (Nil : forall q : list (task * nat), exists l, q = q ++ l /\ (forall x, In x l -> snd x <> 0)).
  { intros q. exists []. split; [now rewrite app_nil_r|intros x []]. }
  destruct p; cbn [command]; intros E; injection E as <- <-; try (destruct (took o)); try (destruct j); cbn;
    try (split; [reflexivity|split; [apply Nil|auto]]; fail).
  - split; [reflexivity|]. split.
    + eexists. split; [reflexivity|]. intros x [<-|[]]. discriminate.
    + intros k0 t0 I. apply in_app_or in I as [I|[I|[]]]; [auto|]. injection I as <- <-. right. eexists. apply in_or_app. right. left. reflexivity.
  - split; [reflexivity|]. split.
    + eexists. split; [reflexivity|]. intros x [<-|[]]. discriminate.
    + intros k0 t0 I. apply in_app_or in I as [I|[I|[]]]; [auto|]. injection I as <- <-. right. eexists. apply in_or_app. right. left. reflexivity.
  - split; [reflexivity|]. split.
    + eexists. split; [reflexivity|]. intros x [<-|[]]. discriminate.
    + intros k0 t0 I. apply in_app_or in I as [I|[I|[]]]; [auto|]. injection I as <- <-. right. eexists. apply in_or_app. right. left. reflexivity.
Qed.

Lemma kept_run es : positive (play es blank) /\ forall k t, In (k, t) (w_made (play es blank)) -> kept t (play es blank) \/ finished t es.
Proof.
  induction es as [|e es [Po IH]] using rev_ind; [split; [intros t m []|intros k t []]|].
  rewrite play_app. cbn [play]. set (w := play es blank) in *.
  assert (Old : forall t, finished t es -> finished t (es ++ [e])).
  { intros t (a & b & i & m & p & -> & N & F). exists a, (b ++ [e]), i, m, p. rewrite app_assoc. auto. }
  destruct e as [q|i now|i o order r|i]; cbn [happen].
  - split; [exact Po|]. intros k t I. destruct (IH k t I) as [[Q|(i & m & p & R)]|F]; [left; left; exact Q| |right; apply Old, F].
    left. right. exists i, m, p. cbn. rewrite nth_error_app1; [exact R|]. apply nth_error_Some. rewrite R. discriminate.
  - destruct (nth_error (w_queue w) i) as [[t' [|more]]|] eqn:Q; [split; [exact Po|]; intros k t I; destruct (IH k t I); auto| |
      split; [exact Po|]; intros k t I; destruct (IH k t I); auto].
    destruct (drop_split _ _ _ _ Q) as (a & b & E1 & E2). split.
    + intros t m I. apply (Po t m). cbn in I. rewrite E1. rewrite E2 in I. apply in_app_or in I as [I|I]; apply in_or_app; [left|right; right]; exact I.
    + intros k t I. destruct (IH k t I) as [[(m & Q')|(j & m & p & R)]|F]; [| |right; apply Old, F].
      * rewrite E1 in Q'. apply in_app_or in Q' as [Q'|[Q'|Q']].
        -- left. left. exists m. cbn. rewrite E2. apply in_or_app. left. exact Q'.
        -- injection Q' as -> <-. left. right. exists (List.length (w_runs w)), more. eexists. cbn. rewrite nth_error_app2, Nat.sub_diag by lia. reflexivity.
        -- left. left. exists m. cbn. rewrite E2. apply in_or_app. right. exact Q'.
      * left. right. exists j, m, p. cbn. rewrite nth_error_app1; [exact R|]. apply nth_error_Some. rewrite R. discriminate.
  - destruct (nth_error (w_runs w) i) as [[j p]|] eqn:R; [|split; [exact Po|]; intros k t I; destruct (IH k t I); auto].
    destruct (command i j o order r p w) as [w' p'] eqn:C. destruct (command_keeps _ _ _ _ _ _ _ _ _ C) as (Ru & (l & Qu & Lp) & Ma). split.
    + intros t m I. cbn in I. rewrite Qu in I. apply in_app_or in I as [I|I]; [apply (Po t m I)|apply (Lp _ I)].
    + intros k t I. cbn in I. destruct (Ma k t I) as [I'|(m & I')]; [|left; left; exists m; exact I'].
      destruct (IH k t I') as [[(m & Q')|(i' & m & q & R')]|F]; [| |right; apply Old, F].
      * left. left. exists m. cbn. rewrite Qu. apply in_or_app. left. exact Q'.
      * left. right. destruct (Nat.eq_dec i' i) as [->|N].
        -- rewrite R in R'. injection R' as -> ->. exists i, m, p'. cbn. rewrite Ru. rewrite nth_set_nth, Nat.eqb_refl, R. reflexivity.
        -- exists i', m, q. cbn. rewrite Ru, nth_set_nth. apply Nat.eqb_neq in N. rewrite ?(Nat.eqb_sym i i'), N. exact R'.
  - destruct (nth_error (w_runs w) i) as [[j p]|] eqn:R; [|split; [exact Po|]; intros k t I; destruct (IH k t I); auto].
    assert (Main : forall w', w_runs w' = set_nth i (JOver, Done AErr) (w_runs w) -> w_made w' = w_made w ->
      (exists l, w_queue w' = w_queue w ++ l /\ (forall x, In x l -> snd x <> 0)) ->
      (forall t m, j = JTry t m -> m = 0 \/ p = Done AOk \/ exists m', In (t, m') (w_queue w')) ->
      positive w' /\ forall k t, In (k, t) (w_made w') -> kept t w' \/ finished t (es ++ [EStop i])).
    { intros w' Ru Ma (l & Qu & Lp) Last. split.
      - intros t m I. rewrite Qu in I. apply in_app_or in I as [I|I]; [apply (Po t m I)|apply (Lp _ I)].
      - intros k t I. rewrite Ma in I. destruct (IH k t I) as [[(m & Q')|(i' & m & q & R')]|F]; [| |right; apply Old, F].
        + left. left. exists m. rewrite Qu. apply in_or_app. left. exact Q'.
        + destruct (Nat.eq_dec i' i) as [->|N].
          * rewrite R in R'. injection R' as -> ->. destruct (Last t m eq_refl) as [Z|[Z|(m' & Z)]].
            -- right. exists es, [EStop i], i, m, q. split; [reflexivity|]. split; [exact R|auto].
            -- right. exists es, [EStop i], i, m, q. split; [reflexivity|]. split; [exact R|auto].
            -- left. left. exists m'. exact Z.
          * left. right. exists i', m, q. rewrite Ru, nth_set_nth. apply Nat.eqb_neq in N. rewrite ?(Nat.eqb_sym i i'), N. exact R'. }
    assert (Nil : exists l, w_queue w = w_queue w ++ l /\ (forall x, In x l -> snd x <> 0)).
    { exists []. split; [now rewrite app_nil_r|intros x []]. }
    destruct j as [q|t [|more]|]; try (apply Main; [reflexivity|reflexivity|exact Nil|intros t' m' E; try discriminate E; injection E; auto]).
    assert (Again : forall w', w' = with_queue (with_runs w (set_nth i (JOver, Done AErr) (w_runs w))) (w_queue w ++ [(t, S more)]) ->
      positive w' /\ forall k t0, In (k, t0) (w_made w') -> kept t0 w' \/ finished t0 (es ++ [EStop i])).
    { intros w' ->. apply Main; [reflexivity|reflexivity| |].
      - eexists. split; [reflexivity|]. intros x [<-|[]]. discriminate.
      - intros t' m' E. injection E as <- <-. right. right. exists (S more). cbn. apply in_or_app. right. left. reflexivity. }
    destruct p as [[| | |]| | | | | | | |]; try (apply Again; reflexivity).
    apply Main; [reflexivity|reflexivity|exact Nil|]. intros t' m' E. auto.
Qed.

Theorem never_dropped : forall es i t, In (i, t) (w_made (play es blank)) ->
  (exists m, In (t, S m) (w_queue (play es blank)))
  \/ (exists j m p, nth_error (w_runs (play es blank)) j = Some (JTry t m, p))
  \/ (exists es1 es2 j m p, es = es1 ++ es2 /\ nth_error (w_runs (play es1 blank)) j = Some (JTry t m, p) /\ (m = 0 \/ p = Done AOk)).
Proof.
  intros es i t I. destruct (kept_run es) as [Po K]. destruct (K i t I) as [[(m & Q)|R]|F]; [|auto|auto].
  left. destruct m as [|m]; [exfalso; apply (Po t 0 Q eq_refl)|]. exists m. exact Q.
Qed.
