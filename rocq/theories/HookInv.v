(** What holds in every history of hooks. *)
From Coq Require Import List String Bool Arith ZArith Lia.
From Verif Require Import HookModel HookSpec HookBase.
Import ListNotations.
Local Open Scope string_scope.
Local Open Scope nat_scope.
Local Open Scope list_scope.

(** A hook comes from a body sent for it. *)
Definition from (es : list event) (h : hook) : Prop :=
  exists q b, In (EStart q) es /\ changes q (h_id h) b /\ h_active b = h_active h /\ h_url b = h_url h
    /\ h_type b = h_type h /\ asks_retries q (h_id h) (Z.to_nat (h_retry h)).
Definition told_of (es : list event) (n : notice) : Prop :=
  exists q ts, In (EStart q) es /\ stages q (n_stage n) ts /\ In (n_txn n, n_data n) ts.
Definition fair (es : list event) (t : task) : Prop :=
  from es (t_hook t) /\ h_active (t_hook t) = true /\ told_of es (t_notice t).

Definition answers (es : list event) (id : string) (s : seen) : Prop :=
  match s with Got h => h_id h = id /\ from es h | _ => True end.
Definition roll (o : option (list string)) : Prop := match o with Some l => NoDup l | None => True end.

Fixpoint sound (es : list event) (p : prog) : Prop :=
  match p with
  | Done _ => True
  | Get id k => forall s, answers es id s -> sound es (k s)
  | Put id h k => (h_id h = id /\ from es h) /\ forall b, sound es (k b)
  | Del _ k | Add _ _ k | Rem _ _ k => forall b, sound es (k b)
  | Members _ k => forall o, roll o -> sound es (k o)
  | Enqueue h n k => (from es h /\ h_active h = true /\ told_of es n) /\ forall b, sound es (k b)
  | Send _ _ k => forall r, sound es (k r)
  end.

Lemma from_more : forall es e h, from es h -> from (es ++ [e]) h.
Proof. intros es e h (q & b & i & H). exists q, b. split; [apply in_or_app; auto | exact H]. Qed.
Lemma told_more : forall es e n, told_of es n -> told_of (es ++ [e]) n.
Proof. intros es e n (q & ts & i & H). exists q, ts. split; [apply in_or_app; auto | exact H]. Qed.
Lemma fair_more : forall es e t, fair es t -> fair (es ++ [e]) t.
Proof. intros es e t (a & b & c). split; [apply from_more | split; [| apply told_more]]; assumption. Qed.

(** What was found in the registry later still comes from bodies sent: a program must be sound for what it
    may yet read. *)
Definition sound_from (es : list event) (p : prog) : Prop := forall es', incl es es' -> sound es' p.
Lemma from_incl : forall es es' h, incl es es' -> from es h -> from es' h.
Proof. intros es es' h L (q & b & i & H). exists q, b. split; [apply L; exact i | exact H]. Qed.
Lemma told_incl : forall es es' n, incl es es' -> told_of es n -> told_of es' n.
Proof. intros es es' n L (q & ts & i & H). exists q, ts. split; [apply L; exact i | exact H]. Qed.

Record fine (es : list event) (w : world) : Prop := {
  f_hooks : forall id h, w_hooks w id = Some h -> h_id h = id /\ from es h;
  f_sets : forall s, NoDup (w_sets w s);
  f_queue : forall x, In x (w_queue w) -> fair es (fst x);
  f_made : forall x, In x (w_made w) -> fair es (snd x);
  f_sent : forall t, In t (w_sent w) -> fair es t;
  f_runs : forall i j p, nth_error (w_runs w) i = Some (j, p) ->
    sound_from es p /\ match j with JTry t _ => fair es t | _ => True end }.

Lemma gather_sound : forall es ids acc k,
  (forall h, In h acc -> from es h) ->
  (forall l, (forall h, In h l -> from es h) -> sound es (k l)) -> sound es (gather ids acc k).
Proof.
  intros es ids. induction ids as [| id ids IH]; intros acc k Ha Hk; cbn; auto.
  intros [| | h] Hs; auto. apply IH; auto. intros x i. apply in_app_or in i.
  destruct i as [i | [<- | []]]; auto. exact (proj2 Hs).
Qed.

Lemma listing_sound : forall es t k,
  sound es (k None) -> (forall l, (forall h, In h l -> from es h) -> sound es (k (Some l))) -> sound es (listing t k).
Proof.
  intros es t k Hn Hk. unfold listing. destruct (String.eqb t ""); cbn.
  - intros [a |] Ha; cbn; auto. intros [b |] Hb; auto. apply gather_sound; [intros h [] | exact Hk].
  - intros [a |] Ha; cbn; auto. apply gather_sound; [intros h [] | exact Hk].
Qed.

Lemma queue_all_sound : forall es hs n k, (forall h, In h hs -> from es h) -> told_of es n -> sound es k ->
  sound es (queue_all hs n k).
Proof.
  intros es hs n k. induction hs as [| h hs IH]; intros Hh Hn Hk; cbn; auto.
  destruct (h_active h) eqn:e; cbn.
  - split; [split; [apply Hh; left; reflexivity | split; assumption] |]. intros _. apply IH; auto.
    intros x i. apply Hh. right; exact i.
  - apply IH; auto. intros x i. apply Hh. right; exact i.
Qed.
Lemma queue_each_sound : forall es hs ns k, (forall h, In h hs -> from es h) -> (forall n, In n ns -> told_of es n) ->
  sound es k -> sound es (queue_each hs ns k).
Proof.
  intros es hs ns k Hh. induction ns as [| n ns IH]; intros Hn Hk; cbn; auto.
  apply queue_all_sound; auto.
  - apply Hn. left; reflexivity.
  - apply IH; auto. intros x i. apply Hn. right; exact i.
Qed.

Lemma retry_settled : forall b,
  Z.to_nat (let r := if (h_retry b <? 0)%Z then 3%Z else h_retry b in if (10 <? r)%Z then 10%Z else r) = retries b.
Proof.
  intro b. unfold retries. cbv zeta. destruct (Z.ltb_spec (h_retry b) 0) as [H | H]; [reflexivity |].
  destruct (Z.ltb_spec 10 (h_retry b)) as [K | K]; lia.
Qed.

Lemma settle_from : forall es gen now b h, In (EStart (RRegister gen now b)) es -> settle (named gen now b) = Some h -> from es h.
Proof.
  intros es gen now b h i H. unfold settle in H. cbn [named h_url h_type h_timeout h_retry h_id h_name h_active h_created h_last h_good] in H.
  destruct (String.eqb (h_url b) ""); [discriminate |].
  destruct (negb _ && negb _); [discriminate |]. injection H as <-.
  exists (RRegister gen now b), b. split; [exact i |]. cbn [h_id h_active h_url h_type h_retry].
  assert (registers (RRegister gen now b) (if String.eqb (h_id b) "" then gen else h_id b) b)
    by (exists gen, now; split; reflexivity).
  split; [left; assumption |]. repeat split.
  exists b. left. split; [assumption |]. apply retry_settled.
Qed.

Lemma start_sound : forall es q, In (EStart q) es -> sound es (start q).
Proof.
  intros es q i. destruct q; cbn [start].
  - unfold register. destruct (settle (named gen now h)) as [h' |] eqn:e; [| exact Logic.I].
    cbn. split; [split; [reflexivity | exact (settle_from es gen now h h' i e)] |].
    intros []; cbn; auto.
  - unfold update. cbn. intros [| | old] H; try exact Logic.I.
    destruct H as (E & F).
    assert (from es (instead old h)) as G.
    { exists (RUpdate id h), h. split; [exact i |]. cbn. rewrite E. repeat split.
      - right; reflexivity.
      - exists h. right. split; reflexivity. }
    destruct (String.eqb _ _); cbn.
    + split; [split; [exact E | exact G] | auto].
    + intros []; cbn; auto. intros []; cbn; auto.
  - unfold delete. cbn. intros [| | h] H; cbn; auto.
  - unfold show. cbn. intros [| | h] H; cbn; auto.
  - apply listing_sound; cbn; auto.
  - unfold stage. apply listing_sound; [exact Logic.I |]. intros l Hl. apply queue_each_sound; cbn; auto.
    intros n k. apply in_map_iff in k. destruct k as ((x, y) & <- & k).
    exists (RBefore ts), ts. split; [exact i |]. split; [left; split; reflexivity | exact k].
  - unfold stage. apply listing_sound; [exact Logic.I |]. intros l Hl. apply queue_each_sound; cbn; auto.
    intros n k. apply in_map_iff in k. destruct k as ((x, y) & <- & k).
    exists (RAfter ts), ts. split; [exact i |]. split; [right; split; reflexivity | exact k].
Qed.

Lemma from_ran : forall es now ok h, from es h -> from es (ran now ok h).
Proof. intros es now ok h H. exact H. Qed.

Lemma attempt_sound : forall es now h n, from es h -> sound es (attempt now h n).
Proof.
  intros es now h n H. unfold attempt. destruct (h_timeout h <=? 0)%Z; cbn.
  - split; [split; [reflexivity | apply from_ran; exact H] | auto].
  - intro r. split; [split; [reflexivity | apply from_ran; exact H] | auto].
Qed.

Lemma sound_from_incl : forall es es' p, incl es es' -> sound_from es p -> sound_from es' p.
Proof. intros es es' p L H x K. apply H. exact (incl_tran L K). Qed.

Lemma fine_more : forall es e w, fine es w -> fine (es ++ [e]) w.
Proof.
  intros es e w H. assert (incl es (es ++ [e])) as L by (intros x i; apply in_or_app; auto).
  destruct H as [a b c d f g]. constructor; auto.
  - intros id h i. destruct (a id h i) as (x & y). split; [exact x | apply from_more; exact y].
  - intros x i. apply fair_more; auto.
  - intros x i. apply fair_more; auto.
  - intros x i. apply fair_more; auto.
  - intros i j p K. destruct (g i j p K) as (x & y). split; [exact (sound_from_incl _ _ _ L x) |].
    destruct j; auto. apply fair_more; exact y.
Qed.

(** One command keeps everything fine, and its continuation sound. *)
Lemma command_fine : forall es i j o order r p w w' p', fine es w -> sound_from es p ->
  match j with JTry t _ => fair es t | _ => True end ->
  command i j o order r p w = (w', p') -> fine es w' /\ sound_from es p'.
Proof.
  intros es i j o order r p w w' p' F Sp Fj H.
  assert (sound es p) as Sp0 by (apply Sp; apply incl_refl).
  destruct F as [a b c d f g].
  destruct p as [x | id k | id h k | id k | s id k | s id k | s k | h n k | h n k]; cbn in H; injection H as <- <-.
  - split; [constructor; auto | exact Sp].
  - split; [constructor; auto |]. intros es' L. apply (Sp es' L).
    destruct (told o); [| exact Logic.I]. destruct (w_hooks w id) as [h |] eqn:e; [| exact Logic.I].
    destruct (a id h e) as (x & y). split; [exact x | exact (from_incl _ _ _ L y)].
  - split; [| intros es' L; apply (Sp es' L)]. destruct (took o); [| constructor; auto].
    constructor; auto. intros x y K. cbn in K. destruct (String.eqb_spec x id) as [-> | n].
    + rewrite set_hook_same in K. injection K as <-. exact (proj1 Sp0).
    + rewrite set_hook_other in K by exact n. auto.
  - split; [| intros es' L; apply (Sp es' L)]. destruct (took o); [| constructor; auto].
    constructor; auto. intros x y K. cbn in K. destruct (String.eqb_spec x id) as [-> | n].
    + rewrite set_hook_same in K. discriminate.
    + rewrite set_hook_other in K by exact n. auto.
  - split; [| intros es' L; apply (Sp es' L)]. destruct (took o); [| constructor; auto].
    constructor; auto. intro t. cbn. destruct (shelf_eqb t s) eqn:e.
    + apply shelf_eqb_eq in e. subst. rewrite set_shelf_same. apply nodup_insert. auto.
    + rewrite set_shelf_other; auto. intro K. apply shelf_eqb_eq in K. congruence.
  - split; [| intros es' L; apply (Sp es' L)]. destruct (took o); [| constructor; auto].
    constructor; auto. intro t. cbn. destruct (shelf_eqb t s) eqn:e.
    + apply shelf_eqb_eq in e. subst. rewrite set_shelf_same. apply nodup_filter. auto.
    + rewrite set_shelf_other; auto. intro K. apply shelf_eqb_eq in K. congruence.
  - split; [constructor; auto |]. intros es' L. apply (Sp es' L). destruct (told o); [| exact Logic.I].
    cbn. apply nodup_arrange. auto.
  - split; [| intros es' L; apply (Sp es' L)]. destruct (took o); [| constructor; auto].
    assert (fair es {| t_no := w_next w; t_hook := h; t_notice := n |}) as K by (exact (proj1 Sp0)).
    constructor; auto; cbn; intros x y; apply in_app_or in y; destruct y as [y | [<- | []]]; auto.
  - split; [| intros es' L; apply (Sp es' L)]. destruct j as [q | t m |]; try (constructor; auto; fail).
    destruct (took o); [| constructor; auto]. constructor; auto. cbn. intros x y. apply in_app_or in y.
    destruct y as [y | [<- | []]]; auto.
Qed.

Lemma happen_fine : forall es e w, fine es w -> fine (es ++ [e]) (happen e w).
Proof.
  intros es e w F. apply (fine_more es e) in F. set (es' := es ++ [e]) in *.
  pose proof F as F0. destruct F0 as [a b c d f g]. destruct e as [q | i now | i o order r | i]; cbn.
  - constructor; auto. cbn. intros i j p H. apply nth_app_new in H. destruct H as [H | (_ & K)]; [exact (g i j p H) |].
    injection K as -> ->. split; [| exact Logic.I]. intros es2 L. apply start_sound. apply L.
    apply in_or_app. right. left. reflexivity.
  - destruct (nth_error (w_queue w) i) as [(t, [| m]) |] eqn:e; try exact F.
    assert (fair es' t) as K by (apply nth_error_In in e; apply c in e; exact e).
    constructor; auto; cbn.
    + intros x y. apply c. exact (in_drop_nth _ _ _ _ y).
    + intros x j p H. apply nth_app_new in H. destruct H as [H | (_ & H)]; [exact (g x j p H) |].
      injection H as -> ->. split; [| exact K]. intros es2 L. apply attempt_sound. exact (from_incl _ _ _ L (proj1 K)).
  - destruct (nth_error (w_runs w) i) as [(j, p) |] eqn:e; [| exact F].
    destruct (command i j o order r p w) as (w', p') eqn:C.
    destruct (g i j p e) as (Sp & Fj).
    destruct (command_fine es' i j o order r p w w' p' F Sp Fj C) as (F' & Sp').
    destruct F' as [a' b' c' d' f' g']. constructor; auto. cbn. intros x jx px H.
    apply nth_set_nth_in in H. destruct H as [(<- & H) | (n & H)]; [| eauto].
    injection H as -> ->. auto.
  - destruct (nth_error (w_runs w) i) as [(j, p) |] eqn:e; [| exact F].
    assert (fine es' (with_runs w (set_nth i (JOver, Done AErr) (w_runs w)))) as F1.
    { constructor; auto. cbn. intros x jx px H.
      apply nth_set_nth_in in H. destruct H as [(<- & H) | (n & H)]; [| eauto].
      injection H as -> ->. split; [intros es2 L; exact Logic.I | exact Logic.I]. }
    destruct (g i j p e) as (Sp & Fj).
    destruct j as [q | t [| m] |]; auto.
    assert (fine es' (with_queue (with_runs w (set_nth i (JOver, Done AErr) (w_runs w))) (w_queue w ++ [(t, S m)]))) as F2.
    { destruct F1 as [a' b' c' d' f' g']. constructor; auto. cbn. intros x y. apply in_app_or in y.
      destruct y as [y | [<- | []]]; auto. }
    destruct p as [[] | | | | | | | |]; auto.
Qed.

Lemma blank_fine : fine [] blank.
Proof.
  constructor; cbn; try contradiction; try discriminate.
  - intro s. constructor.
  - intros i j p H. destruct i; discriminate.
Qed.

Lemma play_ind : forall (P : list event -> world -> Prop), P [] blank ->
  (forall es e w, w = play es blank -> P es w -> P (es ++ [e]) (happen e w)) -> forall es, P es (play es blank).
Proof.
  intros P H0 H1 es. induction es as [| e es IH] using rev_ind; [exact H0 |].
  rewrite play_app. cbn. apply H1; [reflexivity | exact IH].
Qed.

Theorem play_fine : forall es, fine es (play es blank).
Proof. apply play_ind; [exact blank_fine |]. intros es e w _ H. apply happen_fine; exact H. Qed.

Theorem as_submitted : forall es t, In t (w_sent (play es blank)) ->
  (exists q b, In (EStart q) es /\ changes q (h_id (t_hook t)) b /\ h_active b = true /\ h_url b = h_url (t_hook t))
  /\ (exists q ts, In (EStart q) es /\ stages q (n_stage (t_notice t)) ts /\ In (n_txn (t_notice t), n_data (t_notice t)) ts).
Proof.
  intros es t i. destruct (f_sent _ _ (play_fine es) t i) as ((q & b & a) & A & N). split.
  - exists q, b. rewrite <- A. tauto.
  - exact N.
Qed.
