(** A hook that was deleted is not called, and what a stage answers. *)
From Coq Require Import List String Bool Arith ZArith Lia.
From Verif Require Import HookModel HookSpec HookBase HookInv HookStage.
Import ListNotations.
Local Open Scope string_scope.
Local Open Scope nat_scope.
Local Open Scope list_scope.

(** A property of programs that goes with them from command to command, given what commands may answer. *)
Definition runs_keep (w : world) (P : prog -> Prop) (i : nat) : Prop :=
  forall j p, nth_error (w_runs w) i = Some (j, p) -> P p.

Section Gone.
  Variables (id ty : string).

  Definition typed (es : list event) : Prop := forall q b, In (EStart q) es -> changes q id b -> h_type b = ty.

  Fixpoint adds (p : prog) : Prop :=
    match p with
    | Done _ => True
    | Get x k => forall s, adds (k s)
    | Put _ _ k | Del _ k | Rem _ _ k => forall b, adds (k b)
    | Add s x k => (x = id -> s = shelf_of ty) /\ forall b, adds (k b)
    | Members _ k => forall o, adds (k o)
    | Enqueue _ _ k => forall b, adds (k b)
    | Send _ _ k => forall r, adds (k r)
    end.
  Fixpoint noadd (p : prog) : Prop :=
    match p with
    | Done _ => True
    | Get x k => forall s, noadd (k s)
    | Put _ _ k | Del _ k | Rem _ _ k => forall b, noadd (k b)
    | Add s x k => x <> id /\ forall b, noadd (k b)
    | Members _ k => forall o, noadd (k o)
    | Enqueue _ _ k => forall b, noadd (k b)
    | Send _ _ k => forall r, noadd (k r)
    end.
  Lemma noadd_adds : forall p, noadd p -> adds p.
  Proof.
    intro p. induction p as [x | x k IH | x h k IH | x k IH | s x k IH | s x k IH | s k IH | h n k IH | h n k IH]; cbn; auto.
    intros (a & b). split; [intro; contradiction | auto].
  Qed.

  Lemma gather_noadd : forall ids acc k, (forall l, noadd (k l)) -> noadd (gather ids acc k).
  Proof. intro ids. induction ids as [| x ids IH]; intros acc k H; cbn; auto. intros [| | h]; auto. Qed.
  Lemma listing_noadd : forall t k, (forall o, noadd (k o)) -> noadd (listing t k).
  Proof.
    intros t k H. unfold listing. destruct (String.eqb t ""); cbn.
    - intros [a |]; auto. cbn. intros [b |]; auto. apply gather_noadd; auto.
    - intros [a |]; auto. apply gather_noadd; auto.
  Qed.
  Lemma queue_each_noadd : forall hs ns k, noadd k -> noadd (queue_each hs ns k).
  Proof.
    intros hs ns k H. induction ns as [| n ns IH]; cbn; auto.
    generalize (queue_each hs ns k) IH. clear. intros p H. induction hs as [| h hs IH]; cbn; auto. destruct (h_active h); cbn; auto.
  Qed.
  Lemma stage_noadd : forall t ts, noadd (stage t ts).
  Proof. intros t ts. unfold stage. apply listing_noadd. intros [l |]; [apply queue_each_noadd |]; exact Logic.I. Qed.
  Lemma attempt_noadd : forall now h n, noadd (attempt now h n).
  Proof. intros now h n. unfold attempt. destruct (_ <=? _)%Z; cbn; auto. Qed.

  Lemma settle_fields : forall h g, settle h = Some g -> h_id g = h_id h /\ h_type g = h_type h.
  Proof.
    intros h g H. unfold settle in H. destruct (String.eqb _ _); [discriminate |]. destruct (_ && _); [discriminate |].
    injection H as <-. split; reflexivity.
  Qed.

  Lemma start_noadd : forall q, (exists b, changes q id b) \/ noadd (start q).
  Proof.
    intro q. destruct q; cbn [start].
    - destruct (String.eqb_spec (if String.eqb (h_id h) "" then gen else h_id h) id) as [e | e].
      + left. exists h. left. exists gen, now. auto.
      + right. unfold register. destruct (settle (named gen now h)) as [g |] eqn:E; [| exact Logic.I].
        apply settle_fields in E. destruct E as (E & _). cbn in E. cbn. intros []; cbn; auto.
        split; [rewrite E; exact e | auto].
    - destruct (string_dec id0 id) as [-> | e]; [left; exists h; right; reflexivity |].
      right. unfold update. cbn. intros [| | old]; cbn; auto. destruct (String.eqb _ _); cbn; auto.
      intros []; cbn; auto. split; [exact e |]. intros []; cbn; auto.
    - right. unfold delete. cbn. intros [| | h]; cbn; auto.
    - right. unfold show. cbn. intros [| | h]; cbn; auto.
    - right. apply listing_noadd. intros []; exact Logic.I.
    - right. apply stage_noadd.
    - right. apply stage_noadd.
  Qed.

  Lemma start_adds : forall es q, typed es -> In (EStart q) es -> adds (start q).
  Proof.
    intros es q T i. destruct q; cbn [start].
    - unfold register. destruct (settle (named gen now h)) as [g |] eqn:E; [| exact Logic.I].
      apply settle_fields in E. destruct E as (E & Et). cbn in E, Et. cbn. intros []; cbn; auto.
      split; [| auto]. intro K. rewrite Et. f_equal. apply (T (RRegister gen now h)); [exact i |].
      left. exists gen, now. split; [reflexivity | congruence].
    - unfold update. cbn. intros [| | old]; cbn; auto. destruct (String.eqb _ _); cbn; auto.
      intros []; cbn; auto. split; [| intros []; cbn; auto].
      intros ->. f_equal. apply (T (RUpdate id h)); [exact i | right; reflexivity].
    - apply noadd_adds. unfold delete. cbn. intros [| | h]; cbn; auto.
    - cbn. intros [| | h]; cbn; auto.
    - apply noadd_adds, listing_noadd. intros []; exact Logic.I.
    - apply noadd_adds, stage_noadd.
    - apply noadd_adds, stage_noadd.
  Qed.

  (** Commands keep a property of programs. *)
  Record keeps_on (P : prog -> Prop) (w : world) : Prop := { ko : forall i j o order r p,
    P p -> P (snd (command i j o order r p w)) }.
  Lemma adds_on : forall w, keeps_on adds w.
  Proof.
    intro w. constructor. intros i j o order r p H. destruct p; cbn in *; auto. apply H.
  Qed.
  Lemma noadd_on : forall w, keeps_on noadd w.
  Proof.
    intro w. constructor. intros i j o order r p H. destruct p; cbn in *; auto. apply H.
  Qed.

  (** What an event makes of the runs. *)
  Lemma run_cases : forall e w i j p, nth_error (w_runs (happen e w)) i = Some (j, p) ->
    (nth_error (w_runs w) i = Some (j, p))
    \/ (i = List.length (w_runs w) /\ exists q, e = EStart q /\ j = JCall q /\ p = start q)
    \/ (i = List.length (w_runs w) /\ exists t m now, j = JTry t m /\ p = attempt now (t_hook t) (t_notice t))
    \/ (j = JOver /\ p = Done AErr)
    \/ (exists o order r p0, e = EStep i o order r /\ nth_error (w_runs w) i = Some (j, p0)
         /\ p = snd (command i j o order r p0 w)).
  Proof.
    intros e w i j p H. destruct e as [q | k now | k o order r | k]; cbn in H.
    - apply nth_app_new in H. destruct H as [H | (-> & H)]; auto. injection H as -> ->. right. left. eauto.
    - destruct (nth_error (w_queue w) k) as [(t, [| m]) |]; auto. cbn in H.
      apply nth_app_new in H. destruct H as [H | (-> & H)]; auto. injection H as -> ->. right. right. left. eauto 6.
    - destruct (nth_error (w_runs w) k) as [(j', p') |] eqn:e; auto.
      destruct (command k j' o order r p' w) as (w', p2) eqn:C. cbn in H.
      rewrite (command_runs _ _ _ _ _ _ _ _ _ C) in H. apply nth_set_nth_in in H.
      destruct H as [(<- & H) | (ne & H)]; auto. injection H as -> ->.
      right. right. right. right. exists o, order, r, p'. rewrite C. auto.
    - destruct (nth_error (w_runs w) k) as [(j', p') |] eqn:e; auto.
      assert (nth_error (set_nth k (JOver, Done AErr) (w_runs w)) i = Some (j, p)) as G.
      { destruct j' as [| t [| m] |]; auto. destruct p' as [[] | | | | | | | |]; auto. }
      apply nth_set_nth_in in G. destruct G as [(<- & G) | (ne & G)]; auto. injection G as -> ->. auto 6.
  Qed.

  (** Only [Add] puts a hook on a list. *)
  Lemma sets_grow : forall e w s, In id (w_sets (happen e w) s) -> ~ In id (w_sets w s) ->
    exists i j k, nth_error (w_runs w) i = Some (j, Add s id k).
  Proof.
    intros e w s H N. destruct e as [q | i now | i o order r | i]; cbn in H; try contradiction.
    - destruct (nth_error (w_queue w) i) as [(t, [| m]) |]; cbn in H; contradiction.
    - destruct (nth_error (w_runs w) i) as [(j, p) |] eqn:e; [| contradiction].
      destruct p as [x | x k | x h k | x k | s' x k | s' x k | s' k | h nt k | h nt k]; cbn in H;
        try contradiction; try (destruct (took o); cbn in H; contradiction).
      + destruct (took o); cbn in H; [| contradiction]. destruct (shelf_eqb s s') eqn:E.
        * apply shelf_eqb_eq in E. subst s'. rewrite set_shelf_same in H. apply in_insert in H.
          destruct H as [<- | H]; [| contradiction]. eauto.
        * rewrite set_shelf_other in H; [contradiction |]. intro K. apply shelf_eqb_eq in K. congruence.
      + exfalso. destruct (took o); cbn in H; [| contradiction]. destruct (shelf_eqb s s') eqn:E.
        * apply shelf_eqb_eq in E. subst s'. rewrite set_shelf_same in H. apply in_without in H. tauto.
        * rewrite set_shelf_other in H; [contradiction |]. intro K. apply shelf_eqb_eq in K. congruence.
      + destruct j; cbn in H; try contradiction. destruct (took o); cbn in H; contradiction.
    - destruct (nth_error (w_runs w) i) as [(j, p) |]; [| contradiction].
      destruct j as [| t [| m] |]; cbn in H; try contradiction. destruct p as [[] | | | | | | | |]; cbn in H; contradiction.
  Qed.

  Definition shelved (w : world) : Prop :=
    (forall s, In id (w_sets w s) -> s = shelf_of ty) /\ (forall i j p, nth_error (w_runs w) i = Some (j, p) -> adds p).

  Lemma play_shelved : forall es, typed es -> shelved (play es blank).
  Proof.
    intro es. apply (play_ind (fun es w => typed es -> shelved w)).
    - intros _. split; [intros s [] | intros [] j p H; discriminate].
    - intros es' e w _ IH T.
      assert (typed es') as T' by (intros q b i; apply T; apply in_or_app; auto).
      destruct (IH T') as (Sh & Ad). split.
      + intros s H. destruct (in_dec string_dec id (w_sets w s)) as [K | K]; [exact (Sh s K) |].
        destruct (sets_grow e w s H K) as (i & j & k & E). apply Ad in E. cbn in E. apply E. reflexivity.
      + intros i j p H. apply run_cases in H.
        destruct H as [H | [(_ & q & -> & -> & ->) | [(_ & t & m & now & -> & ->) | [(-> & ->) | (o & order & r & p0 & -> & H & ->)]]]].
        * exact (Ad i j p H).
        * apply (start_adds (es' ++ [EStart q])); [exact T | apply in_or_app; right; left; reflexivity].
        * apply noadd_adds, attempt_noadd.
        * exact Logic.I.
        * apply (ko _ _ (adds_on w)). exact (Ad i j p0 H).
  Qed.

  (** Who might put it back. *)
  Lemma play_adders : forall es i j p, nth_error (w_runs (play es blank)) i = Some (j, p) ->
    noadd p \/ exists q b, j = JCall q /\ changes q id b.
  Proof.
    intro es. apply (play_ind (fun es w => forall i j p, nth_error (w_runs w) i = Some (j, p) ->
      noadd p \/ exists q b, j = JCall q /\ changes q id b)).
    - intros [] j p H; discriminate.
    - intros es' e w _ IH i j p H. apply run_cases in H.
      destruct H as [H | [(_ & q & -> & -> & ->) | [(_ & t & m & now & -> & ->) | [(-> & ->) | (o & order & r & p0 & -> & H & ->)]]]].
      + exact (IH i j p H).
      + destruct (start_noadd q) as [(b & H) | H]; eauto.
      + left. apply attempt_noadd.
      + left. exact Logic.I.
      + destruct (IH i j p0 H) as [K | K]; [left; apply (ko _ _ (noadd_on w)); exact K | auto].
  Qed.

  Definition quiet (w : world) : Prop := forall i j p, nth_error (w_runs w) i = Some (j, p) -> noadd p.
  Lemma happen_quiet : forall e w, (forall q b, e = EStart q -> ~ changes q id b) -> quiet w -> quiet (happen e w).
  Proof.
    intros e w N Q i j p H. apply run_cases in H.
    destruct H as [H | [(_ & q & -> & -> & ->) | [(_ & t & m & now & -> & ->) | [(-> & ->) | (o & order & r & p0 & -> & H & ->)]]]].
    - exact (Q i j p H).
    - destruct (start_noadd q) as [(b & H) | H]; [| exact H]. exfalso. exact (N q b eq_refl H).
    - apply attempt_noadd.
    - exact Logic.I.
    - apply (ko _ _ (noadd_on w)). exact (Q i j p0 H).
  Qed.
  Lemma happen_off : forall e w s, quiet w -> ~ In id (w_sets w s) -> ~ In id (w_sets (happen e w) s).
  Proof.
    intros e w s Q N H. destruct (sets_grow e w s H N) as (i & j & k & E). apply Q in E. cbn in E. tauto.
  Qed.

  (** Deleting: not done with a yes before the hook is off its list. *)
  Fixpoint clears (es : list event) (p : prog) : Prop :=
    match p with
    | Done a => a <> AOk
    | Get x k => forall s, (match s with Got h => x = id -> h_type h = ty | _ => True end) -> clears es (k s)
    | Rem s x k => clears es (k false) /\ ((s = shelf_of ty /\ x = id) \/ clears es (k true))
    | Put _ _ k | Del _ k | Add _ _ k => forall b, clears es (k b)
    | Members _ k => forall o, clears es (k o)
    | Enqueue _ _ k => forall b, clears es (k b)
    | Send _ _ k => forall r, clears es (k r)
    end.
  Lemma delete_clears : forall es, clears es (start (RDelete id)).
  Proof.
    intro es. cbn. intros [| | h] H; cbn; try discriminate. intro a. split.
    - rewrite andb_false_r. discriminate.
    - left. rewrite (H eq_refl). auto.
  Qed.

  Lemma typed_hook : forall es w h, typed es -> fine es w -> w_hooks w id = Some h -> h_type h = ty.
  Proof.
    intros es w h T F H. destruct (f_hooks _ _ F id h H) as (E & q & b & i & C & _ & _ & Et & _).
    rewrite <- Et. rewrite E in C. exact (T q b i C).
  Qed.

  Definition on_delete (d : nat) (w : world) : Prop :=
    (forall s, ~ In id (w_sets w s)) \/ (forall j p, nth_error (w_runs w) d = Some (j, p) -> clears [] p).

  Lemma happen_on_delete : forall es e w d, w = play es blank -> typed es -> quiet w -> d < List.length (w_runs w) ->
    on_delete d w -> on_delete d (happen e w).
  Proof.
    intros es e w d Ew T Q Ld H. pose proof (play_fine es) as F. pose proof (play_shelved es T) as (Sh & _).
    rewrite <- Ew in F, Sh.
    destruct H as [H | H]; [left; intros s; apply happen_off; auto |].
    assert ((exists o order r, e = EStep d o order r) \/ (forall o order r, e <> EStep d o order r)) as [(o & order & r & ->) | Ne].
    { destruct e as [| | k o order r |]; try (right; intros; discriminate).
      destruct (Nat.eq_dec k d) as [-> | ne]; [left; eauto | right; intros; congruence]. }
    - cbn [happen]. destruct (nth_error (w_runs w) d) as [(j, p) |] eqn:Er; [| right; intros j p K; congruence].
      specialize (H j p eq_refl).
      assert (forall w' p', w_runs w' = w_runs w -> clears [] p' ->
        on_delete d (with_runs w' (set_nth d (j, p') (w_runs w')))) as G.
      { intros w' p' E K. right. cbn. rewrite E. intros j2 p2 K2. rewrite nth_set_nth, Nat.eqb_refl, Er in K2.
        injection K2 as <- <-. exact K. }
      destruct p as [x | x k | x h k | x k | s x k | s x k | s k | h nt k | h nt k]; cbn in *;
        try (apply G; auto; destruct (took o); auto; fail).
      + apply G; auto. apply H. destruct (told o); auto. destruct (w_hooks w x) as [h |] eqn:e; auto.
        intros ->. exact (typed_hook es w h T F e).
      + destruct H as (H0 & H1). destruct o; cbn [took told].
        * destruct H1 as [(-> & ->) | H1]; [| apply G; auto]. left. cbn. intros s K.
          destruct (shelf_eqb s (shelf_of ty)) eqn:E.
          -- apply shelf_eqb_eq in E. subst s. rewrite set_shelf_same in K. apply in_without in K. tauto.
          -- rewrite set_shelf_other in K by (intro X; apply shelf_eqb_eq in X; congruence).
             apply Sh in K. subst s. rewrite shelf_eqb_refl in E. discriminate.
        * apply G; auto.
        * apply G; auto.
      + apply G; auto. destruct j; auto. destruct (took o); auto.
    - right. intros j p K. apply run_cases in K.
      destruct K as [K | [(E & _) | [(E & _) | [(-> & ->) | (o & order & r & p0 & E & _)]]]].
      + exact (H j p K).
      + lia.
      + lia.
      + cbn. discriminate.
      + exfalso. exact (Ne o order r E).
  Qed.

  (** A run begun with the hook off the lists does not meet it. *)
  Fixpoint never (p : prog) : Prop :=
    match p with
    | Done a => match a with AList l => forall h, In h l -> h_id h <> id | _ => True end
    | Get x k => forall s, (match s with Got h => h_id h = x | _ => True end) -> never (k s)
    | Put _ _ k | Del _ k | Add _ _ k | Rem _ _ k => forall b, never (k b)
    | Members _ k => forall o, (match o with Some l => ~ In id l | None => True end) -> never (k o)
    | Enqueue h _ k => h_id h <> id /\ forall b, never (k b)
    | Send _ _ k => forall r, never (k r)
    end.
  Lemma gather_never : forall ids acc k, ~ In id ids -> (forall h, In h acc -> h_id h <> id) ->
    (forall l, (forall h, In h l -> h_id h <> id) -> never (k l)) -> never (gather ids acc k).
  Proof.
    intro ids. induction ids as [| x ids IH]; intros acc k Hi Ha Hk; cbn; auto.
    assert (~ In id ids) as Hi' by (intro K; apply Hi; right; exact K).
    intros [| | h] E; auto. apply IH; auto. intros g K. apply in_app_or in K. destruct K as [K | [<- | []]]; auto.
    intro K. apply Hi. left. congruence.
  Qed.
  Lemma listing_never : forall t k, never (k None) -> (forall l, (forall h, In h l -> h_id h <> id) -> never (k (Some l))) ->
    never (listing t k).
  Proof.
    intros t k Hn Hk. unfold listing. destruct (String.eqb t ""); cbn.
    - intros [a |] Ha; cbn; auto. intros [b |] Hb; auto. apply gather_never; auto.
      rewrite in_app_iff, filter_In. tauto.
    - intros [a |] Ha; cbn; auto. apply gather_never; auto.
  Qed.
  Lemma queue_each_never : forall hs ns k, (forall h, In h hs -> h_id h <> id) -> never k -> never (queue_each hs ns k).
  Proof.
    intros hs ns k Hh H. induction ns as [| n ns IH]; cbn; auto.
    generalize (queue_each hs ns k) IH. clear H IH. intros p H. induction hs as [| h hs IH]; cbn; auto.
    destruct (h_active h); cbn.
    - split; [apply Hh; left; reflexivity |]. intros _. apply IH. intros g i. apply Hh. right; exact i.
    - apply IH. intros g i. apply Hh. right; exact i.
  Qed.
  Lemma start_never : forall q, never (start q).
  Proof.
    intro q. destruct q; cbn [start].
    - unfold register. destruct (settle _); cbn; auto. intros []; cbn; auto. intros []; cbn; auto.
    - unfold update. cbn. intros [| | old] _; cbn; auto. destruct (String.eqb _ _); cbn.
      + intros []; cbn; auto.
      + intros []; cbn; auto. intros []; cbn; auto. intros []; cbn; auto.
    - unfold delete. cbn. intros [| | h] _; cbn; auto. intros a b. destruct (a && b); auto.
    - unfold show. cbn. intros [| | h] _; cbn; auto.
    - apply listing_never; cbn; auto.
    - unfold stage. apply listing_never; [exact Logic.I |]. intros l Hl. apply queue_each_never; cbn; auto.
    - unfold stage. apply listing_never; [exact Logic.I |]. intros l Hl. apply queue_each_never; cbn; auto.
  Qed.
  Lemma attempt_never : forall now h n, never (attempt now h n).
  Proof.
    intros now h n. unfold attempt. destruct (_ <=? _)%Z; cbn; auto. intros r b. destruct (passed r); auto.
  Qed.

  Definition spared (n : nat) (w : world) : Prop :=
    (forall i j p, n <= i -> nth_error (w_runs w) i = Some (j, p) -> never p)
    /\ (forall i t, n <= i -> In (i, t) (w_made w) -> h_id (t_hook t) <> id).

  Lemma made_cases : forall e w x, In x (w_made (happen e w)) -> In x (w_made w)
    \/ exists i j h nt k t, x = (i, t) /\ nth_error (w_runs w) i = Some (j, Enqueue h nt k) /\ t_hook t = h /\ t_notice t = nt.
  Proof.
    intros e w x H. destruct e as [q | i now | i o order r | i]; cbn in H; auto.
    - destruct (nth_error (w_queue w) i) as [(t, [| m]) |]; cbn in H; auto.
    - destruct (nth_error (w_runs w) i) as [(j, p) |] eqn:e; auto.
      destruct p as [y | y k | y h k | y k | s y k | s y k | s k | h nt k | h nt k]; cbn in H; auto;
        try (destruct (took o); cbn in H; auto; fail).
      + destruct (took o); cbn in H; auto. apply in_app_or in H. destruct H as [H | [<- | []]]; auto.
        right. exists i, j, h, nt, k, {| t_no := w_next w; t_hook := h; t_notice := nt |}. auto.
      + destruct j; cbn in H; auto. destruct (took o); cbn in H; auto.
    - destruct (nth_error (w_runs w) i) as [(j, p) |]; auto.
      destruct j as [| t [| m] |]; cbn in H; auto. destruct p as [[] | | | | | | | |]; cbn in H; auto.
  Qed.

  Lemma happen_spared : forall es e w n, w = play es blank -> (forall s, ~ In id (w_sets w s)) -> spared n w -> spared n (happen e w).
  Proof.
    intros es e w n Ew Off (A & B). pose proof (play_fine es) as F. rewrite <- Ew in F. split.
    - intros i j p L H. apply run_cases in H.
      destruct H as [H | [(_ & q & -> & -> & ->) | [(_ & t & m & now & -> & ->) | [(-> & ->) | (o & order & r & p0 & -> & H & ->)]]]].
      + exact (A i j p L H).
      + apply start_never.
      + apply attempt_never.
      + exact Logic.I.
      + apply (A i j p0 L) in H. destruct p0 as [y | y k | y h k | y k | s y k | s y k | s k | h nt k | h nt k]; cbn in *; auto.
        * apply H. destruct (told o); auto. destruct (w_hooks w y) as [h |] eqn:e; auto. exact (proj1 (f_hooks _ _ F y h e)).
        * apply H. destruct (told o); auto. intro K. apply in_arrange in K. exact (Off s K).
        * apply H.
    - intros i t L H. apply made_cases in H. destruct H as [H | (k & j & h & nt & c & t' & E & H & Eh & _)]; [exact (B i t L H) |].
      injection E as <- <-. apply (A i j _ L) in H. cbn in H. rewrite Eh. tauto.
  Qed.
End Gone.

Theorem deleted_not_called : forall es1 es2 es3 id ty,
  typed id ty (es1 ++ es2 ++ es3) ->
  let w1 := play es1 blank in
  (forall i q p b, nth_error (w_runs w1) i = Some (JCall q, p) -> changes q id b -> is_done p) ->
  (forall q b, In (EStart q) (es2 ++ es3) -> ~ changes q id b) ->
  let w2 := play es2 (happen (EStart (RDelete id)) w1) in
  nth_error (w_runs w2) (List.length (w_runs w1)) = Some (JCall (RDelete id), Done AOk) ->
  let w3 := play es3 w2 in
  (forall i t, In (i, t) (w_made w3) -> List.length (w_runs w2) <= i -> h_id (t_hook t) <> id)
  /\ (forall i t l h, nth_error (w_runs w3) i = Some (JCall (RList t), Done (AList l)) ->
        List.length (w_runs w2) <= i -> In h l -> h_id h <> id).
Proof.
  intros es1 es2 es3 id ty T w1 D N w2 Ok w3.
  assert (quiet id w1) as Q1.
  { intros i j p H. destruct (play_adders id es1 i j p H) as [K | (q & b & -> & K)]; [exact K |].
    destruct (D i q p b H K) as (a & ->). exact Logic.I. }
  set (w1' := happen (EStart (RDelete id)) w1) in *.
  assert (w1' = play (es1 ++ [EStart (RDelete id)]) blank) as E1 by (unfold w1'; rewrite play_app; reflexivity).
  assert (quiet id w1') as Q1'.
  { apply happen_quiet; auto. intros q b E K. injection E as <-.
    destruct K as [(gen & now & K & _) | K]; discriminate. }
  assert (on_delete id ty (List.length (w_runs w1)) w1') as O1.
  { right. unfold w1'. cbn. rewrite nth_error_app2, Nat.sub_diag by lia. intros j p K. injection K as <- <-.
    apply delete_clears. }
  assert (List.length (w_runs w1) < List.length (w_runs w1')) as L1 by (unfold w1'; cbn; rewrite app_length; cbn; lia).
  assert (forall e w, List.length (w_runs w) <= List.length (w_runs (happen e w))) as Grow.
  { intros e w. destruct e as [q | i now | i o order r | i]; cbn.
    - rewrite app_length. lia.
    - destruct (nth_error (w_queue w) i) as [(t, [| m]) |]; cbn; auto. rewrite app_length. lia.
    - destruct (nth_error (w_runs w) i) as [(j, p) |]; auto. destruct (command i j o order r p w) as (w', p') eqn:C.
      cbn. rewrite length_set_nth, (command_runs _ _ _ _ _ _ _ _ _ C). lia.
    - destruct (nth_error (w_runs w) i) as [(j, p) |]; auto.
      destruct j as [| t [| m] |]; cbn; try (rewrite length_set_nth; lia).
      destruct p as [[] | | | | | | | |]; cbn; rewrite length_set_nth; lia. }
  assert (forall es' es0 w, w = play es0 blank -> typed id ty (es0 ++ es') -> quiet id w ->
    (forall q b, In (EStart q) es' -> ~ changes q id b) -> List.length (w_runs w1) < List.length (w_runs w) ->
    on_delete id ty (List.length (w_runs w1)) w ->
    quiet id (play es' w) /\ on_delete id ty (List.length (w_runs w1)) (play es' w)) as Go.
  { intro es'. induction es' as [| e es' IH]; intros es0 w Ew Tw Q Nw L O; [cbn; auto |]. cbn.
    apply (IH (es0 ++ [e])).
    - rewrite play_app, <- Ew. reflexivity.
    - rewrite <- app_assoc. exact Tw.
    - apply happen_quiet; auto. intros q b ->. apply Nw. left; reflexivity.
    - intros q b i. apply Nw. right; exact i.
    - pose proof (Grow e w). lia.
    - apply (happen_on_delete id ty es0); auto. intros q b i. apply Tw. apply in_or_app; auto. }
  destruct (Go es2 (es1 ++ [EStart (RDelete id)]) w1') as (Q2 & O2); auto.
  - intros q b i. rewrite !in_app_iff in i. destruct i as [[i | [i | []]] | i].
    + apply T. rewrite !in_app_iff. auto.
    + intro K. exfalso. injection i as <-. destruct K as [(gen & now & K & _) | K]; discriminate.
    + apply T. rewrite !in_app_iff. auto.
  - intros q b i. apply N. apply in_or_app; auto.
  - fold w2 in Q2, O2.
    assert (forall s, ~ In id (w_sets w2 s)) as Off.
    { destruct O2 as [O2 | O2]; [exact O2 |]. exfalso. exact (O2 _ _ Ok eq_refl). }
    assert (w2 = play ((es1 ++ [EStart (RDelete id)]) ++ es2) blank) as E2 by (rewrite play_app, <- E1; reflexivity).
    assert (spared id (List.length (w_runs w2)) w2) as S2.
    { split.
      - intros i j p L H. exfalso. assert (nth_error (w_runs w2) i <> None) as K by congruence. apply nth_error_Some in K. lia.
      - intros i t L H. exfalso.
        assert (forall es, forall x, In x (w_made (play es blank)) -> fst x < List.length (w_runs (play es blank))) as Mi.
        { clear - Grow. intro es. apply (play_ind (fun _ w => forall x, In x (w_made w) -> fst x < List.length (w_runs w))).
          - intros x [].
          - intros es' e w _ IH x H. apply made_cases in H. pose proof (Grow e w).
            destruct H as [H | (k & j & h & nt & c & t' & -> & H & _)].
            + specialize (IH x H). lia.
            + assert (nth_error (w_runs w) k <> None) as K by congruence. apply nth_error_Some in K. cbn. lia. }
        rewrite E2 in H, L. specialize (Mi _ _ H). cbn in Mi. lia. }
    assert (forall es' es0 w, w = play es0 blank -> quiet id w -> (forall q b, In (EStart q) es' -> ~ changes q id b) ->
      (forall s, ~ In id (w_sets w s)) -> spared id (List.length (w_runs w2)) w -> spared id (List.length (w_runs w2)) (play es' w)) as Go3.
    { clear - Grow. intro es'. induction es' as [| e es' IH]; intros es0 w Ew Q Nw Off Sp; [exact Sp |]. cbn.
      apply (IH (es0 ++ [e])).
      - rewrite play_app, <- Ew. reflexivity.
      - apply happen_quiet; auto. intros q b ->. apply Nw. left; reflexivity.
      - intros q b i. apply Nw. right; exact i.
      - intro s. apply happen_off; auto.
      - apply (happen_spared id es0); auto. }
    assert (spared id (List.length (w_runs w2)) w3) as (A3 & B3).
    { apply (Go3 es3 _ w2 E2 Q2); auto. intros q b i. apply N. apply in_or_app; auto. }
    split.
    + intros i t H L. exact (B3 i t L H).
    + intros i t l h H L I. exact (A3 i _ _ L H h I).
Qed.

(** * What a stage answers *)

(** Whatever comes, it ends well. *)
Fixpoint smooth (p : prog) : Prop :=
  match p with
  | Done a => a = AOk
  | Get _ k => forall s, smooth (k s)
  | Put _ _ k | Del _ k | Add _ _ k | Rem _ _ k => forall b, smooth (k b)
  | Members _ k => forall o, smooth (k o)
  | Enqueue _ _ k => forall b, smooth (k b)
  | Send _ _ k => forall r, smooth (k r)
  end.
Lemma gather_smooth : forall ids acc k, (forall l, smooth (k l)) -> smooth (gather ids acc k).
Proof. intro ids. induction ids as [| x ids IH]; intros acc k H; cbn; auto. intros [| | h]; auto. Qed.
Lemma queue_each_smooth : forall hs ns, smooth (queue_each hs ns (Done AOk)).
Proof.
  intros hs ns. induction ns as [| n ns IH]; cbn; auto.
  generalize (queue_each hs ns (Done AOk)) IH. clear. intros p H. induction hs as [| h hs IH]; cbn; auto. destruct (h_active h); cbn; auto.
Qed.
Lemma stage_smooth : forall q st ts, stages q st ts ->
  exists s k, start q = Members s k /\ k None = Done AErr /\ forall l, smooth (k (Some l)).
Proof.
  intros q st ts [(-> & ->) | (-> & ->)]; cbn [start]; unfold stage, listing; cbn [String.eqb pre_type post_type Ascii.eqb Bool.eqb];
    (eexists; eexists; split; [reflexivity |]; split; [reflexivity |]; intro l; apply gather_smooth; intro; apply queue_each_smooth).
Qed.

(** A stage ends well, unless its list could not be read at all: then nothing was queued. *)
Theorem stage_answers : forall es q st ts i a, stages q st ts ->
  nth_error (w_runs (play es blank)) i = Some (JCall q, Done a) ->
  a = AOk \/ (a = AErr /\ (exists o order r, In (EStep i o order r) es /\ o <> Fine)
              /\ forall t, ~ In (i, t) (w_made (play es blank))).
Proof.
  intros es q st ts i a Q H.
  destruct (stage_smooth q st ts Q) as (s & k & Es & En & Ek).
  assert (forall i p, nth_error (w_runs (play es blank)) i = Some (JCall q, p) ->
    (p = start q /\ forall t, ~ In (i, t) (w_made (play es blank)))
    \/ smooth p
    \/ (p = Done AErr /\ (exists o order r, In (EStep i o order r) es /\ o <> Fine)
        /\ forall t, ~ In (i, t) (w_made (play es blank)))) as G.
  { clear i a H.
    assert (forall es x, In x (w_made (play es blank)) -> fst x < List.length (w_runs (play es blank))) as Mi.
    { clear. intro es. apply (play_ind (fun _ w => forall x, In x (w_made w) -> fst x < List.length (w_runs w))).
      - intros x [].
      - intros es' e w _ IH x H. apply made_cases in H.
        assert (List.length (w_runs w) <= List.length (w_runs (happen e w))) as Gr.
        { destruct e as [q | i now | i o order r | i]; cbn.
          - rewrite app_length. lia.
          - destruct (nth_error (w_queue w) i) as [(t, [| m]) |]; cbn; auto. rewrite app_length. lia.
          - destruct (nth_error (w_runs w) i) as [(j, p) |]; auto. destruct (command i j o order r p w) as (w', p') eqn:C.
            cbn. rewrite length_set_nth, (command_runs _ _ _ _ _ _ _ _ _ C). lia.
          - destruct (nth_error (w_runs w) i) as [(j, p) |]; auto.
            destruct j as [| t [| m] |]; cbn; try (rewrite length_set_nth; lia).
            destruct p as [[] | | | | | | | |]; cbn; rewrite length_set_nth; lia. }
        destruct H as [H | (n & j & h & nt & c & t' & -> & H & _)].
        + specialize (IH x H). lia.
        + assert (nth_error (w_runs w) n <> None) as K by congruence. apply nth_error_Some in K. cbn. lia. }
    apply (play_ind (fun es w => forall i p, nth_error (w_runs w) i = Some (JCall q, p) ->
      (p = start q /\ forall t, ~ In (i, t) (w_made w)) \/ smooth p
      \/ (p = Done AErr /\ (exists o order r, In (EStep i o order r) es /\ o <> Fine) /\ forall t, ~ In (i, t) (w_made w)))).
    - intros [] p H; discriminate.
    - intros es' e w Ew IH i p H.
      assert (forall p0, nth_error (w_runs w) i = Some (JCall q, p0) -> (forall h n c, p0 <> Enqueue h n c) ->
        (forall t, ~ In (i, t) (w_made w)) -> forall t, ~ In (i, t) (w_made (happen e w))) as Nm.
      { intros p0 Hp Ne N t K. apply made_cases in K. destruct K as [K | (n & j & h & nt & c & t' & E & K & _)]; [exact (N t K) |].
        injection E as <- <-. rewrite Hp in K. injection K as _ K. exact (Ne _ _ _ K). }
      apply run_cases in H.
      destruct H as [H | [(E & q' & -> & Eq & ->) | [(_ & t & m & now & K & _) | [(K & _) | (o & order & r & p0 & -> & H & ->)]]]];
        try discriminate.
      + destruct (IH i p H) as [(-> & N) | [K | (-> & (o & order & r & I & No) & N)]]; auto.
        * left. split; [reflexivity |]. apply (Nm (start q) H); auto. rewrite Es. discriminate.
        * right. right. split; [reflexivity |]. split.
          -- exists o, order, r. split; [apply in_or_app; auto | exact No].
          -- apply (Nm (Done AErr) H); auto. discriminate.
      + injection Eq as <-. left. split; [reflexivity |]. intros t K. apply made_cases in K.
        destruct K as [K | (n & j & h & nt & c & t' & X & K & _)].
        * rewrite Ew in K, E. specialize (Mi _ _ K). cbn in Mi. lia.
        * injection X as <- <-. assert (nth_error (w_runs w) i <> None) as Y by congruence. apply nth_error_Some in Y. lia.
      + destruct (IH i p0 H) as [(-> & N) | [K | (-> & (o' & order' & r' & I & No) & N)]].
        * rewrite Es. cbn [command snd]. destruct (told o) eqn:To.
          -- right. left. apply Ek.
          -- right. right. split; [exact En |]. split.
             ++ exists o, order, r. split; [apply in_or_app; right; left; reflexivity | intros ->; discriminate].
             ++ apply (Nm (start q) H); auto. rewrite Es. discriminate.
        * right. left. destruct p0; cbn in *; auto.
        * right. right. split; [reflexivity |]. split.
          -- exists o', order', r'. split; [apply in_or_app; auto | exact No].
          -- apply (Nm (Done AErr) H); auto. discriminate. }
  destruct (G i _ H) as [(K & _) | [K | (K & F & N)]].
  - rewrite Es in K. discriminate.
  - left. exact K.
  - right. injection K as ->. auto.
Qed.
