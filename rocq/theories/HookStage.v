(** What a stage queues, and that a call once made is not made again. *)
From Coq Require Import List String Bool Arith ZArith Lia Permutation.
From Verif Require Import HookModel HookSpec HookBase HookInv.
Import ListNotations.
Local Open Scope string_scope.
Local Open Scope nat_scope.
Local Open Scope list_scope.

(** * A hook that stands is called *)

Section Owed.
  Variables (id st : string).

  (** If all goes well and the hook stands, these calls to it are yet to be queued, and then the answer is yes. *)
  Fixpoint owes (ns : list notice) (p : prog) : Prop :=
    match p with
    | Done a => ns = [] /\ a = AOk
    | Get x k => (x = id -> forall h, h_id h = id -> h_active h = true -> owes ns (k (Got h)))
                 /\ (x <> id -> (owes ns (k Missing)) /\ forall h, h_id h = x -> owes ns (k (Got h)))
    | Put _ _ k | Del _ k | Add _ _ k | Rem _ _ k => owes ns (k true)
    | Members s k => s = shelf_of st /\ forall l, In id l -> owes ns (k (Some l))
    | Enqueue h n k => (h_id h = id /\ (exists r, ns = n :: r /\ owes r (k true))) \/ owes ns (k true)
    | Send _ _ k => False
    end.

  Lemma gather_owes : forall ids acc k ns,
    In id ids \/ (exists h, In h acc /\ h_id h = id /\ h_active h = true) ->
    (forall l, (exists h, In h l /\ h_id h = id /\ h_active h = true) -> owes ns (k l)) -> owes ns (gather ids acc k).
  Proof.
    intro ids. induction ids as [| x ids IH]; intros acc k ns H Hk; cbn.
    - destruct H as [[] | H]. auto.
    - assert (forall h, (h_id h = id /\ h_active h = true) \/ (In id ids \/ exists g, In g acc /\ h_id g = id /\ h_active g = true) ->
        owes ns (gather ids (acc ++ [h]) k)) as G.
      { intros h K. apply IH; auto. destruct K as [(a & b) | [K | (g & a & b)]].
        - right. exists h. split; [apply in_or_app; right; left; reflexivity | auto].
        - auto.
        - right. exists g. split; [apply in_or_app; auto | exact b]. }
      split.
      + intros -> h a b. apply G. auto.
      + intro ne. assert (In id ids \/ exists g, In g acc /\ h_id g = id /\ h_active g = true) as K.
        { destruct H as [[H | H] | H]; auto; contradiction. }
        split; [apply IH; auto | intros h _; apply G; auto].
  Qed.

  Lemma queue_all_skips : forall hs n k ns, owes ns k -> owes ns (queue_all hs n k).
  Proof. intros hs n k ns H. induction hs as [| h hs IH]; cbn; auto. destruct (h_active h); cbn; auto. Qed.
  Lemma queue_all_owes : forall hs n k ns, (exists h, In h hs /\ h_id h = id /\ h_active h = true) -> owes ns k ->
    owes (n :: ns) (queue_all hs n k).
  Proof.
    intros hs n k ns (h & i & E & A) Hk. induction hs as [| g hs IH]; [contradiction |]. cbn.
    destruct i as [-> | i].
    - rewrite A. cbn. left. split; [exact E |]. exists ns. split; [reflexivity | apply queue_all_skips; exact Hk].
    - destruct (h_active g); cbn; auto.
  Qed.
  Lemma queue_each_owes : forall hs ns, (exists h, In h hs /\ h_id h = id /\ h_active h = true) ->
    owes ns (queue_each hs ns (Done AOk)).
  Proof.
    intros hs ns H. induction ns as [| n ns IH]; cbn; auto. apply queue_all_owes; assumption.
  Qed.
  Lemma stage_owes : forall ts, st = pre_type \/ st = post_type ->
    owes (map (fun x => {| n_txn := fst x; n_stage := st; n_data := snd x |}) ts) (stage st ts).
  Proof.
    intros ts T. unfold stage, listing. destruct (String.eqb_spec st "") as [e | e].
    { exfalso. destruct T as [T | T]; rewrite T in e; discriminate e. }
    cbn [owes]. split; [reflexivity |]. intros l i. apply gather_owes; auto.
    intros hs H. apply queue_each_owes. exact H.
  Qed.

  (** The state of the stage: what is owed is queued before it is done. *)
  Definition on_way (i n0 : nat) (all : list notice) (w : world) : Prop :=
    exists j p ns, nth_error (w_runs w) i = Some (j, p) /\ (exists q, j = JCall q) /\ owes ns p
      /\ forall n, In n all -> In n ns \/ exists t, In (i, t) (w_made w) /\ n0 <= t_no t /\ h_id (t_hook t) = id /\ t_notice t = n.

  Lemma made_stays : forall e w x, In x (w_made w) -> In x (w_made (happen e w)).
  Proof.
    intros e w x H. destruct e as [q | i now | i o order r | i]; cbn; auto.
    - destruct (nth_error (w_queue w) i) as [(t, [| m]) |]; cbn; auto.
    - destruct (nth_error (w_runs w) i) as [(j, p) |]; auto.
      destruct p; cbn; auto; try (destruct (took o); cbn; auto; fail).
      + destruct (took o); cbn; auto. apply in_or_app; auto.
      + destruct j; cbn; auto. destruct (took o); cbn; auto.
    - destruct (nth_error (w_runs w) i) as [(j, p) |]; auto.
      destruct j as [| t [| m] |]; cbn; auto. destruct p as [[] | | | | | | | |]; cbn; auto.
  Qed.
  Lemma next_grows : forall e w, w_next w <= w_next (happen e w).
  Proof.
    intros e w. destruct e as [q | i now | i o order r | i]; cbn; auto.
    - destruct (nth_error (w_queue w) i) as [(t, [| m]) |]; cbn; auto.
    - destruct (nth_error (w_runs w) i) as [(j, p) |]; auto.
      destruct p; cbn; auto; try (destruct (took o); cbn; auto; fail).
      destruct j; cbn; auto. destruct (took o); cbn; auto.
    - destruct (nth_error (w_runs w) i) as [(j, p) |]; auto.
      destruct j as [| t [| m] |]; cbn; auto. destruct p as [[] | | | | | | | |]; cbn; auto.
  Qed.

  (** Other runs do not touch this one. *)
  Lemma run_stays : forall e w i x, nth_error (w_runs w) i = Some x ->
    (forall o order r, e <> EStep i o order r) -> e <> EStop i -> nth_error (w_runs (happen e w)) i = Some x.
  Proof.
    intros e w i x H Ns Np. assert (i < List.length (w_runs w)) as L by (apply nth_error_Some; congruence).
    destruct e as [q | k now | k o order r | k]; cbn.
    - rewrite nth_error_app1; assumption.
    - destruct (nth_error (w_queue w) k) as [(t, [| m]) |]; cbn; auto. rewrite nth_error_app1; assumption.
    - destruct (nth_error (w_runs w) k) as [(j, p) |] eqn:e; auto.
      destruct (command k j o order r p w) as (w', p') eqn:C. cbn. rewrite (command_runs _ _ _ _ _ _ _ _ _ C).
      rewrite nth_set_nth. destruct (Nat.eqb_spec k i) as [-> | ne]; [| exact H]. exfalso. exact (Ns o order r eq_refl).
    - destruct (nth_error (w_runs w) k) as [(j, p) |] eqn:e; auto.
      assert (nth_error (set_nth k (JOver, Done AErr) (w_runs w)) i = Some x) as G.
      { rewrite nth_set_nth. destruct (Nat.eqb_spec k i) as [-> | ne]; [| exact H]. exfalso. apply Np. reflexivity. }
      destruct j as [| t [| m] |]; cbn; auto. destruct p as [[] | | | | | | | |]; cbn; auto.
  Qed.

  Lemma happen_on_way : forall es e w i n0 all, w = play es blank -> stands id st w -> unhurt i e -> n0 <= w_next w ->
    on_way i n0 all w -> on_way i n0 all (happen e w).
  Proof.
    intros es e w i n0 all Ew (Hs & h0 & Hh & Ha) U Ln (j & p & ns & Hr & (q & ->) & O & M).
    pose proof (play_fine es) as F. rewrite <- Ew in F.
    assert ((exists o order r, e = EStep i o order r) \/ (forall o order r, e <> EStep i o order r)) as [(o & order & r & ->) | Ne].
    { destruct e as [| | k o order r |]; try (right; intros; discriminate).
      destruct (Nat.eq_dec k i) as [-> | ne]; [left; eauto | right; intros; congruence]. }
    - cbn in U. specialize (U eq_refl). subst o. unfold on_way. cbn [happen]. rewrite Hr.
      destruct (command i (JCall q) Fine order r p w) as (w', p') eqn:C.
      assert (nth_error (set_nth i (JCall q, p') (w_runs w')) i = Some (JCall q, p')) as N.
      { rewrite (command_runs _ _ _ _ _ _ _ _ _ C), nth_set_nth, Nat.eqb_refl, Hr. reflexivity. }
      cbn [with_runs w_runs w_made]. exists (JCall q), p'.
      destruct p as [x | x k | x h k | x k | s x k | s x k | s k | h nt k | h nt k]; cbn in C; injection C as <- <-.
      + exists ns. split; [exact N |]. split; [exists q; reflexivity |]. auto.
      + exists ns. split; [exact N |]. split; [exists q; reflexivity |]. split; [| exact M].
        cbn in O. destruct (string_dec x id) as [-> | ne].
        * rewrite Hh. apply (proj1 O); auto. exact (proj1 (f_hooks _ _ F id h0 Hh)).
        * destruct (proj2 O ne) as (a & b). destruct (w_hooks w x) as [h |] eqn:e; auto.
          apply b. exact (proj1 (f_hooks _ _ F x h e)).
      + exists ns. split; [exact N |]. split; [exists q; reflexivity |]. auto.
      + exists ns. split; [exact N |]. split; [exists q; reflexivity |]. auto.
      + exists ns. split; [exact N |]. split; [exists q; reflexivity |]. auto.
      + exists ns. split; [exact N |]. split; [exists q; reflexivity |]. auto.
      + exists ns. split; [exact N |]. split; [exists q; reflexivity |]. split; [| exact M].
        cbn in O. destruct O as (-> & O). apply O. apply in_arrange. exact Hs.
      + cbn in O. cbn [queued w_made]. destruct O as [(E & rest & -> & O) | O].
        * exists rest. split; [exact N |]. split; [exists q; reflexivity |]. split; [exact O |].
          intros n K. destruct (M n K) as [[<- | a] | (t & a & b)]; auto.
          -- right. exists {| t_no := w_next w; t_hook := h; t_notice := nt |}.
             split; [apply in_or_app; right; left; reflexivity | auto].
          -- right. exists t. split; [apply in_or_app; auto | exact b].
        * exists ns. split; [exact N |]. split; [exists q; reflexivity |]. split; [exact O |].
          intros n K. destruct (M n K) as [a | (t & a & b)]; auto.
          right. exists t. split; [apply in_or_app; auto | exact b].
      + destruct O.
    - exists (JCall q), p, ns. split.
      + apply run_stays; auto. intros ->. cbn in U. apply U. reflexivity.
      + split; [exists q; reflexivity |]. split; [exact O |].
        intros n K. destruct (M n K) as [a | (t & a & b)]; auto. right. exists t. split; [apply made_stays; exact a | exact b].
  Qed.
End Owed.

Theorem standing_called : forall es0 es q st ts id,
  stages q st ts ->
  let w0 := play es0 blank in let i := List.length (w_runs w0) in
  let w := play es (happen (EStart q) w0) in
  stands_through id st es (happen (EStart q) w0) -> (forall e, In e es -> unhurt i e) ->
  forall a, nth_error (w_runs w) i = Some (JCall q, Done a) ->
  a = AOk /\ forall txn data, In (txn, data) ts ->
    exists t, In (i, t) (w_made w) /\ h_id (t_hook t) = id
      /\ t_notice t = {| n_txn := txn; n_stage := st; n_data := data |}.
Proof.
  intros es0 es q st ts id Q w0 i w Th U a Hd.
  set (all := map (fun x : string * string => {| n_txn := fst x; n_stage := st; n_data := snd x |}) ts).
  assert (start q = stage st ts /\ (st = pre_type \/ st = post_type)) as (Es & T).
  { destruct Q as [(-> & ->) | (-> & ->)]; cbn; auto. }
  assert (on_way id st i (w_next w0) all (happen (EStart q) w0)) as G0.
  { exists (JCall q), (start q), all. cbn. rewrite nth_error_app2, Nat.sub_diag by (unfold i; lia).
    split; [reflexivity |]. split; [exists q; reflexivity |]. split; [rewrite Es; apply stage_owes; exact T | auto]. }
  assert (forall es', (forall e, In e es' -> unhurt i e) -> forall es1, let w1 := play es1 blank in
    on_way id st i (w_next w0) all w1 -> w_next w0 <= w_next w1 -> stands_through id st es' w1 ->
    on_way id st i (w_next w0) all (play es' w1)) as G.
  { clear. intro es'. induction es' as [| e es' IH]; intros U es1 w1 O L Th; [exact O |].
    cbn. destruct Th as (Sd & Th).
    assert (happen e w1 = play (es1 ++ [e]) blank) as E by (unfold w1; rewrite play_app; reflexivity).
    rewrite E in *. apply IH; auto.
    - intros x K. apply U. right; exact K.
    - rewrite <- E. apply (happen_on_way id st es1); auto. apply U. left; reflexivity.
    - rewrite <- E. pose proof (next_grows e w1). lia. }
  assert (happen (EStart q) w0 = play (es0 ++ [EStart q]) blank) as E by (unfold w0; rewrite play_app; reflexivity).
  destruct (G es U (es0 ++ [EStart q])) as (j & p & ns & Hr & (q' & ->) & O & M).
  - rewrite <- E. exact G0.
  - rewrite <- E. cbn. lia.
  - rewrite <- E. exact Th.
  - rewrite <- E in *. unfold w in Hd. rewrite Hd in Hr. injection Hr as <- <-. cbn in O. destruct O as (-> & ->).
    split; [reflexivity |]. intros txn data i0.
    destruct (M {| n_txn := txn; n_stage := st; n_data := data |}) as [[] | (t & b & _ & c)].
    + apply in_map_iff. exists (txn, data). split; [reflexivity | exact i0].
    + exists t. split; [exact b | exact c].
Qed.

(** * A call that was accepted is not made again *)

Section Settled.
  Variable no : nat.

  Definition lives (x : job * prog) : Prop := match fst x with JTry t _ => t_no t = no | _ => False end.

  (** The call [no] is nowhere to be run: neither waiting nor under way. *)
  Definition gone (w : world) : Prop :=
    no < w_next w /\ (forall x, In x (w_queue w) -> t_no (fst x) <> no)
    /\ (forall i j p, nth_error (w_runs w) i = Some (j, p) -> lives (j, p) -> p = Done AOk).

  Lemma happen_gone : forall e w, gone w -> gone (happen e w) /\ requests_of no (happen e w) = requests_of no w.
  Proof.
    intros e w (L & Q & A). destruct e as [q | i now | i o order r | i]; cbn.
    - split; [| reflexivity]. split; [exact L |]. split; [exact Q |]. cbn. intros x j p H K.
      apply nth_app_new in H. destruct H as [H | (_ & H)]; [exact (A x j p H K) |].
      injection H as -> ->. destruct K.
    - destruct (nth_error (w_queue w) i) as [(t, [| m]) |] eqn:e; try (split; [split; auto | reflexivity]; fail).
      split; [| reflexivity]. split; [exact L |]. split; cbn.
      + intros x K. apply Q. exact (in_drop_nth _ _ _ _ K).
      + intros x j p H K. apply nth_app_new in H. destruct H as [H | (_ & H)]; [exact (A x j p H K) |].
        injection H as -> ->. cbn in K. exfalso. apply nth_error_In in e. exact (Q _ e K).
    - destruct (nth_error (w_runs w) i) as [(j, p) |] eqn:e; [| split; [split; auto | reflexivity]].
      assert (forall w' p', w_runs w' = w_runs w -> no < w_next w' ->
        (forall x, In x (w_queue w') -> t_no (fst x) <> no) -> (lives (j, p') -> p' = Done AOk) ->
        gone (with_runs w' (set_nth i (j, p') (w_runs w')))) as G.
      { intros w' p' Er L' Q' K. split; [exact L' |]. split; [exact Q' |]. cbn. rewrite Er. intros x jx px H Kx.
        apply nth_set_nth_in in H. destruct H as [(<- & H) | (_ & H)]; [| exact (A x jx px H Kx)].
        injection H as -> ->. auto. }
      assert (forall p', ~ is_done p -> lives (j, p') -> p' = Done AOk) as D.
      { intros p' Nd K. exfalso. apply Nd. exists AOk. apply (A i j p e). exact K. }
      destruct p as [x | x k | x h k | x k | s x k | s x k | s k | h nt k | h nt k]; cbn;
        try (assert (forall p', lives (j, p') -> p' = Done AOk) as D' by (intro p'; apply D; intros (? & ?); discriminate));
        try (split; [apply G; auto; destruct (took o); auto | destruct (took o); reflexivity]; fail).
      + split; [apply G; auto | reflexivity]. apply (A i j (Done x)); exact e.
      + split.
        * apply G; auto; destruct (took o); auto; cbn; try lia.
          intros x K. apply in_app_or in K. destruct K as [K | [<- | []]]; auto. cbn. lia.
        * destruct (took o); reflexivity.
      + destruct j as [q | t m |].
        * split; [apply G; auto | reflexivity].
        * assert (t_no t <> no) as Nt.
          { intro K. assert (Send h nt k = Done AOk) by (apply (A i (JTry t m) _ e); exact K). discriminate. }
          split.
          -- apply G; auto; destruct (took o); auto.
          -- destruct (took o); [| reflexivity]. unfold requests_of. cbn [sent w_sent with_runs].
             rewrite filter_app, app_length. cbn. apply Nat.eqb_neq in Nt. rewrite Nt. cbn. lia.
        * split; [apply G; auto | reflexivity].
    - destruct (nth_error (w_runs w) i) as [(j, p) |] eqn:e; [| split; [split; auto | reflexivity]].
      set (w1 := with_runs w (set_nth i (JOver, Done AErr) (w_runs w))).
      assert (gone w1) as G.
      { split; [exact L |]. split; [exact Q |]. cbn. intros x jx px H Kx.
        apply nth_set_nth_in in H. destruct H as [(<- & H) | (_ & H)]; [| exact (A x jx px H Kx)].
        injection H as -> ->. destruct Kx. }
      destruct j as [q | t [| m] |]; try (split; [exact G | reflexivity]).
      assert (p <> Done AOk -> gone (with_queue w1 (w_queue w ++ [(t, S m)]))) as G2.
      { intro Np. destruct G as (L1 & Q1 & A1). split; [exact L1 |]. split; [| exact A1]. cbn. intros x K.
        apply in_app_or in K. destruct K as [K | [<- | []]]; auto. cbn. intro K. apply Np. apply (A i (JTry t (S m)) p e). exact K. }
      destruct p as [[] | | | | | | | |]; try (split; [exact G | reflexivity]); (split; [apply G2; discriminate | reflexivity]).
  Qed.
  Lemma play_gone : forall es w, gone w -> requests_of no (play es w) = requests_of no w.
  Proof.
    intro es. induction es as [| e es IH]; intros w G; cbn; auto.
    destruct (happen_gone e w G) as (G' & E). rewrite IH by exact G'. exact E.
  Qed.
End Settled.

(** Every queued call is in one place at most. *)
Definition nos (w : world) : list nat :=
  map (fun x => t_no (fst x)) (w_queue w)
  ++ flat_map (fun x : job * prog => match fst x with JTry t _ => [t_no t] | _ => [] end) (w_runs w).

Definition placed (w : world) : Prop := NoDup (nos w) /\ forall n, In n (nos w) -> n < w_next w.

Definition tags (l : list (job * prog)) : list nat :=
  flat_map (fun x : job * prog => match fst x with JTry t _ => [t_no t] | _ => [] end) l.
Lemma tags_same : forall l i j p p', nth_error l i = Some (j, p) -> tags (set_nth i (j, p') l) = tags l.
Proof.
  intro l. induction l as [| x l IH]; intros [| i] j p p' H; cbn in *; try discriminate; auto.
  - injection H as ->. reflexivity.
  - fold (tags l). fold (tags (set_nth i (j, p') l)). rewrite (IH i j p p' H). reflexivity.
Qed.
Lemma tags_over : forall l i j p, nth_error l i = Some (j, p) ->
  exists a b, tags l = a ++ (match j with JTry t _ => [t_no t] | _ => [] end) ++ b
    /\ tags (set_nth i (JOver, Done AErr) l) = a ++ b.
Proof.
  intro l. induction l as [| x l IH]; intros [| i] j p H; cbn in *; try discriminate.
  - injection H as ->. exists [], (tags l). split; reflexivity.
  - fold (tags l). fold (tags (set_nth i (JOver, Done AErr) l)). destruct (IH i j p H) as (a & b & E & E').
    exists ((match fst x with JTry t _ => [t_no t] | _ => [] end) ++ a), b. rewrite E, E', <- !app_assoc. split; reflexivity.
Qed.
Lemma drop_split : forall A i (l : list A) x, nth_error l i = Some x -> exists a b, l = a ++ x :: b /\ drop_nth i l = a ++ b.
Proof.
  intros A i. induction i as [| i IH]; intros [| y l] x H; cbn in *; try discriminate.
  - injection H as ->. exists [], l. split; reflexivity.
  - destruct (IH l x H) as (a & b & -> & ->). exists (y :: a), b. split; reflexivity.
Qed.

Lemma placed_perm : forall w l, NoDup (nos w) -> (forall n, In n (nos w) -> n < w_next w) ->
  Permutation (nos w) l -> NoDup l /\ forall n, In n l -> n < w_next w.
Proof.
  intros w l H K P. split; [exact (Permutation_NoDup P H) |].
  intros n i. apply K. exact (Permutation_in n (Permutation_sym P) i).
Qed.

Lemma happen_placed : forall e w, placed w -> placed (happen e w).
Proof.
  intros e w (N & B). destruct e as [q | i now | i o order r | i]; cbn.
  - unfold placed, nos in *. cbn [with_runs w_queue w_runs w_next]. rewrite flat_map_app. cbn. rewrite !app_nil_r.
    split; assumption.
  - destruct (nth_error (w_queue w) i) as [(t, [| m]) |] eqn:e; try (split; assumption).
    destruct (drop_split _ _ _ _ e) as (a & b & E & D).
    apply (placed_perm w _ N B). unfold nos. cbn [with_runs with_queue w_queue w_runs]. rewrite D, E, flat_map_app.
    cbn [flat_map fst]. rewrite !map_app. cbn [map fst]. rewrite app_nil_r, <- !app_assoc. cbn.
    apply Permutation_sym. apply Permutation_sym.
    etransitivity; [apply Permutation_sym, Permutation_middle |].
    rewrite !app_assoc. apply Permutation_cons_append.
  - destruct (nth_error (w_runs w) i) as [(j, p) |] eqn:e; [| split; assumption].
    destruct (command i j o order r p w) as (w', p') eqn:C.
    assert (placed w') as P.
    { destruct p as [x | x k | x h k | x k | s x k | s x k | s k | h nt k | h nt k]; cbn in C; injection C as <- _;
        try (destruct (took o)); try (split; assumption); try (destruct j; split; assumption).
      unfold placed, nos in *. cbn [queued w_queue w_runs w_next]. rewrite map_app. cbn [map fst t_no].
      set (u := map (fun x => t_no (fst x)) (w_queue w)) in *. fold (tags (w_runs w)) in *.
      assert (forall n, In n ((u ++ [w_next w]) ++ tags (w_runs w)) <-> n = w_next w \/ In n (u ++ tags (w_runs w))) as I.
      { intro n. rewrite !in_app_iff. cbn. split; intro H; decompose [or] H; auto; try contradiction. }
      split.
      - rewrite <- app_assoc. cbn. apply (Permutation_NoDup (Permutation_middle u (tags (w_runs w)) (w_next w))).
        constructor; [| exact N]. intro K. specialize (B _ K). lia.
      - intros n K. apply I in K. destruct K as [-> | K]; [lia |]. specialize (B n K). lia. }
    destruct P as (N' & B'). unfold placed, nos in *. cbn [with_runs w_queue w_runs w_next].
    fold (tags (w_runs w')) in *. fold (tags (set_nth i (j, p') (w_runs w'))).
    rewrite (tags_same (w_runs w') i j p p'); [split; assumption |]. rewrite (command_runs _ _ _ _ _ _ _ _ _ C). exact e.
  - destruct (nth_error (w_runs w) i) as [(j, p) |] eqn:e; [| split; assumption].
    destruct (tags_over _ _ _ _ e) as (a & b & E & E').
    set (w1 := with_runs w (set_nth i (JOver, Done AErr) (w_runs w))).
    assert (nos w = map (fun x => t_no (fst x)) (w_queue w) ++ a ++ (match j with JTry t _ => [t_no t] | _ => [] end) ++ b) as N0
      by (unfold nos; fold (tags (w_runs w)); rewrite E; reflexivity).
    assert (nos w1 = map (fun x => t_no (fst x)) (w_queue w) ++ a ++ b) as N1
      by (unfold nos, w1; cbn [with_runs w_queue w_runs]; fold (tags (set_nth i (JOver, Done AErr) (w_runs w))); rewrite E'; reflexivity).
    assert (placed w1) as G.
    { unfold placed. rewrite N1. rewrite N0 in N, B. split.
      - destruct j; try exact N. rewrite app_assoc in N. cbn in N. apply NoDup_remove_1 in N. rewrite <- app_assoc in N. exact N.
      - intros n K. apply B. rewrite !in_app_iff in *. tauto. }
    destruct j as [q | t [| m] |]; auto.
    assert (placed (with_queue w1 (w_queue w ++ [(t, S m)]))) as G2.
    { apply (placed_perm w _ N B). rewrite N0. unfold nos. cbn [with_queue w_queue w_runs w1 with_runs].
      fold (tags (set_nth i (JOver, Done AErr) (w_runs w))). rewrite E', map_app. cbn [map fst].
      rewrite <- !app_assoc. apply Permutation_app_head. cbn.
      apply Permutation_sym, Permutation_middle. }
    destruct p as [[] | | | | | | | |]; auto.
Qed.

Lemma play_placed : forall es, placed (play es blank).
Proof.
  intro es. apply (play_ind (fun _ w => placed w)).
  - split; [constructor | intros n []].
  - intros _ e w _ H. apply happen_placed; exact H.
Qed.

Lemma tags_unique : forall l i k a b c d e f,
  NoDup (tags l) -> nth_error l i = Some (JTry a b, c) -> nth_error l k = Some (JTry d e, f) -> t_no a = t_no d -> i = k.
Proof.
  intro l. induction l as [| x l IH]; intros i k a b c d e f N H K E; [destruct i; discriminate |].
  assert (forall n y z u, nth_error l n = Some (JTry y z, u) -> In (t_no y) (tags l)) as M.
  { intros n y z u W. apply in_flat_map. exists (JTry y z, u). split; [exact (nth_error_In _ _ W) | left; reflexivity]. }
  unfold tags in N; cbn in N; fold (tags l) in N.
  destruct i as [| i], k as [| k]; cbn in H, K; auto.
  - injection H as ->. cbn in N. inversion N as [| ? ? Nn _]; subst. exfalso. apply Nn. rewrite E. exact (M _ _ _ _ K).
  - injection K as ->. cbn in N. inversion N as [| ? ? Nn _]; subst. exfalso. apply Nn. rewrite <- E. exact (M _ _ _ _ H).
  - f_equal. apply (IH i k a b c d e f); auto. destruct (fst x); cbn in N; auto. inversion N; assumption.
Qed.

Theorem accepted_once : forall es i t m es', nth_error (w_runs (play es blank)) i = Some (JTry t m, Done AOk) ->
  requests_of (t_no t) (play (es ++ es') blank) = requests_of (t_no t) (play es blank).
Proof.
  intros es i t m es' H. rewrite play_app. apply play_gone. destruct (play_placed es) as (N & B).
  set (w := play es blank) in *. unfold nos in N, B. fold (tags (w_runs w)) in N, B.
  assert (In (t_no t) (tags (w_runs w))) as It.
  { apply in_flat_map. exists (JTry t m, Done AOk). split; [exact (nth_error_In _ _ H) | left; reflexivity]. }
  split; [apply B, in_or_app; auto |]. split.
  - intros x K E. assert (In (t_no t) (map (fun x => t_no (fst x)) (w_queue w))) as Iq by (rewrite <- E; exact (in_map _ _ _ K)).
    clear - N It Iq. revert N Iq. generalize (map (fun x => t_no (fst x)) (w_queue w)) as l. intro l.
    induction l as [| y l IH]; intros N Iq; [contradiction |]. cbn in N. inversion N as [| ? ? Nn N']; subst.
    destruct Iq as [-> | Iq]; [apply Nn, in_or_app; auto | auto].
  - intros k j p K Lv. destruct j as [| t' m' |]; cbn in Lv; try contradiction.
    assert (NoDup (tags (w_runs w))) as Nt.
    { clear - N. revert N. generalize (map (fun x => t_no (fst x)) (w_queue w)) as l. intro l.
      induction l as [| y l IH]; intro N; [exact N |]. inversion N; auto. }
    assert (i = k) as -> by (apply (tags_unique (w_runs w) i k t m (Done AOk) t' m' p); auto). congruence.
Qed.
