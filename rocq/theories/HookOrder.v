(** Calls made one after the other: the registry is what its users set. *)
From Coq Require Import List String Bool Arith ZArith Lia.
From Verif Require Import HookModel HookSpec HookBase HookInv HookGone.
Import ListNotations.
Local Open Scope string_scope.
Local Open Scope nat_scope.
Local Open Scope list_scope.

Record tidy (w : world) (g : registry) : Prop := {
  d_id : forall id h, w_hooks w id = Some h -> h_id h = id;
  d_card : forall id, option_map card_of (w_hooks w id) = g id;
  d_sets : forall id s, In id (w_sets w s) <-> exists c, g id = Some c /\ shelf_of (c_type c) = s;
  d_once : forall s, NoDup (w_sets w s);
  d_queue : forall x, In x (w_queue w) -> g (h_id (t_hook (fst x))) = Some (card_of (t_hook (fst x))) }.

Definition found (w : world) (ids : list string) : list hook :=
  flat_map (fun id => match w_hooks w id with Some h => [h] | None => [] end) ids.

Lemma alone_gather : forall i j order r ids acc k w,
  alone i j order r (gather ids acc k) w = alone i j order r (k (acc ++ found w ids)) w.
Proof.
  intros i j order r ids. induction ids as [| x ids IH]; intros acc k w; cbn.
  - rewrite app_nil_r. reflexivity.
  - destruct (w_hooks w x) as [h |]; rewrite IH; [rewrite <- app_assoc |]; reflexivity.
Qed.

Fixpoint many (i : nat) (hs : list hook) (n : notice) (w : world) : world :=
  match hs with [] => w | h :: l => many i l n (if h_active h then queued i h n w else w) end.
Fixpoint each (i : nat) (hs : list hook) (ns : list notice) (w : world) : world :=
  match ns with [] => w | n :: l => each i hs l (many i hs n w) end.

Lemma alone_all : forall i j order r hs n k w,
  alone i j order r (queue_all hs n k) w = alone i j order r k (many i hs n w).
Proof.
  intros i j order r hs n k. induction hs as [| h hs IH]; intro w; cbn; auto. destruct (h_active h); cbn; apply IH.
Qed.
Lemma alone_each : forall i j order r hs ns k w,
  alone i j order r (queue_each hs ns k) w = alone i j order r k (each i hs ns w).
Proof.
  intros i j order r hs ns k. induction ns as [| n ns IH]; intro w; cbn; auto. rewrite alone_all. apply IH.
Qed.

Lemma stage_alone : forall q st ts order w, stages q st ts ->
  call q order w = (each (List.length (w_runs w)) (found w (arrange order (w_sets w (shelf_of st))))
    (map (fun x => {| n_txn := fst x; n_stage := st; n_data := snd x |}) ts) w, AOk).
Proof.
  intros q st ts order w [(-> & ->) | (-> & ->)]; unfold call; cbn [start]; unfold stage, listing;
    cbn [String.eqb pre_type post_type Ascii.eqb Bool.eqb alone]; rewrite alone_gather; cbn [app];
    rewrite alone_each; reflexivity.
Qed.

(** What is queued. *)
Definition asked (hs : list hook) (ns : list notice) : list (hook * notice) :=
  flat_map (fun n => map (fun h => (h, n)) (filter h_active hs)) ns.
Definition pairs (l : list (nat * task)) : list (hook * notice) := map (fun x => (t_hook (snd x), t_notice (snd x))) l.

Lemma many_effect : forall i hs n w, w_hooks (many i hs n w) = w_hooks w /\ w_sets (many i hs n w) = w_sets w
  /\ (exists l, w_made (many i hs n w) = w_made w ++ l /\ pairs l = map (fun h => (h, n)) (filter h_active hs))
  /\ (exists l, w_queue (many i hs n w) = w_queue w ++ l /\ forall x, In x l -> In (t_hook (fst x)) hs).
Proof.
  intros i hs n. induction hs as [| h hs IH]; intro w; cbn.
  - split; [reflexivity |]. split; [reflexivity |]. split; exists []; rewrite app_nil_r; split; auto; intros x [].
  - destruct (IH (if h_active h then queued i h n w else w)) as (A & B & (l & C & D) & (m & E & F)).
    rewrite A, B, C, E. destruct (h_active h); cbn.
    + split; [reflexivity |]. split; [reflexivity |]. rewrite <- !app_assoc. cbn. split.
      * eexists. split; [reflexivity |]. unfold pairs in *. cbn. rewrite D. reflexivity.
      * eexists. split; [reflexivity |]. intros x [<- | K]; [left; reflexivity | right; exact (F x K)].
    + split; [reflexivity |]. split; [reflexivity |]. split; eexists; (split; [reflexivity |]); auto.
Qed.
Lemma each_effect : forall i hs ns w, w_hooks (each i hs ns w) = w_hooks w /\ w_sets (each i hs ns w) = w_sets w
  /\ (exists l, w_made (each i hs ns w) = w_made w ++ l /\ pairs l = asked hs ns)
  /\ (exists l, w_queue (each i hs ns w) = w_queue w ++ l /\ forall x, In x l -> In (t_hook (fst x)) hs).
Proof.
  intros i hs ns. induction ns as [| n ns IH]; intro w; cbn.
  - split; [reflexivity |]. split; [reflexivity |]. split; exists []; rewrite app_nil_r; split; auto; intros x [].
  - destruct (many_effect i hs n w) as (A & B & (l & C & D) & (m & E & F)).
    destruct (IH (many i hs n w)) as (A' & B' & (l' & C' & D') & (m' & E' & F')).
    rewrite A', B', C', E', A, B, C, E. split; [reflexivity |]. split; [reflexivity |]. rewrite <- !app_assoc. split.
    + eexists. split; [reflexivity |]. unfold pairs in *. rewrite map_app, D, D'. reflexivity.
    + eexists. split; [reflexivity |]. intros x K. apply in_app_or in K. destruct K as [K | K]; auto.
Qed.

Lemma in_found : forall w g ids h, tidy w g -> (In h (found w ids) <-> In (h_id h) ids /\ w_hooks w (h_id h) = Some h).
Proof.
  intros w g ids h T. unfold found. rewrite in_flat_map. split.
  - intros (x & i & K). destruct (w_hooks w x) as [h' |] eqn:e; [| contradiction]. destruct K as [-> | []].
    pose proof (d_id _ _ T x h e). subst x. auto.
  - intros (i & e). exists (h_id h). split; [exact i |]. rewrite e. left; reflexivity.
Qed.
Lemma nodup_found : forall w g ids, tidy w g -> NoDup ids -> NoDup (map h_id (found w ids)).
Proof.
  intros w g ids T N. induction N as [| x ids n N IH]; cbn; [constructor |].
  destruct (w_hooks w x) as [h |] eqn:e; cbn; auto. constructor; auto.
  rewrite (d_id _ _ T x h e). intro K. apply in_map_iff in K. destruct K as (h' & E & K).
  apply (in_found w g ids h' T) in K. rewrite E in K. tauto.
Qed.

(** * Tidiness is kept *)

Lemma tidy_same : forall w w' g, tidy w g -> w_hooks w' = w_hooks w -> w_sets w' = w_sets w ->
  (forall x, In x (w_queue w') -> In x (w_queue w) \/ exists id, w_hooks w id = Some (t_hook (fst x))) -> tidy w' g.
Proof.
  intros w w' g T A B C. constructor.
  - rewrite A. exact (d_id _ _ T).
  - rewrite A. exact (d_card _ _ T).
  - rewrite B. exact (d_sets _ _ T).
  - rewrite B. exact (d_once _ _ T).
  - intros x i. destruct (C x i) as [K | (id & K)]; [exact (d_queue _ _ T x K) |].
    rewrite (d_id _ _ T _ _ K), <- (d_card _ _ T), K. reflexivity.
Qed.

Lemma entry_same : forall id c g, entry id c g id = c.
Proof. intros. unfold entry. rewrite String.eqb_refl. reflexivity. Qed.
Lemma entry_other : forall id x c g, x <> id -> entry id c g x = g x.
Proof. intros id x c g n. unfold entry. apply String.eqb_neq in n. rewrite n. reflexivity. Qed.

(** One hook set anew, with the lists as they must then be. *)
Lemma tidy_set : forall w w' g id h, tidy w g -> idle id w ->
  h_id h = id -> w_hooks w' = set_hook id (Some h) (w_hooks w) -> w_queue w' = w_queue w ->
  (forall x s, x <> id -> (In x (w_sets w' s) <-> In x (w_sets w s))) ->
  (forall s, In id (w_sets w' s) <-> shelf_of (h_type h) = s) -> (forall s, NoDup (w_sets w' s)) ->
  tidy w' (entry id (Some (card_of h)) g).
Proof.
  intros w w' g id h T I E A Q B C N. constructor.
  - rewrite A. intros x y K. destruct (string_dec x id) as [-> | n].
    + rewrite set_hook_same in K. injection K as <-. exact E.
    + rewrite set_hook_other in K by exact n. exact (d_id _ _ T x y K).
  - rewrite A. intro x. destruct (string_dec x id) as [-> | n].
    + rewrite set_hook_same, entry_same. reflexivity.
    + rewrite set_hook_other, entry_other by exact n. apply (d_card _ _ T).
  - intros x s. destruct (string_dec x id) as [-> | n].
    + rewrite C, entry_same. split.
      * intro K. exists (card_of h). split; [reflexivity | exact K].
      * intros (c & K & L). injection K as <-. exact L.
    + rewrite B, entry_other by exact n. apply (d_sets _ _ T).
  - exact N.
  - rewrite Q. intros x i. rewrite entry_other by (exact (I x i)). exact (d_queue _ _ T x i).
Qed.

Lemma settle_accepted : forall gen now b,
  match settle (named gen now b), accepted b with
  | Some h, Some c => h_id h = (if String.eqb (h_id b) "" then gen else h_id b) /\ card_of h = c
  | None, None => True
  | _, _ => False
  end.
Proof.
  intros gen now b. unfold settle, accepted. cbn [named h_url h_type h_id h_timeout h_retry h_name h_active h_created h_last h_good].
  destruct (String.eqb (h_url b) ""); [exact Logic.I |].
  destruct (String.eqb (h_type b) pre_type), (String.eqb (h_type b) post_type); cbn [negb andb orb]; try exact Logic.I;
    (split; [reflexivity |]; unfold card_of; cbn; f_equal; rewrite <- retry_settled; cbv zeta;
     destruct (Z.ltb_spec (h_retry b) 0) as [H | H]; [reflexivity |]; destruct (Z.ltb_spec 10 (h_retry b)); lia).
Qed.

Lemma accepted_type : forall b c, accepted b = Some c -> c_type c = h_type b.
Proof.
  intros b c H. unfold accepted in H. destruct (String.eqb (h_url b) ""); [discriminate |].
  destruct (String.eqb (h_type b) pre_type || String.eqb (h_type b) post_type); [| discriminate]. injection H as <-. reflexivity.
Qed.

Lemma tidy_call : forall q order w g, tidy w g -> keeps Unhurried (MCall q order) w g -> keeps Same_type (MCall q order) w g ->
  tidy (fst (call q order w)) (expected q g).
Proof.
  intros q order w g T U Sm. destruct q as [gen now b | id b | id | id | t | ts | ts].
  - unfold call. cbn [start expected]. unfold register. pose proof (settle_accepted gen now b) as SA.
    set (id := if String.eqb (h_id b) "" then gen else h_id b) in *. cbn in U, Sm. fold id in U, Sm.
    destruct (settle (named gen now b)) as [h |], (accepted b) as [c |] eqn:Ac; try contradiction; [| exact T].
    destruct SA as (E & Ec). cbn. rewrite E. rewrite <- Ec.
    assert (c_type c = h_type b) as Tc.
    { exact (accepted_type b c Ac). }
    assert (forall s, In id (w_sets w s) -> s = shelf_of (h_type h)) as Old.
    { intros s K. apply (d_sets _ _ T) in K. destruct K as (c' & K & L). apply Sm in K.
      rewrite <- L, K, <- Tc, <- Ec. reflexivity. }
    apply (tidy_set w _ g id h T U); auto; cbn.
    + intros x s n. destruct (shelf_eqb s (shelf_of (h_type h))) eqn:e.
      * apply shelf_eqb_eq in e. subst s. rewrite set_shelf_same, in_insert. split; [intros [K | K]; [contradiction | exact K] | auto].
      * rewrite set_shelf_other; [tauto |]. intro K. apply shelf_eqb_eq in K. congruence.
    + intro s. destruct (shelf_eqb s (shelf_of (h_type h))) eqn:e.
      * apply shelf_eqb_eq in e. subst s. rewrite set_shelf_same, in_insert. tauto.
      * assert (s <> shelf_of (h_type h)) as n by (intro K; apply shelf_eqb_eq in K; congruence).
        rewrite set_shelf_other by exact n. split; [intro K; apply Old in K; contradiction | intro K; congruence].
    + intro s. destruct (shelf_eqb s (shelf_of (h_type h))) eqn:e.
      * apply shelf_eqb_eq in e. subst s. rewrite set_shelf_same. apply nodup_insert, (d_once _ _ T).
      * rewrite set_shelf_other; [apply (d_once _ _ T) |]. intro K. apply shelf_eqb_eq in K. congruence.
  - unfold call. cbn [start expected]. unfold update. cbn [alone]. cbn in U.
    pose proof (d_card _ _ T id) as Cd. destruct (w_hooks w id) as [old |] eqn:Eo; cbn in Cd.
    2: { cbn. rewrite <- Cd. exact T. }
    rewrite <- Cd. pose proof (d_id _ _ T id old Eo) as Ei.
    change (card_of b) with (card_of (instead old b)).
    assert (forall s, In id (w_sets w s) <-> s = shelf_of (h_type old)) as Old.
    { intro s. rewrite (d_sets _ _ T), <- Cd. split.
      - intros (c & K & L). injection K as <-. symmetry. exact L.
      - intros ->. exists (card_of old). split; reflexivity. }
    destruct (String.eqb_spec (h_type old) (h_type (instead old b))) as [e | e]; cbn.
    + apply (tidy_set w _ g id (instead old b) T U); auto; cbn; try tauto.
      * intro s. rewrite Old, e. cbn. split; congruence.
      * exact (d_once _ _ T).
    + set (s0 := shelf_of (h_type old)) in *. set (s1 := shelf_of (h_type b)).
      assert (forall x s, In x (set_shelf s1 (insert id (set_shelf s0 (without id (w_sets w s0)) (w_sets w) s1))
        (set_shelf s0 (without id (w_sets w s0)) (w_sets w)) s) <->
        (s = s1 /\ x = id) \/ (In x (w_sets w s) /\ ~ (s = s0 /\ x = id))) as M.
      { assert (forall x s, In x (set_shelf s0 (without id (w_sets w s0)) (w_sets w) s) <-> In x (w_sets w s) /\ ~ (s = s0 /\ x = id)) as M0.
        { intros x s. destruct (shelf_eqb s s0) eqn:E0.
          - apply shelf_eqb_eq in E0. subst s. rewrite set_shelf_same, in_without. tauto.
          - assert (s <> s0) by (intro K; apply shelf_eqb_eq in K; congruence). rewrite set_shelf_other by assumption. tauto. }
        intros x s. destruct (shelf_eqb s s1) eqn:E1.
        - apply shelf_eqb_eq in E1. subst s. rewrite set_shelf_same, in_insert, M0. tauto.
        - assert (s <> s1) by (intro K; apply shelf_eqb_eq in K; congruence). rewrite set_shelf_other by assumption.
          rewrite M0. tauto. }
      apply (tidy_set w _ g id (instead old b) T U); auto; cbn.
      * intros x s n. fold s1. rewrite M. tauto.
      * intro s. fold s1. rewrite M, Old. split; [intros [(K & _) | (K & L)]; [congruence | tauto] | intro K; left; auto].
      * intro s. fold s1.
        assert (forall s, NoDup (set_shelf s0 (without id (w_sets w s0)) (w_sets w) s)) as N0.
        { intro x. destruct (shelf_eqb x s0) eqn:E0.
          - apply shelf_eqb_eq in E0. subst x. rewrite set_shelf_same. apply nodup_filter, (d_once _ _ T).
          - rewrite set_shelf_other; [apply (d_once _ _ T) |]. intro K. apply shelf_eqb_eq in K. congruence. }
        destruct (shelf_eqb s s1) eqn:E1.
        -- apply shelf_eqb_eq in E1. subst s. rewrite set_shelf_same. apply nodup_insert, N0.
        -- rewrite set_shelf_other; [apply N0 |]. intro K. apply shelf_eqb_eq in K. congruence.
  - unfold call. cbn [start expected]. unfold delete. cbn [alone]. cbn in U.
    pose proof (d_card _ _ T id) as Cd. destruct (w_hooks w id) as [old |] eqn:Eo; cbn in Cd.
    + assert (forall s, In id (w_sets w s) <-> s = shelf_of (h_type old)) as Old.
      { intro s. rewrite (d_sets _ _ T), <- Cd. split.
        - intros (c & K & L). injection K as <-. symmetry. exact L.
        - intros ->. exists (card_of old). split; reflexivity. }
      cbn. set (s0 := shelf_of (h_type old)) in *.
      assert (forall x s, In x (set_shelf s0 (without id (w_sets w s0)) (w_sets w) s) <-> In x (w_sets w s) /\ ~ (s = s0 /\ x = id)) as M0.
      { intros x s. destruct (shelf_eqb s s0) eqn:E0.
        - apply shelf_eqb_eq in E0. subst s. rewrite set_shelf_same, in_without. tauto.
        - assert (s <> s0) by (intro K; apply shelf_eqb_eq in K; congruence). rewrite set_shelf_other by assumption. tauto. }
      constructor; cbn.
      * intros x y K. destruct (string_dec x id) as [-> | n]; [rewrite set_hook_same in K; discriminate |].
        rewrite set_hook_other in K by exact n. exact (d_id _ _ T x y K).
      * intro x. destruct (string_dec x id) as [-> | n]; [rewrite set_hook_same, entry_same; reflexivity |].
        rewrite set_hook_other, entry_other by exact n. apply (d_card _ _ T).
      * intros x s. rewrite M0. destruct (string_dec x id) as [-> | n].
        -- rewrite entry_same, Old. split; [tauto | intros (c & K & _); discriminate].
        -- rewrite entry_other by exact n. rewrite <- (d_sets _ _ T). tauto.
      * intro x. destruct (shelf_eqb x s0) eqn:E0.
        -- apply shelf_eqb_eq in E0. subst x. rewrite set_shelf_same. apply nodup_filter, (d_once _ _ T).
        -- rewrite set_shelf_other; [apply (d_once _ _ T) |]. intro K. apply shelf_eqb_eq in K. congruence.
      * intros x i. rewrite entry_other by (exact (U x i)). exact (d_queue _ _ T x i).
    + cbn. destruct T as [a b c d f]. constructor; auto.
      * intro x. destruct (string_dec x id) as [-> | n]; [rewrite entry_same, Eo; reflexivity | rewrite entry_other by exact n; apply b].
      * intros x s. destruct (string_dec x id) as [-> | n].
        -- rewrite entry_same. rewrite c, <- Cd. split; intros (y & K & _); discriminate.
        -- rewrite entry_other by exact n. apply c.
      * intros x i. rewrite entry_other by (exact (U x i)). exact (f x i).
  - unfold call. cbn. destruct (w_hooks w id); exact T.
  - unfold call. cbn [start expected]. unfold listing. destruct (String.eqb t ""); cbn [alone]; rewrite alone_gather; exact T.
  - rewrite (stage_alone (RBefore ts) pre_type ts) by (left; auto). cbn [fst expected].
    match goal with |- tidy (each ?i ?hs ?ns w) g => destruct (each_effect i hs ns w) as (A & B & _ & (m & E & F)) end.
    apply (tidy_same w); auto. rewrite E. intros x K. apply in_app_or in K. destruct K as [K | K]; auto.
    right. apply F in K. apply (in_found w g) in K; [| exact T]. exists (h_id (t_hook (fst x))). tauto.
  - rewrite (stage_alone (RAfter ts) post_type ts) by (right; auto). cbn [fst expected].
    match goal with |- tidy (each ?i ?hs ?ns w) g => destruct (each_effect i hs ns w) as (A & B & _ & (m & E & F)) end.
    apply (tidy_same w); auto. rewrite E. intros x K. apply in_app_or in K. destruct K as [K | K]; auto.
    right. apply F in K. apply (in_found w g) in K; [| exact T]. exists (h_id (t_hook (fst x))). tauto.
Qed.

(** An attempt writes back what stands anyway. *)
Lemma tidy_back : forall w w' g h now ok, tidy w g -> g (h_id h) = Some (card_of h) ->
  w_hooks w' = set_hook (h_id h) (Some (ran now ok h)) (w_hooks w) -> w_sets w' = w_sets w ->
  (forall x, In x (w_queue w') -> In x (w_queue w) \/ t_hook (fst x) = h) -> tidy w' g.
Proof.
  intros w w' g h now ok T G A B C. constructor.
  - rewrite A. intros x y K. destruct (string_dec x (h_id h)) as [-> | n].
    + rewrite set_hook_same in K. injection K as <-. reflexivity.
    + rewrite set_hook_other in K by exact n. exact (d_id _ _ T x y K).
  - rewrite A. intro x. destruct (string_dec x (h_id h)) as [-> | n].
    + rewrite set_hook_same, G. reflexivity.
    + rewrite set_hook_other by exact n. apply (d_card _ _ T).
  - rewrite B. exact (d_sets _ _ T).
  - rewrite B. exact (d_once _ _ T).
  - intros x i. destruct (C x i) as [K | K]; [exact (d_queue _ _ T x K) |]. rewrite K. exact G.
Qed.

Lemma tidy_try : forall i now r w g, tidy w g -> tidy (move_on (MTry i now r) w) g.
Proof.
  intros i now r w g T. cbn [move_on]. destruct (nth_error (w_queue w) i) as [(t, [| m]) |] eqn:e; try exact T.
  assert (g (h_id (t_hook t)) = Some (card_of (t_hook t))) as G by (apply nth_error_In in e; exact (d_queue _ _ T _ e)).
  unfold attempt. destruct (h_timeout (t_hook t) <=? 0)%Z; cbn.
  - destruct m as [| m]; apply (tidy_back w _ g (t_hook t) now false T G); auto; cbn.
    + intros x K. left. exact (in_drop_nth _ _ _ _ K).
    + intros x K. apply in_app_or in K. destruct K as [K | [<- | []]]; [left; exact (in_drop_nth _ _ _ _ K) | auto].
  - destruct (passed r) eqn:P.
    + apply (tidy_back w _ g (t_hook t) now true T G); auto; cbn. intros x K. left. exact (in_drop_nth _ _ _ _ K).
    + destruct m as [| m]; apply (tidy_back w _ g (t_hook t) now false T G); auto; cbn.
      * intros x K. left. exact (in_drop_nth _ _ _ _ K).
      * intros x K. apply in_app_or in K. destruct K as [K | [<- | []]]; [left; exact (in_drop_nth _ _ _ _ K) | auto].
Qed.

Theorem orderly_tidy : forall ms w g, orderly everything ms w g -> tidy w g.
Proof.
  intros ms w g H. induction H as [| ms m w g H IH K].
  - constructor; cbn; try discriminate; try contradiction; auto.
    + intros id s. split; [intros [] | intros (c & X & _); discriminate].
    + intro s. constructor.
  - destruct m as [q order | i now r].
    + apply tidy_call; [exact IH | apply K; exact Logic.I | apply K; exact Logic.I].
    + apply tidy_try. exact IH.
Qed.

(** * What is seen *)

Lemma tidy_shown : forall w g id, tidy w g -> shown id w = g id.
Proof.
  intros w g id T. unfold shown, call. cbn. rewrite <- (d_card _ _ T id). destruct (w_hooks w id); reflexivity.
Qed.

Lemma shelf_type : forall t u, t = pre_type \/ t = post_type -> (shelf_of u = shelf_of t <-> u = t).
Proof.
  intros t u H. split; [| intros ->; reflexivity]. intro K. unfold shelf_of in K.
  destruct (String.eqb_spec u pre_type) as [E1 | E1], (String.eqb_spec u post_type) as [E2 | E2];
    destruct H as [-> | ->]; cbn in K; congruence.
Qed.

Lemma listed_found : forall w t order, t = pre_type \/ t = post_type -> listed t order w = found w (arrange order (w_sets w (shelf_of t))).
Proof.
  intros w t order H. unfold listed, call. cbn [start]. unfold listing.
  destruct (String.eqb_spec t "") as [e | e]; [exfalso; destruct H as [H | H]; rewrite H in e; discriminate e |].
  cbn [alone]. rewrite alone_gather. reflexivity.
Qed.

Lemma tidy_listed : forall w g t order, tidy w g -> t = pre_type \/ t = post_type ->
  NoDup (map h_id (listed t order w))
  /\ forall id c, (exists h, In h (listed t order w) /\ h_id h = id /\ card_of h = c) <-> (g id = Some c /\ c_type c = t).
Proof.
  intros w g t order T H. rewrite (listed_found w t order H). split.
  - apply (nodup_found w g); auto. apply nodup_arrange, (d_once _ _ T).
  - intros id c. split.
    + intros (h & K & <- & <-). apply (in_found w g) in K; auto. destruct K as (K & L).
      apply in_arrange, (d_sets _ _ T) in K. destruct K as (c & K & M). rewrite K.
      rewrite <- (d_card _ _ T), L in K. injection K as <-. split; [reflexivity |].
      apply (shelf_type t) in M; auto.
    + intros (K & M). assert (exists h, w_hooks w id = Some h /\ card_of h = c) as (h & L & E).
      { rewrite <- (d_card _ _ T) in K. destruct (w_hooks w id) as [h |]; [| discriminate]. injection K as <-. eauto. }
      pose proof (d_id _ _ T id h L) as I. exists h. split; auto. apply (in_found w g); auto. rewrite I. split; auto.
      apply in_arrange, (d_sets _ _ T). exists c. split; auto. rewrite M. reflexivity.
Qed.

Lemma tidy_all_listed : forall w g order, tidy w g ->
  NoDup (map h_id (listed "" order w))
  /\ forall id c, (exists h, In h (listed "" order w) /\ h_id h = id /\ card_of h = c)
                  <-> (g id = Some c /\ (c_type c = pre_type \/ c_type c = post_type)).
Proof.
  intros w g order T.
  set (a := arrange order (w_sets w Pre)). set (b := arrange order (w_sets w Post)).
  assert (listed "" order w = found w (a ++ filter (fun x => negb (mem x a)) b)) as ->.
  { unfold listed, call. cbn [start]. unfold listing. cbn [String.eqb alone]. rewrite alone_gather. reflexivity. }
  assert (forall x, In x (a ++ filter (fun x => negb (mem x a)) b) <-> In x (w_sets w Pre) \/ In x (w_sets w Post)) as M.
  { intro x. rewrite in_app_iff, filter_In, negb_true_iff, mem_not. unfold a, b. rewrite !in_arrange.
    destruct (in_dec string_dec x (w_sets w Pre)); tauto. }
  split.
  - apply (nodup_found w g); auto. apply nodup_app.
    + apply nodup_arrange, (d_once _ _ T).
    + apply nodup_filter, nodup_arrange, (d_once _ _ T).
    + intros x i K. apply filter_In in K. destruct K as (_ & K). apply negb_true_iff, mem_not in K. contradiction.
  - intros id c. split.
    + intros (h & K & <- & <-). apply (in_found w g) in K; auto. destruct K as (K & L). apply M in K.
      assert (exists c, g (h_id h) = Some c /\ (shelf_of (c_type c) = Pre \/ shelf_of (c_type c) = Post)) as (c & G & S0).
      { destruct K as [K | K]; apply (d_sets _ _ T) in K; destruct K as (c & K & S0); eauto. }
      rewrite G. rewrite <- (d_card _ _ T), L in G. injection G as <-. split; [reflexivity |].
      destruct S0 as [S0 | S0]; [left; apply (shelf_type pre_type) | right; apply (shelf_type post_type)]; auto.
    + intros (K & Ty). assert (exists h, w_hooks w id = Some h /\ card_of h = c) as (h & L & E).
      { rewrite <- (d_card _ _ T) in K. destruct (w_hooks w id) as [h |]; [| discriminate]. injection K as <-. eauto. }
      pose proof (d_id _ _ T id h L) as I. exists h. split; auto. apply (in_found w g); auto. rewrite I. split; auto.
      apply M. destruct Ty as [Ty | Ty]; [left | right]; apply (d_sets _ _ T); exists c; rewrite Ty; auto.
Qed.

Lemma new_calls_asked : forall q st ts order w, stages q st ts ->
  map (fun t => (t_hook t, t_notice t)) (new_calls q order w)
  = asked (found w (arrange order (w_sets w (shelf_of st)))) (map (fun x => {| n_txn := fst x; n_stage := st; n_data := snd x |}) ts).
Proof.
  intros q st ts order w H. unfold new_calls. rewrite (stage_alone q st ts order w H). cbn [fst].
  match goal with |- context [each ?i ?hs ?ns w] => destruct (each_effect i hs ns w) as (_ & _ & (l & C & D) & _) end.
  rewrite C. rewrite skipn_app, skipn_all, Nat.sub_diag. cbn. rewrite map_map. exact D.
Qed.

Lemma times_pairs : forall id n (l : list task),
  times (tells id n) l = times (fun x : hook * notice => tells id n {| t_no := 0; t_hook := fst x; t_notice := snd x |})
    (map (fun t => (t_hook t, t_notice t)) l).
Proof.
  intros id n l. unfold times. induction l as [| t l IH]; cbn [map filter]; auto.
  change (tells id n {| t_no := 0; t_hook := fst (t_hook t, t_notice t); t_notice := snd (t_hook t, t_notice t) |}) with (tells id n t).
  destruct (tells id n t); cbn; auto.
Qed.

Lemma times_app : forall A (f : A -> bool) a b, times f (a ++ b) = times f a + times f b.
Proof. intros A f a b. unfold times. rewrite filter_app, app_length. reflexivity. Qed.

Lemma tidy_queued : forall w g q st ts order id n, tidy w g -> stages q st ts ->
  times (tells id n) (new_calls q order w)
  = (if match g id with Some c => String.eqb (c_type c) st && c_active c | None => false end && String.eqb (n_stage n) st
     then times (fun x => String.eqb (fst x) (n_txn n) && String.eqb (snd x) (n_data n)) ts else 0).
Proof.
  intros w g q st ts order id n T Q.
  assert (st = pre_type \/ st = post_type) as Ty by (destruct Q as [(_ & ->) | (_ & ->)]; auto).
  rewrite times_pairs, (new_calls_asked q st ts order w Q).
  destruct (tidy_listed w g st order T Ty) as (N & L). rewrite (listed_found w st order Ty) in N, L.
  set (hs := found w (arrange order (w_sets w (shelf_of st)))) in *.
  assert (forall m, times (fun x : hook * notice => tells id n {| t_no := 0; t_hook := fst x; t_notice := snd x |})
    (map (fun h => (h, m)) (filter h_active hs))
    = if (match g id with Some c => String.eqb (c_type c) st && c_active c | None => false end)
         && (String.eqb (n_txn m) (n_txn n) && (String.eqb (n_stage m) (n_stage n) && String.eqb (n_data m) (n_data n))) then 1 else 0) as One.
  { intro m. set (same := String.eqb (n_txn m) (n_txn n) && (String.eqb (n_stage m) (n_stage n) && String.eqb (n_data m) (n_data n))).
    assert (forall l : list hook, times (fun x : hook * notice => tells id n {| t_no := 0; t_hook := fst x; t_notice := snd x |}) (map (fun h => (h, m)) l)
      = times (fun h => String.eqb (h_id h) id && same) l) as Sw.
    { intro l. unfold times. induction l as [| h l IH]; cbn [map filter]; auto.
      change (tells id n {| t_no := 0; t_hook := fst (h, m); t_notice := snd (h, m) |}) with (String.eqb (h_id h) id && same).
      destruct (String.eqb (h_id h) id && same); cbn; auto. }
    rewrite Sw.
    assert (forall l, NoDup (map h_id l) -> times (fun h => String.eqb (h_id h) id && same) (filter h_active l)
      = if existsb (fun h => String.eqb (h_id h) id && h_active h) l && same then 1 else 0) as Ct.
    { intro l. unfold times. induction l as [| h l IH]; intro Nl; cbn; auto. inversion Nl as [| x y Nx Nl']; subst.
      specialize (IH Nl'). destruct (String.eqb_spec (h_id h) id) as [e | e]; cbn.
      - assert (existsb (fun h => String.eqb (h_id h) id && h_active h) l = false) as Z0.
        { apply not_true_is_false. intro K. apply existsb_exists in K. destruct K as (g' & K & M).
          apply andb_true_iff in M. destruct M as (M & _). apply String.eqb_eq in M. apply Nx. rewrite e, <- M. exact (in_map _ _ _ K). }
        rewrite Z0 in *. cbn in IH. destruct (h_active h); cbn; [| exact IH].
        rewrite e, String.eqb_refl. cbn. destruct same; cbn; rewrite IH; reflexivity.
      - destruct (h_active h); cbn; [| exact IH]. apply String.eqb_neq in e. rewrite e. cbn. exact IH. }
    rewrite (Ct hs N).
    assert (existsb (fun h => String.eqb (h_id h) id && h_active h) hs
      = match g id with Some c => String.eqb (c_type c) st && c_active c | None => false end) as ->; [| reflexivity].
    destruct (g id) as [c |] eqn:G.
    - destruct (String.eqb_spec (c_type c) st) as [e | e]; cbn.
      + destruct (proj2 (L id c) (conj G e)) as (h & I & Ei & Ec).
        destruct (c_active c) eqn:A.
        * apply existsb_exists. exists h. split; [exact I |]. rewrite Ei, String.eqb_refl. rewrite <- Ec in A. exact A.
        * apply not_true_is_false. intro K. apply existsb_exists in K. destruct K as (h' & K & M).
          apply andb_true_iff in M. destruct M as (M & A'). apply String.eqb_eq in M.
          destruct (proj1 (L id (card_of h'))) as (G' & _); [exists h'; auto |]. rewrite G in G'. injection G' as ->.
          cbn in A. congruence.
      + apply not_true_is_false. intro K. apply existsb_exists in K. destruct K as (h' & K & M).
        apply andb_true_iff in M. destruct M as (M & _). apply String.eqb_eq in M.
        destruct (proj1 (L id (card_of h'))) as (G' & E'); [exists h'; auto |]. rewrite G in G'. injection G' as ->. contradiction.
    - apply not_true_is_false. intro K. apply existsb_exists in K. destruct K as (h' & K & M).
      apply andb_true_iff in M. destruct M as (M & _). apply String.eqb_eq in M.
      destruct (proj1 (L id (card_of h'))) as (G' & _); [exists h'; auto |]. congruence. }
  unfold asked. induction ts as [| x ts IH]; cbn [map flat_map].
  - destruct (_ && _); reflexivity.
  - rewrite times_app, One.
    assert (times (fun x : hook * notice => tells id n {| t_no := 0; t_hook := fst x; t_notice := snd x |})
      (flat_map (fun n0 => map (fun h => (h, n0)) (filter h_active hs)) (map (fun x => {| n_txn := fst x; n_stage := st; n_data := snd x |}) ts))
      = (if match g id with Some c => String.eqb (c_type c) st && c_active c | None => false end && String.eqb (n_stage n) st
         then times (fun x => String.eqb (fst x) (n_txn n) && String.eqb (snd x) (n_data n)) ts else 0)) as E.
    { clear IH Q. induction ts as [| y ts IH]; cbn [map flat_map]; [destruct (_ && _); reflexivity |].
      rewrite times_app, One, IH. cbn [n_txn n_stage n_data]. rewrite (String.eqb_sym st).
      unfold times at 2. cbn [filter].
      destruct (match g id with Some c => String.eqb (c_type c) st && c_active c | None => false end); cbn; auto.
      destruct (String.eqb (n_stage n) st); cbn.
      - destruct (String.eqb (fst y) (n_txn n)); cbn; auto. destruct (String.eqb (snd y) (n_data n)); cbn; auto.
      - rewrite andb_false_r. reflexivity. }
    rewrite E. cbn [n_txn n_stage n_data]. rewrite (String.eqb_sym st).
    unfold times at 2. cbn [filter].
    destruct (match g id with Some c => String.eqb (c_type c) st && c_active c | None => false end); cbn; auto.
    destruct (String.eqb (n_stage n) st); cbn.
    + destruct (String.eqb (fst x) (n_txn n)); cbn; auto. destruct (String.eqb (snd x) (n_data n)); cbn; auto.
    + rewrite andb_false_r. reflexivity.
Qed.

Lemma tidy_as_set : forall w g q st ts order t, tidy w g -> stages q st ts -> In t (new_calls q order w) ->
  g (h_id (t_hook t)) = Some (card_of (t_hook t)).
Proof.
  intros w g q st ts order t T Q H. pose proof (new_calls_asked q st ts order w Q) as E.
  apply (in_map (fun t => (t_hook t, t_notice t))) in H. rewrite E in H. unfold asked in H.
  apply in_flat_map in H. destruct H as (n & _ & H). apply in_map_iff in H. destruct H as (h & K & H).
  injection K as -> _. apply filter_In in H. destruct H as (H & _). apply (in_found w g) in H; auto.
  rewrite <- (d_card _ _ T). destruct H as (_ & ->). reflexivity.
Qed.

Theorem orderly_seen : forall ms w g, orderly everything ms w g ->
  (forall id, shown id w = g id)
  /\ (forall t order, t = pre_type \/ t = post_type ->
        NoDup (map h_id (listed t order w))
        /\ forall id c, (exists h, In h (listed t order w) /\ h_id h = id /\ card_of h = c) <-> (g id = Some c /\ c_type c = t))
  /\ (forall order, NoDup (map h_id (listed "" order w))
        /\ forall id c, (exists h, In h (listed "" order w) /\ h_id h = id /\ card_of h = c)
             <-> (g id = Some c /\ (c_type c = pre_type \/ c_type c = post_type))).
Proof.
  intros ms w g H. apply orderly_tidy in H. split; [intro id; apply tidy_shown; exact H |].
  split; [intros t order; apply tidy_listed; exact H | intro order; apply tidy_all_listed; exact H].
Qed.

Theorem orderly_queued : forall ms w g q st ts order, orderly everything ms w g -> stages q st ts ->
  snd (call q order w) = AOk
  /\ (forall id n, times (tells id n) (new_calls q order w)
       = (if match g id with Some c => String.eqb (c_type c) st && c_active c | None => false end && String.eqb (n_stage n) st
          then times (fun x => String.eqb (fst x) (n_txn n) && String.eqb (snd x) (n_data n)) ts else 0))
  /\ (forall t, In t (new_calls q order w) -> g (h_id (t_hook t)) = Some (card_of (t_hook t))).
Proof.
  intros ms w g q st ts order H Q. apply orderly_tidy in H. split; [rewrite (stage_alone q st ts order w Q); reflexivity |].
  split; [intros id n; apply (tidy_queued w g q st ts order id n H Q) |].
  intros t i. exact (tidy_as_set w g q st ts order t H Q i).
Qed.

(** An attempt: what it sends, what it leaves waiting, what the hook then shows. *)
Theorem tried : forall i now r w t more, nth_error (w_queue w) i = Some (t, S more) ->
  let w' := move_on (MTry i now r) w in
  let sends := (0 <? h_timeout (t_hook t))%Z in
  w_sent w' = w_sent w ++ (if sends then [t] else [])
  /\ w_queue w' = drop_nth i (w_queue w)
       ++ (if (sends && passed r) || Nat.eqb more 0 then [] else [(t, more)])
  /\ (exists h, w_hooks w' (h_id (t_hook t)) = Some h /\ card_of h = card_of (t_hook t)
        /\ h_last h = now /\ h_good h = (sends && passed r))
  /\ (forall x, x <> h_id (t_hook t) -> w_hooks w' x = w_hooks w x) /\ w_sets w' = w_sets w.
Proof.
  intros i now r w t more H w' sends.
  assert (forall ok, set_hook (h_id (t_hook t)) (Some (ran now ok (t_hook t))) (w_hooks w) (h_id (t_hook t)) = Some (ran now ok (t_hook t))) as Sm
    by (intro; apply set_hook_same).
  assert (forall ok x, x <> h_id (t_hook t) -> set_hook (h_id (t_hook t)) (Some (ran now ok (t_hook t))) (w_hooks w) x = w_hooks w x) as So
    by (intros; apply set_hook_other; assumption).
  unfold w', sends. cbn [move_on]. rewrite H. unfold attempt. rewrite Z.ltb_antisym.
  destruct (h_timeout (t_hook t) <=? 0)%Z; cbn.
  - destruct more as [| m]; cbn; rewrite ?app_nil_r; (split; [reflexivity |]; split; [reflexivity |]; split; [| split; auto]);
      exists (ran now false (t_hook t)); auto.
  - destruct (passed r) eqn:P; cbn.
    + rewrite app_nil_r. split; [reflexivity |]. split; [reflexivity |]. split; [| split; auto].
      exists (ran now true (t_hook t)). auto.
    + destruct more as [| m]; cbn; rewrite ?app_nil_r; (split; [reflexivity |]; split; [reflexivity |]; split; [| split; auto]);
        exists (ran now false (t_hook t)); auto.
Qed.

(** * Such runs are among the histories *)

Lemma alone_runs : forall p i j order r w l, alone i j order r p (with_runs w l)
  = (with_runs (fst (alone i j order r p w)) l, snd (alone i j order r p w)).
Proof.
  intro p. induction p as [a | x k IH | x h k IH | x k IH | s x k IH | s x k IH | s k IH | h n k IH | h n k IH];
    intros i j order r w l; cbn [alone with_runs w_hooks w_sets].
  - reflexivity.
  - apply IH.
  - rewrite <- IH. reflexivity.
  - rewrite <- IH. reflexivity.
  - rewrite <- IH. reflexivity.
  - rewrite <- IH. reflexivity.
  - apply IH.
  - rewrite <- IH. reflexivity.
  - rewrite <- IH. destruct j; reflexivity.
Qed.
Lemma alone_runs_same : forall p i j order r w, w_runs (fst (alone i j order r p w)) = w_runs w.
Proof.
  intro p. induction p as [a | x k IH | x h k IH | x k IH | s x k IH | s x k IH | s k IH | h n k IH | h n k IH];
    intros i j order r w; cbn [alone]; try rewrite IH; try reflexivity. destruct j; reflexivity.
Qed.
Lemma set_nth_twice : forall A i (x y : A) l, set_nth i x (set_nth i y l) = set_nth i x l.
Proof. intros A i. induction i as [| i IH]; intros x y [| z l]; cbn; auto. rewrite IH. reflexivity. Qed.
Lemma set_nth_id : forall A i (x : A) l, nth_error l i = Some x -> set_nth i x l = l.
Proof.
  intros A i. induction i as [| i IH]; intros x [| z l] H; cbn in *; try discriminate.
  - injection H as ->. reflexivity.
  - rewrite IH; auto.
Qed.

(** A run alone is the run stepping, nothing failing. *)
Theorem alone_plays : forall p i j order r w, nth_error (w_runs w) i = Some (j, p) ->
  exists n, play (repeat (EStep i Fine order r) n) w
    = with_runs (fst (alone i j order r p w)) (set_nth i (j, Done (snd (alone i j order r p w))) (w_runs w)).
Proof.
  assert (forall p i j order r w p0 w1, nth_error (w_runs w) i = Some (j, p0) -> w_runs w1 = w_runs w ->
    (forall w, nth_error (w_runs w) i = Some (j, p) -> exists n, play (repeat (EStep i Fine order r) n) w
      = with_runs (fst (alone i j order r p w)) (set_nth i (j, Done (snd (alone i j order r p w))) (w_runs w))) ->
    alone i j order r p0 w = alone i j order r p w1 -> command i j Fine order r p0 w = (w1, p) ->
    exists n, play (repeat (EStep i Fine order r) n) w
      = with_runs (fst (alone i j order r p0 w)) (set_nth i (j, Done (snd (alone i j order r p0 w))) (w_runs w))) as St.
  { intros p i j order r w p0 w1 H R IH E C.
    destruct (IH (with_runs w1 (set_nth i (j, p) (w_runs w1)))) as (n & K).
    - cbn. rewrite R, nth_set_nth, Nat.eqb_refl, H. reflexivity.
    - exists (S n). cbn [repeat play happen]. rewrite H, C, K, alone_runs, E. cbn [fst snd with_runs w_runs].
      rewrite set_nth_twice, R. reflexivity. }
  intro p. induction p as [a | x k IH | x h k IH | x k IH | s x k IH | s x k IH | s k IH | h n k IH | h n k IH];
    intros i j order r w H.
  - exists 0. cbn. rewrite (set_nth_id _ _ _ _ H). destruct w; reflexivity.
  - eapply St; [exact H | | intros w' K; apply IH; exact K | reflexivity | reflexivity]. reflexivity.
  - eapply St; [exact H | | intros w' K; apply IH; exact K | reflexivity | reflexivity]. reflexivity.
  - eapply St; [exact H | | intros w' K; apply IH; exact K | reflexivity | reflexivity]. reflexivity.
  - eapply St; [exact H | | intros w' K; apply IH; exact K | reflexivity | reflexivity]. reflexivity.
  - eapply St; [exact H | | intros w' K; apply IH; exact K | reflexivity | reflexivity]. reflexivity.
  - eapply St; [exact H | | intros w' K; apply IH; exact K | reflexivity | reflexivity]. reflexivity.
  - eapply St; [exact H | | intros w' K; apply IH; exact K | reflexivity | reflexivity]. reflexivity.
  - eapply (St (k r) i j order r w (Send h n k) (match j with JTry t _ => sent t w | _ => w end));
      [exact H | | intros w' K; apply IH; exact K | destruct j; reflexivity | destruct j; reflexivity]. destruct j; reflexivity.
Qed.

Lemma shown_stored : forall id w, shown id w = option_map card_of (w_hooks w id).
Proof.
  intros id w. unfold shown, call. cbn [start]. unfold show. cbn [alone]. destruct (w_hooks w id); reflexivity.
Qed.

Lemma capped_retries : forall z : Z,
  (if 10 <? (if z <? 0 then 3 else z) then 10 else if z <? 0 then 3 else z)%Z
  = Z.of_nat (if (z <? 0)%Z then 3 else Nat.min 10 (Z.to_nat z)).
Proof.
  intro z. destruct (z <? 0)%Z eqn:N; [reflexivity |]. apply Z.ltb_ge in N.
  destruct (10 <? z)%Z eqn:T; [apply Z.ltb_lt in T; rewrite Nat.min_l; lia | apply Z.ltb_ge in T; rewrite Nat.min_r; lia].
Qed.

(** What the calls answer. *)
Theorem orderly_answers : forall ms w g, orderly everything ms w g ->
  (forall gen now b order, let id := if String.eqb (h_id b) "" then gen else h_id b in
     match accepted b with
     | Some c => exists h, snd (call (RRegister gen now b) order w) = AShow h /\ h_id h = id /\ card_of h = c
     | None => snd (call (RRegister gen now b) order w) = AErr /\ fst (call (RRegister gen now b) order w) = w
     end)
  /\ (forall id b order, match g id with
     | Some _ => exists h, snd (call (RUpdate id b) order w) = AShow h /\ h_id h = id /\ card_of h = card_of b
     | None => snd (call (RUpdate id b) order w) = AErr /\ fst (call (RUpdate id b) order w) = w
     end)
  /\ (forall id order, match g id with
     | Some _ => snd (call (RDelete id) order w) = AOk
     | None => snd (call (RDelete id) order w) = AErr /\ fst (call (RDelete id) order w) = w
     end).
Proof.
  intros ms w g O. pose proof (proj1 (orderly_seen ms w g O)) as S0.
  pose proof (d_id _ _ (orderly_tidy ms w g O)) as I0.
  split; [| split].
  - intros gen now b order. unfold call. cbn [start]. unfold register, accepted, settle, named, retries. cbn [h_url h_type h_retry h_timeout].
    destruct (String.eqb (h_url b) ""); [split; reflexivity |].
    rewrite <- negb_orb. destruct (String.eqb (h_type b) pre_type || String.eqb (h_type b) post_type) eqn:E; cbn [negb]; [| split; reflexivity].
    cbn. eexists. split; [reflexivity |]. split; [reflexivity |]. unfold card_of. cbn. f_equal.
    exact (capped_retries (h_retry b)).
  - intros id b order. rewrite <- S0, shown_stored. unfold call. cbn [start]. unfold update. cbn [alone].
    destruct (w_hooks w id) as [h |] eqn:E; cbn [option_map]; [| split; reflexivity].
    destruct (String.eqb (h_type h) (h_type (instead h b))); cbn; eexists; (split; [reflexivity |]); cbn; split; try reflexivity; apply (I0 _ _ E).
  - intros id order. rewrite <- S0, shown_stored. unfold call. cbn [start]. unfold delete. cbn [alone].
    destruct (w_hooks w id) as [h |] eqn:E; cbn [option_map]; [| split; reflexivity]. reflexivity.
Qed.

(** * Judging answers; what an update leaves *)
Theorem judged : forall r, passed r = true <-> accepts r.
Proof.
  intros [|s [| | |ok]]; cbn.
  - split; [discriminate|]. intros A. inversion A.
  - destruct (Z.leb_spec 200 s), (Z.ltb_spec s 300); cbn; split; intros A; try discriminate A; try reflexivity;
      try (constructor; lia); inversion A; lia.
  - destruct (Z.leb_spec 200 s), (Z.ltb_spec s 300), (Z.leb_spec 400 s); cbn; split; intros A; try discriminate A; try reflexivity;
      try (constructor; lia); inversion A; lia.
  - destruct (Z.leb_spec 400 s); cbn; split; intros A; try discriminate A; try reflexivity;
      try (constructor; lia); inversion A; lia.
  - destruct ok; split; intros A; try discriminate A; try reflexivity; try constructor; inversion A.
Qed.

Theorem update_keeps : forall ms w g, orderly everything ms w g -> forall id b order h0,
  snd (call (RGet id) [] w) = AShow h0 ->
  exists h, snd (call (RUpdate id b) order w) = AShow h /\ history h = history h0
    /\ snd (call (RGet id) [] (fst (call (RUpdate id b) order w))) = AShow h.
Proof.
  intros ms w g O id b order h0. pose proof (d_id _ _ (orderly_tidy ms w g O)) as I0.
  unfold call. cbn [start]. unfold show, update. cbn [alone]. destruct (w_hooks w id) as [h|] eqn:E; cbn [snd]; [|discriminate].
  intros [= <-]. pose proof (I0 _ _ E) as J.
  destruct (String.eqb (h_type h) (h_type (instead h b))) eqn:T; cbn in T |- *; rewrite ?T; cbn; eexists; (split; [reflexivity|]); (split; [reflexivity|]);
    cbn; rewrite ?J; unfold set_hook; rewrite String.eqb_refl; reflexivity.
Qed.
