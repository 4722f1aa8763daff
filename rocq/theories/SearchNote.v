(** What a task shows is found once it is done. *)
From Coq Require Import List String Bool Arith ZArith Lia.
From Verif Require Import SearchModel SearchSpec SearchPage SearchInv SearchDocs.
Import ListNotations.
Local Open Scope string_scope.
Local Open Scope nat_scope.
Local Open Scope list_scope.

(** No rebuilding is under way in [w], and none is started in [es]. *)
Definition no_run (w : world) : Prop := forall i u, nth_error (w_runs w) i = Some u -> u_stage u = SEnd.
Definition starts_none (es : list event) : Prop := (forall n, ~ In (EBegin n) es) /\ ~ In EAuto es.
(** The search server takes what the workers send, if it can, at once or later. *)
Definition taken (es : list event) : Prop := forall k o p, In (EWork k o p) es -> o <> Fails.
(** Of the records noted, in this order, each refers to earlier ones or to what is found. *)
Definition in_order (w : world) (l : list (coll * string)) : Prop :=
  forall l1 c id l2 r, l = l1 ++ (c, id) :: l2 -> row_of id (w_tab w c) = Some r ->
  forall c' id', In (c', id') (r_refs r) -> finds w c' id' \/ (In (c', id') l1 /\ row_of id' (w_tab w c') <> None).

Definition held (ix : index) (c : coll) (id : string) : Prop := look ix c id <> None.
Lemma held_finds : forall w c id, held (w_ix w) c id <-> finds w c id.
Proof.
  intros w c id. unfold held, finds, shows. destruct (look (w_ix w) c id) as [d|]; split.
  - intros _. exists d. reflexivity.
  - discriminate.
  - intros H. contradiction.
  - intros (d & E). discriminate E.
Qed.
Definition grows (a b : index) : Prop := forall c id, held a c id -> held b c id.
Lemma grows_refl : forall a, grows a a. Proof. intros a c id H. exact H. Qed.
Lemma coll_eqb_eq : forall a b, coll_eqb a b = true <-> a = b.
Proof. intros [] []; cbn; split; congruence. Qed.
Lemma find_filter_other : forall id id' (l : docs), String.eqb id id' = false ->
  find (fun x => String.eqb (fst x) id') (filter (fun x => negb (String.eqb (fst x) id)) l) = find (fun x => String.eqb (fst x) id') l.
Proof.
  intros id id' l N. induction l as [|[a d] l IH]; [reflexivity|]. cbn. destruct (String.eqb_spec a id) as [->|Na]; cbn.
  - rewrite N. exact IH.
  - rewrite IH. reflexivity.
Qed.
Lemma upsert_grows : forall c id refs d ix ix', upsert c id refs d ix = Some ix' -> grows ix ix' /\ held ix' c id.
Proof.
  intros c id refs d ix ix' U. unfold upsert in U. destruct (ix c) as [l|] eqn:E; [|discriminate U]. destruct (forallb (has ix) refs); [|discriminate U].
  injection U as <-. split.
  - intros c' id' H. unfold held, look, set in *. destruct (coll_eqb c' c) eqn:C; [|exact H]. apply coll_eqb_eq in C as ->. rewrite E in H.
    unfold doc_of, put in *. cbn [find fst]. destruct (String.eqb_spec id id') as [->|N]; [cbn; discriminate|].
    rewrite find_filter_other; [exact H|]. apply String.eqb_neq. exact N.
  - unfold held, look, set. assert (C : coll_eqb c c = true) by (apply coll_eqb_eq; reflexivity). rewrite C. unfold doc_of, put. cbn [find fst]. rewrite String.eqb_refl. cbn. discriminate.
Qed.
Lemma create_grows : forall c ix, grows ix (create c ix).
Proof.
  intros c ix c' id H. unfold create. destruct (ix c) eqn:E; [exact H|]. unfold held, look, set in *. destruct (coll_eqb c' c) eqn:C; [|exact H].
  apply coll_eqb_eq in C as ->. rewrite E in H. contradiction.
Qed.
(** What a worker leaves is not less than what there was. *)
Lemma work_grows : forall o p t ix t' ix', work o p t ix = (t', ix') -> grows ix ix'.
Proof.
  intros o p t ix t' ix' W. unfold work in W. destruct (k_at t) as [done| |[|[c r] rest]].
  - destruct (covers done); [injection W as _ <-; apply grows_refl|]. destruct o; injection W as _ <-; try apply grows_refl. apply create_grows.
  - destruct o; try (injection W as _ <-; apply grows_refl). unfold show_general in W.
    destruct (upsert Ledgers general_id [] general_doc ix) as [ix2|] eqn:U; injection W as _ <-; [|apply grows_refl]. eapply upsert_grows, U.
  - injection W as _ <-. apply grows_refl.
  - destruct o; try (injection W as _ <-; apply grows_refl). unfold show in W.
    destruct (upsert c (r_id r) (r_refs r) (r_data r) ix) as [ix2|] eqn:U; injection W as _ <-; [|apply grows_refl]. eapply upsert_grows, U.
Qed.

(** All collections are there. *)
Definition ready (ix : index) : Prop := forall c, ix c <> None.
(** What is still to be shown refers to what is found or to what comes first. *)
Fixpoint ordered (ix : index) (before : list (coll * string)) (l : list (coll * row)) : Prop :=
  match l with
  | [] => True
  | (c, r) :: rest => (forall x, In x (r_refs r) -> held ix (fst x) (snd x) \/ In x before) /\ ordered ix ((c, r_id r) :: before) rest
  end.
Lemma ordered_grows : forall ix ix' l b b', grows ix ix' -> (forall x, In x b -> held ix' (fst x) (snd x) \/ In x b') -> ordered ix b l -> ordered ix' b' l.
Proof.
  intros ix ix' l. induction l as [|[c r] l IH]; intros b b' G B O; [exact Logic.I|]. destruct O as [R O]. split.
  - intros x I. destruct (R x I) as [H|H]; [left; apply G, H|apply B, H].
  - apply (IH ((c, r_id r) :: b) ((c, r_id r) :: b')); auto. intros x [<-|I]; [right; left; reflexivity|]. destruct (B x I) as [H|H]; [left; exact H|right; right; exact H].
Qed.
Definition made (ix : index) (done : list coll) : Prop := forall c, In c done -> ix c <> None.
Definition fit_task (ix : index) (items : list (coll * row)) (t : task) : Prop :=
  k_items t = items /\ ordered ix [] items /\
  match k_at t with
  | WCreate done => made ix done
  | WGeneral => ready ix
  | WItems rest => ready ix /\ ordered ix [] rest /\ forall c r, In (c, r) items -> In (c, r) rest \/ held ix c (r_id r)
  end.
Definition all_held (ix : index) (items : list (coll * row)) : Prop := forall c r, In (c, r) items -> held ix c (r_id r).

Definition keeps (a b : index) : Prop := forall c, a c <> None -> b c <> None.
Lemma upsert_keeps : forall c id refs d ix ix', upsert c id refs d ix = Some ix' -> keeps ix ix'.
Proof.
  intros c id refs d ix ix' U c' H. unfold upsert in U. destruct (ix c); [|discriminate U]. destruct (forallb (has ix) refs); [|discriminate U]. injection U as <-.
  unfold set. destruct (coll_eqb c' c); [discriminate|exact H].
Qed.
Lemma create_keeps : forall c ix, keeps ix (create c ix).
Proof. intros c ix c' H. unfold create. destruct (ix c); [exact H|]. unfold set. destruct (coll_eqb c' c); [discriminate|exact H]. Qed.
Lemma create_made : forall c ix, create c ix c <> None.
Proof.
  intros c ix. unfold create. destruct (ix c) eqn:E; [congruence|]. unfold set. assert (C : coll_eqb c c = true) by (apply coll_eqb_eq; reflexivity). rewrite C. discriminate.
Qed.
Lemma work_keeps : forall o p t ix t' ix', work o p t ix = (t', ix') -> keeps ix ix'.
Proof.
  intros o p t ix t' ix' W. unfold work in W. destruct (k_at t) as [done| |[|[c r] rest]].
  - destruct (covers done); [injection W as _ <-; intros c H; exact H|]. destruct o; injection W as _ <-; try (intros c H; exact H). apply create_keeps.
  - destruct o; try (injection W as _ <-; intros c H; exact H). unfold show_general in W.
    destruct (upsert Ledgers general_id [] general_doc ix) as [ix2|] eqn:U; injection W as _ <-; [|intros c H; exact H]. eapply upsert_keeps, U.
  - injection W as _ <-. intros c H; exact H.
  - destruct o; try (injection W as _ <-; intros c' H; exact H). unfold show in W.
    destruct (upsert c (r_id r) (r_refs r) (r_data r) ix) as [ix2|] eqn:U; injection W as _ <-; [|intros c' H; exact H]. eapply upsert_keeps, U.
Qed.
Lemma covers_ready : forall ix done, made ix done -> covers done = true -> ready ix.
Proof.
  intros ix done M C c. unfold covers in C. rewrite forallb_forall in C. assert (I : In c every) by (destruct c; cbn; tauto).
  apply C in I. apply existsb_exists in I as (c' & J & E). apply coll_eqb_eq in E as <-. apply M, J.
Qed.
Lemma fit_grows : forall ix ix' items t, grows ix ix' -> keeps ix ix' -> fit_task ix items t -> fit_task ix' items t.
Proof.
  intros ix ix' items t G K (E & O & F). split; [exact E|].
  assert (Og : forall l, ordered ix [] l -> ordered ix' [] l) by (intros l; apply ordered_grows; [exact G|intros x []]).
  split; [apply Og, O|]. destruct (k_at t) as [done| |rest].
  - intros c I. apply K, F, I.
  - intros c. apply K, F.
  - destruct F as (R & Or & A). split; [intros c; apply K, R|]. split; [apply Og, Or|]. intros c r I. destruct (A c r I) as [H|H]; [left; exact H|right; apply G, H].
Qed.
(** The task itself moves on, or is done with everything shown. *)
Lemma fit_work : forall o p t ix items t' ix', o <> Fails -> fit_task ix items t -> work o p t ix = (t', ix') ->
  match t' with Some u => fit_task ix' items u | None => all_held ix' items end.
Proof.
  intros o p t ix items t' ix' NF F W. pose proof (work_grows _ _ _ _ _ _ W) as G. pose proof (work_keeps _ _ _ _ _ _ W) as K.
  pose proof (fit_grows _ _ _ _ G K F) as F'. destruct F as (E & O & F). destruct F' as (_ & O' & F'). unfold work in W. destruct (k_at t) as [done| |[|[c r] rest]] eqn:At.
  - destruct (covers done) eqn:C.
    + injection W as <- <-. split; [exact E|]. split; [exact O'|]. cbn. eapply covers_ready; eauto.
    + destruct o; [| |contradiction]; injection W as <- <-; (split; [exact E|]); (split; [exact O'|]); cbn.
      * intros c [->|I]; [apply create_made|apply F', I].
      * intros c [].
  - destruct o; [| |contradiction].
    + unfold show_general in W. unfold upsert in W. destruct (ix Ledgers) as [l|] eqn:L; [|exfalso; apply (F Ledgers), L]. cbn [forallb] in W. injection W as <- <-.
      split; [exact E|]. split; [exact O'|]. cbn [k_at at_work]. split; [exact F'|]. split; [rewrite E; exact O'|]. intros c r I. left. rewrite E. exact I.
    + injection W as <- <-. split; [exact E|]. split; [exact O'|]. cbn. intros c [].
  - injection W as <- <-. destruct F as (_ & _ & A). intros c r I. destruct (A c r I) as [[]|H]; exact H.
  - destruct o; [| |contradiction].
    + destruct F as (R & (Rf & Or) & A). unfold show in W. destruct (upsert c (r_id r) (r_refs r) (r_data r) ix) as [ix2|] eqn:U.
      * injection W as <- <-. split; [exact E|]. split; [exact O'|]. cbn [k_at at_work]. destruct F' as (R' & _ & A'). split; [exact R'|].
        destruct (upsert_grows _ _ _ _ _ _ U) as [G2 H2]. split.
        -- apply (ordered_grows ix ix2 rest [(c, r_id r)] []); auto. intros x [<-|[]]. left. exact H2.
        -- intros c0 r0 I. destruct (A' c0 r0 I) as [[E0|H]|H]; [injection E0 as <- <-; right; exact H2|left; exact H|right; exact H].
      * exfalso. unfold upsert in U. destruct (ix c) eqn:X; [|apply (R c), X].
        assert (Y : forallb (has ix) (r_refs r) = true).
        { apply forallb_forall. intros x I. destruct (Rf x I) as [H|[]]. unfold has, held in *. destruct (look ix (fst x) (snd x)); congruence. }
        rewrite Y in U. discriminate U.
    + injection W as <- <-. split; [exact E|]. split; [exact O'|]. cbn. intros c0 [].
Qed.

Lemma in_set_nth : forall (A : Type) (l : list A) i j x y, nth_error l j = Some y -> i <> j -> nth_error (set_nth i x l) j = Some y.
Proof. induction l as [|z l IH]; intros [|i] [|j] x y E N; cbn in *; try discriminate E; auto; congruence. Qed.
Lemma in_del_nth : forall (A : Type) (l : list A) i j y, nth_error l j = Some y -> i <> j -> In y (del_nth i l).
Proof.
  induction l as [|z l IH]; intros [|i] [|j] y E N; cbn in *; try discriminate E; try congruence.
  - eapply nth_error_In, E.
  - left. congruence.
  - right. eapply IH; eauto.
Qed.
Lemma set_nth_same : forall (A : Type) (l : list A) i x y, nth_error l i = Some y -> In x (set_nth i x l).
Proof. induction l as [|z l IH]; intros [|i] x y E; cbn in *; try discriminate E; auto. right. eapply IH, E. Qed.

Definition pending (items : list (coll * row)) (w : world) : Prop := all_held (w_ix w) items \/ exists t, In t (w_tasks w) /\ fit_task (w_ix w) items t.

Lemma set_nth_id : forall (A : Type) (l : list A) i x, nth_error l i = Some x -> set_nth i x l = l.
Proof. induction l as [|z l IH]; intros [|i] x E; cbn in *; try discriminate E; [congruence|]. f_equal. apply IH, E. Qed.
Lemma happen_pending : forall e w items, (forall n, e <> EBegin n) -> e <> EAuto -> (forall k p, e <> EWork k Fails p) ->
  no_run w -> pending items w -> no_run (happen e w) /\ pending items (happen e w).
Proof.
  intros e w items NB NA NF Q P. destruct e as [c r|c id refs d|id|l|k o p|n| |i o p tie|i]; cbn [happen].
  - destruct (row_of (r_id r) (w_tab w c)); split; try exact Q; exact P.
  - split; [exact Q|exact P].
  - split; [exact Q|exact P].
  - split; [exact Q|]. destruct P as [H|(t & I & F)]; [left; exact H|]. right. exists t. split; [|exact F]. cbn. apply in_or_app. left. exact I.
  - destruct (nth_error (w_tasks w) k) as [t|] eqn:T; [|split; [exact Q|exact P]]. destruct (work o p t (w_ix w)) as [t' ix'] eqn:W.
    pose proof (work_grows _ _ _ _ _ _ W) as G. pose proof (work_keeps _ _ _ _ _ _ W) as K.
    assert (No : o <> Fails) by (intros ->; apply (NF k p eq_refl)).
    assert (Pn : all_held ix' items \/ exists u, In u (match t' with Some x => set_nth k x (w_tasks w) | None => del_nth k (w_tasks w) end) /\ fit_task ix' items u).
    { destruct P as [H|(u & I & F)]; [left; intros c r J; apply G, H, J|]. apply In_nth_error in I as (j & J). destruct (Nat.eq_dec k j) as [<-|N].
      - rewrite T in J. injection J as <-. pose proof (fit_work _ _ _ _ _ _ _ No F W) as X. destruct t' as [x|]; [|left; exact X]. right. exists x. split; [eapply set_nth_same, T|exact X].
      - right. exists u. split; [|eapply fit_grows; eauto]. destruct t' as [x|]; [eapply nth_error_In, in_set_nth; eauto|eapply in_del_nth; eauto]. }
    destruct t' as [x|]; (split; [exact Q|exact Pn]).
  - exfalso. apply (NB n eq_refl).
  - exfalso. apply NA. reflexivity.
  - destruct (nth_error (w_runs w) i) as [u|] eqn:R; [|split; [exact Q|exact P]]. unfold step. rewrite (Q i u R).
    split; [|exact P]. cbn. intros j v J. cbn in J. rewrite (set_nth_id _ _ _ _ R) in J. eapply Q, J.
  - destruct (nth_error (w_runs w) i) as [u|] eqn:R; [|split; [exact Q|exact P]]. rewrite (Q i u R). split; [exact Q|exact P].
Qed.
Lemma play_pending : forall es w items, starts_none es -> taken es -> no_run w -> pending items w -> pending items (play es w).
Proof.
  induction es as [|e es IH]; intros w items (B & A) T Q P; [exact P|]. cbn [play fold_left].
  destruct (happen_pending e w items) as [Q' P']; auto.
  - intros n ->. apply (B n). left. reflexivity.
  - intros ->. apply A. left. reflexivity.
  - intros k p ->. apply (T k Fails p); [left; reflexivity|reflexivity].
  - apply (IH (happen e w)); auto; [split|].
    + intros n I. apply (B n). right. exact I.
    + intros I. apply A. right. exact I.
    + intros k o p I. apply (T k o p). right. exact I.
Qed.

(** Taking repeated items out keeps the order, and something with each name. *)
Definition name (x : coll * row) : coll * string := (fst x, r_id (snd x)).
Lemma same_item_name : forall a b, same_item a b = true <-> name a = name b.
Proof.
  intros [c r] [c' r']. unfold same_item, name. cbn. rewrite andb_true_iff, coll_eqb_eq, String.eqb_eq. split; [intros [-> ->]; reflexivity|intros E; injection E; auto].
Qed.
Lemma dedup_names : forall l seen x, In x l -> In (name x) (map name seen) \/ In (name x) (map name (deduplicate seen l)).
Proof.
  induction l as [|y l IH]; intros seen x I; [destruct I|]. cbn. destruct (existsb (same_item y) seen) eqn:E.
  - destruct I as [->|I]; [|apply IH, I]. left. apply existsb_exists in E as (z & J & S). apply same_item_name in S. rewrite S. apply in_map, J.
  - destruct I as [->|I]; [right; left; reflexivity|]. destruct (IH (y :: seen) x I) as [[Y|H]|H]; [right; left; exact Y|left; exact H|right; right; exact H].
Qed.
Lemma dedup_ordered : forall ix l b seen b', ordered ix b l -> (forall x, In x b -> In x b') -> (forall y, In y seen -> In (name y) b') -> ordered ix b' (deduplicate seen l).
Proof.
  intros ix. induction l as [|[c r] l IH]; intros b seen b' O B S; [exact Logic.I|]. destruct O as [R O]. cbn [deduplicate]. destruct (existsb (same_item (c, r)) seen) eqn:E.
  - apply (IH ((c, r_id r) :: b)); auto. intros x [<-|I]; [|apply B, I]. apply existsb_exists in E as (z & J & Sm). apply same_item_name in Sm. unfold name at 1 in Sm. cbn in Sm. rewrite Sm. apply S, J.
  - split; [intros x I; destruct (R x I) as [H|H]; [left; exact H|right; apply B, H]|]. apply (IH ((c, r_id r) :: b)); auto.
    + intros x [<-|I]; [left; reflexivity|right; apply B, I].
    + intros y [<-|I]; [left; reflexivity|right; apply S, I].
Qed.
Lemma row_of_id : forall id l r, row_of id l = Some r -> r_id r = id.
Proof. intros id l r E. apply find_some in E as [_ E]. apply String.eqb_eq, E. Qed.
Lemma items_ordered : forall w l l0, in_order w (l0 ++ l) ->
  ordered (w_ix w) (map name (items_of w l0)) (items_of w l).
Proof.
  intros w l. induction l as [|[c id] l IH]; intros l0 H; [exact Logic.I|].
  assert (H' : in_order w ((l0 ++ [(c, id)]) ++ l)) by (rewrite <- app_assoc; exact H).
  pose proof (IH _ H') as O. unfold items_of in O |- *. rewrite flat_map_app, map_app in O. cbn [flat_map fst snd] in O |- *. rewrite app_nil_r in O.
  destruct (row_of id (w_tab w c)) as [r|] eqn:R; [|cbn in O |- *; rewrite app_nil_r in O; exact O].
  cbn [app map] in O |- *. split.
  - intros [c' id'] I. destruct (H l0 c id l r eq_refl R c' id' I) as [F|[J X]]; [left; apply held_finds, F|right].
    apply in_map_iff. destruct (row_of id' (w_tab w c')) as [r'|] eqn:R'; [|contradiction]. exists (c', r'). split; [unfold name; cbn; rewrite (row_of_id _ _ _ R'); reflexivity|].
    apply in_flat_map. exists (c', id'). split; [exact J|]. cbn. rewrite R'. left. reflexivity.
  - eapply ordered_grows; [apply grows_refl| |exact O]. intros x I. right. apply in_app_or in I as [I|[<-|[]]]; [right; exact I|left; reflexivity].
Qed.

(** When the tasks are done, what was noted is found. *)
Theorem noted_found : forall es w l, no_run w -> starts_none es -> taken es -> in_order w l ->
  w_tasks (play (ENote l :: es) w) = [] ->
  forall c id, In (c, id) l -> row_of id (w_tab w c) <> None -> finds (play (ENote l :: es) w) c id.
Proof.
  intros es w l Q S T O N c id I R. apply held_finds.
  set (items := deduplicate [] (items_of w l)).
  assert (P : pending items (happen (ENote l) w)).
  { right. eexists. split; [cbn; apply in_or_app; right; left; reflexivity|]. split; [reflexivity|]. split; [|intros c0 []].
    pose proof (items_ordered w l [] O) as X. cbn in X. apply (dedup_ordered _ _ [] [] []); auto. }
  assert (Z : pending items (play es (happen (ENote l) w))) by (apply play_pending; auto).
  change (play (ENote l :: es) w) with (play es (happen (ENote l) w)) in *. destruct Z as [H|(t & J & _)]; [|rewrite N in J; destruct J].
  destruct (row_of id (w_tab w c)) as [r|] eqn:E; [|contradiction].
  assert (J : In (c, r) (items_of w l)) by (apply in_flat_map; exists (c, id); split; [exact I|cbn; rewrite E; left; reflexivity]).
  apply (dedup_names _ []) in J as [[]|J]. apply in_map_iff in J as ([c' r'] & Nm & J). unfold name in Nm. cbn in Nm. injection Nm as -> Nm.
  apply H in J. rewrite Nm, (row_of_id _ _ _ E) in J. exact J.
Qed.
