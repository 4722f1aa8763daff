(** What a rebuilt index shows, and that nothing sound is refused. *)
From Coq Require Import List String Bool Arith ZArith Lia.
From Verif Require Import SearchModel SearchSpec SearchPage SearchInv.
Import ListNotations.
Local Open Scope string_scope.
Local Open Scope nat_scope.
Local Open Scope list_scope.

(** ** Collections stay *)

Definition there (ix : index) (c : coll) : Prop := ix c <> None.
Lemma upsert_there : forall c id refs d ix ix' c', upsert c id refs d ix = Some ix' -> there ix c' -> there ix' c'.
Proof.
  intros c id refs d ix ix' c' U T. unfold upsert in U. destruct (ix c); [|discriminate U]. destruct (forallb (has ix) refs); [|discriminate U].
  injection U as <-. unfold there. destruct (coll_eqb_spec c' c) as [->|N]; [rewrite set_same; discriminate|rewrite set_other by exact N; exact T].
Qed.
Lemma create_there : forall c ix c', there ix c' \/ c' = c -> there (create c ix) c'.
Proof.
  intros c ix c' T. unfold create, there in *. destruct (ix c) eqn:E; [destruct T as [T| ->]; congruence|].
  destruct (coll_eqb_spec c' c) as [->|N]; [rewrite set_same; discriminate|rewrite set_other by exact N; destruct T; congruence].
Qed.
Lemma work_there : forall o p k ix ot ix' c, work o p k ix = (ot, ix') -> there ix c -> there ix' c.
Proof.
  intros o p k ix ot ix' c W L. unfold work in W. destruct (k_at k) as [done| |[|[c0 r] rest]].
  - destruct (covers done); [injection W as _ <-; exact L|]. destruct o; injection W as _ <-; try exact L. apply create_there. auto.
  - destruct o; try (injection W as _ <-; exact L). destruct (show_general ix) eqn:S; injection W as _ <-; [|exact L].
    eapply upsert_there; [exact S|exact L].
  - injection W as _ <-. exact L.
  - destruct o; try (injection W as _ <-; exact L). destruct (show c0 r ix) eqn:S; injection W as _ <-; [|exact L].
    eapply upsert_there; [exact S|exact L].
Qed.
Lemma covers_all : forall l c, covers l = true -> In c l.
Proof.
  intros l c C. unfold covers in C. rewrite forallb_forall in C. assert (I : In c every) by (destruct c; cbn; auto 6).
  apply C in I. apply existsb_exists in I as (x & I & E). destruct (coll_eqb_spec c x); [subst; exact I|discriminate E].
Qed.

(** ** Nothing sound is refused *)

Section Sound.
Variable w0 : world.

Definition sound_row (c : coll) (r : row) : Prop := (exists r0, In r0 (w_tab w0 c) /\ r_id r0 = r_id r) -> refs_in w0 c (r_refs r).
Definition made (u : run) (ix : index) : Prop :=
  match u_stage u with
  | SCreate done => forall c, In c done -> there ix c
  | SGeneral | SPage _ _ _ | SDoc _ _ _ _ _ => forall c, there ix c
  | _ => True
  end.
Definition good (u : run) (w : world) : Prop :=
  made u (w_ix w) /\ (forall c r, In r (w_tab w0 c) -> ~ In (c, r_id r) (u_errors u))
  /\ (forall c r, In r (w_tab w c) -> sound_row c r)
  /\ (forall c off n count rest r, u_stage u = SDoc c off n count rest -> In r rest -> sound_row c r).

Lemma made_mono : forall u ix ix', (forall c, there ix c -> there ix' c) -> made u ix -> made u ix'.
Proof. intros u ix ix' T M. unfold made in *. destruct (u_stage u); auto. Qed.

Ltac four := split; [|split; [|split]].
Lemma good_step : forall o p t w u u' ix', o <> Fails -> step o p t (w_tab w) u (w_ix w) = (u', ix') -> safe (w_tab w0) u w -> good u w ->
  forall w', w_tab w' = w_tab w -> w_ix w' = ix' -> good u' w'.
Proof.
  intros o p t w u u' ix' O S Sf (M & E & Tb & Rs) w' ET EX. unfold step in S. unfold good. rewrite ET, EX. unfold made in M |- *.
  assert (No : forall v, u_errors v = u_errors u -> forall c r, In r (w_tab w0 c) -> ~ In (c, r_id r) (u_errors v)) by (intros v ->; exact E).
  assert (NoR : forall v, (forall c off n count rest, u_stage v <> SDoc c off n count rest) ->
     forall c off n count rest r, u_stage v = SDoc c off n count rest -> In r rest -> sound_row c r) by (intros v H c off n count rest r K; exfalso; eapply H, K).
  destruct (u_stage u) as [|[|c cs]|done| |c off count|c off n count [|r rest]|] eqn:St.
  - injection S as <- <-. cbn. four; auto; try discriminate.
  - injection S as <- <-. cbn. four; auto; try discriminate; try (intros ? []).
  - destruct o; injection S as <- <-; cbn; four; auto; try discriminate.
  - destruct (covers done) eqn:Cv.
    + injection S as <- <-. cbn. four; auto; try discriminate. intros c. apply M, covers_all, Cv.
    + destruct o; injection S as <- <-; cbn; four; auto; try discriminate; try (intros ? []; fail).
      intros c I. apply create_there. destruct I as [<-|I]; [right; reflexivity|left; apply M, I].
  - destruct o; [|injection S as <- <-; cbn; four; auto; try discriminate; try (intros ? [])|congruence].
    destruct (show_general (w_ix w)) as [ix1|] eqn:G; injection S as <- <-; cbn; four; auto; try discriminate.
    intros c. eapply upsert_there; [exact G|apply M].
  - destruct o; [|injection S as <- <-; cbn; four; auto; try discriminate|congruence].
    destruct (page c t (u_batch u) off (w_tab w c)) as [|x l] eqn:P.
    + destruct (after c); injection S as <- <-; cbn; four; auto; try discriminate.
    + injection S as <- <-. cbn [at_stage u_stage u_errors]. four; auto.
      intros c0 off0 n0 count0 rest r K I. injection K as <- <- <- <- <-. apply Tb. apply (page_in c t (u_batch u) off). rewrite P. exact I.
  - injection S as <- <-. cbn. four; auto; try discriminate.
  - assert (Sr : sound_row c r) by (eapply Rs; [reflexivity|left; reflexivity]).
    assert (Rest : forall v, v = SDoc c off n count rest \/ v = SDoc c off n (Datatypes.S count) rest ->
       forall c1 off1 n1 count1 rest1 r1, v = SDoc c1 off1 n1 count1 rest1 -> In r1 rest1 -> sound_row c1 r1).
    { intros v K c1 off1 n1 count1 rest1 r1 K1 I. assert (Eq : c1 = c /\ rest1 = rest) by (destruct K as [K|K]; rewrite K in K1; injection K1; intros; subst; auto).
      destruct Eq as [-> ->]. apply (Rs c off n count (r :: rest) r1 eq_refl). right. exact I. }
    destruct o; [| injection S as <- <-; rewrite St; four; auto | congruence].
    destruct (show c r (w_ix w)) as [ix1|] eqn:G; injection S as <- <-; cbn [at_stage noted u_stage u_errors].
    + four; auto; [|eapply Rest; right; reflexivity]. intros c0. eapply upsert_there; [exact G|apply M].
    + four; auto; [|eapply Rest; left; reflexivity].
      intros c0 r0 I0 I. apply in_app_or in I as [I|[I|[]]]; [exact (E c0 r0 I0 I)|].
      injection I as <- I. specialize (Sr (ex_intro _ r0 (conj I0 (eq_sym I)))).
      unfold show, upsert in G. specialize (M c). unfold there in M. destruct (w_ix w c); [|congruence].
      replace (forallb (has (w_ix w)) (r_refs r)) with true in G; [discriminate G|]. symmetry. apply forallb_forall.
      intros [c' id] J. destruct (Sr c' id J) as (L & r1 & I1 & <-).
      destruct Sf as (_ & Sf). rewrite St in Sf. destruct Sf as (_ & _ & Ps & _).
      destruct (Ps c' r1 L I1) as [A|A]; [|exfalso; exact (E c' r1 I1 A)].
      unfold has. cbn. destruct (look (w_ix w) c' (r_id r1)); congruence.
  - injection S as <- <-. rewrite St. four; auto.
Qed.

Definition fit (i : nat) (e : event) : Prop :=
  (forall id, e <> EDelete id) /\ (forall o p t, e = EStep i o p t -> o <> Fails)
  /\ (forall c id refs d, e = EUpdate c id refs d -> (exists r, In r (w_tab w0 c) /\ r_id r = id) -> refs_in w0 c refs).

Lemma row_of_none : forall id l r, row_of id l = None -> In r l -> r_id r <> id.
Proof.
  intros id l r N I E. unfold row_of in N. apply (find_none _ _ N) in I. cbn in I. apply String.eqb_neq in I. exact (I E).
Qed.

Lemma good_moves : forall i e w u w' u', fit i e -> kept (w_tab w0) w -> moves i e w u w' u' -> safe (w_tab w0) u w -> good u w -> good u' w'.
Proof.
  intros i e w u w' u' (ND & O & Up) K Mv Sf Gd. pose proof Gd as (M & E & Tb & Rs).
  destruct Mv as [o p t Ee ET EK ST|ET EK EX ->|k o p ot I ET -> W _|c r N ET EK EX ->|c id refs d Ee ET EK EX ->|id Ee|l ET EX -> EK|ET EK EX ->].
  - eapply good_step; eauto.
  - unfold good. rewrite ET. split; [exact Logic.I|]. split; [exact E|]. split; [exact Tb|]. cbn. discriminate.
  - unfold good. rewrite ET. split; [|auto]. eapply made_mono; [|exact M]. intros c. eapply work_there, W.
  - unfold good. rewrite EX, ET. split; [exact M|]. split; [exact E|]. split; [|exact Rs].
    intros c0 r0 I. destruct (coll_eqb_spec c0 c) as [->|X]; [rewrite set_same in I|rewrite set_other in I by exact X; apply Tb, I].
    destruct I as [<-|I]; [|apply Tb, I]. intros (r1 & I1 & E1). destruct (K c r1 I1) as (r2 & I2 & E2 & _).
    exfalso. apply (row_of_none _ _ r2 N I2). congruence.
  - unfold good. rewrite EX, ET. split; [exact M|]. split; [exact E|]. split; [|exact Rs].
    intros c0 r0 I. destruct (coll_eqb_spec c0 c) as [->|X]; [rewrite set_same in I|rewrite set_other in I by exact X; apply Tb, I].
    apply in_map_iff in I as (r1 & <- & I). destruct (String.eqb_spec (r_id r1) id) as [J|J]; [|apply Tb, I].
    intros (r2 & I2 & E2). cbn in *. eapply Up; [exact Ee|]. exists r2. split; [exact I2|congruence].
  - exfalso. apply (ND id), Ee.
  - unfold good. rewrite EX, ET. auto.
  - unfold good. rewrite EX, ET. auto.
Qed.
End Sound.

Theorem nothing_refused : forall i es w errors, started i w -> alone i es w -> no_delete es -> dated (play es w) ->
  served i es -> closed w es -> completed i (play es w) errors ->
  forall c r, rebuilt c -> In r (w_tab w c) -> finds (play es w) c (r_id r) /\ ~ In (c, r_id r) errors.
Proof.
  intros i es w errors St A N D Sv (C1 & C2) C c r Rb I.
  assert (Not : ~ In (c, r_id r) errors).
  { destruct St as (n & R). destruct C as (u & U & _ & <-).
    destruct (play_keeps (fun u w' => safe (w_tab w) u w' /\ kept (w_tab w) w' /\ good w u w') (fit w i) dated i) with (es := es) (w := w) (u := fresh n)
      as (u' & U' & _ & _ & Gd); auto.
    - intros e w1 u1 w2 u2 D1 _ F M (S & K & Gd). destruct (safe_moves (w_tab w) i e w1 u1 w2 u2 (proj1 F) D1 K M S) as [S2 K2].
      split; [exact S2|]. split; [exact K2|]. eapply (good_moves w i e w1 u1 w2 u2); eauto.
    - intros e Ie. split; [intros id ->; exact (N id Ie)|]. split; [intros o p t ->; eapply Sv, Ie|]. intros c0 id refs d -> X. eapply C2; eauto.
    - apply dated_along; assumption.
    - split; [apply fresh_safe|]. split; [intros c0 r0 I0; exists r0; auto|]. split; [exact Logic.I|]. split; [cbn; auto|]. split; [|cbn; discriminate].
      intros c0 r0 I0 _. apply C1, I0.
    - rewrite U in U'. injection U' as <-. destruct Gd as (_ & E & _). apply E, I. }
  split; [|exact Not]. destruct (accounted i es w errors St A N D C c r Rb I) as [F|F]; [exact F|contradiction].
Qed.

(** ** What is shown *)

Section Shown.
Variable V : coll -> row -> Prop.

Definition allowed (c : coll) (id d : string) : Prop :=
  (exists r, V c r /\ r_id r = id /\ r_data r = d) \/ (c = Ledgers /\ id = general_id /\ d = general_doc).
Definition dropped (u : run) (c : coll) : Prop :=
  match u_stage u with SStart => False | SDrop cs => ~ In c cs | SEnd => u_status u = Completed | _ => True end.
Definition task_in (t : task) : Prop := forall c r, (In (c, r) (k_items t) \/ exists rest, k_at t = WItems rest /\ In (c, r) rest) -> V c r.
Definition true_to (u : run) (w : world) : Prop :=
  (forall t, In t (w_tasks w) -> task_in t)
  /\ (forall c off n count rest r, u_stage u = SDoc c off n count rest -> In r rest -> V c r)
  /\ (forall c id d, dropped u c -> look (w_ix w) c id = Some d -> allowed c id d).

Lemma deduplicate_in : forall l seen x, In x (deduplicate seen l) -> In x l.
Proof.
  intros l. induction l as [|y l IH]; intros seen x I; cbn in *; [exact I|]. destruct (existsb (same_item y) seen).
  - right. eapply IH, I.
  - destruct I as [I|I]; [left; exact I|right; eapply IH, I].
Qed.
Lemma items_in : forall w l c r, In (c, r) (items_of w l) -> In r (w_tab w c).
Proof.
  intros w l c r I. unfold items_of in I. apply in_flat_map in I as ([c0 id] & _ & I). cbn in I.
  destruct (row_of id (w_tab w c0)) as [r0|] eqn:E; [|destruct I]. destruct I as [I|[]]. injection I as <- <-. apply (find_some _ _ E).
Qed.

Lemma upsert_allowed : forall c id refs d ix ix', upsert c id refs d ix = Some ix' -> allowed c id d ->
  forall c' id' d', (look ix c' id' = Some d' -> allowed c' id' d') -> look ix' c' id' = Some d' -> allowed c' id' d'.
Proof.
  intros c id refs d ix ix' U A c' id' d' H L. rewrite (upsert_looks _ _ _ _ _ _ _ _ U) in L.
  destruct (coll_eqb_spec c' c) as [->|N]; cbn [andb] in L; [|apply H, L].
  destruct (String.eqb_spec id' id) as [->|N]; [injection L as <-; exact A|apply H, L].
Qed.
Lemma general_allowed : allowed Ledgers general_id general_doc.
Proof. right. auto. Qed.

Lemma work_true : forall o p k ix ot ix', task_in k -> work o p k ix = (ot, ix') ->
  (forall x, ot = Some x -> task_in x)
  /\ forall c id d, (look ix c id = Some d -> allowed c id d) -> look ix' c id = Some d -> allowed c id d.
Proof.
  intros o p k ix ot ix' T W.
  assert (Re : forall at', (forall rest, at' = WItems rest -> forall c r, In (c, r) rest -> V c r) -> forall n,
     task_in {| k_items := k_items k; k_at := at'; k_left := n |}).
  { intros at' H n c r [I|(rest & E & I)]; cbn in *; [apply T; left; exact I|eapply H; [exact E|exact I]]. }
  assert (Fl : forall x, failed k = Some x -> task_in x).
  { intros x E. unfold failed in E. destruct (k_left k); [discriminate E|]. injection E as <-. apply Re. discriminate. }
  unfold work in W. destruct (k_at k) as [done| |[|[c0 r] rest]] eqn:At.
  - destruct (covers done); [injection W as <- <-; split; [|auto]; intros x E; injection E as <-; apply Re; discriminate|].
    destruct o; injection W as <- <-; (split; [|try (intros c id d; rewrite create_looks); auto]); try exact Fl; intros x E; injection E as <-; apply Re; discriminate.
  - destruct o; try (injection W as <- <-; split; [|auto]; try exact Fl; intros x E; injection E as <-; apply Re; discriminate).
    destruct (show_general ix) eqn:S; injection W as <- <-; [|split; [exact Fl|auto]]. split.
    + intros x E. injection E as <-. apply Re. intros rest E c r I. injection E as <-. apply T. left. exact I.
    + intros c id d. eapply upsert_allowed; [exact S|exact general_allowed].
  - injection W as <- <-. split; [discriminate|auto].
  - destruct o; try (injection W as <- <-; split; [|auto]; try exact Fl; intros x E; injection E as <-; apply Re; discriminate).
    destruct (show c0 r ix) eqn:S; injection W as <- <-; [|split; [exact Fl|auto]]. split.
    + intros x E. injection E as <-. apply Re. intros rest' E c r' I. injection E as <-. apply T. right. exists ((c0, r) :: rest). split; [exact At|right; exact I].
    + intros c id d. eapply upsert_allowed; [exact S|]. left. exists r. split; [|auto]. apply T. right. exists ((c0, r) :: rest). split; [exact At|left; reflexivity].
Qed.

Lemma true_step : forall o p t w u u' ix', (forall c r, In r (w_tab w c) -> V c r) -> step o p t (w_tab w) u (w_ix w) = (u', ix') -> true_to u w ->
  forall w', w_tasks w' = w_tasks w -> w_ix w' = ix' -> true_to u' w'.
Proof.
  intros o p t w u u' ix' G S (Tk & Rs & Ix) w' EK EX. unfold true_to. rewrite EK, EX. split; [exact Tk|].
  unfold step in S. unfold dropped in Ix |- *.
  destruct (u_stage u) as [|[|c cs]|done| |c off count|c off n count [|r rest]|] eqn:St.
  - injection S as <- <-. cbn. split; [discriminate|]. intros c id d N. exfalso. apply N. destruct c; auto 6.
  - injection S as <- <-. cbn. split; [discriminate|]. intros c id d _. apply Ix. intros [].
  - destruct o; injection S as <- <-; cbn; (split; [discriminate|]); try discriminate.
    intros c0 id d N L. unfold drop, look in L. destruct (coll_eqb_spec c0 c) as [->|X]; [rewrite set_same in L; discriminate L|].
    rewrite set_other in L by exact X. apply Ix; [|exact L]. intros [K|K]; [congruence|contradiction].
  - destruct (covers done); [injection S as <- <-; cbn; split; [discriminate|auto]|].
    destruct o; injection S as <- <-; cbn; (split; [discriminate|]); try discriminate; try exact Ix. intros c id d. rewrite create_looks. apply Ix.
  - destruct o; [|injection S as <- <-; cbn; split; [discriminate|exact Ix]|injection S as <- <-; cbn; split; discriminate].
    destruct (show_general (w_ix w)) as [ix1|] eqn:Gn; injection S as <- <-; cbn; (split; [discriminate|]); try discriminate.
    intros c id d _. eapply upsert_allowed; [exact Gn|exact general_allowed|]. apply Ix. exact Logic.I.
  - destruct o; [|injection S as <- <-; cbn; split; discriminate|injection S as <- <-; cbn; split; discriminate].
    destruct (page c t (u_batch u) off (w_tab w c)) as [|x l] eqn:P.
    + destruct (after c); injection S as <- <-; cbn; (split; [discriminate|auto]).
    + injection S as <- <-. cbn [at_stage u_stage]. split; [|exact Ix].
      intros c0 off0 n0 count0 rest r K I. injection K as <- <- <- <- <-. apply G. apply (page_in c t (u_batch u) off). rewrite P. exact I.
  - injection S as <- <-. cbn. split; [discriminate|auto].
  - assert (Rest : forall v, v = SDoc c off n count rest \/ v = SDoc c off n (Datatypes.S count) rest ->
       forall c1 off1 n1 count1 rest1 r1, v = SDoc c1 off1 n1 count1 rest1 -> In r1 rest1 -> V c1 r1).
    { intros v K c1 off1 n1 count1 rest1 r1 K1 I. assert (Eq : c1 = c /\ rest1 = rest) by (destruct K as [K|K]; rewrite K in K1; injection K1; intros; subst; auto).
      destruct Eq as [-> ->]. apply (Rs c off n count (r :: rest) r1 eq_refl). right. exact I. }
    destruct o.
    + destruct (show c r (w_ix w)) as [ix1|] eqn:Sh; injection S as <- <-; cbn [at_stage noted u_stage].
      * split; [eapply Rest; right; reflexivity|]. intros c0 id d _. eapply upsert_allowed; [exact Sh| |apply Ix; exact Logic.I].
        left. exists r. split; [|auto]. eapply Rs; [reflexivity|left; reflexivity].
      * split; [eapply Rest; left; reflexivity|exact Ix].
    + injection S as <- <-. rewrite St. split; [|exact Ix]. intros c0 off0 n0 count0 rest0 r0 K. apply (Rs c0 off0 n0 count0 rest0 r0 K).
    + injection S as <- <-. cbn [noted u_stage]. split; [eapply Rest; left; reflexivity|exact Ix].
  - injection S as <- <-. rewrite St. split; [discriminate|exact Ix].
Qed.

Lemma true_moves : forall i e w u w' u', (forall c r, In r (w_tab w c) -> V c r) -> moves i e w u w' u' -> true_to u w -> true_to u' w'.
Proof.
  intros i e w u w' u' G Mv Tr. pose proof Tr as (Tk & Rs & Ix).
  destruct Mv as [o p t Ee ET EK ST|ET EK EX ->|k o p ot I ET -> W X|c r N ET EK EX ->|c id refs d Ee ET EK EX ->|id Ee ET EK EX ->|l ET EX -> EK|ET EK EX ->];
    try (unfold true_to; rewrite ?EK, ?EX; exact Tr).
  - eapply true_step; eauto.
  - unfold true_to. rewrite EK, EX. split; [exact Tk|]. split; [cbn; discriminate|]. unfold dropped. cbn. discriminate.
  - destruct (work_true o p k (w_ix w) ot (w_ix w') (Tk k I) W) as [W1 W2]. split; [|split; [exact Rs|]].
    + intros x Ix'. destruct (X x Ix') as [J|J]; [apply Tk, J|apply W1, J].
    + intros c id d Dr. apply W2. apply Ix, Dr.
  - unfold true_to. rewrite EK, EX. split; [|split; [exact Rs|exact Ix]].
    intros x I. apply in_app_or in I as [I|[<-|[]]]; [apply Tk, I|]. intros c r [I|(rest & E & _)]; [|discriminate E].
    cbn in I. apply deduplicate_in, items_in in I. apply G, I.
Qed.

Definition ended (u : run) : Prop := u_status u = Completed -> u_stage u = SEnd.
Lemma ended_moves : forall i e w u w' u', moves i e w u w' u' -> ended u -> ended u'.
Proof.
  intros i e w u w' u' Mv En. destruct Mv as [o p t Ee ET EK ST|ET EK EX ->|k o p ot I ET -> W X|c r N ET EK EX ->|c id refs d Ee ET EK EX ->|id Ee ET EK EX ->|l ET EX -> EK|ET EK EX ->]; try exact En.
  - unfold ended in *. unfold step in ST. destruct (u_stage u) as [|[|c cs]|done| |c off count|c off n count [|r rest]|] eqn:St.
    + injection ST as <- _. discriminate.
    + injection ST as <- _. intros C. specialize (En C). discriminate En.
    + destruct o; injection ST as <- _; cbn; try discriminate. intros C. specialize (En C). discriminate En.
    + destruct (covers done); [|destruct o]; injection ST as <- _; cbn; try discriminate; intros C; specialize (En C); discriminate En.
    + destruct o; [destruct (show_general (w_ix w))| |]; injection ST as <- _; cbn; try discriminate; intros C; specialize (En C); discriminate En.
    + destruct o; [destruct (page c t (u_batch u) off (w_tab w c)); [destruct (after c)|]| |]; injection ST as <- _; cbn; try discriminate; try reflexivity; intros C; specialize (En C); discriminate En.
    + injection ST as <- _. intros C. specialize (En C). discriminate En.
    + destruct o; [destruct (show c r (w_ix w))| |]; injection ST as <- _; intros C; specialize (En C); discriminate En.
    + injection ST as <- _. intros _. exact St.
  - intros C. discriminate C.
Qed.

Lemma shown_allowed : forall i es w errors, started i w -> alone i es w ->
  all_along (fun w' => forall c r, In r (w_tab w' c) -> V c r) es w -> (forall t, In t (w_tasks w) -> task_in t) ->
  completed i (play es w) errors -> forall c id d, shows (play es w) c id d -> allowed c id d.
Proof.
  intros i es w errors (n & R) A G Tk (u & U & C & _) c id d L.
  destruct (play_keeps (fun u w' => true_to u w' /\ ended u) (fun _ => True) (fun w' => forall c r, In r (w_tab w' c) -> V c r) i) with (es := es) (w := w) (u := fresh n)
    as (u' & U' & (_ & _ & Ix) & En); auto.
  - intros e w1 u1 w2 u2 G1 _ _ M [T En]. split; [eapply true_moves; eauto|eapply ended_moves; eauto].
  - split; [|intros E; discriminate E]. split; [exact Tk|]. split; [cbn; discriminate|]. intros c0 id0 d0 [].
  - rewrite U in U'. injection U' as <-. apply Ix; [|exact L]. unfold dropped. rewrite (En C). exact C.
Qed.
End Shown.

(** Every document of a rebuilt index is a row as it has been since the start, comes from a task
    that was waiting then, or is the general ledger as it is set up. *)
Theorem only_true : forall i es w errors, started i w -> alone i es w -> completed i (play es w) errors ->
  forall c id d, shows (play es w) c id d ->
  (exists es1 es2 r, es = es1 ++ es2 /\ In r (w_tab (play es1 w) c) /\ r_id r = id /\ r_data r = d)
  \/ (exists r, waiting w c r /\ r_id r = id /\ r_data r = d)
  \/ (c = Ledgers /\ id = general_id /\ d = general_doc).
Proof.
  intros i es w errors St A C c id d L.
  set (V := fun c r => (exists es1 es2, es = es1 ++ es2 /\ In r (w_tab (play es1 w) c)) \/ waiting w c r).
  destruct (shown_allowed V i es w errors St A) with (c := c) (id := id) (d := d) as [(r & [(es1 & es2 & E & I)|Wt] & E1 & E2)|G]; auto.
  - intros es1 es2 E c0 r0 I. left. eauto.
  - intros t I c0 r0 H. right. exists t. auto.
  - left. exists es1, es2, r. auto.
  - right. left. exists r. auto.
Qed.

Definition same_row (c : coll) (id d : string) (w : world) : Prop :=
  (forall r, In r (w_tab w c) -> r_id r = id -> r_data r = d) /\ (exists r, In r (w_tab w c) /\ r_id r = id).
Lemma same_happen : forall c id d e w, (forall refs d, e <> EUpdate c id refs d) -> (forall i, e <> EDelete i) -> same_row c id d w -> same_row c id d (happen e w).
Proof.
  intros c id d e w NU ND (S1 & r1 & I1 & E1). destruct e as [c0 r|c0 id0 refs d0|id0|l|k o p|n| |j o p t|j]; cbn [happen].
  - destruct (row_of (r_id r) (w_tab w c0)) eqn:Ro; [split; eauto|]. unfold same_row. cbn.
    destruct (coll_eqb_spec c c0) as [<-|N]; [rewrite set_same|rewrite set_other by exact N; split; eauto]. split.
    + intros r0 [<-|I] E; [|apply S1; assumption]. exfalso. apply (row_of_none _ _ r1 Ro I1). congruence.
    + exists r1. split; [right; exact I1|exact E1].
  - unfold same_row. cbn. destruct (coll_eqb_spec c c0) as [<-|N]; [rewrite set_same|rewrite set_other by exact N; split; eauto]. split.
    + intros r0 I E. apply in_map_iff in I as (r2 & <- & I). destruct (String.eqb_spec (r_id r2) id0) as [J|J]; [|apply S1; assumption].
      exfalso. cbn in E. apply (NU refs d0). congruence.
    + eexists. split; [apply in_map, I1|]. destruct (String.eqb (r_id r1) id0); exact E1.
  - exfalso. eapply ND. reflexivity.
  - split; eauto.
  - destruct (nth_error (w_tasks w) k); [|split; eauto]. destruct (work o p t (w_ix w)) as [[t'|] ix]; split; eauto.
  - destruct (in_progress w); split; eauto.
  - destruct (has_data w && index_empty w); split; eauto.
  - destruct (nth_error (w_runs w) j) as [v|]; [|split; eauto]. destruct (step o p t (w_tab w) v (w_ix w)). split; eauto.
  - destruct (nth_error (w_runs w) j) as [v|]; [|split; eauto]. destruct (u_stage v); split; eauto.
Qed.
Lemma same_along : forall c id d es w, unchanged c id es -> no_delete es -> same_row c id d w -> all_along (same_row c id d) es w.
Proof.
  intros c id d es. induction es as [|e es IH]; intros w U N S es1 es2 E.
  - destruct es1; [exact S|discriminate E].
  - destruct es1 as [|e1 es1]; [exact S|]. cbn in E. injection E as <- E. apply (IH (happen e w)) with (es2 := es2); [| | |exact E].
    + intros refs d0 I. apply (U refs d0). right. exact I.
    + intros i I. apply (N i). right. exact I.
    + apply same_happen; [| |exact S].
      * intros refs d0 ->. apply (U refs d0). left. reflexivity.
      * intros i ->. apply (N i). left. reflexivity.
Qed.

(** A row nobody changes meanwhile is shown as it is. *)
Theorem unchanged_shown : forall i es w errors, started i w -> alone i es w -> no_delete es -> dated (play es w) -> completed i (play es w) errors ->
  forall c r, rebuilt c -> In r (w_tab w c) -> NoDup (map r_id (w_tab w c)) -> unchanged c (r_id r) es ->
  (forall r', waiting w c r' -> r_id r' = r_id r -> r_data r' = r_data r) -> (c, r_id r) <> (Ledgers, general_id) ->
  shows (play es w) c (r_id r) (r_data r) \/ In (c, r_id r) errors.
Proof.
  intros i es w errors St A N D C c r Rb I Nd U Wt NG.
  destruct (accounted i es w errors St A N D C c r Rb I) as [(d & L)|F]; [left|right; exact F].
  assert (S0 : same_row c (r_id r) (r_data r) w).
  { split; [|eauto]. intros r0 I0 E. f_equal. clear -I I0 E Nd. induction (w_tab w c) as [|x l IH]; [destruct I|].
    cbn in Nd. inversion Nd as [|a b Nx Nl]; subst. destruct I as [->|I], I0 as [->|I0]; auto.
    - exfalso. apply Nx. rewrite <- E. apply in_map, I0.
    - exfalso. apply Nx. rewrite E. apply in_map, I. }
  pose proof (same_along c (r_id r) (r_data r) es w U N S0) as Al.
  destruct (only_true i es w errors St A C c (r_id r) d L) as [(es1 & es2 & r0 & E & I0 & E1 & E2)|[(r0 & W0 & E1 & E2)|(E1 & E2 & _)]].
  - destruct (Al es1 es2 E) as [Sm _]. rewrite <- (Sm r0 I0 E1), E2. exact L.
  - rewrite <- (Wt r0 W0 E1), E2. exact L.
  - exfalso. apply NG. congruence.
Qed.
