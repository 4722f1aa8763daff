(** A rebuilding can always be finished, and one in progress keeps others from starting. *)
From Coq Require Import List String Bool Arith ZArith Lia.
From Verif Require Import SearchModel SearchSpec SearchPage SearchInv SearchDocs.
Import ListNotations.
Local Open Scope string_scope.
Local Open Scope nat_scope.
Local Open Scope list_scope.

Lemma made_step : forall o p t tab u ix u' ix', step o p t tab u ix = (u', ix') -> made u ix -> made u' ix'.
Proof.
  intros o p t tab u ix u' ix' S M. unfold step in S. unfold made in *.
  destruct (u_stage u) as [|[|c cs]|done| |c off count|c off n count [|r rest]|] eqn:St.
  - injection S as <- <-. exact Logic.I.
  - injection S as <- <-. cbn. intros c [].
  - destruct o; injection S as <- <-; exact Logic.I.
  - destruct (covers done) eqn:Cv; [injection S as <- <-; cbn; intros c; apply M, covers_all, Cv|].
    destruct o; injection S as <- <-; cbn; [|intros c []|exact Logic.I].
    intros c I. apply create_there. destruct I as [<-|I]; [right; reflexivity|left; apply M, I].
  - destruct o; [|injection S as <- <-; cbn; intros c []|injection S as <- <-; exact Logic.I].
    destruct (show_general ix) as [ix1|] eqn:G; injection S as <- <-; [|exact Logic.I]. cbn. intros c. eapply upsert_there; [exact G|apply M].
  - destruct o; try (injection S as <- <-; exact Logic.I).
    destruct (page c t (u_batch u) off (tab c)); [destruct (after c)|]; injection S as <- <-; try exact Logic.I; exact M.
  - injection S as <- <-. exact M.
  - destruct o; [|injection S as <- <-; rewrite St; exact M|injection S as <- <-; exact M].
    destruct (show c r ix) as [ix1|] eqn:G; injection S as <- <-; [|exact M]. cbn. intros c0. eapply upsert_there; [exact G|apply M].
  - injection S as <- <-. rewrite St. exact Logic.I.
Qed.
Lemma batch_step : forall o p t tab u ix u' ix', step o p t tab u ix = (u', ix') -> u_batch u' = u_batch u.
Proof.
  intros o p t tab u ix u' ix' S. unfold step in S.
  destruct (u_stage u) as [|[|c cs]|done| |c off count|c off n count [|r rest]|].
  - injection S as <- <-. reflexivity.
  - injection S as <- <-. reflexivity.
  - destruct o; injection S as <- <-; reflexivity.
  - destruct (covers done); [injection S as <- <-; reflexivity|]. destruct o; injection S as <- <-; reflexivity.
  - destruct o; [destruct (show_general ix)| |]; injection S as <- <-; reflexivity.
  - destruct o; [destruct (page c t (u_batch u) off (tab c)); [destruct (after c)|]| |]; injection S as <- <-; reflexivity.
  - injection S as <- <-. reflexivity.
  - destruct o; [destruct (show c r ix)| |]; injection S as <- <-; reflexivity.
  - injection S as <- <-. reflexivity.
Qed.

Section Go.
Variable tab : coll -> list row.
Definition tie0 (s : string) : nat := 0.
Fixpoint go (l : list coll) (u : run) (ix : index) : run * index :=
  match l with [] => (u, ix) | p :: r => let (u', ix') := step Fine p tie0 tab u ix in go r u' ix' end.
Lemma go_app : forall a b u ix, go (a ++ b) u ix = let (u', ix') := go a u ix in go b u' ix'.
Proof. intros a. induction a as [|p a IH]; intros b u ix; cbn; [reflexivity|]. destruct (step Fine p tie0 tab u ix). apply IH. Qed.
Lemma go_made : forall l u ix, 1 <= u_batch u /\ made u ix -> 1 <= u_batch (fst (go l u ix)) /\ made (fst (go l u ix)) (snd (go l u ix)).
Proof.
  intros l. induction l as [|p l IH]; intros u ix M; cbn; [exact M|]. destruct (step Fine p tie0 tab u ix) as [u' ix'] eqn:S.
  apply IH. split; [rewrite (batch_step _ _ _ _ _ _ _ _ S); tauto|eapply made_step; [exact S|tauto]].
Qed.

(** A state of the run from which it can be completed. *)
Definition ends (u : run) (ix : index) : Prop := exists l, u_status (fst (go l u ix)) = Completed.
Lemma ends_go : forall l u ix, ends (fst (go l u ix)) (snd (go l u ix)) -> ends u ix.
Proof. intros l u ix (k & E). exists (l ++ k). rewrite go_app. destruct (go l u ix). exact E. Qed.
Lemma ends_step : forall p u ix, ends (fst (step Fine p tie0 tab u ix)) (snd (step Fine p tie0 tab u ix)) -> ends u ix.
Proof. intros p u ix E. apply (ends_go [p]). cbn. destruct (step Fine p tie0 tab u ix). exact E. Qed.

Lemma doc_go : forall rest c off n count u ix, u_stage u = SDoc c off n count rest ->
  exists l count', u_stage (fst (go l u ix)) = SPage c (off + n) count'.
Proof.
  intros rest. induction rest as [|r rest IH]; intros c off n count u ix St.
  - exists [Ledgers], count. cbn. unfold step. rewrite St. reflexivity.
  - destruct (step Fine Ledgers tie0 tab u ix) as [u1 ix1] eqn:S.
    assert (H : exists count1, u_stage u1 = SDoc c off n count1 rest).
    { unfold step in S. rewrite St in S. destruct (show c r ix); injection S as <- <-; cbn; eauto. }
    destruct H as (count1 & St1). destruct (IH c off n count1 u1 ix1 St1) as (l & count' & E).
    exists (Ledgers :: l), count'. cbn. rewrite S. exact E.
Qed.

Lemma page_go : forall c, (forall u ix count, 1 <= u_batch u -> made u ix -> u_stage u = SPage c 0 count -> True) ->
  forall m off count u ix, List.length (tab c) - off <= m -> 1 <= u_batch u -> made u ix -> u_stage u = SPage c off count ->
  (forall u' ix' c', after c = Some c' -> 1 <= u_batch u' -> made u' ix' -> u_stage u' = SPage c' 0 0 -> ends u' ix') -> ends u ix.
Proof.
  intros c _ m. induction m as [|m IH]; intros off count u ix L B M St Next.
  all: destruct (step Fine Ledgers tie0 tab u ix) as [u1 ix1] eqn:S; pose proof (made_step _ _ _ _ _ _ _ _ S M) as M1;
    pose proof (batch_step _ _ _ _ _ _ _ _ S) as B1; apply (ends_step Ledgers); rewrite S; cbn [fst snd];
    unfold step in S; rewrite St in S; destruct (page c tie0 (u_batch u) off (tab c)) as [|x l] eqn:P;
    [destruct (after c) as [c'|] eqn:Af; injection S as <- <-; [eapply Next; [reflexivity|cbn; exact B|exact M1|reflexivity]|exists []; reflexivity]|].
  - exfalso. unfold page in P. apply (f_equal (@List.length row)) in P. rewrite firstn_length, skipn_length in P.
    rewrite (Permutation.Permutation_length (sort_perm tie0 (tab c))) in P. cbn in P. lia.
  - injection S as <- <-. destruct (doc_go (x :: l) c off (List.length (x :: l)) count (at_stage u (SDoc c off (List.length (x :: l)) count (x :: l))) ix eq_refl) as (k & count' & E).
    apply (ends_go k). destruct (go_made k (at_stage u (SDoc c off (List.length (x :: l)) count (x :: l))) ix) as [B2 M2]; [split; [exact B|exact M1]|].
    eapply (IH (off + List.length (x :: l)) count'); [|exact B2|exact M2|exact E|exact Next]. cbn [List.length]. lia.
Qed.

Lemma phase_go : forall c count u ix, 1 <= u_batch u -> made u ix -> u_stage u = SPage c 0 count -> ends u ix.
Proof.
  assert (Any : forall c, (forall u ix c', after c = Some c' -> 1 <= u_batch u -> made u ix -> u_stage u = SPage c' 0 0 -> ends u ix) ->
    forall count u ix, 1 <= u_batch u -> made u ix -> u_stage u = SPage c 0 count -> ends u ix).
  { intros c Nx count u ix B M St. eapply (page_go c); eauto. }
  assert (R : forall count u ix, 1 <= u_batch u -> made u ix -> u_stage u = SPage Reconciliations 0 count -> ends u ix) by (apply Any; intros u ix c' E; discriminate E).
  assert (T : forall count u ix, 1 <= u_batch u -> made u ix -> u_stage u = SPage Transactions 0 count -> ends u ix) by (apply Any; intros u ix c' E; discriminate E).
  assert (Bl : forall count u ix, 1 <= u_batch u -> made u ix -> u_stage u = SPage Balances 0 count -> ends u ix) by (apply Any; intros u ix c' E; injection E as <-; apply T).
  assert (Id : forall count u ix, 1 <= u_batch u -> made u ix -> u_stage u = SPage Identities 0 count -> ends u ix) by (apply Any; intros u ix c' E; injection E as <-; apply Bl).
  assert (Le : forall count u ix, 1 <= u_batch u -> made u ix -> u_stage u = SPage Ledgers 0 count -> ends u ix) by (apply Any; intros u ix c' E; injection E as <-; apply Id).
  intros []; assumption.
Qed.
Lemma general_go : forall u ix, 1 <= u_batch u -> made u ix -> u_stage u = SGeneral -> ends u ix.
Proof.
  intros u ix B M St. destruct (step Fine Ledgers tie0 tab u ix) as [u1 ix1] eqn:S. pose proof (made_step _ _ _ _ _ _ _ _ S M) as M1.
  apply (ends_step Ledgers). rewrite S. cbn [fst snd]. unfold step in S. rewrite St in S.
  unfold made in M. rewrite St in M. specialize (M Ledgers). unfold there in M.
  unfold show_general, upsert in S. destruct (ix Ledgers); [|congruence]. cbn in S. injection S as <- <-.
  eapply phase_go; [exact B|exact M1|reflexivity].
Qed.
Lemma create_go : forall ps done u ix, covers (rev ps ++ done) = true -> 1 <= u_batch u -> made u ix -> u_stage u = SCreate done -> ends u ix.
Proof.
  intros ps. induction ps as [|p ps IH]; intros done u ix C B M St.
  - change (covers done = true) in C. apply (ends_step Ledgers). destruct (step Fine Ledgers tie0 tab u ix) as [u1 ix1] eqn:S. pose proof (made_step _ _ _ _ _ _ _ _ S M) as M1.
    cbn [fst snd]. unfold step in S. rewrite St, C in S. injection S as <- <-. apply general_go; [exact B|exact M1|reflexivity].
  - apply (ends_step p). destruct (step Fine p tie0 tab u ix) as [u1 ix1] eqn:S. pose proof (made_step _ _ _ _ _ _ _ _ S M) as M1.
    cbn [fst snd]. unfold step in S. rewrite St in S. destruct (covers done).
    + injection S as <- <-. apply general_go; [exact B|exact M1|reflexivity].
    + injection S as <- <-. apply (IH (p :: done)); [|exact B|exact M1|reflexivity]. cbn [rev] in C. rewrite <- app_assoc in C. exact C.
Qed.
Lemma drop_go : forall cs u ix, 1 <= u_batch u -> made u ix -> u_stage u = SDrop cs -> ends u ix.
Proof.
  intros cs. induction cs as [|c cs IH]; intros u ix B M St; apply (ends_step Ledgers);
    destruct (step Fine Ledgers tie0 tab u ix) as [u1 ix1] eqn:S; pose proof (made_step _ _ _ _ _ _ _ _ S M) as M1; cbn [fst snd]; unfold step in S; rewrite St in S.
  - injection S as <- <-. apply (create_go every []); [reflexivity|exact B|exact M1|reflexivity].
  - injection S as <- <-. apply IH; [exact B|exact M1|reflexivity].
Qed.
Lemma any_go : forall u ix, 1 <= u_batch u -> made u ix -> u_stage u <> SEnd \/ u_status u = Completed -> ends u ix.
Proof.
  intros u ix B M [N|C]; [|exists []; exact C]. destruct (u_stage u) as [|cs|done| |c off count|c off n count rest|] eqn:St.
  - apply (ends_step Ledgers). destruct (step Fine Ledgers tie0 tab u ix) as [u1 ix1] eqn:S. pose proof (made_step _ _ _ _ _ _ _ _ S M) as M1.
    cbn [fst snd]. unfold step in S. rewrite St in S. injection S as <- <-. apply (drop_go every); [exact B|exact M1|reflexivity].
  - eapply drop_go; eauto.
  - apply (create_go (rev every) done); [|exact B|exact M|exact St]. cbn. destruct done; reflexivity.
  - apply general_go; assumption.
  - eapply (page_go c); eauto. intros u' ix' c' _ B' M' St'. eapply phase_go; eauto.
  - destruct (doc_go rest c off n count u ix St) as (l & count' & E). apply (ends_go l). destruct (go_made l u ix (conj B M)) as [B' M'].
    eapply (page_go c); eauto. intros u' ix' c' _ B2 M2 St'. eapply phase_go; eauto.
  - congruence.
Qed.
End Go.

Lemma play_go : forall i l w u, nth_error (w_runs w) i = Some u ->
  nth_error (w_runs (play (map (fun p => EStep i Fine p tie0) l) w)) i = Some (fst (go (w_tab w) l u (w_ix w))).
Proof.
  intros i l. induction l as [|p l IH]; intros w u R; [exact R|]. cbn [map play fold_left]. cbn [go].
  destruct (step Fine p tie0 (w_tab w) u (w_ix w)) as [u' ix'] eqn:S.
  assert (H : happen (EStep i Fine p tie0) w = with_runs w (set_nth i u' (w_runs w)) ix').
  { cbn. rewrite R, S. reflexivity. }
  change (nth_error (w_runs (play (map (fun p => EStep i Fine p tie0) l) (happen (EStep i Fine p tie0) w))) i = Some (fst (go (w_tab w) l u' ix'))).
  rewrite H. apply (IH (with_runs w (set_nth i u' (w_runs w)) ix')). cbn. apply nth_set_same. apply nth_error_Some. congruence.
Qed.

(** Whatever has happened meanwhile, unless it has failed or was stopped. *)
Definition able (u : run) (w : world) : Prop := 1 <= u_batch u /\ made u (w_ix w).
Lemma able_moves : forall i e w u w' u', moves i e w u w' u' -> able u w -> able u' w'.
Proof.
  intros i e w u w' u' Mv (B & M). unfold able.
  destruct Mv as [o p t Ee ET EK ST|ET EK EX ->|k o p ot I ET -> W X|c r N ET EK EX ->|c id refs d Ee ET EK EX ->|id Ee ET EK EX ->|l ET EX -> EK|ET EK EX ->];
    try (rewrite EX; split; [exact B|exact M]).
  - split; [rewrite (batch_step _ _ _ _ _ _ _ _ ST); exact B|eapply made_step; eauto].
  - split; [exact B|exact Logic.I].
  - split; [exact B|]. eapply made_mono; [|exact M]. intros c. eapply work_there, W.
Qed.
Theorem can_finish : forall i es w u, started i w -> alone i es w -> nth_error (w_runs (play es w)) i = Some u -> u_status u <> Failed ->
  exists es', (forall e, In e es' -> exists p t, e = EStep i Fine p t) /\ exists errors, completed i (play (es ++ es') w) errors.
Proof.
  intros i es w u (n & R) A U NF.
  destruct (play_keeps (fun u w' => able u w' /\ (u_stage u = SEnd -> u_status u = Completed \/ u_status u = Failed)) (fun _ => True) (fun _ => True) i)
    with (es := es) (w := w) (u := fresh n) as (u' & U' & (B & M) & En); auto.
  - intros e w1 u1 w2 u2 _ _ _ Mv (Ab & En). split; [eapply able_moves; eauto|].
    destruct Mv as [o p t Ee ET EK ST|ET EK EX ->|k o p ot I ET -> W X|c r N ET EK EX ->|c id refs d Ee ET EK EX ->|id Ee ET EK EX ->|l ET EX -> EK|ET EK EX ->]; try exact En.
    + unfold step in ST. destruct (u_stage u1) as [|[|c cs]|done| |c off count|c off m count [|r rest]|] eqn:St.
      * injection ST as <- _. cbn. discriminate.
      * injection ST as <- _. cbn. discriminate.
      * destruct o; injection ST as <- _; cbn; auto; discriminate.
      * destruct (covers done); [|destruct o]; injection ST as <- _; cbn; auto; discriminate.
      * destruct o; [destruct (show_general (w_ix w1))| |]; injection ST as <- _; cbn; auto; discriminate.
      * destruct o; [destruct (page c t (u_batch u1) off (w_tab w1 c)); [destruct (after c)|]| |]; injection ST as <- _; cbn; auto; discriminate.
      * injection ST as <- _. cbn. discriminate.
      * destruct o; [destruct (show c r (w_ix w1))| |]; injection ST as <- _; cbn; try discriminate. rewrite St. discriminate.
      * injection ST as <- _. intros _. apply En. reflexivity.
    + intros _. right. reflexivity.
  - intros es1 es2 _. exact Logic.I.
  - split; [|cbn; discriminate]. destruct (fresh_safe (w_tab w) n w) as [B _]. split; [exact B|exact Logic.I].
  - rewrite U in U'. injection U' as <-.
    assert (H : ends (w_tab (play es w)) u (w_ix (play es w))).
    { apply any_go; [exact B|exact M|]. destruct (u_stage u) eqn:St; try (left; discriminate). right. destruct (En eq_refl); [assumption|contradiction]. }
    destruct H as (l & E). exists (map (fun p => EStep i Fine p tie0) l). split.
    + intros e I. apply in_map_iff in I as (p & <- & _). eauto.
    + eexists. eexists. split; [|split; [exact E|reflexivity]]. unfold play. rewrite fold_left_app. fold (play es w). apply play_go, U.
Qed.

(** A run in progress that the server knows keeps requests from starting another. *)
Theorem one_at_a_time : forall w n i u, w_last w = Some i -> nth_error (w_runs w) i = Some u -> u_status u = InProgress -> happen (EBegin n) w = w.
Proof. intros w n i u L R S. cbn. unfold in_progress. rewrite L, R, S. reflexivity. Qed.

(** The total it reports is what it has counted so far, at any time. *)
Theorem total_is_processed : forall i es w u, started i w -> alone i es w -> nth_error (w_runs (play es w)) i = Some u -> u_total u = u_processed u.
Proof.
  intros i es w u (n & R) A U.
  destruct (play_keeps (fun u _ => u_total u = u_processed u) (fun _ => True) (fun _ => True) i) with (es := es) (w := w) (u := fresh n) as (u' & U' & E); auto.
  - intros e w1 u1 w2 u2 _ _ _ Mv E.
    destruct Mv as [o p t Ee ET EK ST|ET EK EX ->|k o p ot I ET -> W X|c r N ET EK EX ->|c id refs d Ee ET EK EX ->|id Ee ET EK EX ->|l ET EX -> EK|ET EK EX ->]; try exact E.
    unfold step in ST. destruct (u_stage u1) as [|[|c cs]|done| |c off count|c off m count [|r rest]|].
    + injection ST as <- _. reflexivity.
    + injection ST as <- _. exact E.
    + destruct o; injection ST as <- _; exact E.
    + destruct (covers done); [|destruct o]; injection ST as <- _; exact E.
    + destruct o; [destruct (show_general (w_ix w1))| |]; injection ST as <- _; try exact E. reflexivity.
    + destruct o; [destruct (page c t (u_batch u1) off (w_tab w1 c)); [destruct (after c)|]| |]; injection ST as <- _; exact E.
    + injection ST as <- _. reflexivity.
    + destruct o; [destruct (show c r (w_ix w1))| |]; injection ST as <- _; exact E.
    + injection ST as <- _. exact E.
  - intros es1 es2 _. exact Logic.I.
  - rewrite U in U'. injection U' as <-. exact E.
Qed.

(** ** The status that is reported *)
Lemma step_fits o p t tab u ix : fits u -> fits (fst (step o p t tab u ix)).
Proof.
  unfold step, fits. destruct (u_stage u) as [|[|c cs]|done| |c off count|c off n count [|r rest]|] eqn:St; intros F.
  - reflexivity.
  - exact F.
  - destruct o; cbn; auto.
  - destruct (covers done); [exact F|]. destruct o; cbn; auto.
  - destruct o; cbn; auto. destruct (show_general ix); cbn; auto.
  - destruct o; cbn; auto. destruct (page c t (u_batch u) off (tab c)); [|cbn; auto]. destruct (after c); cbn; auto.
  - exact F.
  - destruct o; cbn [fst]; [destruct (show c r ix); exact F|rewrite St; exact F|exact F].
  - cbn [fst]. rewrite St. exact F.
Qed.
Theorem status_fits : forall es w, (forall u, In u (w_runs w) -> fits u) -> forall u, In u (w_runs (play es w)) -> fits u.
Proof.
  induction es as [|e es IH]; intros w F; [exact F|]. cbn [play fold_left]. apply IH. clear IH es. intros u I. destruct e; cbn [happen] in I.
  - destruct (row_of (r_id r) (w_tab w c)); apply F, I.
  - apply F, I.
  - apply F, I.
  - apply F, I.
  - destruct (nth_error (w_tasks w) k) as [t|]; [|apply F, I]. destruct (work o pick t (w_ix w)) as [[t'|] ix]; apply F, I.
  - destruct (in_progress w); [apply F, I|]. cbn in I. apply in_app_or in I as [I|[<-|[]]]; [apply F, I|reflexivity].
  - destruct (has_data w && index_empty w); [|apply F, I]. cbn in I. apply in_app_or in I as [I|[<-|[]]]; [apply F, I|reflexivity].
  - destruct (nth_error (w_runs w) i) as [x|] eqn:E; [|apply F, I]. pose proof (step_fits o pick tie (w_tab w) x (w_ix w) (F x (nth_error_In _ _ E))) as P. destruct (step o pick tie (w_tab w) x (w_ix w)) as [u' ix]. cbn in I. apply in_set_nth in I as [I| ->]; [apply F, I|exact P].
  - destruct (nth_error (w_runs w) i) as [x|] eqn:E; [|apply F, I]. destruct (u_stage x); try (apply F, I); cbn in I; apply in_set_nth in I as [I| ->]; try (apply F, I); right; reflexivity.
Qed.
Theorem status_says : forall es w i u, w_runs w = [] -> nth_error (w_runs (play es w)) i = Some u -> fits u.
Proof. intros es w i u N H. apply (status_fits es w); [rewrite N; intros x []|]. eapply nth_error_In; eauto. Qed.
Theorem gate : forall es w n i u, w_runs w = [] -> w_last (play es w) = Some i -> nth_error (w_runs (play es w)) i = Some u ->
  u_stage u <> SStart -> u_stage u <> SEnd -> happen (EBegin n) (play es w) = play es w.
Proof.
  intros es w n i u N L H A B. apply (one_at_a_time _ n i u L H). pose proof (status_says es w i u N H) as F. unfold fits in F. destruct (u_stage u); try contradiction; exact F.
Qed.
