(** A rebuilding accounts for every row. *)
From Coq Require Import List String Bool Arith ZArith Lia.
From Verif Require Import SearchModel SearchSpec SearchPage.
Import ListNotations.
Local Open Scope string_scope.
Local Open Scope nat_scope.
Local Open Scope list_scope.

Lemma nth_set_same : forall {A : Type} i (x : A) l, i < List.length l -> nth_error (set_nth i x l) i = Some x.
Proof. intros A i. induction i as [|i IH]; intros x [|y l] L; cbn in *; try lia; [reflexivity|]. apply IH. lia. Qed.
Lemma nth_set_other : forall {A : Type} i j (x : A) l, i <> j -> nth_error (set_nth i x l) j = nth_error l j.
Proof. intros A i. induction i as [|i IH]; intros [|j] x [|y l] L; cbn; try reflexivity; [lia|]. apply IH. lia. Qed.
Lemma in_set_nth : forall {A : Type} i (x y : A) l, In y (set_nth i x l) -> In y l \/ y = x.
Proof.
  intros A i. induction i as [|i IH]; intros x y [|z l] I; cbn in *; try contradiction; destruct I as [I|I]; auto.
  apply IH in I as [I|I]; auto.
Qed.
Lemma in_del_nth : forall {A : Type} i (y : A) l, In y (del_nth i l) -> In y l.
Proof. intros A i. induction i as [|i IH]; intros y [|z l] I; cbn in *; try contradiction; auto. destruct I as [I|I]; auto. Qed.

Lemma coll_eqb_spec : forall a b, reflect (a = b) (coll_eqb a b).
Proof. intros [] []; cbn; constructor; congruence. Qed.
Lemma set_same : forall {A : Type} c (v : A) f, set c v f c = v.
Proof. intros A c v f. unfold set. destruct (coll_eqb_spec c c); congruence. Qed.
Lemma set_other : forall {A : Type} c c' (v : A) f, c' <> c -> set c v f c' = f c'.
Proof. intros A c c' v f N. unfold set. destruct (coll_eqb_spec c' c); congruence. Qed.

(** What an event does when no other run is under way. *)
Inductive moves (i : nat) (e : event) (w : world) (u : run) (w' : world) (u' : run) : Prop :=
| m_step : forall o p t, e = EStep i o p t -> w_tab w' = w_tab w -> w_tasks w' = w_tasks w ->
    step o p t (w_tab w) u (w_ix w) = (u', w_ix w') -> moves i e w u w' u'
| m_stop : w_tab w' = w_tab w -> w_tasks w' = w_tasks w -> w_ix w' = w_ix w -> u' = over u Failed -> moves i e w u w' u'
| m_work : forall k o p ot, In k (w_tasks w) -> w_tab w' = w_tab w -> u' = u -> work o p k (w_ix w) = (ot, w_ix w') ->
    (forall x, In x (w_tasks w') -> In x (w_tasks w) \/ ot = Some x) -> moves i e w u w' u'
| m_insert : forall c r, row_of (r_id r) (w_tab w c) = None -> w_tab w' = set c (r :: w_tab w c) (w_tab w) ->
    w_tasks w' = w_tasks w -> w_ix w' = w_ix w -> u' = u -> moves i e w u w' u'
| m_update : forall c id refs d, e = EUpdate c id refs d ->
    w_tab w' = set c (map (fun r => if String.eqb (r_id r) id then change refs d r else r) (w_tab w c)) (w_tab w) ->
    w_tasks w' = w_tasks w -> w_ix w' = w_ix w -> u' = u -> moves i e w u w' u'
| m_delete : forall id, e = EDelete id ->
    w_tab w' = set Identities (filter (fun r => negb (String.eqb (r_id r) id)) (w_tab w Identities)) (w_tab w) ->
    w_tasks w' = w_tasks w -> w_ix w' = w_ix w -> u' = u -> moves i e w u w' u'
| m_note : forall l, w_tab w' = w_tab w -> w_ix w' = w_ix w -> u' = u ->
    w_tasks w' = w_tasks w ++ [{| k_items := deduplicate [] (items_of w l); k_at := WCreate []; k_left := retries |}] -> moves i e w u w' u'
| m_same : w_tab w' = w_tab w -> w_tasks w' = w_tasks w -> w_ix w' = w_ix w -> u' = u -> moves i e w u w' u'.

Lemma moves_happen : forall i e w u, nth_error (w_runs w) i = Some u ->
  (forall j v, j <> i -> nth_error (w_runs w) j = Some v -> u_stage v = SEnd) ->
  exists u', nth_error (w_runs (happen e w)) i = Some u' /\ moves i e w u (happen e w) u'.
Proof.
  intros i e w u R A.
  assert (L : i < List.length (w_runs w)) by (apply nth_error_Some; congruence).
  destruct e as [c r|c id refs d|id|l|k o p|n| |j o p t|j]; cbn [happen].
  - destruct (row_of (r_id r) (w_tab w c)) eqn:E; exists u; (split; [exact R|]); [apply m_same|eapply m_insert]; try reflexivity; exact E.
  - exists u. split; [exact R|]. eapply m_update; reflexivity.
  - exists u. split; [exact R|]. eapply m_delete; reflexivity.
  - exists u. split; [exact R|]. eapply m_note; reflexivity.
  - destruct (nth_error (w_tasks w) k) as [t|] eqn:T; [|exists u; split; [exact R|apply m_same; reflexivity]].
    destruct (work o p t (w_ix w)) as [[t'|] ix] eqn:W; exists u; (split; [exact R|]).
    + eapply m_work; [eapply nth_error_In, T|reflexivity|reflexivity|cbn; exact W|].
      cbn. intros x I. apply in_set_nth in I as [I| ->]; auto.
    + eapply m_work; [eapply nth_error_In, T|reflexivity|reflexivity|cbn; exact W|].
      cbn. intros x I. apply in_del_nth in I. auto.
  - exists u. destruct (in_progress w); [split; [exact R|apply m_same; reflexivity]|].
    split; [cbn; rewrite nth_error_app1; assumption|apply m_same; reflexivity].
  - exists u. destruct (has_data w && index_empty w); [|split; [exact R|apply m_same; reflexivity]].
    split; [cbn; rewrite nth_error_app1; assumption|apply m_same; reflexivity].
  - destruct (nth_error (w_runs w) j) as [v|] eqn:V; [|exists u; split; [exact R|apply m_same; reflexivity]].
    destruct (step o p t (w_tab w) v (w_ix w)) as [v' ix] eqn:S. destruct (Nat.eq_dec j i) as [ -> |N].
    + rewrite R in V. injection V as <-. exists v'. split; [cbn; apply nth_set_same, L|].
      eapply m_step; [reflexivity|reflexivity|reflexivity|cbn; exact S].
    + pose proof (A j v N V) as E. unfold step in S. rewrite E in S. injection S as <- <-.
      exists u. split; [cbn; rewrite nth_set_other; assumption|apply m_same; reflexivity].
  - destruct (nth_error (w_runs w) j) as [v|] eqn:V; [|exists u; split; [exact R|apply m_same; reflexivity]].
    destruct (Nat.eq_dec j i) as [ -> |N].
    + rewrite R in V. injection V as <-.
      destruct (u_stage u); try (exists (over u Failed); split; [cbn; apply nth_set_same, L|apply m_stop; reflexivity]).
      exists u. split; [exact R|apply m_same; reflexivity].
    + rewrite (A j v N V). exists u. split; [exact R|apply m_same; reflexivity].
Qed.

(** ** Documents stay *)

Lemma find_put : forall id d l, doc_of id (put id d l) = Some d.
Proof. intros id d l. unfold doc_of, put. cbn. rewrite String.eqb_refl. reflexivity. Qed.
Lemma find_put_other : forall id id' d l, id' <> id -> doc_of id' (put id d l) = doc_of id' l.
Proof.
  intros id id' d l N. unfold doc_of, put. cbn. destruct (String.eqb_spec id id'); [congruence|].
  induction l as [|x l IH]; [reflexivity|]. cbn. destruct (String.eqb_spec (fst x) id) as [E|E]; cbn.
  - destruct (String.eqb_spec (fst x) id'); [congruence|]. exact IH.
  - destruct (String.eqb_spec (fst x) id'); [reflexivity|exact IH].
Qed.
Lemma upsert_looks : forall c id refs d ix ix' c' id', upsert c id refs d ix = Some ix' ->
  look ix' c' id' = if coll_eqb c' c && String.eqb id' id then Some d else look ix c' id'.
Proof.
  intros c id refs d ix ix' c' id' U. unfold upsert in U. destruct (ix c) as [l|] eqn:C; [|discriminate U].
  destruct (forallb (has ix) refs); [|discriminate U]. injection U as <-. unfold look.
  destruct (coll_eqb_spec c' c) as [ -> |N]; cbn [andb]; [|rewrite set_other by exact N; reflexivity].
  rewrite set_same, C. destruct (String.eqb_spec id' id) as [ -> |N]; [apply find_put|apply find_put_other, N].
Qed.
Lemma upsert_keeps : forall c id refs d ix ix' c' id', upsert c id refs d ix = Some ix' -> look ix c' id' <> None -> look ix' c' id' <> None.
Proof. intros c id refs d ix ix' c' id' U L. rewrite (upsert_looks _ _ _ _ _ _ _ _ U). destruct (_ && _); [discriminate|exact L]. Qed.
Lemma create_looks : forall c ix c' id', look (create c ix) c' id' = look ix c' id'.
Proof.
  intros c ix c' id'. unfold create. destruct (ix c) eqn:C; [reflexivity|]. unfold look.
  destruct (coll_eqb_spec c' c) as [ -> |N]; [rewrite set_same, C; reflexivity|rewrite set_other by exact N; reflexivity].
Qed.
Lemma work_keeps : forall o p k ix ot ix' c id, work o p k ix = (ot, ix') -> look ix c id <> None -> look ix' c id <> None.
Proof.
  intros o p k ix ot ix' c id W L. unfold work in W. destruct (k_at k) as [done| |[|[c0 r] rest]].
  - destruct (covers done); [injection W as _ <-; exact L|]. destruct o; injection W as _ <-; try exact L. rewrite create_looks. exact L.
  - destruct o; try (injection W as _ <-; exact L). destruct (show_general ix) eqn:S; injection W as _ <-; [|exact L].
    eapply upsert_keeps; [exact S|exact L].
  - injection W as _ <-. exact L.
  - destruct o; try (injection W as _ <-; exact L). destruct (show c0 r ix) eqn:S; injection W as _ <-; [|exact L].
    eapply upsert_keeps; [exact S|exact L].
Qed.

(** ** Every row is accounted for *)

Section Rebuild.
Variable T0 : coll -> list row.

Definition acc (u : run) (ix : index) (c : coll) (id : string) : Prop := look ix c id <> None \/ In (c, id) (u_errors u).
Definition past (u : run) (ix : index) (c : coll) : Prop :=
  forall c' r, rank_of c' < rank_of c -> In r (T0 c') -> acc u ix c' (r_id r).
Definition safe (u : run) (w : world) : Prop :=
  1 <= u_batch u /\
  match u_stage u with
  | SPage c off _ => u_status u <> Completed /\ c <> Reconciliations /\ past u (w_ix w) c
      /\ forall r, In r (T0 c) -> acc u (w_ix w) c (r_id r) \/ off <= later (r_created r) (w_tab w c)
  | SDoc c off n _ rest => u_status u <> Completed /\ c <> Reconciliations /\ past u (w_ix w) c
      /\ forall r, In r (T0 c) -> acc u (w_ix w) c (r_id r) \/ In (r_id r) (map r_id rest) \/ off + n <= later (r_created r) (w_tab w c)
  | SEnd => u_status u = Completed -> forall c r, rebuilt c -> In r (T0 c) -> acc u (w_ix w) c (r_id r)
  | _ => u_status u <> Completed
  end.
Definition kept (w : world) : Prop := forall c r, In r (T0 c) -> exists r', In r' (w_tab w c) /\ r_id r' = r_id r /\ r_created r' = r_created r.

Lemma acc_keeps : forall u ix ix' c id, (forall c id, look ix c id <> None -> look ix' c id <> None) -> acc u ix c id -> acc u ix' c id.
Proof. intros u ix ix' c id K [L|E]; [left; apply K, L|right; exact E]. Qed.
Lemma acc_more : forall u u' ix c id, incl (u_errors u) (u_errors u') -> acc u ix c id -> acc u' ix c id.
Proof. intros u u' ix c id K [L|E]; [left; exact L|right; apply K, E]. Qed.

(** The tables may grow under it, and more may be shown. *)
Lemma safe_mono : forall u w w', (forall c id, look (w_ix w) c id <> None -> look (w_ix w') c id <> None) ->
  (forall z c, later z (w_tab w c) <= later z (w_tab w' c)) -> safe u w -> safe u w'.
Proof.
  intros u w w' K T [B S]. split; [exact B|]. destruct (u_stage u) as [|cs|l| |c off n|c off n count rest|]; try exact S.
  - destruct S as (S1 & S2 & S3 & S4). repeat split; auto.
    + intros c' r L I. eapply acc_keeps; [exact K|]. apply S3; assumption.
    + intros r I. destruct (S4 r I) as [A|A]; [left; eapply acc_keeps; [exact K|exact A]|right]. specialize (T (r_created r) c). lia.
  - destruct S as (S1 & S2 & S3 & S4). repeat split; auto.
    + intros c' r L I. eapply acc_keeps; [exact K|]. apply S3; assumption.
    + intros r I. destruct (S4 r I) as [A|[A|A]]; [left; eapply acc_keeps; [exact K|exact A]|right; left; exact A|right; right].
      specialize (T (r_created r) c). lia.
  - intros C c r R I. eapply acc_keeps; [exact K|]. apply S; assumption.
Qed.

Lemma later_insert : forall z c r (t : coll -> list row) c', later z (t c') <= later z (set c (r :: t c) t c').
Proof.
  intros z c r t c'. destruct (coll_eqb_spec c' c) as [ -> |N]; [rewrite set_same|rewrite set_other by exact N; lia].
  unfold later. cbn. destruct (z <? r_created r)%Z; cbn; lia.
Qed.
Lemma later_map : forall z (f : row -> row) t, (forall r, r_created (f r) = r_created r) -> later z (map f t) = later z t.
Proof.
  intros z f t F. unfold later. induction t as [|r t IH]; [reflexivity|]. cbn. rewrite F. destruct (z <? r_created r)%Z; cbn; rewrite IH; reflexivity.
Qed.
Definition touch (id : string) (refs : list (coll * string)) (d : string) (r : row) : row := if String.eqb (r_id r) id then change refs d r else r.
Lemma touch_created : forall id refs d r, r_created (touch id refs d r) = r_created r.
Proof. intros. unfold touch. destruct (String.eqb (r_id r) id); reflexivity. Qed.
Lemma touch_id : forall id refs d r, r_id (touch id refs d r) = r_id r.
Proof. intros. unfold touch. destruct (String.eqb (r_id r) id); reflexivity. Qed.
Lemma later_update : forall z c id refs d (t : coll -> list row) c', later z (set c (map (touch id refs d) (t c)) t c') = later z (t c').
Proof.
  intros z c id refs d t c'. destruct (coll_eqb_spec c' c) as [ -> |N]; [rewrite set_same|rewrite set_other by exact N; reflexivity].
  apply later_map, touch_created.
Qed.

Lemma kept_insert : forall w w' c r, kept w -> w_tab w' = set c (r :: w_tab w c) (w_tab w) -> kept w'.
Proof.
  intros w w' c r K E c' r0 I. destruct (K c' r0 I) as (r' & I' & P). exists r'. split; [|exact P]. rewrite E.
  destruct (coll_eqb_spec c' c) as [ -> |N]; [rewrite set_same; right; exact I'|rewrite set_other by exact N; exact I'].
Qed.
Lemma kept_update : forall w w' c id refs d, kept w -> w_tab w' = set c (map (touch id refs d) (w_tab w c)) (w_tab w) -> kept w'.
Proof.
  intros w w' c id refs d K E c' r0 I. destruct (K c' r0 I) as (r' & I' & P1 & P2). rewrite E.
  destruct (coll_eqb_spec c' c) as [ -> |N]; [|rewrite set_other by exact N; eauto].
  rewrite set_same. exists (touch id refs d r'). split; [apply in_map, I'|]. rewrite touch_id, touch_created. auto.
Qed.

Lemma safe_step : forall o p t w u u' ix', dated w -> kept w -> step o p t (w_tab w) u (w_ix w) = (u', ix') -> safe u w ->
  forall w', w_tab w' = w_tab w -> w_ix w' = ix' -> safe u' w'.
Proof.
  intros o p t w u u' ix' D K S [B H] w' ET EX. unfold step in S. unfold safe. rewrite ET, EX.
  destruct (u_stage u) as [|[|c cs]|done| |c off count|c off n count [|r rest]|] eqn:St; rewrite ?St in H.
  - injection S as <- <-. cbn. split; [exact B|discriminate].
  - injection S as <- <-. cbn. split; [exact B|exact H].
  - destruct o; injection S as <- <-; cbn; (split; [exact B|]); try exact H; discriminate.
  - destruct (covers done); [injection S as <- <-; cbn; split; [exact B|exact H]|].
    destruct o; injection S as <- <-; cbn; (split; [exact B|]); try exact H; discriminate.
  - destruct o; [|injection S as <- <-; cbn; split; [exact B|exact H]|injection S as <- <-; cbn; split; [exact B|discriminate]].
    destruct (show_general (w_ix w)) as [ix1|] eqn:G; injection S as <- <-; cbn; (split; [exact B|]); [|discriminate].
    split; [exact H|]. split; [discriminate|]. split; [intros c r L; cbn in L; lia|]. intros r I. right. lia.
  - destruct o; [|injection S as <- <-; cbn; split; [exact B|discriminate]|injection S as <- <-; cbn; split; [exact B|discriminate]].
    destruct H as (H1 & H2 & H3 & H4).
    destruct (page c t (u_batch u) off (w_tab w c)) as [|x l] eqn:P.
    + assert (All : forall r, In r (T0 c) -> acc u (w_ix w) c (r_id r)).
      { intros r I. destruct (H4 r I) as [A|A]; [exact A|]. destruct (K c r I) as (r' & I' & _ & E). exfalso.
        rewrite <- E in A. exact (page_last c t (u_batch u) off (w_tab w c) r' B (D c) I' A P). }
      destruct (after c) as [c'|] eqn:Af; injection S as <- <-; cbn; (split; [exact B|]).
      * split; [exact H1|]. split; [destruct c; cbn in Af; try discriminate Af; injection Af as <-; discriminate|]. split; [|intros r I; right; lia].
        intros c0 r L I. change (acc u (w_ix w) c0 (r_id r)). destruct (coll_eqb_spec c0 c) as [ -> |N]; [apply All, I|].
        apply H3; [|exact I]. destruct c; cbn in Af; try discriminate Af; injection Af as <-; destruct c0; cbn in *; try lia; congruence.
      * intros _ c0 r Rb I. change (acc u (w_ix w) c0 (r_id r)). destruct (coll_eqb_spec c0 c) as [ -> |N]; [apply All, I|].
        apply H3; [|exact I]. unfold rebuilt in Rb. destruct c; cbn in Af; try discriminate Af; [|congruence]. destruct c0; cbn; try lia; congruence.
    + injection S as <- <-. cbn [at_stage u_stage u_batch u_status]. split; [exact B|]. split; [exact H1|]. split; [exact H2|]. split.
      * intros c0 r L I. exact (H3 c0 r L I).
      * intros r I. destruct (H4 r I) as [A|A]; [left; exact A|]. right. destruct (K c r I) as (r' & I' & E1 & E2). rewrite <- E2 in A.
        destruct (page_next c t (u_batch u) off (w_tab w c) r' (D c) I' A) as [Q|Q]; rewrite P in Q.
        -- left. rewrite <- E1. apply in_map, Q.
        -- right. rewrite <- E2. exact Q.
  - injection S as <- <-. cbn. destruct H as (H1 & H2 & H3 & H4). split; [exact B|]. split; [exact H1|]. split; [exact H2|]. split.
    + intros c0 r L I. exact (H3 c0 r L I).
    + intros r I. destruct (H4 r I) as [A|[[]|A]]; [left; exact A|right; exact A].
  - destruct H as (H1 & H2 & H3 & H4).
    assert (Bad : safe (noted u (SDoc c off n count rest) c (r_id r)) {| w_tab := w_tab w; w_ix := w_ix w; w_tasks := []; w_runs := []; w_last := None |}).
    { unfold safe. cbn. split; [exact B|]. split; [exact H1|]. split; [exact H2|].
      assert (M : incl (u_errors u) (u_errors u ++ [(c, r_id r)])) by (intros x I; apply in_or_app; left; exact I). split.
      - intros c0 r0 L I. eapply acc_more; [exact M|]. apply H3; assumption.
      - intros r0 I. destruct (H4 r0 I) as [A|[[A|A]|A]]; [left; eapply acc_more; [exact M|exact A]| |right; left; exact A|right; right; exact A].
        left. right. cbn. apply in_or_app. right. left. rewrite A. reflexivity. }
    destruct o.
    + destruct (show c r (w_ix w)) as [ix1|] eqn:G; injection S as <- <-; [|exact Bad].
      cbn. split; [exact B|]. split; [exact H1|]. split; [exact H2|].
      assert (M : forall c0 id, look (w_ix w) c0 id <> None -> look ix1 c0 id <> None) by (intros c0 id; eapply upsert_keeps, G). split.
      * intros c0 r0 L I. eapply (acc_keeps _ (w_ix w)); [exact M|]. exact (H3 c0 r0 L I).
      * intros r0 I. destruct (H4 r0 I) as [A|[[A|A]|A]]; [left; eapply acc_keeps; [exact M|exact A]| |right; left; exact A|right; right; exact A].
        left. left. rewrite (upsert_looks _ _ _ _ _ _ _ _ G), A, String.eqb_refl. destruct (coll_eqb_spec c c); [discriminate|congruence].
    + injection S as <- <-. cbn. split; [exact B|]. rewrite St. auto.
    + injection S as <- <-. exact Bad.
  - injection S as <- <-. split; [exact B|]. rewrite St. exact H.
Qed.

Lemma safe_moves : forall i e w u w' u', (forall id, e <> EDelete id) -> dated w -> kept w -> moves i e w u w' u' -> safe u w -> safe u' w' /\ kept w'.
Proof.
  intros i e w u w' u' ND D K M S. destruct M as [o p t E ET EK ST|ET EK EX ->|k o p ot I ET -> W _|c r N ET EK EX ->|c id refs d E ET EK EX ->|id E|l ET EX -> EK|ET EK EX ->].
  - split; [eapply safe_step; eauto|]. unfold kept. rewrite ET. exact K.
  - split; [|unfold kept; rewrite ET; exact K]. destruct S as [B _]. split; [exact B|]. cbn. discriminate.
  - split; [|unfold kept; rewrite ET; exact K]. eapply safe_mono; [| |exact S].
    + intros c id. eapply work_keeps, W.
    + intros z c. rewrite ET. lia.
  - split; [|eapply kept_insert; eauto]. eapply safe_mono; [| |exact S]; [rewrite EX; auto|]. intros z c'. rewrite ET. apply later_insert.
  - split; [|eapply kept_update; eauto]. eapply safe_mono; [| |exact S]; [rewrite EX; auto|]. intros z c'. rewrite ET.
    change (later z (w_tab w c') <= later z (set c (map (touch id refs d) (w_tab w c)) (w_tab w) c')). rewrite later_update. lia.
  - exfalso. apply (ND id), E.
  - split; [|unfold kept; rewrite ET; exact K]. eapply safe_mono; [| |exact S]; [rewrite EX; auto|]. intros z c'. rewrite ET. lia.
  - split; [|unfold kept; rewrite ET; exact K]. eapply safe_mono; [| |exact S]; [rewrite EX; auto|]. intros z c'. rewrite ET. lia.
Qed.
End Rebuild.

(** ** Runs *)

Lemma dated_happen : forall e w, (forall id, e <> EDelete id) -> dated (happen e w) -> dated w.
Proof.
  intros e w N D c. specialize (D c). destruct e as [c0 r|c0 id refs d|id|l|k o p|n| |j o p t|j]; cbn [happen] in D; try exact D.
  - destruct (row_of (r_id r) (w_tab w c0)); [exact D|]. cbn in D.
    destruct (coll_eqb_spec c c0) as [ -> |X]; [rewrite set_same in D; inversion D; assumption|rewrite set_other in D by exact X; exact D].
  - cbn in D. destruct (coll_eqb_spec c c0) as [ -> |X]; [rewrite set_same in D|rewrite set_other in D by exact X; exact D].
    rewrite map_map in D. erewrite map_ext in D; [exact D|]. intros r. cbn. destruct (String.eqb (r_id r) id); reflexivity.
  - exfalso. apply (N id). reflexivity.
  - destruct (nth_error (w_tasks w) k); [|exact D]. destruct (work o p t (w_ix w)) as [[t'|] ix]; exact D.
  - destruct (in_progress w); exact D.
  - destruct (has_data w && index_empty w); exact D.
  - destruct (nth_error (w_runs w) j); [|exact D]. destruct (step o p t (w_tab w) r (w_ix w)). exact D.
  - destruct (nth_error (w_runs w) j); [|exact D]. destruct (u_stage r); exact D.
Qed.
Lemma dated_play : forall es w, no_delete es -> dated (play es w) -> dated w.
Proof.
  intros es. induction es as [|e es IH]; intros w N D; [exact D|]. apply (dated_happen e).
  - intros id E. apply (N id). left. exact E.
  - apply IH; [|exact D]. intros id I. apply (N id). right. exact I.
Qed.
Lemma alone_cons : forall i e es w, alone i (e :: es) w ->
  (forall j v, j <> i -> nth_error (w_runs w) j = Some v -> u_stage v = SEnd) /\ alone i es (happen e w).
Proof.
  intros i e es w A. split; [exact (A [] (e :: es) eq_refl)|]. intros es1 es2 E. apply (A (e :: es1) es2). cbn. rewrite E. reflexivity.
Qed.

(** [G] holds all the way. *)
Definition all_along (G : world -> Prop) (es : list event) (w : world) : Prop := forall es1 es2, es = es1 ++ es2 -> G (play es1 w).
Lemma along_cons : forall G e es w, all_along G (e :: es) w -> G w /\ all_along G es (happen e w).
Proof.
  intros G e es w A. split; [exact (A [] (e :: es) eq_refl)|]. intros es1 es2 E. apply (A (e :: es1) es2). cbn. rewrite E. reflexivity.
Qed.
Lemma along_start : forall G es w, all_along G es w -> G w.
Proof. intros G es w A. exact (A [] es eq_refl). Qed.
Lemma dated_along : forall es w, no_delete es -> dated (play es w) -> all_along dated es w.
Proof.
  intros es. induction es as [|e es IH]; intros w N D es1 es2 E.
  - destruct es1 as [|e1 es1]; [exact D|discriminate E].
  - destruct es1 as [|e1 es1]; cbn in E.
    + apply (dated_play (e :: es)); assumption.
    + injection E as <- E. apply (IH (happen e w)) with (es2 := es2); [intros id I; apply (N id); right; exact I|exact D|exact E].
Qed.

(** An invariant of moves is one of runs. *)
Lemma play_keeps : forall (P : run -> world -> Prop) (Q : event -> Prop) (G : world -> Prop) i,
  (forall e w u w' u', G w -> G w' -> Q e -> moves i e w u w' u' -> P u w -> P u' w') ->
  forall es w u, (forall e, In e es -> Q e) -> alone i es w -> all_along G es w -> nth_error (w_runs w) i = Some u -> P u w ->
  exists u', nth_error (w_runs (play es w)) i = Some u' /\ P u' (play es w).
Proof.
  intros P Q G i M es. induction es as [|e es IH]; intros w u HQ A HG R H; [exists u; auto|].
  destruct (alone_cons _ _ _ _ A) as [A1 A2]. destruct (along_cons _ _ _ _ HG) as [G1 G2].
  destruct (moves_happen i e w u R A1) as (u1 & R1 & M1).
  apply (IH (happen e w) u1); auto.
  - intros e' I. apply HQ. right. exact I.
  - apply (M e w u); auto; [apply (along_start G es), G2|apply HQ; left; reflexivity].
Qed.

Lemma fresh_safe : forall T0 n w, safe T0 (fresh n) w.
Proof. intros T0 n w. split; [cbn; destruct (Z.leb_spec n 0); [lia|cbn; lia]|]. cbn. discriminate. Qed.

Theorem accounted : forall i es w errors, started i w -> alone i es w -> no_delete es -> dated (play es w) ->
  completed i (play es w) errors ->
  forall c r, rebuilt c -> In r (w_tab w c) -> finds (play es w) c (r_id r) \/ In (c, r_id r) errors.
Proof.
  intros i es w errors (n & R) A N D (u & U & C & <-) c r Rb I.
  destruct (play_keeps (fun u w' => safe (w_tab w) u w' /\ kept (w_tab w) w') (fun e => forall id, e <> EDelete id) dated i) with (es := es) (w := w) (u := fresh n) as (u' & U' & (_ & S) & _); auto.
  - intros e w1 u1 w2 u2 D1 _ ND M [S K]. eapply safe_moves; eauto.
  - intros e Ie id ->. exact (N id Ie).
  - apply dated_along; assumption.
  - split; [apply fresh_safe|]. intros c0 r0 I0. exists r0. auto.
  - rewrite U in U'. injection U' as <-.
    assert (H : acc u (w_ix (play es w)) c (r_id r)).
    { destruct (u_stage u); try (exfalso; tauto). apply S; assumption. }
    destruct H as [L|E]; [left|right; exact E]. unfold finds, shows. destruct (look (w_ix (play es w)) c (r_id r)) as [d|]; [eauto|congruence].
Qed.
