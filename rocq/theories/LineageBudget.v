(** What attempts release: never more than the debit, never more than is there. *)
From Coq Require Import ZArith List String Bool Lia Permutation Sorting.Sorted.
From Verif Require Import Base ChainModel ChainProof LineageModel LineageSpec AllocProof LineageProof.
Import ListNotations.
Local Open Scope string_scope.
Open Scope Z_scope.
Local Open Scope list_scope.

Definition act_amt (x : act) : Z := match x with XCheck _ _ amt _ | XRelease _ _ amt => amt | _ => 0 end.
Definition pending (t : list act) : Z := sumz act_amt t.

Lemma sumz_app {A} (f : A -> Z) l l' : sumz f (l ++ l') = sumz f l + sumz f l'.
Proof. induction l; cbn [app sumz]; lia. Qed.
Lemma sumz_nonneg {A} (f : A -> Z) l : (forall x, In x l -> 0 <= f x) -> 0 <= sumz f l.
Proof. induction l as [|x l IH]; intros H; cbn [sumz]; [lia|]. pose proof (H x (or_introl eq_refl)). assert (0 <= sumz f l) by (apply IH; intros; apply H; right; assumption). lia. Qed.
Lemma sumz_map {A B} (g : A -> B) (f : B -> Z) l : sumz f (map g l) = sumz (fun x => f (g x)) l.
Proof. induction l; cbn [map sumz]; lia. Qed.

Lemma draw_pending k maps e l : Forall (draw k maps e) l -> 0 <= pending l.
Proof.
  intros F. apply sumz_nonneg. intros x Hx. rewrite Forall_forall in F. specialize (F x Hx). destruct x; cbn [draw act_amt] in *; try lia; destruct F; lia.
Qed.
Lemma shape_pending k maps e t : shape k maps e t -> 0 <= pending t.
Proof.
  intros H. destruct H as [|l t P T| | |l D].
  - cbn; lia.
  - unfold pending. rewrite sumz_app. assert (0 <= sumz act_amt l). { apply sumz_nonneg. intros x Hx. rewrite Forall_forall in P. specialize (P x Hx). destruct x; try destruct P; cbn; lia. }
    destruct T as [->| ->]; cbn; lia.
  - cbn; lia.
  - cbn; lia.
  - eapply draw_pending; exact D.
Qed.
Lemma shape_alloc_in k maps e x rest ms d : shape k maps e (x :: rest) -> In (XAlloc ms d) rest -> exists ks, x = XLock ks /\ rest = [XAlloc ms d].
Proof.
  intros H A. inversion H as [E|l t P T E|ks ms' d' In' R E|ms' d' R E|l D E]; subst.
  - destruct A.
  - exfalso. assert (X : In (XAlloc ms d) (l ++ t)) by (rewrite E; right; exact A). apply in_app_or in X. destruct X as [X|X].
    + rewrite Forall_forall in P. exact (P _ X).
    + destruct T as [->| ->]; [destruct X|destruct X as [X|[]]; discriminate].
  - destruct A as [A|[]]. injection A as -> ->. exists ks; auto.
  - destruct A.
  - exfalso. inversion D as [|? ? _ D2]; subst. rewrite Forall_forall in D2. exact (D2 _ A).
Qed.

(** ** What was released before *)
Lemma rel_of_ref rows i p ref : NoDup (map w_ref rows) -> (forall w, In w rows -> 0 < w_amt w) ->
  (forall w, In w rows -> is_release i w = true -> w_prov w = p -> w_ref w = ref) ->
  sumz w_amt (filter (fun w => is_release i w && String.eqb (w_prov w) p) rows) <= match row_by_ref rows ref with Some w => w_amt w | None => 0 end.
Proof.
  induction rows as [|x rows IH]; intros N P R; [cbn; lia|]. inversion N as [|? ? N1 N2]; subst. cbn [filter].
  assert (IH' := IH N2 (fun w H => P w (or_intror H)) (fun w H => R w (or_intror H))). clear IH.
  unfold row_by_ref in *. cbn [find].
  assert (Px : 0 < w_amt x) by (apply P; left; reflexivity).
  destruct (is_release i x && String.eqb (w_prov x) p) eqn:E.
  - apply andb_true_iff in E. destruct E as [E1 E2]. apply String.eqb_eq in E2. assert (Rx : w_ref x = ref) by (apply R; [left; reflexivity|exact E1|exact E2]).
    rewrite (proj2 (String.eqb_eq _ _) Rx). cbn [sumz].
    destruct (find (fun w => String.eqb (w_ref w) ref) rows) as [y|] eqn:F; [|lia].
    apply find_some in F. destruct F as [F1 F2]. apply String.eqb_eq in F2. exfalso; apply N1. rewrite Rx, <- F2. apply in_map; exact F1.
  - destruct (String.eqb (w_ref x) ref) eqn:F; [|exact IH']. apply String.eqb_eq in F.
    destruct (find (fun w => String.eqb (w_ref w) ref) rows) as [y|] eqn:G; [|lia].
    apply find_some in G. destruct G as [G1 G2]. apply String.eqb_eq in G2. exfalso; apply N1. rewrite F, <- G2. apply in_map; exact G1.
Qed.
Lemma sumz_split rows (f g : wrow -> bool) : (forall w, In w rows -> 0 < w_amt w) -> forall h, (forall w, h w = true -> f w = true \/ g w = true) ->
  sumz w_amt (filter h rows) <= sumz w_amt (filter f rows) + sumz w_amt (filter g rows).
Proof.
  intros P h H. induction rows as [|x rows IH]; [cbn; lia|]. cbn [filter]. assert (Px : 0 < w_amt x) by (apply P; left; reflexivity).
  assert (IH' := IH (fun w Hw => P w (or_intror Hw))). specialize (H x). destruct (h x), (f x), (g x); cbn [sumz]; try lia; try (exfalso; destruct H as [H|H]; [reflexivity|discriminate|discriminate]).
Qed.
Lemma prior_covers rows i ref ms : NoDup (map w_ref rows) -> (forall w, In w rows -> 0 < w_amt w) ->
  (forall w, In w rows -> is_release i w = true -> w_ref w = release_ref ref (w_prov w)) ->
  sumz w_amt (filter (fun w => is_release i w && existsb (String.eqb (w_prov w)) (map mp_prov ms)) rows) <= prior_released rows ref ms.
Proof.
  intros N P R. induction ms as [|m ms IH].
  - cbn [map existsb prior_released sumz]. erewrite filter_ext; [|intros; rewrite andb_false_r; reflexivity]. clear. induction rows; cbn; lia.
  - unfold prior_released in *. cbn [sumz map existsb].
    pose proof (rel_of_ref rows i (mp_prov m) (release_ref ref (mp_prov m)) N P) as A.
    assert (A' : forall w, In w rows -> is_release i w = true -> w_prov w = mp_prov m -> w_ref w = release_ref ref (mp_prov m)) by (intros w Hw Rw Pw; rewrite <- Pw; apply R; assumption).
    specialize (A A'). clear A'.
    pose proof (sumz_split rows (fun w => is_release i w && String.eqb (w_prov w) (mp_prov m)) (fun w => is_release i w && existsb (String.eqb (w_prov w)) (map mp_prov ms)) P
                 (fun w => is_release i w && (String.eqb (w_prov w) (mp_prov m) || existsb (String.eqb (w_prov w)) (map mp_prov ms)))) as B.
    assert (B' := B (fun w H => ltac:(apply andb_true_iff in H; destruct H as [H1 H2]; apply orb_true_iff in H2; rewrite H1; exact H2))). lia.
Qed.

Lemma allocation_total l amount strat : good_sources l -> 0 < amount -> allocated (calculate_allocation l amount strat) <= amount.
Proof.
  intros G A. destruct (string_dec strat "PROPORTIONAL") as [->|N].
  - destruct l as [|x l]; [cbn; lia|]. destruct (proportional_total (x :: l) amount G) as [B _]; [lia|discriminate|]. lia.
  - rewrite sequential_strategy_total by (auto; lia). lia.
Qed.

(** ** Attempts that finish in time *)
Definition live (s : lst) (a : attempt) : Prop := l_now s <= at_until a.
Record inv2 (k : lcfg) (s : lst) : Prop := {
  c_live : forall a, In a (l_atts s) -> live s a -> exists e, nth_error (l_entries s) (at_entry a) = Some e /\ en_status e = EProcessing /\ en_until e = Some (at_until a);
  c_one : forall a b, In a (l_atts s) -> In b (l_atts s) -> live s a -> live s b -> at_entry a = at_entry b -> at_id a = at_id b;
  c_budget : forall a e, In a (l_atts s) -> live s a -> nth_error (l_entries s) (at_entry a) = Some e -> released s (at_entry a) + pending (at_todo a) <= en_amt e;
  c_cap : forall i e, nth_error (l_entries s) i = Some e -> released s i <= en_amt e;
  c_prov : forall w e, In w (l_rows s) -> w_kind w = WRelease -> nth_error (l_entries s) (w_entry w) = Some e ->
             exists m, In m (l_maps s) /\ mp_bal m = en_src e /\ mp_prov m = w_prov w;
  c_ms : forall a ms d w, In a (l_atts s) -> live s a -> In (XAlloc ms d) (at_todo a) -> In w (l_rows s) -> w_kind w = WRelease -> w_entry w = at_entry a -> In (w_prov w) (map mp_prov ms)
}.

Lemma released_app rows w i : sumz w_amt (filter (is_release i) (rows ++ [w])) = sumz w_amt (filter (is_release i) rows) + (if is_release i w then w_amt w else 0).
Proof. rewrite filter_app, sumz_app. cbn [filter]. destruct (is_release i w); cbn [sumz]; lia. Qed.
Lemma is_release_spec i w : is_release i w = true <-> w_kind w = WRelease /\ w_entry w = i.
Proof. unfold is_release. destruct (w_kind w); split; try discriminate; try (intros [? _]; discriminate); rewrite Nat.eqb_eq; tauto. Qed.

(** The rows after a step of [a]: the old ones, or one more; a release is of [a]'s entry, from a known provider. *)
Definition rows2 (s : lst) (a : attempt) (e : entry) (maps : list mapping) (rows : list wrow) : Prop :=
  rows = l_rows s \/
  exists w, rows = l_rows s ++ [w] /\ (w_kind w = WRelease -> w_entry w = at_entry a /\ exists m, In m maps /\ mp_bal m = en_src e /\ mp_prov m = w_prov w).
Definition rel (rows : list wrow) (i : nat) : Z := sumz w_amt (filter (is_release i) rows).

Lemma rows2_other s a e maps rows i : rows2 s a e maps rows -> i <> at_entry a -> rel rows i = rel (l_rows s) i.
Proof.
  intros [->|[w [-> H]]] N; [reflexivity|]. unfold rel. rewrite released_app. destruct (is_release i w) eqn:E; [|lia].
  apply is_release_spec in E. destruct E as [E1 E2]. destruct (H E1) as [H1 _]. congruence.
Qed.
Lemma rows2_prov k s a e maps rows es w e1 : inv1 k s -> inv2 k s -> nth_error (l_entries s) (at_entry a) = Some e -> rows2 s a e maps rows -> incl (l_maps s) maps ->
  (forall i x, nth_error es i = Some x -> exists y, nth_error (l_entries s) i = Some y /\ same_entry y x) ->
  In w rows -> w_kind w = WRelease -> nth_error es (w_entry w) = Some e1 -> exists m, In m maps /\ mp_bal m = en_src e1 /\ mp_prov m = w_prov w.
Proof.
  intros I J E R M B Hw K1 E1. destruct (B _ _ E1) as [e0 [E0 [_ [_ [S3 _]]]]]. rewrite S3.
  assert (Old : In w (l_rows s) -> exists m, In m maps /\ mp_bal m = en_src e0 /\ mp_prov m = w_prov w).
  { intros Ho. destruct (c_prov _ _ J w e0 Ho K1 E0) as [m [M1 M2]]. exists m. split; [apply M; exact M1|exact M2]. }
  destruct R as [->|[x [-> R]]]; [auto|]. apply in_app_or in Hw. destruct Hw as [Hw|[->|[]]]; [auto|].
  destruct (R K1) as [R1 [m [M1 [M2 M3]]]]. rewrite R1 in E0. rewrite E in E0. injection E0 as <-. exists m; auto.
Qed.

Lemma inv2_gone k s a e (f : entry -> entry) rows maps locks atts : inv1 k s -> inv2 k s -> In a (l_atts s) -> live s a -> nth_error (l_entries s) (at_entry a) = Some e ->
  (forall x, same_entry x (f x)) -> rows2 s a e maps rows -> incl (l_maps s) maps -> rel rows (at_entry a) <= en_amt e -> atts = drop_att (at_id a) (l_atts s) ->
  inv2 k {| l_now := l_now s; l_rows := rows; l_maps := maps; l_entries := set_entry (at_entry a) f (l_entries s); l_locks := locks; l_atts := atts; l_next := l_next s |}.
Proof.
  intros I J Ha La E F R M C ->.
  assert (Oth : forall b, In b (drop_att (at_id a) (l_atts s)) -> live s b -> In b (l_atts s) /\ at_entry b <> at_entry a).
  { intros b Hb Lb. apply in_drop in Hb. destruct Hb as [Hb Nb]. split; [exact Hb|]. intros X. apply Nb. apply (c_one _ _ J); assumption. }
  assert (Nth : forall j, j <> at_entry a -> nth_error (set_entry (at_entry a) f (l_entries s)) j = nth_error (l_entries s) j).
  { intros j Nj. rewrite nth_set_entry. destruct (Nat.eqb (at_entry a) j) eqn:X; [apply Nat.eqb_eq in X; congruence|reflexivity]. }
  constructor; cbn [l_now l_rows l_maps l_entries l_atts l_next]; unfold live, released, releases; cbn [l_now l_rows].
  - intros b Hb Lb. destruct (Oth b Hb Lb) as [Hb' Nb]. rewrite Nth by exact Nb. apply (c_live _ _ J); assumption.
  - intros b c Hb Hc Lb Lc. apply (c_one _ _ J); [apply (Oth b Hb Lb)|apply (Oth c Hc Lc)|exact Lb|exact Lc].
  - intros b e1 Hb Lb E1. destruct (Oth b Hb Lb) as [Hb' Nb]. rewrite Nth in E1 by exact Nb.
    change (rel rows (at_entry b) + pending (at_todo b) <= en_amt e1). rewrite (rows2_other s a e maps rows) by assumption. apply (c_budget _ _ J); assumption.
  - intros i e1 E1. change (rel rows i <= en_amt e1). destruct (Nat.eq_dec i (at_entry a)) as [->|Ni].
    + rewrite nth_set_entry, Nat.eqb_refl, E in E1. injection E1 as <-. destruct (F e) as [_ [-> _]]. exact C.
    + rewrite Nth in E1 by exact Ni. rewrite (rows2_other s a e maps rows) by assumption. apply (c_cap _ _ J); exact E1.
  - intros w e1. apply (rows2_prov k s a e maps rows); try assumption. intros i x Hx. eapply keeps_set_back; [exact F|exact Hx].
  - intros b ms d w Hb Lb Hm Hw K1 E1. destruct (Oth b Hb Lb) as [Hb' Nb]. apply (c_ms _ _ J b ms d w); try assumption.
    destruct R as [->|[x [-> R]]]; [exact Hw|]. apply in_app_or in Hw. destruct Hw as [Hw|[<-|[]]]; [exact Hw|]. destruct (R K1) as [R1 _]. congruence.
Qed.
Lemma inv2_cont k s a e rows maps locks t : inv1 k s -> inv2 k s -> In a (l_atts s) -> live s a -> nth_error (l_entries s) (at_entry a) = Some e ->
  rows2 s a e maps rows -> incl (l_maps s) maps -> 0 <= pending t -> rel rows (at_entry a) + pending t <= en_amt e ->
  (forall ms d w, In (XAlloc ms d) t -> In w rows -> w_kind w = WRelease -> w_entry w = at_entry a -> In (w_prov w) (map mp_prov ms)) ->
  inv2 k (cont s a rows maps locks t).
Proof.
  intros I J Ha La E R M P C Q.
  assert (Sp : forall b, In b (set_todo (at_id a) t (l_atts s)) -> (In b (l_atts s) /\ at_id b <> at_id a) \/ b = with_todo a t).
  { intros b Hb. apply in_set_todo in Hb. destruct Hb as [Hb|[a' [H1 [H2 ->]]]]; [left; exact Hb|right].
    assert (a' = a) by (eapply ids_eq; [apply (b_ids _ _ I)|exact H1|exact Ha|exact H2]). subst a'. reflexivity. }
  assert (Oth : forall b, In b (l_atts s) -> at_id b <> at_id a -> live s b -> at_entry b <> at_entry a).
  { intros b Hb Nb Lb X. apply Nb. apply (c_one _ _ J); assumption. }
  constructor; cbn [cont l_now l_rows l_maps l_entries l_atts l_next]; unfold live, released, releases; cbn [cont l_now l_rows].
  - intros b Hb Lb. destruct (Sp b Hb) as [[Hb' Nb]| ->]; [apply (c_live _ _ J); assumption|]. exact (c_live _ _ J a Ha La).
  - intros b c Hb Hc Lb Lc X. destruct (Sp b Hb) as [[Hb' Nb]| ->], (Sp c Hc) as [[Hc' Nc]| ->]; [apply (c_one _ _ J); assumption| | |reflexivity].
    + exfalso. exact (Oth b Hb' Nb Lb X).
    + exfalso. exact (Oth c Hc' Nc Lc (eq_sym X)).
  - intros b e1 Hb Lb E1. destruct (Sp b Hb) as [[Hb' Nb]| ->].
    + change (rel rows (at_entry b) + pending (at_todo b) <= en_amt e1). rewrite (rows2_other s a e maps rows) by (auto). apply (c_budget _ _ J); assumption.
    + cbn [with_todo at_entry at_todo] in *. rewrite E in E1. injection E1 as <-. exact C.
  - intros i e1 E1. change (rel rows i <= en_amt e1). destruct (Nat.eq_dec i (at_entry a)) as [->|Ni].
    + rewrite E in E1. injection E1 as <-. lia.
    + rewrite (rows2_other s a e maps rows) by assumption. apply (c_cap _ _ J); exact E1.
  - intros w e1. apply (rows2_prov k s a e maps rows); try assumption. intros i x Hx. exists x. split; [exact Hx|apply same_entry_refl].
  - intros b ms d w Hb Lb Hm Hw K1 E1. destruct (Sp b Hb) as [[Hb' Nb]| ->].
    + apply (c_ms _ _ J b ms d w); try assumption. destruct R as [->|[x [-> R]]]; [exact Hw|]. apply in_app_or in Hw. destruct Hw as [Hw|[<-|[]]]; [exact Hw|].
      destruct (R K1) as [R1 _]. exfalso. apply (Oth b Hb' Nb Lb). congruence.
    + cbn [with_todo at_entry at_todo] in *. eapply Q; eassumption.
Qed.

Lemma live_alloc_free k maps e x rest rows a (s : lst) : shape k maps e (x :: rest) -> (forall ks, x <> XLock ks) ->
  forall ms d w, In (XAlloc ms d) rest -> In w rows -> w_kind w = WRelease -> w_entry w = at_entry a -> In (w_prov w) (map mp_prov ms).
Proof. intros S X ms d w H. destruct (shape_alloc_in _ _ _ _ _ _ _ S H) as [ks [-> _]]. exfalso; eapply X; reflexivity. Qed.

Lemma inv2_act k s a e x rest o s' : inv1 k s -> inv2 k s -> In a (l_atts s) -> live s a -> at_todo a = x :: rest -> nth_error (l_entries s) (at_entry a) = Some e ->
  ract k s a e rest o x s' -> inv2 k s'.
Proof.
  intros I J Ha La T E R. destruct (b_shape _ _ I a Ha) as [e0 [E0 S]]. rewrite E in E0. injection E0 as <-. rewrite T in S.
  pose proof (c_budget _ _ J a e Ha La E) as B. rewrite T in B. change (released s (at_entry a)) with (rel (l_rows s) (at_entry a)) in B.
  assert (Bx : pending (x :: rest) = act_amt x + pending rest) by reflexivity. rewrite Bx in B.
  pose proof (shape_pending _ _ _ _ S) as P0. rewrite Bx in P0. pose proof (shape_pending _ _ _ _ (shape_tail _ _ _ _ _ S)) as P1.
  assert (Old : rows2 s a e (l_maps s) (l_rows s)) by (left; reflexivity).
  assert (Ax : 0 <= act_amt x). { pose proof (shape_draw _ _ _ _ _ S) as D. destruct x; cbn [act_amt]; try lia; destruct D as [D _]; cbn [draw] in D; destruct D; lia. }
  assert (W2 : forall w, row_of k a e x = Some w -> rows2 s a e (l_maps s) (l_rows s ++ [w]) /\ rel (l_rows s ++ [w]) (at_entry a) = rel (l_rows s) (at_entry a) + act_amt x).
  { intros w W. pose proof (shape_draw _ _ _ _ _ S) as D. unfold rel. rewrite released_app.
    destruct x; cbn [row_of] in W; try discriminate; injection W as <-; unfold is_release; cbn [w_kind w_entry w_amt act_amt]; try rewrite Nat.eqb_refl; (split; [|lia]); right; (eexists; split; [reflexivity|]); cbn [w_kind w_entry w_prov]; intros X; try discriminate X.
    split; [reflexivity|]. destruct D as [[_ [_ D]] _]. exact D. }
  assert (Cap : rel (l_rows s) (at_entry a) <= en_amt e) by (apply (c_cap _ _ J); exact E).
  destruct R.
  - unfold fail_att. eapply inv2_gone; try eassumption; try apply incl_refl; [apply mark_failed_same|reflexivity].
  - destruct (W2 w H) as [W3 W4]. unfold fail_att. eapply inv2_gone; try eassumption; try apply incl_refl; [apply mark_failed_same|lia|reflexivity].
  - destruct (W2 w H) as [W3 W4]. eapply inv2_cont; try eassumption; try apply incl_refl; try lia. eapply live_alloc_free; try eassumption. intros ks ->. discriminate.
  - eapply inv2_cont; try eassumption; [apply incl_refl|destruct b, c; cbn; lia|destruct b, c; cbn; lia|].
    intros ms d w X. exfalso. destruct b, c; cbn in X; intuition discriminate.
  - eapply inv2_cont; try eassumption; try apply incl_refl; try (cbn [act_amt] in *; lia). intros ms d w X. apply (c_ms _ _ J a ms d w); try assumption. rewrite T. right; exact X.
  - eapply inv2_cont; try eassumption; try apply incl_refl; try (cbn [act_amt] in *; lia). eapply live_alloc_free; try eassumption. discriminate.
  - eapply inv2_cont; try eassumption; try (left; reflexivity); try apply upsert_incl; try lia. eapply live_alloc_free; try eassumption. destruct H as [->| ->]; discriminate.
  - eapply inv2_cont; try eassumption; try apply incl_refl; try lia. eapply live_alloc_free; try eassumption. intros ks ->. destruct H.
  - apply shape_maps in S. subst rest. eapply inv2_cont; try eassumption; try apply incl_refl; try (cbn; lia); try (cbn [act_amt] in *; unfold pending in *; cbn [sumz act_amt] in *; lia).
    intros ms d w X Hw K1 E1. destruct X as [X|[X|[]]]; [discriminate|]. injection X as <- _.
    destruct (c_prov _ _ J w e Hw K1) as [m [M1 [M2 M3]]]; [congruence|]. rewrite <- M3. apply in_map. apply in_maps_of. auto.
  - apply shape_alloc in S. destruct S as [-> S]. rewrite app_nil_r.
    set (remaining := en_amt e - prior_released (l_rows s) (en_ref e) ms) in *.
    set (al := calculate_allocation (sources (l_rows s) ms) remaining (k_strat k (en_src e))).
    assert (Pd : pending (map (fun x => XCheck (prov_of ms (al_id x)) (al_id x) (al_amt x) dest) al) = allocated al).
    { unfold pending, allocated. rewrite sumz_map. reflexivity. }
    assert (Al : allocated al <= remaining) by (apply allocation_total; [eapply sources_good; exact S|exact H]).
    assert (Al0 : 0 <= allocated al). { apply sumz_nonneg. intros y Hy. destruct (allocation_from _ _ _ _ _ _ _ _ S Hy) as [X _]. lia. }
    assert (Pr : rel (l_rows s) (at_entry a) <= prior_released (l_rows s) (en_ref e) ms).
    { etransitivity; [|apply (prior_covers (l_rows s) (at_entry a) (en_ref e) ms); [apply (b_refs _ _ I)|intros w Hw; apply (b_rows _ _ I w Hw)|]].
      - unfold rel. apply Z.eq_le_incl. f_equal. apply filter_ext_in. intros w Hw. destruct (is_release (at_entry a) w) eqn:Rw; [|reflexivity]. cbn [andb]. symmetry.
        apply is_release_spec in Rw. destruct Rw as [R1 R2]. apply existsb_exists. exists (w_prov w). split; [|apply String.eqb_refl].
        apply (c_ms _ _ J a ms dest w); try assumption. rewrite T. left; reflexivity.
      - intros w Hw Rw. apply is_release_spec in Rw. destruct Rw as [R1 R2]. destruct (b_rows _ _ I w Hw) as [_ Q]. rewrite R1 in Q. destruct Q as [_ [e1 [E1 [Q _]]]]. congruence. }
    eapply inv2_cont; try eassumption; try apply incl_refl; try lia.
    intros ms' d w X. exfalso. apply in_map_iff in X. destruct X as [y [X _]]. discriminate.
  - assert (Pd : pending (XRelease p sh amt :: (if dest then [XReceive p amt; XMapDest p] else []) ++ rest) = amt + pending rest).
    { unfold pending. cbn [sumz act_amt]. rewrite sumz_app. destruct dest; cbn [sumz act_amt]; lia. }
    eapply inv2_cont; try eassumption; try apply incl_refl; try (cbn [act_amt] in *; lia).
    intros ms d w X. exfalso. destruct X as [X|X]; [discriminate|]. apply in_app_or in X. destruct X as [X|X]; [destruct dest; cbn in X; intuition discriminate|].
    destruct (shape_alloc_in _ _ _ _ _ _ _ S X) as [ks [Y _]]. discriminate.
Qed.

Theorem inv2_step k s ev s' : inv1 k s -> inv2 k s -> in_time s ev -> lstep k s ev = Some s' -> inv2 k s'.
Proof.
  intros I J T H. apply lstep_cases in H. destruct H.
  - constructor; cbn [l_now l_rows l_maps l_entries l_atts l_next]; unfold live; cbn [l_now]; intros.
    + apply (c_live _ _ J); [assumption|unfold live; lia].
    + apply (c_one _ _ J); try assumption; unfold live; lia.
    + apply (c_budget _ _ J); try assumption; unfold live; lia.
    + apply (c_cap _ _ J); assumption.
    + apply (c_prov _ _ J); assumption.
    + eapply (c_ms _ _ J a); try eassumption; unfold live; lia.
  - assert (Back : forall i x y, nth_error (l_entries s) i = Some x -> nth_error (l_entries s ++ [e]) i = Some y -> y = x).
    { intros i x y X Y. rewrite nth_error_app1 in Y by (apply nth_error_Some; congruence). congruence. }
    constructor; cbn [l_now l_rows l_maps l_entries l_atts l_next]; unfold live; cbn [l_now]; intros.
    + destruct (c_live _ _ J a) as [x [X1 X2]]; try assumption. exists x. split; [rewrite nth_error_app1; [exact X1|apply nth_error_Some; congruence]|exact X2].
    + apply (c_one _ _ J); assumption.
    + destruct (c_live _ _ J a) as [x [X1 X2]]; try assumption. rewrite (Back _ _ _ X1 H5). apply (c_budget _ _ J); assumption.
    + destruct (Nat.lt_ge_cases i (List.length (l_entries s))) as [L|L].
      * rewrite nth_error_app1 in H3 by lia. apply (c_cap _ _ J); exact H3.
      * assert (Z0 : released s i = 0).
        { unfold released, releases. assert (F : filter (is_release i) (l_rows s) = []).
          { destruct (filter (is_release i) (l_rows s)) as [|w l] eqn:F; [reflexivity|exfalso]. assert (Hw : In w (filter (is_release i) (l_rows s))) by (rewrite F; left; reflexivity).
            apply filter_In in Hw. destruct Hw as [Hw Rw]. apply is_release_spec in Rw. destruct Rw as [R1 R2]. destruct (b_rows _ _ I w Hw) as [_ Q]. rewrite R1, R2 in Q.
            destruct Q as [_ [x [Q _]]]. assert (X : nth_error (l_entries s) i <> None) by congruence. apply nth_error_Some in X. lia. }
          rewrite F. reflexivity. }
        unfold released, releases in *. cbn [l_rows]. rewrite Z0. rewrite nth_error_app2 in H3 by lia. destruct (i - List.length (l_entries s))%nat as [|j]; [|destruct j; discriminate]. injection H3 as <-. lia.
    + destruct (b_rows _ _ I w H3) as [_ Q]. rewrite H4 in Q. destruct Q as [_ [x [Q _]]]. rewrite (Back _ _ _ Q H5). apply (c_prov _ _ J); assumption.
    + eapply (c_ms _ _ J a); eassumption.
  - set (f := with_status EProcessing (Some (l_now s + k_lock k)) (en_attempts e)).
    set (n := {| at_id := l_next s; at_entry := i; at_until := l_now s + k_lock k; at_todo := [XBegin] |}).
    assert (Old : forall a, In a (l_atts s) -> live s a -> at_entry a <> i).
    { intros a Ha La X. destruct (c_live _ _ J a Ha La) as [x [X1 [X2 X3]]]. rewrite X in X1. rewrite H in X1. injection X1 as <-. unfold claimable in H0.
      rewrite X3 in H0. apply andb_true_iff in H0. destruct H0 as [H0 _]. apply andb_true_iff in H0. destruct H0 as [_ H0]. apply Z.ltb_lt in H0. unfold live in La. lia. }
    assert (F : forall x, same_entry x (f x)) by (intros; apply with_status_same).
    assert (Nth : forall j, j <> i -> nth_error (set_entry i f (l_entries s)) j = nth_error (l_entries s) j).
    { intros j Nj. rewrite nth_set_entry. destruct (Nat.eqb i j) eqn:X; [apply Nat.eqb_eq in X; congruence|reflexivity]. }
    assert (Nti : nth_error (set_entry i f (l_entries s)) i = Some (f e)) by (rewrite nth_set_entry, Nat.eqb_refl, H; reflexivity).
    constructor; cbn [l_now l_rows l_maps l_entries l_atts l_next]; unfold live; cbn [l_now].
    + intros a [<-|Ha] La; [exists (f e); auto|]. rewrite Nth by (apply Old; assumption). apply (c_live _ _ J); assumption.
    + intros a b [<-|Ha] [<-|Hb] La Lb X; [reflexivity| | |apply (c_one _ _ J); assumption].
      * exfalso. exact (Old b Hb Lb (eq_sym X)).
      * exfalso. exact (Old a Ha La X).
    + intros a e1 [<-|Ha] La E1.
      * cbn [n at_entry at_todo] in *. rewrite Nti in E1. injection E1 as <-. unfold released, releases. cbn [l_rows]. pose proof (c_cap _ _ J i e H) as C. unfold released, releases in C.
        change (en_amt (f e)) with (en_amt e). change (pending [XBegin]) with 0. lia.
      * rewrite Nth in E1 by (apply Old; assumption). apply (c_budget _ _ J); assumption.
    + intros j e1 E1. destruct (Nat.eq_dec j i) as [->|Nj]; [rewrite Nti in E1; injection E1 as <-; exact (c_cap _ _ J i e H)|rewrite Nth in E1 by exact Nj; exact (c_cap _ _ J j e1 E1)].
    + intros w e1 Hw Kw E1. destruct (keeps_set_back _ _ _ _ _ F E1) as [e0 [E0 [_ [_ [S3 _]]]]]. rewrite S3. apply (c_prov _ _ J); assumption.
    + intros a ms d w [<-|Ha] La Hm; [destruct Hm as [Hm|[]]; discriminate|]. apply (c_ms _ _ J a ms d w); assumption.
  - destruct (find_att_in _ _ _ H) as [Ha _]. cbn [in_time] in T. specialize (T _ H). eapply inv2_act; eassumption.
  - destruct (find_att_in _ _ _ H) as [Ha <-]. cbn [in_time] in T. specialize (T _ H). destruct (c_live _ _ J a Ha T) as [e [E _]].
    eapply inv2_gone; try eassumption; [apply mark_completed_same|left; reflexivity|apply incl_refl|apply (c_cap _ _ J); exact E|reflexivity].
  - destruct (find_att_in _ _ _ H) as [Ha Hid].
    assert (D : forall b, In b (drop_att id (l_atts s)) -> In b (l_atts s)) by (intros b Hb; apply in_drop in Hb; apply Hb).
    constructor; cbn [l_now l_rows l_maps l_entries l_atts l_next]; unfold live; cbn [l_now].
    + intros b Hb. apply (c_live _ _ J); auto.
    + intros b c Hb Hc. apply (c_one _ _ J); auto.
    + intros b e1 Hb. apply (c_budget _ _ J); auto.
    + apply (c_cap _ _ J).
    + apply (c_prov _ _ J).
    + intros b ms d w Hb. apply (c_ms _ _ J b ms d w); auto.
  - constructor; cbn [l_now l_rows l_maps l_entries l_atts l_next]; unfold live; cbn [l_now]; [apply (c_live _ _ J)|apply (c_one _ _ J)|apply (c_budget _ _ J)|apply (c_cap _ _ J)|apply (c_prov _ _ J)|apply (c_ms _ _ J)].
  - assert (Re : forall i, rel (map (settle_row ref) (l_rows s)) i = rel (l_rows s) i).
    { intros i. unfold rel. induction (l_rows s) as [|w l IH]; [reflexivity|]. cbn [map filter]. destruct (settle_fields ref w) as [F1 [F2 [F3 [F4 [F5 [F6 F7]]]]]].
      assert (X : is_release i (settle_row ref w) = is_release i w) by (unfold is_release; rewrite F2, F6; reflexivity). rewrite X. destruct (is_release i w); cbn [sumz]; [rewrite F5|]; lia. }
    constructor; cbn [with_rows l_now l_rows l_maps l_entries l_atts l_next]; unfold live; cbn [l_now].
    + apply (c_live _ _ J).
    + apply (c_one _ _ J).
    + intros a e Ha La E. change (rel (map (settle_row ref) (l_rows s)) (at_entry a) + pending (at_todo a) <= en_amt e). rewrite Re. apply (c_budget _ _ J); assumption.
    + intros i e E. change (rel (map (settle_row ref) (l_rows s)) i <= en_amt e). rewrite Re. apply (c_cap _ _ J); assumption.
    + intros w e Hw Kw E. apply in_map_iff in Hw. destruct Hw as [w0 [<- Hw]]. destruct (settle_fields ref w0) as [F1 [F2 [F3 [F4 [F5 [F6 F7]]]]]].
      rewrite F3. apply (c_prov _ _ J w0 e); [exact Hw|congruence|congruence].
    + intros a ms d w Ha La Hm Hw Kw E. apply in_map_iff in Hw. destruct Hw as [w0 [<- Hw]]. destruct (settle_fields ref w0) as [F1 [F2 [F3 [F4 [F5 [F6 F7]]]]]].
      rewrite F3. apply (c_ms _ _ J a ms d w0); try assumption; congruence.
  - set (nw := {| w_ref := ref; w_kind := WOther; w_prov := ""; w_shadow := ""; w_amt := amt; w_inflight := false; w_entry := O; w_att := O |}).
    assert (Re : forall i, rel (l_rows s ++ [nw]) i = rel (l_rows s) i) by (intros i; unfold rel; rewrite released_app; cbn [is_release nw w_kind]; lia).
    assert (In2 : forall w, In w (l_rows s ++ [nw]) -> w_kind w = WRelease -> In w (l_rows s)) by (intros w Hw Kw; apply in_app_or in Hw; destruct Hw as [Hw|[<-|[]]]; [exact Hw|discriminate]).
    constructor; cbn [with_rows l_now l_rows l_maps l_entries l_atts l_next]; unfold live; cbn [l_now].
    + apply (c_live _ _ J).
    + apply (c_one _ _ J).
    + intros a e Ha La E. change (rel (l_rows s ++ [nw]) (at_entry a) + pending (at_todo a) <= en_amt e). rewrite Re. apply (c_budget _ _ J); assumption.
    + intros i e E. change (rel (l_rows s ++ [nw]) i <= en_amt e). rewrite Re. apply (c_cap _ _ J); assumption.
    + intros w e Hw Kw E. apply (c_prov _ _ J w e); auto.
    + intros a ms d w Ha La Hm Hw Kw E. apply (c_ms _ _ J a ms d w); auto.
Qed.
Lemma inv2_init k : inv2 k linit.
Proof.
  constructor; cbn [linit l_now l_rows l_maps l_entries l_atts l_next]; intros; try contradiction; try discriminate.
  destruct i; discriminate.
Qed.
Theorem inv2_reach k s : lreach_with k in_time s -> inv2 k s.
Proof.
  intros R. assert (G : inv1 k s /\ inv2 k s); [|apply G]. revert R. apply (along_ind k in_time (fun s => inv1 k s /\ inv2 k s)); [split; [apply inv1_init|apply inv2_init]|].
  intros s0 ev s1 [I J] C St. split; [eapply inv1_step; eassumption|eapply inv2_step; eassumption].
Qed.
