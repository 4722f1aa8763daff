(** What a finished attempt leaves behind, and when entries are left alone. *)
From Coq Require Import ZArith List String Bool Lia Permutation Sorting.Sorted.
From Verif Require Import Base ChainModel ChainProof LineageModel LineageSpec AllocProof LineageProof LineageBudget.
Import ListNotations.
Local Open Scope string_scope.
Open Scope Z_scope.
Local Open Scope list_scope.

(** ** Releases are handed on *)
Definition dest_ok (k : lcfg) (e : entry) (x : act) : Prop := match x with XAlloc _ d | XCheck _ _ _ d => d = k_track k (en_dst e) | _ => True end.
Definition follow (t : list act) : Prop := forall pre p sh amt post, t = pre ++ XRelease p sh amt :: post -> exists post', post = XReceive p amt :: post'.
Record inv4 (k : lcfg) (s : lst) : Prop := {
  f_dest : forall a e x, In a (l_atts s) -> nth_error (l_entries s) (at_entry a) = Some e -> In x (at_todo a) -> dest_ok k e x;
  f_follow : forall a e, In a (l_atts s) -> nth_error (l_entries s) (at_entry a) = Some e -> k_track k (en_dst e) = true -> follow (at_todo a);
  f_recv : forall a e w, In a (l_atts s) -> nth_error (l_entries s) (at_entry a) = Some e -> k_track k (en_dst e) = true ->
             In w (l_rows s) -> w_kind w = WRelease -> w_att w = at_id a ->
             w_entry w = at_entry a /\ (has_row (l_rows s) WReceive (at_entry a) (w_prov w) (w_amt w) \/ In (XReceive (w_prov w) (w_amt w)) (at_todo a))
}.
Lemma follow_tail x t : follow (x :: t) -> follow t.
Proof. intros F pre p sh amt post ->. apply (F (x :: pre) p sh amt post). reflexivity. Qed.
Lemma follow_none t : (forall p sh amt, ~ In (XRelease p sh amt) t) -> follow t.
Proof. intros H pre p sh amt post ->. exfalso. eapply H. apply in_or_app; right; left; reflexivity. Qed.

(** A step by [a] leaves the others' obligations alone. *)
Lemma inv4_gone k s (es : list entry) id rows maps locks : inv4 k s -> (forall i x, nth_error es i = Some x -> exists y, nth_error (l_entries s) i = Some y /\ same_entry y x) ->
  grow (l_rows s) rows -> (forall w, In w rows -> w_kind w = WRelease -> In w (l_rows s) \/ w_att w = id) ->
  inv4 k {| l_now := l_now s; l_rows := rows; l_maps := maps; l_entries := es; l_locks := locks; l_atts := drop_att id (l_atts s); l_next := l_next s |}.
Proof.
  intros J B G W. constructor; cbn [l_rows l_entries l_atts].
  - intros b e x Hb E Hx. apply in_drop in Hb. destruct (B _ _ E) as [y [Y1 [_ [_ [_ [S _]]]]]]. unfold dest_ok. rewrite S. apply (f_dest _ _ J b y x); [apply Hb|exact Y1|exact Hx].
  - intros b e Hb E K. apply in_drop in Hb. destruct (B _ _ E) as [y [Y1 [_ [_ [_ [S _]]]]]]. rewrite S in K. apply (f_follow _ _ J b y); [apply Hb|exact Y1|exact K].
  - intros b e w Hb E K Hw Kw Aw. apply in_drop in Hb. destruct Hb as [Hb N]. destruct (B _ _ E) as [y [Y1 [_ [_ [_ [S _]]]]]]. rewrite S in K.
    destruct (W w Hw Kw) as [Ho|Hn]; [|congruence]. destruct (f_recv _ _ J b y w Hb Y1 K Ho Kw Aw) as [F1 [F2|F2]]; split; auto.
Qed.
Lemma inv4_cont k s a e rows maps locks t : inv1 k s -> inv4 k s -> In a (l_atts s) -> nth_error (l_entries s) (at_entry a) = Some e ->
  grow (l_rows s) rows -> (forall w, In w rows -> w_kind w = WRelease -> In w (l_rows s) \/ w_att w = at_id a) ->
  (forall x, In x t -> dest_ok k e x) -> (k_track k (en_dst e) = true -> follow t) ->
  (forall w, k_track k (en_dst e) = true -> In w rows -> w_kind w = WRelease -> w_att w = at_id a ->
     w_entry w = at_entry a /\ (has_row rows WReceive (at_entry a) (w_prov w) (w_amt w) \/ In (XReceive (w_prov w) (w_amt w)) t)) ->
  inv4 k (cont s a rows maps locks t).
Proof.
  intros I J Ha E G W D F V.
  assert (Sp : forall b, In b (set_todo (at_id a) t (l_atts s)) -> (In b (l_atts s) /\ at_id b <> at_id a) \/ b = with_todo a t).
  { intros b Hb. apply in_set_todo in Hb. destruct Hb as [Hb|[a' [H1 [H2 ->]]]]; [left; exact Hb|right].
    assert (a' = a) by (eapply ids_eq; [apply (b_ids _ _ I)|exact H1|exact Ha|exact H2]). subst a'. reflexivity. }
  constructor; cbn [cont l_rows l_entries l_atts].
  - intros b e1 x Hb E1 Hx. destruct (Sp b Hb) as [[Hb' N]| ->]; [eapply (f_dest _ _ J); eassumption|]. cbn [with_todo at_entry at_todo] in *. rewrite E in E1. injection E1 as <-. apply D; exact Hx.
  - intros b e1 Hb E1 K. destruct (Sp b Hb) as [[Hb' N]| ->]; [eapply (f_follow _ _ J); eassumption|]. cbn [with_todo at_entry at_todo] in *. rewrite E in E1. injection E1 as <-. apply F; exact K.
  - intros b e1 w Hb E1 K Hw Kw Aw. destruct (Sp b Hb) as [[Hb' N]| ->].
    + destruct (W w Hw Kw) as [Ho|Hn]; [|congruence]. destruct (f_recv _ _ J b e1 w Hb' E1 K Ho Kw Aw) as [F1 [F2|F2]]; split; auto.
    + cbn [with_todo at_entry at_todo at_id] in *. rewrite E in E1. injection E1 as <-. apply V; assumption.
Qed.

Lemma inv4_act k s a e x rest o s' : inv1 k s -> inv4 k s -> o <> OPrep -> In a (l_atts s) -> at_todo a = x :: rest -> nth_error (l_entries s) (at_entry a) = Some e ->
  ract k s a e rest o x s' -> inv4 k s'.
Proof.
  intros I J O Ha T E R. destruct (b_shape _ _ I a Ha) as [e0 [E0 S]]. rewrite E in E0. injection E0 as <-. rewrite T in S.
  assert (D : forall y, In y rest -> dest_ok k e y) by (intros y Hy; apply (f_dest _ _ J a); [exact Ha|exact E|rewrite T; right; exact Hy]).
  assert (Dx : dest_ok k e x) by (apply (f_dest _ _ J a); [exact Ha|exact E|rewrite T; left; reflexivity]).
  assert (Fx : k_track k (en_dst e) = true -> follow (x :: rest)) by (intros K; rewrite <- T; apply (f_follow _ _ J a e); assumption).
  assert (F : k_track k (en_dst e) = true -> follow rest) by (intros K; eapply follow_tail; apply Fx; exact K).
  assert (V : forall w, k_track k (en_dst e) = true -> In w (l_rows s) -> w_kind w = WRelease -> w_att w = at_id a ->
     w_entry w = at_entry a /\ (has_row (l_rows s) WReceive (at_entry a) (w_prov w) (w_amt w) \/ In (XReceive (w_prov w) (w_amt w)) (x :: rest))).
  { intros w K Hw Kw Aw. rewrite <- T. apply (f_recv _ _ J a e w); assumption. }
  assert (Vr : (forall p amt, x <> XReceive p amt) -> forall w, k_track k (en_dst e) = true -> In w (l_rows s) -> w_kind w = WRelease -> w_att w = at_id a ->
     w_entry w = at_entry a /\ (has_row (l_rows s) WReceive (at_entry a) (w_prov w) (w_amt w) \/ In (XReceive (w_prov w) (w_amt w)) rest)).
  { intros X w K Hw Kw Aw. destruct (V w K Hw Kw Aw) as [V1 [V2|[V2|V2]]]; split; auto. exfalso; eapply X; exact V2. }
  assert (Nw : forall w0, row_of k a e x = Some w0 -> forall w, In w (l_rows s ++ [w0]) -> w_kind w = WRelease -> In w (l_rows s) \/ w_att w = at_id a).
  { intros w0 W0 w Hw _. apply in_app_or in Hw. destruct Hw as [Hw|[<-|[]]]; [left; exact Hw|right]. destruct x; cbn [row_of] in W0; try discriminate; injection W0 as <-; reflexivity. }
  assert (Old : forall w, In w (l_rows s) -> w_kind w = WRelease -> In w (l_rows s) \/ w_att w = at_id a) by auto.
  destruct R.
  - apply inv4_gone; [exact J| |apply grow_refl|exact Old]. intros i y Hy. eapply keeps_set_back; [apply mark_failed_same|exact Hy].
  - apply inv4_gone; [exact J| |apply grow_app|apply Nw; exact H]. intros i y Hy. eapply keeps_set_back; [apply mark_failed_same|exact Hy].
  - eapply inv4_cont; try eassumption; [apply grow_app|apply Nw; exact H|].
    intros y K Hy Ky Ay. apply in_app_or in Hy. destruct Hy as [Hy|[<-|[]]].
    + destruct (V y K Hy Ky Ay) as [V1 [V2|[V2|V2]]]; (split; [exact V1|]).
      * left. apply grow_app; exact V2.
      * left. subst x. cbn [row_of] in H. injection H as <-. eexists. split; [apply in_or_app; right; left; reflexivity|cbn; auto].
      * right; exact V2.
    + destruct x; cbn [row_of] in H; try discriminate; injection H as <-; try discriminate Ky. cbn [w_entry w_prov w_amt]. split; [reflexivity|right].
      destruct (Fx K [] p sh amt rest eq_refl) as [post' ->]. left; reflexivity.
  - eapply inv4_cont; try eassumption; [apply grow_refl| | |].
    + intros y Hy. destruct b, c; cbn in Hy; intuition (subst; exact Logic.I).
    + intros _. apply follow_none. intros p sh amt X. destruct b, c; cbn in X; intuition discriminate.
    + intros w K Hw Kw Aw. destruct (V w K Hw Kw Aw) as [V1 [V2|V2]]; split; auto. right. exfalso.
      inversion S as [Q|l t P Q Y| | |l Dr Y]; subst.
      * destruct V2 as [V2|[]]; discriminate.
      * destruct l as [|y l]; cbn [app] in Y; [destruct Q as [->| ->]; discriminate|]. injection Y as -> _. inversion P as [|? ? P1 _]. destruct P1.
      * inversion Dr as [|? ? D1 _]. destruct D1.
  - eapply inv4_cont; try eassumption; [apply grow_refl|apply Vr; discriminate].
  - eapply inv4_cont; try eassumption; [apply grow_refl|apply Vr; discriminate].
  - eapply inv4_cont; try eassumption; [apply grow_refl|apply Vr; destruct H as [->| ->]; discriminate].
  - eapply inv4_cont; try eassumption; [apply grow_refl|apply Vr; intros p amt ->; destruct H].
  - eapply inv4_cont; try eassumption; [apply grow_refl| | |].
    + intros y [<-|[<-|Hy]]; [exact Logic.I| |apply D; exact Hy]. cbn [dest_ok]. rewrite H0. destruct o; try congruence; rewrite andb_true_r; reflexivity.
    + intros K pre p sh amt post X. destruct pre as [|y pre]; [discriminate|]. injection X as <- X. destruct pre as [|z pre]; [discriminate|]. injection X as <- X. eapply F; eassumption.
    + intros w K Hw Kw Aw. destruct (Vr ltac:(discriminate) w K Hw Kw Aw) as [V1 [V2|V2]]; split; auto. right. right. right. exact V2.
  - eapply inv4_cont; try eassumption; [apply grow_refl| | |].
    + intros y Hy. apply in_app_or in Hy. destruct Hy as [Hy|Hy]; [|apply D; exact Hy]. apply in_map_iff in Hy. destruct Hy as [al [<- _]]. exact Dx.
    + intros K. apply shape_alloc in S. destruct S as [-> _]. rewrite app_nil_r. apply follow_none. intros p sh amt X. apply in_map_iff in X. destruct X as [al [X _]]. discriminate.
    + intros w K Hw Kw Aw. destruct (Vr ltac:(discriminate) w K Hw Kw Aw) as [V1 [V2|V2]]; split; auto. right. apply in_or_app; right; exact V2.
  - cbn [dest_ok] in Dx. eapply inv4_cont; try eassumption; [apply grow_refl| | |].
    + intros y [<-|Hy]; [exact Logic.I|]. apply in_app_or in Hy. destruct Hy as [Hy|Hy]; [destruct dest; cbn in Hy; intuition (subst; exact Logic.I)|apply D; exact Hy].
    + intros K pre q sh' am post X. rewrite K in Dx. subst dest. destruct pre as [|y pre].
      * injection X as <- <- <- X. rewrite <- X. eexists. reflexivity.
      * injection X as _ X. destruct pre as [|z pre]; [discriminate|]. injection X as _ X. destruct pre as [|z2 pre]; [discriminate|]. injection X as _ X. eapply F; eassumption.
    + intros w K Hw Kw Aw. destruct (Vr ltac:(discriminate) w K Hw Kw Aw) as [V1 [V2|V2]]; split; auto. right. right. apply in_or_app; right; exact V2.
Qed.

Theorem inv4_step k s ev s' : inv1 k s -> inv4 k s -> prepared ev -> lstep k s ev = Some s' -> inv4 k s'.
Proof.
  intros I J T H. apply lstep_cases in H.
  assert (Keep : forall es rows, keeps (l_entries s) es -> (forall i x, nth_error es i = Some x -> (exists y, nth_error (l_entries s) i = Some y /\ same_entry y x) \/ nth_error (l_entries s) i = None) ->
     grow (l_rows s) rows -> (forall w, In w rows -> w_kind w = WRelease -> exists w0, In w0 (l_rows s) /\ w_kind w0 = WRelease /\ w_att w0 = w_att w /\ w_entry w0 = w_entry w /\ w_prov w0 = w_prov w /\ w_amt w0 = w_amt w) ->
     forall atts, (forall a, In a atts -> In a (l_atts s) \/ (at_todo a = [XBegin] /\ at_id a = l_next s)) -> forall now maps locks next,
     inv4 k {| l_now := now; l_rows := rows; l_maps := maps; l_entries := es; l_locks := locks; l_atts := atts; l_next := next |}).
  { intros es rows Kp B G W atts At now maps locks next.
    assert (B' : forall a x, In a (l_atts s) -> nth_error es (at_entry a) = Some x -> exists y, nth_error (l_entries s) (at_entry a) = Some y /\ same_entry y x).
    { intros a x Ha E. destruct (B _ _ E) as [Y|Y]; [exact Y|]. destruct (b_shape _ _ I a Ha) as [z [Z0 _]]. congruence. }
    constructor; cbn [l_rows l_entries l_atts].
    - intros a e x Ha E Hx. destruct (At a Ha) as [Ho|[Tn _]]; [|rewrite Tn in Hx; destruct Hx as [<-|[]]; exact Logic.I].
      destruct (B' a e Ho E) as [y [Y1 [_ [_ [_ [S _]]]]]]. unfold dest_ok. rewrite S. apply (f_dest _ _ J a y x); assumption.
    - intros a e Ha E K. destruct (At a Ha) as [Ho|[Tn _]]; [|rewrite Tn; apply follow_none; intros p sh amt [X|[]]; discriminate].
      destruct (B' a e Ho E) as [y [Y1 [_ [_ [_ [S _]]]]]]. rewrite S in K. apply (f_follow _ _ J a y); assumption.
    - intros a e w Ha E K Hw Kw Aw. destruct (W w Hw Kw) as [w0 [W1 [W2 [W3 [W4 [W5 W6]]]]]]. rewrite <- W4, <- W5, <- W6. destruct (At a Ha) as [Ho|[_ Tn]].
      + destruct (B' a e Ho E) as [y [Y1 [_ [_ [_ [S _]]]]]]. rewrite S in K. destruct (f_recv _ _ J a y w0 Ho Y1 K W1 W2 ltac:(congruence)) as [F1 [F2|F2]]; split; auto.
      + exfalso. destruct (b_rows _ _ I w0 W1) as [_ Q]. rewrite W2 in Q. destruct Q as [Q _]. lia. }
  assert (Ex : forall w, In w (l_rows s) -> w_kind w = WRelease -> exists w0, In w0 (l_rows s) /\ w_kind w0 = WRelease /\ w_att w0 = w_att w /\ w_entry w0 = w_entry w /\ w_prov w0 = w_prov w /\ w_amt w0 = w_amt w) by (intros w Hw Kw; exists w; auto 10).
  assert (Bk : forall i x, nth_error (l_entries s) i = Some x -> (exists y, nth_error (l_entries s) i = Some y /\ same_entry y x) \/ nth_error (l_entries s) i = None) by (intros i x Hx; left; exists x; split; [exact Hx|apply same_entry_refl]).
  destruct H.
  - apply Keep; auto; [apply keeps_refl|apply grow_refl].
  - apply Keep; auto; [| |apply grow_refl].
    + intros i x Hx. exists x. split; [rewrite nth_error_app1; [exact Hx|apply nth_error_Some; congruence]|apply same_entry_refl].
    + intros i x Hx. destruct (nth_error (l_entries s) i) as [y|] eqn:Y; [left|right; reflexivity]. rewrite nth_error_app1 in Hx by (apply nth_error_Some; congruence). rewrite Y in Hx. injection Hx as <-. exists y. split; [reflexivity|apply same_entry_refl].
  - apply Keep; auto; [apply keeps_set; intros; apply with_status_same| |apply grow_refl|].
    + intros j x Hx. left. eapply keeps_set_back; [|exact Hx]. intros; apply with_status_same.
    + intros a [<-|Ha]; [right; auto|left; exact Ha].
  - destruct (find_att_in _ _ _ H) as [Ha _]. eapply inv4_act; try eassumption. intros ->. exact T.
  - apply Keep; auto; [apply keeps_set, mark_completed_same| |apply grow_refl|].
    + intros j x Hx. left. eapply keeps_set_back; [|exact Hx]. apply mark_completed_same.
    + intros b Hb. left. apply in_drop in Hb. apply Hb.
  - apply Keep; auto; [apply keeps_refl|apply grow_refl|]. intros b Hb. left. apply in_drop in Hb. apply Hb.
  - apply Keep; auto; [apply keeps_refl|apply grow_refl].
  - apply Keep; auto; [apply keeps_refl| |].
    + intros kd i p amt [w [W1 [W2 [W3 [W4 W5]]]]]. exists (settle_row ref w). destruct (settle_fields ref w) as [F1 [F2 [F3 [F4 [F5 [F6 F7]]]]]].
      split; [apply in_map; exact W1|]. rewrite F2, F3, F5, F6. auto.
    + intros w Hw Kw. apply in_map_iff in Hw. destruct Hw as [w0 [<- Hw]]. destruct (settle_fields ref w0) as [F1 [F2 [F3 [F4 [F5 [F6 F7]]]]]]. exists w0. rewrite F3, F5, F6, F7. split; [exact Hw|]. split; [congruence|auto].
  - apply Keep; auto; [apply keeps_refl|apply grow_app|]. intros w Hw Kw. apply in_app_or in Hw. destruct Hw as [Hw|[<-|[]]]; [apply Ex; assumption|discriminate].
Qed.
Theorem inv4_reach k s : lreach_with k (fun _ => prepared) s -> inv4 k s.
Proof.
  intros R. assert (G : inv1 k s /\ inv4 k s); [|apply G]. revert R. apply (along_ind k (fun _ => prepared) (fun s => inv1 k s /\ inv4 k s)).
  - split; [apply inv1_init|]. constructor; cbn [linit l_rows l_entries l_atts]; intros; contradiction.
  - intros s0 ev s1 [I J] C St. split; [eapply inv1_step; eassumption|eapply inv4_step; eassumption].
Qed.

Theorem finished_handed_on k s a e w : lreach_with k (fun _ => prepared) s -> In a (l_atts s) -> at_todo a = [] ->
  nth_error (l_entries s) (at_entry a) = Some e -> k_track k (en_dst e) = true ->
  In w (l_rows s) -> w_kind w = WRelease -> w_att w = at_id a ->
  exists r, In r (receives s (at_entry a)) /\ w_prov r = w_prov w /\ w_amt r = w_amt w.
Proof.
  intros R Ha T E K Hw Kw Aw. destruct (f_recv _ _ (inv4_reach k s R) a e w Ha E K Hw Kw Aw) as [_ [[r [R1 [R2 [R3 [R4 R5]]]]]|X]]; [|rewrite T in X; destruct X].
  exists r. split; [|auto]. apply filter_In. split; [exact R1|]. unfold is_receive. rewrite R2, R3. apply Nat.eqb_refl.
Qed.

(** ** References, and receives against releases *)
Theorem release_once k s i p : lreach k s -> (List.length (filter (fun w => is_release i w && String.eqb (w_prov w) p) (l_rows s)) <= 1)%nat.
Proof.
  intros R. apply lreach_any in R. pose proof (inv1_reach k _ s R) as I. pose proof (b_refs _ _ I) as N. pose proof (b_rows _ _ I) as B.
  induction (l_rows s) as [|x rows IH]; [cbn; lia|]. cbn [map] in N. inversion N as [|? ? N1 N2]; subst. cbn [filter].
  assert (IH' := IH N2 (fun w H => B w (or_intror H))). destruct (is_release i x && String.eqb (w_prov x) p) eqn:E; [|exact IH'].
  assert (F : filter (fun w => is_release i w && String.eqb (w_prov w) p) rows = []).
  { destruct (filter (fun w => is_release i w && String.eqb (w_prov w) p) rows) as [|y l] eqn:F; [reflexivity|exfalso].
    assert (Hy : In y (filter (fun w => is_release i w && String.eqb (w_prov w) p) rows)) by (rewrite F; left; reflexivity). apply filter_In in Hy. destruct Hy as [Hy Ey].
    apply andb_true_iff in E, Ey. destruct E as [E1 E2], Ey as [Y1 Y2]. apply String.eqb_eq in E2, Y2. apply is_release_spec in E1, Y1. destruct E1 as [E1 E3], Y1 as [Y1 Y3].
    destruct (B x (or_introl eq_refl)) as [_ Bx]. destruct (B y (or_intror Hy)) as [_ By]. rewrite E1 in Bx. rewrite Y1 in By.
    destruct Bx as [_ [e1 [X1 [X2 _]]]], By as [_ [e2 [Z1 [Z2 _]]]]. rewrite E3 in X1. rewrite Y3 in Z1. rewrite X1 in Z1. injection Z1 as <-.
    apply N1. replace (w_ref x) with (w_ref y) by congruence. apply in_map; exact Hy. }
  rewrite F. cbn. lia.
Qed.
Theorem receive_has_release k s i r : lreach k s -> In r (receives s i) -> exists w, In w (releases s i) /\ w_prov w = w_prov r /\ w_amt w = w_amt r.
Proof.
  intros R H. apply lreach_any in R. pose proof (inv1_reach k _ s R) as I. apply filter_In in H. destruct H as [H1 H2]. unfold is_receive in H2. destruct (w_kind r) eqn:K; try discriminate. apply Nat.eqb_eq in H2.
  destruct (b_got _ _ I r H1 K) as [w [W1 [W2 [W3 [W4 W5]]]]]. exists w. split; [|auto]. apply filter_In. split; [exact W1|]. apply is_release_spec. split; [exact W2|congruence].
Qed.
Theorem release_accounted k s i e w : lreach k s -> nth_error (l_entries s) i = Some e -> In w (releases s i) -> w_shadow w = shadow_of k (en_src e) (w_prov w).
Proof.
  intros R E H. apply lreach_any in R. pose proof (inv1_reach k _ s R) as I. apply filter_In in H. destruct H as [H1 H2]. apply is_release_spec in H2. destruct H2 as [H2 H3].
  destruct (b_rows _ _ I w H1) as [_ B]. rewrite H2, H3, E in B. destruct B as [_ [e1 [X [_ B]]]]. injection X as <-. exact B.
Qed.
Theorem receive_accounted k s i e w : lreach k s -> nth_error (l_entries s) i = Some e -> In w (receives s i) -> w_shadow w = shadow_of k (en_dst e) (w_prov w).
Proof.
  intros R E H. apply lreach_any in R. pose proof (inv1_reach k _ s R) as I. apply filter_In in H. destruct H as [H1 H2]. unfold is_receive in H2. destruct (w_kind w) eqn:K; try discriminate. apply Nat.eqb_eq in H2.
  destruct (b_rows _ _ I w H1) as [_ B]. rewrite K, H2, E in B. destruct B as [e1 [X [_ B]]]. injection X as <-. exact B.
Qed.
Theorem released_bounded k s i e : lreach_with k in_time s -> nth_error (l_entries s) i = Some e -> released s i <= en_amt e.
Proof. intros R E. apply (c_cap _ _ (inv2_reach k s R)); exact E. Qed.

(** ** Attempts of an entry *)
Record inv5 (s : lst) : Prop := {
  g_max : forall i e, nth_error (l_entries s) i = Some e -> (en_attempts e <= en_max e)%nat;
  g_proc : forall i e, nth_error (l_entries s) i = Some e -> en_status e = EProcessing -> (en_attempts e < en_max e)%nat;
  g_fail : forall i e, nth_error (l_entries s) i = Some e -> en_status e = EFailed -> en_attempts e = en_max e
}.
Lemma inv5_set i f l (e : entry) : nth_error l i = Some e -> (forall j x, nth_error l j = Some x -> (en_attempts x <= en_max x)%nat) ->
  (forall j x, nth_error l j = Some x -> en_status x = EProcessing -> (en_attempts x < en_max x)%nat) ->
  (forall j x, nth_error l j = Some x -> en_status x = EFailed -> en_attempts x = en_max x) ->
  (en_attempts (f e) <= en_max (f e))%nat -> (en_status (f e) = EProcessing -> (en_attempts (f e) < en_max (f e))%nat) -> (en_status (f e) = EFailed -> en_attempts (f e) = en_max (f e)) ->
  (forall j x, nth_error (set_entry i f l) j = Some x -> (en_attempts x <= en_max x)%nat) /\
  (forall j x, nth_error (set_entry i f l) j = Some x -> en_status x = EProcessing -> (en_attempts x < en_max x)%nat) /\
  (forall j x, nth_error (set_entry i f l) j = Some x -> en_status x = EFailed -> en_attempts x = en_max x).
Proof.
  intros E H1 H2 H3 F1 F2 F3. repeat split; intros j x Hx; rewrite nth_set_entry in Hx; (destruct (Nat.eqb i j) eqn:X; [apply Nat.eqb_eq in X; subst j; rewrite E in Hx; injection Hx as <-; assumption|eauto]).
Qed.
Lemma ract_entries k s a e rest o x s' : ract k s a e rest o x s' ->
  l_entries s' = l_entries s \/ (l_entries s' = set_entry (at_entry a) mark_failed (l_entries s)).
Proof. intros R. destruct R; try (left; reflexivity); right; reflexivity. Qed.
Lemma inv5_step k s ev s' : inv2 k s -> inv5 s -> in_time s ev -> lstep k s ev = Some s' -> inv5 s'.
Proof.
  intros J G T H. apply lstep_cases in H.
  assert (Set5 : forall i e f next now rows maps locks atts, nth_error (l_entries s) i = Some e -> (en_attempts (f e) <= en_max (f e))%nat -> (en_status (f e) = EProcessing -> (en_attempts (f e) < en_max (f e))%nat) -> (en_status (f e) = EFailed -> en_attempts (f e) = en_max (f e)) ->
     inv5 {| l_now := now; l_rows := rows; l_maps := maps; l_entries := set_entry i f (l_entries s); l_locks := locks; l_atts := atts; l_next := next |}).
  { intros i e f next now rows maps locks atts E F1 F2 F3. destruct (inv5_set i f (l_entries s) e E (g_max _ G) (g_proc _ G) (g_fail _ G) F1 F2 F3) as [A [B C]]. constructor; assumption. }
  destruct H.
  - constructor; cbn [l_entries]; [apply (g_max _ G)|apply (g_proc _ G)|apply (g_fail _ G)].
  - assert (Sp : forall i x, nth_error (l_entries s ++ [e]) i = Some x -> nth_error (l_entries s) i = Some x \/ x = e).
    { intros i x Hx. destruct (Nat.lt_ge_cases i (List.length (l_entries s))) as [L|L]; [rewrite nth_error_app1 in Hx by lia; left; exact Hx|].
      rewrite nth_error_app2 in Hx by lia. destruct (i - List.length (l_entries s))%nat as [|j]; [injection Hx as <-; right; reflexivity|destruct j; discriminate]. }
    constructor; cbn [l_entries]; intros i x Hx.
    + destruct (Sp i x Hx) as [Ho| ->]; [eapply (g_max _ G); exact Ho|lia].
    + destruct (Sp i x Hx) as [Ho| ->]; [eapply (g_proc _ G); exact Ho|congruence].
    + destruct (Sp i x Hx) as [Ho| ->]; [eapply (g_fail _ G); exact Ho|congruence].
  - unfold claimable in H0. apply andb_true_iff in H0. destruct H0 as [_ H0]. apply Nat.ltb_lt in H0. eapply Set5; [exact H|cbn; lia|cbn; lia|cbn; discriminate].
  - destruct (find_att_in _ _ _ H) as [Ha _]. cbn [in_time] in T. specialize (T _ H). destruct (c_live _ _ J a Ha T) as [e1 [E1 [Pr _]]]. rewrite H1 in E1. injection E1 as <-.
    pose proof (g_proc _ G _ _ H1 Pr) as L. destruct (ract_entries _ _ _ _ _ _ _ _ H2) as [Q|Q].
    + constructor; rewrite Q; [apply (g_max _ G)|apply (g_proc _ G)|apply (g_fail _ G)].
    + assert (F1 : (en_attempts (mark_failed e) <= en_max (mark_failed e))%nat) by (cbn; lia).
      destruct (inv5_set (at_entry a) mark_failed (l_entries s) e H1 (g_max _ G) (g_proc _ G) (g_fail _ G) F1) as [A [B C]].
      * intros X. cbn in X. destruct (Nat.leb _ _); discriminate.
      * intros X. cbn in X |- *. destruct (Nat.leb (en_max e) (S (en_attempts e))) eqn:Y; [|discriminate]. apply Nat.leb_le in Y. lia.
      * constructor; rewrite Q; assumption.
  - destruct (find_att_in _ _ _ H) as [Ha <-]. cbn [in_time] in T. specialize (T _ H). destruct (c_live _ _ J a Ha T) as [e1 [E1 [Pr _]]].
    pose proof (g_max _ G _ _ E1). eapply Set5; [exact E1|cbn; lia|cbn; discriminate|cbn; discriminate].
  - constructor; cbn [l_entries]; [apply (g_max _ G)|apply (g_proc _ G)|apply (g_fail _ G)].
  - constructor; cbn [l_entries]; [apply (g_max _ G)|apply (g_proc _ G)|apply (g_fail _ G)].
  - constructor; cbn [with_rows l_entries]; [apply (g_max _ G)|apply (g_proc _ G)|apply (g_fail _ G)].
  - constructor; cbn [with_rows l_entries]; [apply (g_max _ G)|apply (g_proc _ G)|apply (g_fail _ G)].
Qed.

Theorem inv5_reach k s : lreach_with k in_time s -> inv5 s.
Proof.
  intros R. assert (G : inv1 k s /\ inv2 k s /\ inv5 s); [|apply G]. revert R. apply (along_ind k in_time (fun s => inv1 k s /\ inv2 k s /\ inv5 s)).
  - split; [apply inv1_init|]. split; [apply inv2_init|]. constructor; cbn [linit l_entries]; intros i e H; destruct i; discriminate.
  - intros s0 ev s1 [I [J G]] C St. split; [eapply inv1_step; eassumption|]. split; [eapply inv2_step; eassumption|eapply inv5_step; eassumption].
Qed.
Theorem attempts_bounded k s i e : lreach_with k in_time s -> nth_error (l_entries s) i = Some e ->
  (en_attempts e <= en_max e)%nat /\ (en_status e = EFailed -> en_attempts e = en_max e).
Proof. intros R E. pose proof (inv5_reach k s R) as G. split; [eapply (g_max _ G); exact E|eapply (g_fail _ G); exact E]. Qed.

Definition is_done (e : entry) : Prop := en_status e = ECompleted \/ en_status e = EFailed.
(** A settled entry is left alone. *)
Theorem done_left_alone k s ev s' i e : lreach_with k in_time s -> in_time s ev -> lstep k s ev = Some s' ->
  nth_error (l_entries s) i = Some e -> is_done e -> nth_error (l_entries s') i = Some e /\ released s' i = released s i.
Proof.
  intros R T H E D. pose proof (inv2_reach k s R) as J. apply lstep_cases in H.
  assert (Np : forall a, In a (l_atts s) -> live s a -> at_entry a <> i).
  { intros a Ha La X. destruct (c_live _ _ J a Ha La) as [x [X1 [X2 _]]]. rewrite X, E in X1. injection X1 as <-. destruct D as [D|D]; congruence. }
  assert (Nth : forall j f, j <> i -> nth_error (set_entry j f (l_entries s)) i = Some e).
  { intros j f Nj. rewrite nth_set_entry. destruct (Nat.eqb j i) eqn:X; [apply Nat.eqb_eq in X; congruence|exact E]. }
  unfold released, releases. destruct H; cbn [with_rows l_entries l_rows].
  - auto.
  - split; [|reflexivity]. rewrite nth_error_app1 by (apply nth_error_Some; congruence). exact E.
  - split; [|reflexivity]. apply Nth. intros ->. rewrite H in E. injection E as <-. unfold claimable in H0. destruct D as [D|D]; rewrite D in H0; discriminate.
  - destruct (find_att_in _ _ _ H) as [Ha _]. cbn [in_time] in T. specialize (T _ H). specialize (Np a Ha T).
    assert (Rw : forall w, row_of k a e0 x = Some w -> sumz w_amt (filter (is_release i) (l_rows s ++ [w])) = sumz w_amt (filter (is_release i) (l_rows s))).
    { intros w W. rewrite released_app. assert (X : is_release i w = false); [|rewrite X; lia]. destruct (is_release i w) eqn:X; [|reflexivity]. apply is_release_spec in X. destruct X as [_ X].
      exfalso. apply Np. rewrite <- X. destruct x; cbn [row_of] in W; try discriminate; injection W as <-; reflexivity. }
    destruct H2; cbn [fail_att cont l_entries l_rows]; split; auto.
  - destruct (find_att_in _ _ _ H) as [Ha _]. cbn [in_time] in T. specialize (T _ H). specialize (Np a Ha T). split; auto.
  - auto.
  - auto.
  - split; [exact E|]. induction (l_rows s) as [|w l IH]; [reflexivity|]. cbn [map filter]. destruct (settle_fields ref w) as [F1 [F2 [F3 [F4 [F5 [F6 F7]]]]]].
    assert (X : is_release i (settle_row ref w) = is_release i w) by (unfold is_release; rewrite F2, F6; reflexivity). rewrite X. destruct (is_release i w); cbn [sumz]; [rewrite F5|]; rewrite IH; reflexivity.
  - split; [exact E|]. rewrite released_app. cbn [is_release w_kind]. lia.
Qed.

(** A debit that finds no provider for its source while money for that source is still to
    be credited is not finished but tried again. *)
Theorem waits_for_credit k s id o s' a e rest c : lstep k s (LStep id o) = Some s' ->
  find_att (l_atts s) id = Some a -> nth_error (l_entries s) (at_entry a) = Some e ->
  at_todo a = XMaps :: rest -> (forall m, In m (l_maps s) -> mp_bal m <> en_src e) ->
  In c (l_entries s) -> en_dst c = en_src e -> en_prov c <> "" -> k_track k (en_src e) = true ->
  en_status c = EPending \/ en_status c = EProcessing ->
  find_att (l_atts s') id = None /\ l_rows s' = l_rows s /\
  exists e', nth_error (l_entries s') (at_entry a) = Some e' /\ en_attempts e' = S (en_attempts e) /\ en_status e' <> ECompleted.
Proof.
  intros H Fa En T Nm Hc Ed Ep Et Es. cbn [lstep] in H. rewrite Fa, T, En in H. assert (Hs : s' = run_act k s a e XMaps rest o) by congruence. clear H.
  assert (Em : maps_of (l_maps s) (en_src e) = []).
  { unfold maps_of. replace (filter (fun m => String.eqb (mp_bal m) (en_src e)) (l_maps s)) with (@nil mapping); [reflexivity|].
    symmetry. assert (G : forall l, (forall m, In m l -> mp_bal m <> en_src e) -> filter (fun m => String.eqb (mp_bal m) (en_src e)) l = []).
    { induction l as [|m l IH]; intros Hl; [reflexivity|]. cbn [filter]. destruct (String.eqb_spec (mp_bal m) (en_src e)) as [E|_].
      - exfalso. apply (Hl m); [left; reflexivity|exact E].
      - apply IH. intros x Hx. apply Hl. right. exact Hx. }
    apply G. exact Nm. }
  assert (Pc : pending_credit k (l_entries s) (en_src e) = true).
  { unfold pending_credit. apply existsb_exists. exists c. split; [exact Hc|]. rewrite Ed, Et, String.eqb_refl. apply String.eqb_neq in Ep. rewrite Ep.
    destruct Es as [-> | ->]; reflexivity. }
  assert (X : run_act k s a e XMaps rest o = fail_att s a (l_rows s) (l_maps s)).
  { cbn [run_act]. destruct o; rewrite ?Em, ?Pc; reflexivity. }
  rewrite Hs, X. clear Hs. cbn [fail_att l_atts l_rows l_entries]. destruct (find_att_in _ _ _ Fa) as [_ Ia]. split; [|split; [reflexivity|]].
  - unfold find_att, drop_att. assert (G : forall l, find (fun x => Nat.eqb (at_id x) id) (filter (fun x => negb (Nat.eqb (at_id x) (at_id a))) l) = None).
    { rewrite Ia. induction l as [|x l IH]; [reflexivity|]. cbn [filter]. destruct (Nat.eqb (at_id x) id) eqn:E; cbn [negb]; [exact IH|].
      cbn [find]. rewrite E. exact IH. }
    apply G.
  - exists (mark_failed e). rewrite nth_set_entry, Nat.eqb_refl, En. split; [reflexivity|]. split; [reflexivity|].
    cbn [mark_failed with_status en_status]. destruct (Nat.leb _ _); discriminate.
Qed.
