(** Providers are never overdrawn; a finished attempt has handed on what it released. *)
From Coq Require Import ZArith List String Bool Lia Permutation Sorting.Sorted.
From Verif Require Import Base ChainModel ChainProof LineageModel LineageSpec AllocProof LineageProof LineageBudget.
Import ListNotations.
Local Open Scope string_scope.
Open Scope Z_scope.
Local Open Scope list_scope.

Definition act_on (sh : string) (x : act) : Z := match x with XCheck _ z amt _ | XRelease _ z amt => if String.eqb z sh then amt else 0 | _ => 0 end.
Definition pend_on (sh : string) (t : list act) : Z := sumz (act_on sh) t.
Definition draws_on (sh : string) (x : act) : Prop := match x with XCheck _ z _ _ | XRelease _ z _ => z = sh | _ => False end.
Lemma pend_zero sh t : (forall x, In x t -> ~ draws_on sh x) -> pend_on sh t = 0.
Proof.
  unfold pend_on. induction t as [|x t IH]; intros H; [reflexivity|]. cbn [sumz]. rewrite IH by (intros y Hy; apply H; right; exact Hy).
  pose proof (H x (or_introl eq_refl)) as X. destruct x; cbn [act_on draws_on] in *; try lia; (destruct (String.eqb sh0 sh) eqn:E; [apply String.eqb_eq in E; congruence|lia]).
Qed.
Lemma pend_dec sh t : (forall x, In x t -> ~ draws_on sh x) \/ exists x, In x t /\ draws_on sh x.
Proof.
  induction t as [|x t [IH|[y [Y1 Y2]]]]; [left; intros x []| |right; exists y; split; [right; exact Y1|exact Y2]].
  assert (D : draws_on sh x \/ ~ draws_on sh x).
  { destruct x as [| | | | | | |q z amt d|q z amt| |]; cbn [draws_on]; try (right; intros F; exact F); destruct (string_dec z sh); [left|right|left|right]; assumption. }
  destruct D as [D|D]; [right; exists x; split; [left; reflexivity|exact D]|left; intros y [<-|Hy]; [exact D|apply IH; exact Hy]].
Qed.

Definition delta (w : wrow) (sh : string) : Z :=
  match w_kind w with
  | WCredit | WReceive => if String.eqb (w_shadow w) sh && negb (w_inflight w) then w_amt w else 0
  | WRelease => - (if String.eqb (w_shadow w) sh && negb (w_inflight w) then w_amt w else 0)
  | WOther => 0
  end.
Lemma available_app rows w sh : available (rows ++ [w]) sh = available rows sh + delta w sh.
Proof. unfold available, shadow_in, shadow_out, delta. rewrite !sumz_app. cbn [sumz]. destruct (w_kind w); lia. Qed.

Record inv3 (k : lcfg) (s : lst) : Prop := {
  d_ent : forall i e, nth_error (l_entries s) i = Some e -> en_inflight e = false;
  d_row : forall w, In w (l_rows s) -> w_inflight w = false;
  d_fun : forall key i j, In (key, i) (l_locks s) -> In (key, j) (l_locks s) -> i = j;
  d_alloc : forall a ms d m, In a (l_atts s) -> at_todo a = [XAlloc ms d] -> In m ms -> In (mp_shadow m, at_id a) (l_locks s);
  d_draw : forall a x sh, In a (l_atts s) -> In x (at_todo a) -> draws_on sh x -> In (sh, at_id a) (l_locks s);
  d_avail : forall sh, 0 <= available (l_rows s) sh;
  d_pend : forall a sh, In a (l_atts s) -> pend_on sh (at_todo a) <= available (l_rows s) sh
}.

(** The rows after a step of [a]: a provider loses money only to the holder of its lock. *)
Definition rows3 (s : lst) (a : attempt) (rows : list wrow) : Prop :=
  (forall w, In w rows -> w_inflight w = false) /\
  forall sh, 0 <= available rows sh /\ (available (l_rows s) sh <= available rows sh \/ In (sh, at_id a) (l_locks s)).
Lemma rows3_other k s a b rows sh : inv3 k s -> rows3 s a rows -> In b (l_atts s) -> at_id b <> at_id a -> pend_on sh (at_todo b) <= available rows sh.
Proof.
  intros I [_ R] Hb N. destruct (R sh) as [R1 [R2|R2]]; [pose proof (d_pend _ _ I b sh Hb); lia|].
  destruct (pend_dec sh (at_todo b)) as [Z0|[x [X1 X2]]]; [rewrite pend_zero by exact Z0; exact R1|].
  exfalso. apply N. apply (d_fun _ _ I sh); [eapply (d_draw _ _ I); eassumption|exact R2].
Qed.
Lemma rows3_old k s a : inv3 k s -> rows3 s a (l_rows s).
Proof. intros I. split; [apply (d_row _ _ I)|]. intros sh. split; [apply (d_avail _ _ I)|left; lia]. Qed.
Lemma unlock_in id l key i : In (key, i) (unlock id l) <-> In (key, i) l /\ i <> id.
Proof. unfold unlock. rewrite filter_In. cbn [snd]. rewrite negb_true_iff, Nat.eqb_neq. reflexivity. Qed.

Lemma inv3_gone k s a (f : entry -> entry) rows maps : inv3 k s -> In a (l_atts s) -> rows3 s a rows -> (forall x, same_entry x (f x)) ->
  inv3 k {| l_now := l_now s; l_rows := rows; l_maps := maps; l_entries := set_entry (at_entry a) f (l_entries s);
            l_locks := unlock (at_id a) (l_locks s); l_atts := drop_att (at_id a) (l_atts s); l_next := l_next s |}.
Proof.
  intros I Ha R F. constructor; cbn [l_now l_rows l_maps l_entries l_atts l_locks l_next].
  - intros i e E. destruct (keeps_set_back _ _ _ _ _ F E) as [e0 [E0 [_ [_ [_ [_ [_ [S _]]]]]]]]. rewrite S. eapply (d_ent _ _ I); exact E0.
  - apply R.
  - intros key i j Hi Hj. apply unlock_in in Hi, Hj. eapply (d_fun _ _ I); [apply Hi|apply Hj].
  - intros b ms d m Hb E Hm. apply in_drop in Hb. destruct Hb as [Hb N]. apply unlock_in. split; [eapply (d_alloc _ _ I); eassumption|exact N].
  - intros b x sh Hb Hx D. apply in_drop in Hb. destruct Hb as [Hb N]. apply unlock_in. split; [eapply (d_draw _ _ I); eassumption|exact N].
  - intros sh. apply (proj2 R sh).
  - intros b sh Hb. apply in_drop in Hb. destruct Hb as [Hb N]. eapply rows3_other; eassumption.
Qed.
Lemma inv3_cont k s a rows maps locks t : inv1 k s -> inv3 k s -> In a (l_atts s) -> rows3 s a rows ->
  (forall key i j, In (key, i) locks -> In (key, j) locks -> i = j) -> (forall key i, i <> at_id a -> In (key, i) (l_locks s) -> In (key, i) locks) ->
  (forall ms d m, t = [XAlloc ms d] -> In m ms -> In (mp_shadow m, at_id a) locks) ->
  (forall x sh, In x t -> draws_on sh x -> In (sh, at_id a) locks) -> (forall sh, pend_on sh t <= available rows sh) ->
  inv3 k (cont s a rows maps locks t).
Proof.
  intros I1 I Ha R F M A D P.
  assert (Sp : forall b, In b (set_todo (at_id a) t (l_atts s)) -> (In b (l_atts s) /\ at_id b <> at_id a) \/ b = with_todo a t).
  { intros b Hb. apply in_set_todo in Hb. destruct Hb as [Hb|[a' [H1 [H2 ->]]]]; [left; exact Hb|right].
    assert (a' = a) by (eapply ids_eq; [apply (b_ids _ _ I1)|exact H1|exact Ha|exact H2]). subst a'. reflexivity. }
  constructor; cbn [cont l_now l_rows l_maps l_entries l_atts l_locks l_next].
  - apply (d_ent _ _ I).
  - apply R.
  - exact F.
  - intros b ms d m Hb E Hm. destruct (Sp b Hb) as [[Hb' N]| ->]; [apply M; [exact N|eapply (d_alloc _ _ I); eassumption]|eapply A; eassumption].
  - intros b x sh Hb Hx X. destruct (Sp b Hb) as [[Hb' N]| ->]; [apply M; [exact N|eapply (d_draw _ _ I); eassumption]|eapply D; eassumption].
  - intros sh. apply (proj2 R sh).
  - intros b sh Hb. destruct (Sp b Hb) as [[Hb' N]| ->]; [eapply rows3_other; eassumption|apply P].
Qed.

Lemma act_on_nonneg k maps e sh x rest : shape k maps e (x :: rest) -> 0 <= act_on sh x.
Proof.
  intros S. pose proof (shape_draw _ _ _ _ _ S) as D. destruct x; cbn [act_on]; try lia; destruct D as [[D _] _]; destruct (String.eqb sh0 sh); lia.
Qed.
Lemma pend_on_nonneg k maps e sh t : shape k maps e t -> 0 <= pend_on sh t.
Proof.
  unfold pend_on. induction t as [|x t IH]; intros S; cbn [sumz]; [lia|]. pose proof (act_on_nonneg _ _ _ sh _ _ S). pose proof (IH (shape_tail _ _ _ _ _ S)). lia.
Qed.
(** After a preparing action nothing is drawn yet. *)
Lemma shape_prep_rest k maps e x rest : shape k maps e (x :: rest) -> x = XUnlock -> forall y, In y rest -> (forall ms d, y <> XAlloc ms d) /\ forall sh, ~ draws_on sh y.
Proof.
  intros H -> y Hy. inversion H as [E|l t P T E|ks ms' d' In' R E|ms' d' R E|l D E]; subst.
  - assert (X : In y (l ++ t)) by (rewrite E; right; exact Hy). apply in_app_or in X. destruct X as [X|X].
    + rewrite Forall_forall in P. specialize (P _ X). destruct y; try destruct P; split; intros; try discriminate; intros Z0; exact Z0.
    + destruct T as [->| ->]; [destruct X|destruct X as [<-|[]]; split; [discriminate|intros sh Z0; exact Z0]].
  - inversion D as [|? ? D1 _]. destruct D1.
Qed.
Lemma alloc_on rows ms l dest sh : NoDup (map al_id l) -> 0 <= available rows sh ->
  (forall al, In al l -> exists m, In m ms /\ al_id al = mp_shadow m /\ al_amt al <= available rows (mp_shadow m)) ->
  pend_on sh (map (fun al => XCheck (prov_of ms (al_id al)) (al_id al) (al_amt al) dest) l) <= available rows sh.
Proof.
  intros N A H. unfold pend_on. rewrite sumz_map. cbn [act_on]. induction l as [|x l IH]; cbn [sumz]; [exact A|]. cbn [map] in N. inversion N as [|? ? N1 N2]; subst.
  destruct (String.eqb (al_id x) sh) eqn:E.
  - apply String.eqb_eq in E. assert (Z0 : sumz (fun al => if String.eqb (al_id al) sh then al_amt al else 0) l = 0).
    { clear - N1 E. induction l as [|y l IH]; [reflexivity|]. cbn [sumz map In] in *. destruct (String.eqb (al_id y) sh) eqn:F.
      - apply String.eqb_eq in F. exfalso; apply N1. left. congruence.
      - rewrite IH; [lia|]. intros X. apply N1; right; exact X. }
    rewrite Z0. destruct (H x (or_introl eq_refl)) as [m [_ [M2 M3]]]. rewrite <- M2, E in M3. lia.
  - apply IH; [exact N2|]. intros al Hal. apply H; right; exact Hal.
Qed.

Lemma inv3_act k s a e x rest o s' : inv1 k s -> inv3 k s -> In a (l_atts s) -> at_todo a = x :: rest -> nth_error (l_entries s) (at_entry a) = Some e ->
  ract k s a e rest o x s' -> inv3 k s'.
Proof.
  intros I J Ha T E R. destruct (b_shape _ _ I a Ha) as [e0 [E0 S]]. rewrite E in E0. injection E0 as <-. rewrite T in S.
  pose proof (rows3_old k s a J) as Old.
  assert (Px : forall sh, act_on sh x + pend_on sh rest <= available (l_rows s) sh) by (intros sh; pose proof (d_pend _ _ J a sh Ha) as P; rewrite T in P; exact P).
  assert (Pr : forall sh, pend_on sh rest <= available (l_rows s) sh) by (intros sh; pose proof (act_on_nonneg _ _ _ sh _ _ S); specialize (Px sh); lia).
  assert (Dr : forall y sh, In y rest -> draws_on sh y -> In (sh, at_id a) (l_locks s)) by (intros y sh Hy; apply (d_draw _ _ J); [exact Ha|rewrite T; right; exact Hy]).
  assert (NoA : (forall ks, x <> XLock ks) -> forall ms d (m : mapping), rest = [XAlloc ms d] -> In m ms -> In (mp_shadow m, at_id a) (l_locks s)).
  { intros X ms d m Y. destruct (shape_alloc_in _ _ _ _ _ ms d S) as [ks [Z0 _]]; [rewrite Y; left; reflexivity|]. exfalso; eapply X; exact Z0. }
  assert (W3 : forall w, row_of k a e x = Some w -> rows3 s a (l_rows s ++ [w]) /\ forall sh, pend_on sh rest <= available (l_rows s ++ [w]) sh).
  { intros w W. pose proof (d_ent _ _ J _ _ E) as Fe.
    assert (Fw : w_inflight w = false) by (destruct x; cbn [row_of] in W; try discriminate; injection W as <-; exact Fe).
    destruct (row_of_ok k s a e x rest w (l_entries s) (l_next s) I Ha E T W (keeps_refl _) (le_n _)) as [[Wp _] _].
    assert (De : forall sh, (0 <= delta w sh /\ act_on sh x = 0) \/ (delta w sh = - act_on sh x /\ In (sh, at_id a) (l_locks s))).
    { intros sh. unfold delta. destruct x; cbn [row_of] in W; try discriminate; injection W as <-; cbn [w_kind w_shadow w_inflight w_amt act_on] in *; rewrite Fe; cbn [negb]; rewrite andb_true_r.
      - left. split; [|reflexivity]. destruct (String.eqb _ sh); lia.
      - destruct (String.eqb sh0 sh) eqn:Q; [right|left; lia]. split; [lia|]. apply String.eqb_eq in Q. apply (d_draw _ _ J a (XRelease p sh0 amt)); [exact Ha|rewrite T; left; reflexivity|exact Q].
      - left. split; [|reflexivity]. destruct (String.eqb _ sh); lia. }
    split; [split|].
    - intros y Hy. apply in_app_or in Hy. destruct Hy as [Hy|[<-|[]]]; [apply (d_row _ _ J); exact Hy|exact Fw].
    - intros sh. rewrite available_app. pose proof (Px sh) as P1. pose proof (pend_on_nonneg _ _ _ sh _ (shape_tail _ _ _ _ _ S)) as P2. pose proof (d_avail _ _ J sh) as P3.
      destruct (De sh) as [[D1 D2]|[D1 D2]]; (split; [lia|]); [left; lia|right; exact D2].
    - intros sh. rewrite available_app. specialize (Px sh). destruct (De sh) as [[D1 D2]|[D1 D2]]; lia. }
  assert (Keep : forall key i, i <> at_id a -> In (key, i) (l_locks s) -> In (key, i) (l_locks s)) by auto.
  destruct R.
  - apply inv3_gone; try assumption. apply mark_failed_same.
  - apply inv3_gone; try assumption; [apply (W3 w H)|apply mark_failed_same].
  - destruct (W3 w H) as [W4 W5]. apply inv3_cont; try assumption; [apply (d_fun _ _ J)|]. apply NoA. intros ks ->. discriminate.
  - apply inv3_cont; try assumption; [apply (d_fun _ _ J)| | |].
    + intros ms d m X. destruct b, c; discriminate.
    + intros y sh Hy D. exfalso. destruct b, c; cbn in Hy; intuition (subst; exact D).
    + intros sh. rewrite pend_zero; [apply (d_avail _ _ J)|]. intros y Hy D. destruct b, c; cbn in Hy; intuition (subst; exact D).
  - assert (Un : forall key i, In key keys -> ~ In (key, i) (l_locks s)).
    { intros key i Hk X. assert (Y : existsb (locked (l_locks s)) keys = true).
      { apply existsb_exists. exists key. split; [exact Hk|]. unfold locked. apply existsb_exists. exists (key, i). split; [exact X|apply String.eqb_refl]. } congruence. }
    assert (New : forall key i, In (key, i) (map (fun q => (q, at_id a)) keys) -> In key keys /\ i = at_id a).
    { intros key i X. apply in_map_iff in X. destruct X as [q [X1 X2]]. injection X1 as <- <-. auto. }
    apply inv3_cont; try assumption.
    + intros key i j Hi Hj. apply in_app_or in Hi, Hj. destruct Hi as [Hi|Hi], Hj as [Hj|Hj].
      * destruct (New _ _ Hi), (New _ _ Hj). congruence.
      * destruct (New _ _ Hi). exfalso. eapply Un; eassumption.
      * destruct (New _ _ Hj). exfalso. eapply Un; eassumption.
      * eapply (d_fun _ _ J); eassumption.
    + intros key i _ Hi. apply in_or_app; right; exact Hi.
    + intros ms d m X Hm. apply in_or_app; left. apply in_map_iff. exists (mp_shadow m). split; [reflexivity|].
      rewrite X in S. inversion S as [|l t P Q Y|ks ms' d' Inc Rd Y| |l D Y]; subst.
      * exfalso. assert (Z0 : In (XAlloc ms d) (l ++ t)) by (rewrite Y; right; left; reflexivity). apply in_app_or in Z0. rewrite Forall_forall in P.
        destruct Z0 as [Z0|Z0]; [exact (P _ Z0)|destruct Q as [->| ->]; [destruct Z0|destruct Z0 as [Z0|[]]; discriminate]].
      * apply Inc. apply in_map; exact Hm.
      * inversion D as [|? ? D1 _]. destruct D1.
    + intros y sh Hy D. apply in_or_app; right. eapply Dr; eassumption.
  - pose proof (shape_prep_rest _ _ _ _ _ S eq_refl) as Q. apply inv3_cont; try assumption.
    + intros key i j Hi Hj. apply unlock_in in Hi, Hj. eapply (d_fun _ _ J); [apply Hi|apply Hj].
    + intros key i Ni Hi. apply unlock_in. auto.
    + intros ms d m X. exfalso. destruct (Q (XAlloc ms d)) as [Q1 _]; [rewrite X; left; reflexivity|]. eapply Q1; reflexivity.
    + intros y sh Hy D. exfalso. destruct (Q y Hy) as [_ Q2]. eapply Q2; exact D.
  - apply inv3_cont; try assumption; [apply (d_fun _ _ J)|]. apply NoA. destruct H as [->| ->]; discriminate.
  - apply inv3_cont; try assumption; [apply (d_fun _ _ J)|]. apply NoA. intros ks ->. destruct H.
  - apply shape_maps in S. subst rest. apply inv3_cont; try assumption; [apply (d_fun _ _ J)|discriminate|].
    intros y sh [<-|[<-|[]]] D; destruct D.
  - apply shape_alloc in S. destruct S as [-> S]. rewrite app_nil_r.
    assert (Al : forall al, In al (calculate_allocation (sources (l_rows s) ms) (en_amt e - prior_released (l_rows s) (en_ref e) ms) (k_strat k (en_src e))) ->
                 exists m, In m ms /\ al_id al = mp_shadow m /\ al_amt al <= available (l_rows s) (mp_shadow m)).
    { intros al Hal. destruct (allocation_from _ _ _ _ _ _ _ _ S Hal) as [_ [m [M1 [M2 [_ M3]]]]]. exists m; auto. }
    apply inv3_cont; try assumption; [apply (d_fun _ _ J)| | |].
    + intros ms' d m X. exfalso. assert (Y : In (XAlloc ms' d) [XAlloc ms' d]) by (left; reflexivity). rewrite <- X in Y. apply in_map_iff in Y. destruct Y as [z [Y _]]. discriminate.
    + intros y sh Hy D. apply in_map_iff in Hy. destruct Hy as [al [<- Hal]]. cbn [draws_on] in D. subst sh. destruct (Al al Hal) as [m [M1 [M2 _]]]. rewrite M2.
      eapply (d_alloc _ _ J); [exact Ha|exact T|exact M1].
    + intros sh. apply alloc_on; [apply allocation_fits; apply (proj1 (sources_good _ _ _ (l_rows s) _ S))|apply (d_avail _ _ J)|exact Al].
  - apply inv3_cont; try assumption; [apply (d_fun _ _ J)|destruct dest; discriminate| |].
    + intros y sh' [<-|Hy] D; [apply (d_draw _ _ J a (XCheck p sh amt dest)); [exact Ha|rewrite T; left; reflexivity|exact D]|].
      apply in_app_or in Hy. destruct Hy as [Hy|Hy]; [exfalso; destruct dest; cbn in Hy; intuition (subst; exact D)|eapply Dr; eassumption].
    + intros sh'. specialize (Px sh'). unfold pend_on in *. cbn [sumz act_on] in *. rewrite sumz_app. destruct dest; cbn [sumz act_on]; lia.
Qed.

Theorem inv3_step k s ev s' : inv1 k s -> inv3 k s -> settled ev -> lstep k s ev = Some s' -> inv3 k s'.
Proof.
  intros I J T H. apply lstep_cases in H. destruct H.
  - constructor; cbn [l_now l_rows l_maps l_entries l_atts l_locks l_next]; [apply (d_ent _ _ J)|apply (d_row _ _ J)|apply (d_fun _ _ J)|apply (d_alloc _ _ J)|apply (d_draw _ _ J)|apply (d_avail _ _ J)|apply (d_pend _ _ J)].
  - constructor; cbn [l_now l_rows l_maps l_entries l_atts l_locks l_next]; [|apply (d_row _ _ J)|apply (d_fun _ _ J)|apply (d_alloc _ _ J)|apply (d_draw _ _ J)|apply (d_avail _ _ J)|apply (d_pend _ _ J)].
    intros i x Hx. destruct (Nat.lt_ge_cases i (List.length (l_entries s))) as [L|L].
    + rewrite nth_error_app1 in Hx by lia. eapply (d_ent _ _ J); exact Hx.
    + rewrite nth_error_app2 in Hx by lia. destruct (i - List.length (l_entries s))%nat as [|j]; [injection Hx as <-; exact T|destruct j; discriminate].
  - constructor; cbn [l_now l_rows l_maps l_entries l_atts l_locks l_next]; [|apply (d_row _ _ J)|apply (d_fun _ _ J)| | |apply (d_avail _ _ J)|].
    + intros j x Hx. destruct (keeps_set_back _ _ _ _ _ (fun y => with_status_same _ _ _ y) Hx) as [e0 [E0 [_ [_ [_ [_ [_ [S _]]]]]]]]. rewrite S. eapply (d_ent _ _ J); exact E0.
    + intros a ms d m [<-|Ha] X; [discriminate|]. apply (d_alloc _ _ J a ms d m); assumption.
    + intros a x sh [<-|Ha] X; [destruct X as [<-|[]]; intros []|]. apply (d_draw _ _ J); assumption.
    + intros a sh [<-|Ha]; [cbn; apply (d_avail _ _ J)|apply (d_pend _ _ J); exact Ha].
  - destruct (find_att_in _ _ _ H) as [Ha _]. eapply inv3_act; eassumption.
  - destruct (find_att_in _ _ _ H) as [Ha <-]. apply inv3_gone; try assumption; [apply (rows3_old k); exact J|apply mark_completed_same].
  - assert (D : forall b, In b (drop_att id (l_atts s)) -> In b (l_atts s)) by (intros b Hb; apply in_drop in Hb; apply Hb).
    constructor; cbn [l_now l_rows l_maps l_entries l_atts l_locks l_next]; [apply (d_ent _ _ J)|apply (d_row _ _ J)|apply (d_fun _ _ J)| | |apply (d_avail _ _ J)|].
    + intros b ms d m Hb. apply (d_alloc _ _ J b ms d m); auto.
    + intros b x sh Hb. apply (d_draw _ _ J); auto.
    + intros b sh Hb. apply (d_pend _ _ J); auto.
  - assert (L : forall q i, In (q, i) (filter (fun x => negb (String.eqb (fst x) key)) (l_locks s)) <-> In (q, i) (l_locks s) /\ q <> key).
    { intros q i. rewrite filter_In. cbn [fst]. rewrite negb_true_iff, String.eqb_neq. reflexivity. }
    assert (Kp : forall q a, In a (l_atts s) -> In (q, at_id a) (l_locks s) -> In (q, at_id a) (filter (fun x => negb (String.eqb (fst x) key)) (l_locks s))).
    { intros q a Ha Hq. apply L. split; [exact Hq|]. intros ->. exact (H _ _ Hq Ha eq_refl). }
    constructor; cbn [l_now l_rows l_maps l_entries l_atts l_locks l_next]; [apply (d_ent _ _ J)|apply (d_row _ _ J)| | | |apply (d_avail _ _ J)|apply (d_pend _ _ J)].
    + intros q i j Hi Hj. apply L in Hi, Hj. eapply (d_fun _ _ J); [apply Hi|apply Hj].
    + intros a ms d m Ha X Hm. apply Kp; [exact Ha|eapply (d_alloc _ _ J); eassumption].
    + intros a x sh Ha X D. apply Kp; [exact Ha|eapply (d_draw _ _ J); eassumption].
  - assert (Id : map (settle_row ref) (l_rows s) = l_rows s).
    { rewrite <- (map_id (l_rows s)) at 2. apply map_ext_in. intros w Hw. unfold settle_row. destruct (String.eqb (w_ref w) ref); [|reflexivity]. pose proof (d_row _ _ J w Hw) as X. destruct w; cbn in *; subst; reflexivity. }
    rewrite Id. constructor; cbn [with_rows l_now l_rows l_maps l_entries l_atts l_locks l_next]; [apply (d_ent _ _ J)|apply (d_row _ _ J)|apply (d_fun _ _ J)|apply (d_alloc _ _ J)|apply (d_draw _ _ J)|apply (d_avail _ _ J)|apply (d_pend _ _ J)].
  - constructor; cbn [with_rows l_now l_rows l_maps l_entries l_atts l_locks l_next]; [apply (d_ent _ _ J)| |apply (d_fun _ _ J)|apply (d_alloc _ _ J)|apply (d_draw _ _ J)| |].
    + intros w Hw. apply in_app_or in Hw. destruct Hw as [Hw|[<-|[]]]; [apply (d_row _ _ J); exact Hw|reflexivity].
    + intros sh. rewrite available_app. unfold delta. cbn [w_kind]. pose proof (d_avail _ _ J sh). lia.
    + intros a sh Ha. rewrite available_app. unfold delta. cbn [w_kind]. pose proof (d_pend _ _ J a sh Ha). lia.
Qed.
Lemma inv3_init k : inv3 k linit.
Proof.
  constructor; cbn [linit l_now l_rows l_maps l_entries l_atts l_locks l_next]; intros; try contradiction; try (destruct i; discriminate).
  cbn; lia.
Qed.
Theorem inv3_reach k s : lreach_with k (fun _ => settled) s -> inv3 k s.
Proof.
  intros R. assert (G : inv1 k s /\ inv3 k s); [|apply G]. revert R. apply (along_ind k (fun _ => settled) (fun s => inv1 k s /\ inv3 k s)); [split; [apply inv1_init|apply inv3_init]|].
  intros s0 ev s1 [I J] C St. split; [eapply inv1_step; eassumption|eapply inv3_step; eassumption].
Qed.
