From Coq Require Import ZArith List String Bool Lia Permutation Sorting.Sorted.
From Verif Require Import Base ChainModel ChainProof SnapModel SnapSpec.
Import ListNotations.
Open Scope Z_scope.

(** ** Executions *)
Lemma sruns_app es1 : forall d es2, sruns d (es1 ++ es2) = match sruns d es1 with Some d1 => sruns d1 es2 | None => None end.
Proof.
  induction es1 as [|e es1 IH]; intros d es2; [reflexivity|]. cbn [sruns app]. destruct (sstep d e); [apply IH|reflexivity].
Qed.
Lemma one_app es1 : forall d es2, one_at_a_time d (es1 ++ es2) <->
  one_at_a_time d es1 /\ match sruns d es1 with Some d1 => one_at_a_time d1 es2 | None => False end.
Proof.
  induction es1 as [|e es1 IH]; intros d es2; cbn [one_at_a_time sruns app]; [tauto|].
  destruct (sstep d e) as [d'|]; [rewrite IH; tauto|tauto].
Qed.
Lemma sreach_ind (P : sdb -> Prop) : P snap_init -> (forall d e d', sreach d -> P d -> sstep d e = Some d' -> P d') -> forall d, sreach d -> P d.
Proof.
  intros H0 HS d [es H]. revert d H. induction es as [|e es IH] using rev_ind; intros d H.
  - cbn in H. injection H as <-. exact H0.
  - rewrite sruns_app in H. destruct (sruns snap_init es) as [d1|] eqn:E; [|discriminate]. cbn in H.
    destruct (sstep d1 e) as [d2|] eqn:E2; [|discriminate]. injection H as <-.
    apply (HS d1 e); [exists es; exact E|apply IH; reflexivity|exact E2].
Qed.
Lemma sreach1_ind (P : sdb -> Prop) : P snap_init ->
  (forall d e d', sreach1 d -> P d -> match e with NStart _ => g_runs d = [] | _ => True end -> sstep d e = Some d' -> P d') ->
  forall d, sreach1 d -> P d.
Proof.
  intros H0 HS d [es [H1 H]]. revert d H H1. induction es as [|e es IH] using rev_ind; intros d H H1.
  - cbn in H. injection H as <-. exact H0.
  - rewrite sruns_app in H. apply one_app in H1. destruct H1 as [H1 H2]. destruct (sruns snap_init es) as [d1|] eqn:E; [|discriminate]. cbn in H, H2.
    destruct (sstep d1 e) as [d2|] eqn:E2; [|discriminate]. injection H as <-.
    apply (HS d1 e); [exists es; split; assumption|apply IH; [reflexivity|exact H1]|apply H2|exact E2].
Qed.

Lemma sreach_step d e d' : sreach d -> sstep d e = Some d' -> sreach d'.
Proof. intros [es H] E. exists (es ++ [e]). rewrite sruns_app, H. cbn. rewrite E. reflexivity. Qed.
Lemma sreach1_reach d : sreach1 d -> sreach d.
Proof. intros [es [_ H]]. exists es. exact H. Qed.

Lemma set_at_in {A} i (x y : A) l : In y (set_at i x l) -> y = x \/ In y l.
Proof.
  revert i. induction l as [|z l IH]; intros i H; [destruct i; exact (or_intror H)|]. destruct i; cbn in *.
  - destruct H; auto.
  - destruct H as [H|H]; [auto|]. destruct (IH _ H); auto.
Qed.
Lemma del_at_in {A} i (y : A) l : In y (del_at i l) -> In y l.
Proof.
  revert i. induction l as [|z l IH]; intros i H; [destruct i; exact H|]. destruct i; cbn in *; [auto|].
  destruct H as [H|H]; [auto|]. right. eapply IH; exact H.
Qed.

(** ** Sums *)
Lemma sumz_app {A} (f : A -> Z) l1 l2 : sumz f (l1 ++ l2) = sumz f l1 + sumz f l2.
Proof. induction l1 as [|x l1 IH]; cbn [app sumz]; lia. Qed.
Lemma money_in_app id p l1 l2 : money_in id p (l1 ++ l2) = money_in id p l1 + money_in id p l2.
Proof. unfold money_in. apply sumz_app. Qed.
Lemma money_out_app id p l1 l2 : money_out id p (l1 ++ l2) = money_out id p l1 + money_out id p l2.
Proof. unfold money_out. apply sumz_app. Qed.

Record dinv (d : sdb) : Prop := {
  di_pk : NoDup (map o_pk (g_bals d));
  di_id : NoDup (map o_id (g_bals d));
  di_pos : forall b, In b (g_bals d) -> 0 < o_pk b;
  di_sum : forall b, In b (g_bals d) -> o_cr b = money_in (o_id b) all_of (g_rows d) /\ o_db b = money_out (o_id b) all_of (g_rows d);
  di_ref : forall t, In t (g_rows d) -> In (r_src t) (map o_id (g_bals d)) /\ In (r_dst t) (map o_id (g_bals d));
  di_snap : forall s, (In s (g_snaps d) \/ exists u, In u (g_runs d) /\ In s (u_new u)) ->
    (sn_seen s <= List.length (g_rows d))%nat /\
    sn_cr s = money_in (sn_bal s) all_of (before_snap d s) /\ sn_db s = money_out (sn_bal s) all_of (before_snap d s) }.

Lemma post_to_keys t l : map o_pk (map (post_to t) l) = map o_pk l /\ map o_id (map (post_to t) l) = map o_id l.
Proof.
  rewrite !map_map. split; apply map_ext; intros b; unfold post_to; destruct (r_applied t); reflexivity.
Qed.

Lemma not_dst_zero id l : (forall t, In t l -> r_dst t <> id) -> money_in id all_of l = 0.
Proof.
  unfold money_in. induction l as [|t l IH]; intros H; [reflexivity|]. cbn [sumz]. rewrite IH by (intros; apply H; right; assumption).
  assert (N : String.eqb (r_dst t) id = false) by (apply String.eqb_neq, H; left; reflexivity). rewrite N. reflexivity.
Qed.
Lemma not_src_zero id l : (forall t, In t l -> r_src t <> id) -> money_out id all_of l = 0.
Proof.
  unfold money_out. induction l as [|t l IH]; intros H; [reflexivity|]. cbn [sumz]. rewrite IH by (intros; apply H; right; assumption).
  assert (N : String.eqb (r_src t) id = false) by (apply String.eqb_neq, H; left; reflexivity). rewrite N. reflexivity.
Qed.

Lemma take_batch_in d u s : In s (take_batch d u) ->
  exists b, In b (g_bals d) /\ above (u_last u) (o_pk b) = true /\ has_today (u_now u) (g_snaps d ++ u_new u) (o_id b) = false /\
    s = {| sn_bal := o_id b; sn_cr := o_cr b; sn_db := o_db b; sn_time := u_now u; sn_seen := List.length (g_rows d) |}.
Proof.
  unfold take_batch. intros H. apply in_map_iff in H. destruct H as [b [E H]]. exists b.
  apply firstn_in in H. eapply Permutation_in in H; [|apply Permutation_sym, sort_perm]. apply filter_In in H.
  destruct H as [H1 H2]. apply andb_true_iff in H2. destruct H2 as [H2 H3]. apply negb_true_iff in H3. auto.
Qed.

Lemma dinv_step d e d' : dinv d -> sstep d e = Some d' -> dinv d'.
Proof.
  intros [P I Q S R N] H. destruct e as [t|pk id|t|n|i|i|i|i]; cbn [sstep] in H.
  - destruct (t <=? 0); [discriminate|]. injection H as <-. constructor; assumption.
  - destruct ((pk <=? 0) || existsb _ _) eqn:E; [discriminate|]. injection H as <-.
    apply orb_false_iff in E. destruct E as [E1 E2]. apply Z.leb_gt in E1.
    assert (F : forall b, In b (g_bals d) -> o_pk b <> pk /\ o_id b <> id).
    { intros b Hb. destruct (existsb _ _) eqn:E in E2; [discriminate|]. 
      assert (X : (o_pk b =? pk) || String.eqb (o_id b) id = false).
      { destruct ((o_pk b =? pk) || String.eqb (o_id b) id) eqn:G; [|reflexivity].
        rewrite <- E. symmetry. apply existsb_exists. exists b; auto. }
      apply orb_false_iff in X. destruct X as [X1 X2]. apply Z.eqb_neq in X1. apply String.eqb_neq in X2. auto. }
    constructor; cbn [g_bals g_rows g_snaps g_runs].
    + rewrite map_app. cbn. apply (Permutation_NoDup (l := pk :: map o_pk (g_bals d))); [apply Permutation_cons_append|].
      constructor; [|exact P]. intros X. apply in_map_iff in X. destruct X as [b [X1 X2]]. apply F in X2. tauto.
    + rewrite map_app. cbn. apply (Permutation_NoDup (l := id :: map o_id (g_bals d))); [apply Permutation_cons_append|].
      constructor; [|exact I]. intros X. apply in_map_iff in X. destruct X as [b [X1 X2]]. apply F in X2. tauto.
    + intros b Hb. apply in_app_or in Hb. destruct Hb as [Hb|[<-|[]]]; [auto|exact E1].
    + intros b Hb. apply in_app_or in Hb. destruct Hb as [Hb|[<-|[]]]; [auto|]. cbn [o_cr o_db o_id]. split; symmetry.
      * apply not_dst_zero. intros t Ht E. destruct (R t Ht) as [_ X]. apply in_map_iff in X. destruct X as [b [X1 X2]]. apply F in X2. rewrite X1, E in X2. tauto.
      * apply not_src_zero. intros t Ht E. destruct (R t Ht) as [X _]. apply in_map_iff in X. destruct X as [b [X1 X2]]. apply F in X2. rewrite X1, E in X2. tauto.
    + intros t Ht. rewrite map_app. destruct (R t Ht). split; apply in_or_app; auto.
    + exact N.
  - destruct (existsb _ _ && existsb _ _) eqn:E; [|discriminate]. injection H as <-.
    apply andb_true_iff in E. destruct E as [E1 E2]. apply existsb_exists in E1. apply existsb_exists in E2.
    destruct E1 as [b1 [B1 B2]]. destruct E2 as [b2 [C1 C2]]. apply String.eqb_eq in B2. apply String.eqb_eq in C2.
    destruct (post_to_keys t (g_bals d)) as [K1 K2].
    constructor; cbn [g_bals g_rows g_snaps g_runs].
    + rewrite K1. exact P.
    + rewrite K2. exact I.
    + intros b Hb. apply in_map_iff in Hb. destruct Hb as [b0 [<- Hb]]. unfold post_to. destruct (r_applied t); cbn [o_pk]; auto.
    + intros b Hb. apply in_map_iff in Hb. destruct Hb as [b0 [<- Hb]]. destruct (S b0 Hb) as [S1 S2].
      assert (J : o_id (post_to t b0) = o_id b0) by (unfold post_to; destruct (r_applied t); reflexivity).
      rewrite J, money_in_app, money_out_app, <- S1, <- S2. unfold post_to, money_in, money_out, all_of. cbn [sumz].
      destruct (r_applied t); cbn [o_cr o_db]; rewrite ?andb_true_r, ?andb_false_r; lia.
    + intros x Hx. rewrite K2. apply in_app_or in Hx. destruct Hx as [Hx|[<-|[]]]; [auto|].
      rewrite <- B2, <- C2. split; apply in_map; assumption.
    + intros s Hs. destruct (N s Hs) as [N1 N2]. unfold before_snap in *. cbn [g_rows].
      rewrite app_length, firstn_app. cbn. replace (sn_seen s - List.length (g_rows d))%nat with 0%nat by lia. rewrite firstn_O, app_nil_r.
      split; [lia|exact N2].
  - destruct (Nat.eqb n 0); [discriminate|]. injection H as <-. constructor; auto. cbn [g_snaps g_runs with_runs].
    intros s [Hs|[u [Hu Hs]]]; [apply N; auto|]. apply in_app_or in Hu. destruct Hu as [Hu|[<-|[]]]; [apply N; eauto|destruct Hs].
  - destruct (nth_error (g_runs d) i) as [u|] eqn:E; [|discriminate]. apply nth_error_In in E.
    destruct (u_done u); [discriminate|]. destruct (u_count u); [discriminate|]. injection H as <-. constructor; auto.
    cbn [g_snaps g_runs with_runs]. intros s [Hs|[v [Hv Hs]]]; [apply N; auto|]. apply set_at_in in Hv. destruct Hv as [->|Hv]; [|apply N; eauto].
    cbn [insert_batch u_new] in Hs. apply in_app_or in Hs. destruct Hs as [Hs|Hs]; [apply N; eauto|].
    apply take_batch_in in Hs. destruct Hs as [b [B1 [B2 [B3 ->]]]]. unfold before_snap. cbn [sn_seen sn_cr sn_db sn_bal g_rows with_runs].
    rewrite firstn_all. split; [lia|auto].
  - destruct (nth_error (g_runs d) i) as [u|] eqn:E; [|discriminate]. apply nth_error_In in E.
    destruct (u_count u); [|discriminate]. injection H as <-. constructor; auto.
    cbn [g_snaps g_runs with_runs]. intros s [Hs|[v [Hv Hs]]]; [apply N; auto|]. apply set_at_in in Hv. destruct Hv as [->|Hv]; apply N; eauto.
  - destruct (nth_error (g_runs d) i) as [u|] eqn:E; [|discriminate]. apply nth_error_In in E.
    destruct (u_done u); [|discriminate]. injection H as <-. constructor; auto.
    cbn [g_snaps g_runs]. intros s [Hs|[v [Hv Hs]]].
    + apply in_app_or in Hs. destruct Hs as [Hs|Hs]; apply N; eauto.
    + apply del_at_in in Hv. apply N; eauto.
  - destruct (nth_error (g_runs d) i) as [u|] eqn:E; [|discriminate]. injection H as <-. constructor; auto.
    cbn [g_snaps g_runs with_runs]. intros s [Hs|[v [Hv Hs]]]; [apply N; auto|]. apply del_at_in in Hv. apply N; eauto.
Qed.

Theorem reach_dinv d : sreach d -> dinv d.
Proof.
  apply sreach_ind.
  - constructor; try (intros ? []); try apply NoDup_nil. + destruct H. + destruct H as [u [[] _]].
  - intros d0 e d' _ H E. eapply dinv_step; eauto.
Qed.

(** ** GetBalanceAtTime *)
Lemma replay_sum id l : forall c,
  replay id l c = (fst c + sumz (fun t => if String.eqb (r_dst t) id then r_amount t else 0) l,
                   snd c + sumz (fun t => if String.eqb (r_src t) id then r_amount t else 0) l).
Proof.
  induction l as [|t l IH]; intros [a b]; cbn [replay fold_left sumz fst snd].
  - f_equal; lia.
  - unfold replay in IH. rewrite IH. unfold apply_row. cbn [fst snd].
    destruct (String.eqb (r_dst t) id), (String.eqb (r_src t) id); f_equal; lia.
Qed.

Lemma fetch_sum (d : sdb) id start target c :
  replay id (fetch d id start target) c =
    (fst c + money_in id (fun t => effective_after start t && effective_by target t) (g_rows d),
     snd c + money_out id (fun t => effective_after start t && effective_by target t) (g_rows d)).
Proof.
  rewrite replay_sum. unfold fetch, money_in, money_out, effective_after, effective_by.
  f_equal; f_equal; (induction (g_rows d) as [|t l IH]; [reflexivity|]); cbn [filter sumz]; rewrite <- IH;
  destruct (String.eqb (r_src t) id) eqn:E1, (String.eqb (r_dst t) id) eqn:E2, (r_applied t), (start <? r_eff t), (r_eff t <=? target);
  cbn [orb andb sumz]; rewrite ?E1, ?E2; lia.
Qed.

Lemma money_in_ext id p q l : (forall t, In t l -> r_applied t = true -> r_dst t = id -> p t = q t) -> money_in id p l = money_in id q l.
Proof.
  intros H. unfold money_in. induction l as [|t l IH]; [reflexivity|]. cbn [sumz]. rewrite IH by (intros; apply H; auto; right; assumption).
  destruct (String.eqb (r_dst t) id) eqn:E, (r_applied t) eqn:G; cbn [andb]; try reflexivity.
  rewrite (H t); auto; [left; reflexivity|apply String.eqb_eq; exact E].
Qed.
Lemma money_out_ext id p q l : (forall t, In t l -> r_applied t = true -> r_src t = id -> p t = q t) -> money_out id p l = money_out id q l.
Proof.
  intros H. unfold money_out. induction l as [|t l IH]; [reflexivity|]. cbn [sumz]. rewrite IH by (intros; apply H; auto; right; assumption).
  destruct (String.eqb (r_src t) id) eqn:E, (r_applied t) eqn:G; cbn [andb]; try reflexivity.
  rewrite (H t); auto; [left; reflexivity|apply String.eqb_eq; exact E].
Qed.

Theorem from_source d id t a : dated d -> answer d id t true a ->
  a = (money_in id (effective_by t) (g_rows d), money_out id (effective_by t) (g_rows d)).
Proof.
  intros D H. inversion H as [b B1 B2 B3 B4 E1 E2| |]; subst. rewrite fetch_sum. cbn [fst snd]. rewrite !Z.add_0_l.
  f_equal; [apply money_in_ext|apply money_out_ext]; intros x Hx _ _; unfold effective_after;
  rewrite (proj2 (Z.ltb_lt _ _) (D x Hx)); reflexivity.
Qed.

Theorem from_source_now d b t a : sreach d -> dated d -> In b (g_bals d) -> answer d (o_id b) t true a ->
  (forall x, In x (g_rows d) -> r_eff x <= t) -> a = (o_cr b, o_db b).
Proof.
  intros R D Hb H L. rewrite (from_source _ _ _ _ D H). destruct (di_sum _ (reach_dinv _ R) b Hb) as [S1 S2]. rewrite S1, S2.
  f_equal; [apply money_in_ext|apply money_out_ext]; intros x Hx _ _; unfold effective_by, all_of; apply Z.leb_le; auto.
Qed.

Theorem genesis_agrees d id t a a' : answer d id t true a -> answer d id t false a' -> no_snapshot d id t -> a = a'.
Proof.
  intros H H' N. inversion H; subst. inversion H'; subst; [reflexivity|].
  match goal with L : latest_snapshot _ _ _ _ |- _ => destruct L as [L1 [L2 [L3 _]]] end. specialize (N _ L1 L2). lia.
Qed.

Lemma split_sum id l p q :
  money_in id p l = money_in id (fun x => p x && q x) l + money_in id (fun x => p x && negb (q x)) l /\
  money_out id p l = money_out id (fun x => p x && q x) l + money_out id (fun x => p x && negb (q x)) l.
Proof.
  unfold money_in, money_out. split; (induction l as [|t l IH]; [reflexivity|]); cbn [sumz]; rewrite IH;
  destruct (p t), (q t); cbn [andb negb]; rewrite ?andb_true_r, ?andb_false_r; lia.
Qed.

(** The error of the snapshot path, exactly. *)
Theorem snapshot_error d id t s src a : sreach d -> dated d -> latest_snapshot d id t s ->
  answer d id t true src -> a = replay id (fetch d id (sn_time s) t) (sn_cr s, sn_db s) ->
  fst a = fst src + money_in id (effective_after (sn_time s)) (before_snap d s)
                  - money_in id (effective_by (sn_time s)) (after_snap d s) /\
  snd a = snd src + money_out id (effective_after (sn_time s)) (before_snap d s)
                  - money_out id (effective_by (sn_time s)) (after_snap d s).
Proof.
  intros R D [L1 [L2 [L3 _]]] H ->. rewrite (from_source _ _ _ _ D H), fetch_sum. cbn [fst snd].
  destruct (di_snap _ (reach_dinv _ R) s (or_introl L1)) as [_ [S1 S2]]. rewrite L2 in S1, S2. rewrite S1, S2.
  assert (E : g_rows d = before_snap d s ++ after_snap d s) by (symmetry; apply firstn_skipn).
  set (A := before_snap d s) in *. set (B := after_snap d s) in *. rewrite E, !money_in_app, !money_out_app.
  set (T := sn_time s) in *. clear - L3.
  assert (G1 : forall l, money_in id (fun x => effective_after T x && effective_by t x) l + money_in id (effective_by T) l = money_in id (effective_by t) l /\
                         money_out id (fun x => effective_after T x && effective_by t x) l + money_out id (effective_by T) l = money_out id (effective_by t) l).
  { intros l. unfold money_in, money_out, effective_after, effective_by.
    split; (induction l as [|x l IH]; [reflexivity|]); cbn [sumz]; rewrite <- IH;
    destruct (T <? r_eff x) eqn:E1, (r_eff x <=? t) eqn:E2, (r_eff x <=? T) eqn:E3;
    repeat match goal with H : (_ <? _) = true |- _ => apply Z.ltb_lt in H | H : (_ <? _) = false |- _ => apply Z.ltb_ge in H
                         | H : (_ <=? _) = true |- _ => apply Z.leb_le in H | H : (_ <=? _) = false |- _ => apply Z.leb_gt in H end;
    try lia; cbn [andb]; rewrite ?andb_true_r, ?andb_false_r; lia. }
  assert (G2 : forall l, money_in id all_of l = money_in id (effective_by T) l + money_in id (effective_after T) l /\
                         money_out id all_of l = money_out id (effective_by T) l + money_out id (effective_after T) l).
  { intros l. unfold money_in, money_out, effective_after, effective_by, all_of.
    split; (induction l as [|x l IH]; [reflexivity|]); cbn [sumz]; rewrite IH;
    destruct (r_eff x <=? T) eqn:E1, (T <? r_eff x) eqn:E3;
    repeat match goal with H : (_ <? _) = true |- _ => apply Z.ltb_lt in H | H : (_ <? _) = false |- _ => apply Z.ltb_ge in H
                         | H : (_ <=? _) = true |- _ => apply Z.leb_le in H | H : (_ <=? _) = false |- _ => apply Z.leb_gt in H end;
    try lia; rewrite ?andb_true_r, ?andb_false_r; lia. }
  destruct (G1 A), (G1 B), (G2 A). split; lia.
Qed.

Lemma none_zero id p l : (forall t, In t l -> r_applied t = true -> (r_src t = id \/ r_dst t = id) -> p t = false) ->
  money_in id p l = 0 /\ money_out id p l = 0.
Proof.
  intros H. unfold money_in, money_out. induction l as [|t l IH]; [split; reflexivity|]. cbn [sumz].
  destruct IH as [I1 I2]; [intros; apply H; auto; right; assumption|]. rewrite I1, I2.
  specialize (H t (or_introl eq_refl)).
  split.
  - destruct (String.eqb (r_dst t) id) eqn:E, (r_applied t) eqn:G; cbn [andb]; try reflexivity. rewrite H; auto. right. apply String.eqb_eq; exact E.
  - destruct (String.eqb (r_src t) id) eqn:E, (r_applied t) eqn:G; cbn [andb]; try reflexivity. rewrite H; auto. left. apply String.eqb_eq; exact E.
Qed.

Theorem snapshot_agrees d id t src a : sreach d -> dated d -> answer d id t true src -> answer d id t false a ->
  (forall s, latest_snapshot d id t s -> no_straddle d id s) -> a = src.
Proof.
  intros R D H H' N. inversion H' as [|b B1 B2 B3 B4 G E1 E2|b s B1 B2 B3 B4 L E1 E2]; subst.
  - symmetry. eapply genesis_agrees; eauto.
  - pose proof (snapshot_error _ _ _ _ _ _ R D L H eq_refl) as [X1 X2]. destruct (N s L) as [N1 N2].
    destruct (none_zero (o_id b) (effective_after (sn_time s)) (before_snap d s)) as [Z1 Z2].
    { intros x Hx A O. unfold effective_after. apply Z.ltb_ge. apply N1; auto. }
    destruct (none_zero (o_id b) (effective_by (sn_time s)) (after_snap d s)) as [Z3 Z4].
    { intros x Hx A O. unfold effective_by. apply Z.leb_gt. apply N2; auto. }
    rewrite (surjective_pairing (replay _ _ _)), (surjective_pairing src). f_equal; lia.
Qed.

Theorem answer_exists d id t fs : id <> ""%string -> t <> zero_time -> (exists b, In b (g_bals d) /\ o_id b = id) -> exists a, answer d id t fs a.
Proof.
  intros H1 H2 [b [B1 B2]]. destruct fs; [eexists; eapply AnsSource; eauto|].
  assert (X : no_snapshot d id t \/ exists s, latest_snapshot d id t s).
  { unfold no_snapshot, latest_snapshot. induction (g_snaps d) as [|x l IH]; [left; intros s []|].
    destruct (string_dec (sn_bal x) id) as [E|E]; [|destruct IH as [IH|[s [I1 [I2 [I3 I4]]]]]].
    2:{ left. intros s [<-|Hs] E'; [congruence|auto]. }
    2:{ right. exists s. repeat split; auto; [right; exact I1|]. intros s' [<-|Hs'] E'; [congruence|auto]. }
    destruct (Z_le_gt_dec (sn_time x) t) as [L|L].
    - right. destruct IH as [IH|[s [I1 [I2 [I3 I4]]]]].
      + exists x. repeat split; auto; [left; reflexivity|]. intros s' [<-|Hs'] E' L'; [lia|]. specialize (IH _ Hs' E'). lia.
      + destruct (Z_le_gt_dec (sn_time x) (sn_time s)).
        * exists s. repeat split; auto; [right; exact I1|]. intros s' [<-|Hs'] E' L'; [lia|auto].
        * exists x. repeat split; auto; [left; reflexivity|]. intros s' [<-|Hs'] E' L'; [lia|]. specialize (I4 _ Hs' E' L'). lia.
    - destruct IH as [IH|[s [I1 [I2 [I3 I4]]]]].
      + left. intros s [<-|Hs] E'; [lia|auto].
      + right. exists s. repeat split; auto; [right; exact I1|]. intros s' [<-|Hs'] E' L'; [lia|auto]. }
  destruct X as [X|[s X]]; eexists; [eapply AnsGenesis|eapply AnsSnapshot]; eauto.
Qed.

(** ** One snapshot a day *)
Definition on_day (id : string) (t : Z) (s : snap) : bool := String.eqb (sn_bal s) id && (day (sn_time s) =? day t).
Definition count_on (l : list snap) (id : string) (t : Z) : nat := List.length (filter (on_day id t) l).
Lemma count_app l1 l2 id t : count_on (l1 ++ l2) id t = (count_on l1 id t + count_on l2 id t)%nat.
Proof. unfold count_on. rewrite filter_app, app_length. reflexivity. Qed.
Lemma today_count now l id : has_today now l id = true <-> (1 <= count_on l id now)%nat.
Proof.
  unfold has_today, count_on, on_day. rewrite existsb_exists. split.
  - intros [s [H1 H2]]. assert (X : In s (filter (fun s => String.eqb (sn_bal s) id && (day (sn_time s) =? day now)) l)) by (apply filter_In; auto).
    destruct (filter _ l); [destruct X|cbn; lia].
  - intros H. destruct (filter _ l) as [|s r] eqn:E; [cbn in H; lia|]. exists s.
    assert (X : In s (s :: r)) by (left; reflexivity). rewrite <- E in X. apply filter_In in X. exact X.
Qed.

Definition waiting (d : sdb) (u : run) (b : brow) : Prop :=
  u_done u = false /\ exists l, u_last u = Some l /\ l < o_pk b /\
  match u_count u with
  | None => True
  | Some n => n <> 0%nat /\ (u_batch u <= List.length (filter (fun x => (l <? o_pk x)%Z && (o_pk x <? o_pk b)%Z) (g_bals d)))%nat
  end.

Record rinv (d : sdb) (u : run) : Prop := {
  ri_one : forall id t, (count_on (g_snaps d ++ u_new u) id t <= 1)%nat;
  ri_batch : u_batch u <> 0%nat;
  ri_max : u_max u = max_pk (u_known u);
  ri_known : forall b, In b (u_known u) -> exists b', In b' (g_bals d) /\ o_pk b' = o_pk b /\ o_id b' = o_id b;
  ri_cov : forall b, In b (u_known u) -> has_today (u_now u) (g_snaps d ++ u_new u) (o_id b) = true \/ waiting d u b }.

Definition oneinv (d : sdb) : Prop :=
  (forall id t, (count_on (g_snaps d) id t <= 1)%nat) /\
  (g_runs d = [] \/ exists u, g_runs d = [u] /\ rinv d u).

Lemma max_pk_ge l b : In b l -> exists m, max_pk l = Some m /\ o_pk b <= m.
Proof.
  induction l as [|x l IH]; intros []; cbn [max_pk].
  - subst. eexists; split; [reflexivity|]. destruct (max_pk l); lia.
  - destruct (IH H) as [m [M1 M2]]. rewrite M1. eexists; split; [reflexivity|lia].
Qed.
Lemma max_pk_in l m : max_pk l = Some m -> exists b, In b l /\ o_pk b = m.
Proof.
  revert m. induction l as [|x l IH]; intros m H; [discriminate|]. cbn [max_pk] in H. injection H as H.
  destruct (max_pk l) as [m'|].
  - destruct (Z.max_spec (o_pk x) m') as [[L E]|[L E]]; rewrite E in H; subst.
    + destruct (IH m eq_refl) as [b [B1 B2]]. exists b; split; [right; exact B1|exact B2].
    + exists x; split; [left; reflexivity|reflexivity].
  - exists x; split; [left; reflexivity|exact H].
Qed.

(** In a sorted list with at least [n] members below [x] the first [n] are below [x]. *)
Lemma first_below (S : list brow) x : StronglySorted (before o_pk) S -> forall n,
  (n <= List.length (filter (fun b => (o_pk b <? x)%Z) S))%nat -> forall y, In y (firstn n S) -> o_pk y < x.
Proof.
  induction 1 as [|a S H1 IH H2]; intros n L y Hy; [rewrite firstn_nil in Hy; destruct Hy|].
  destruct n; [destruct Hy|]. cbn [filter] in L. destruct (o_pk a <? x) eqn:E.
  - cbn [List.length] in L. destruct Hy as [<-|Hy]; [apply Z.ltb_lt; exact E|]. apply (IH n); [lia|exact Hy].
  - exfalso. apply Z.ltb_ge in E. assert (X : filter (fun b => o_pk b <? x) S = []).
    { clear - H2 E. induction H2 as [|b S H _ IH]; [reflexivity|]. cbn [filter]. unfold before in H.
      assert (Y : (o_pk b <? x) = false) by (apply Z.ltb_ge; lia). rewrite Y. exact IH. }
    rewrite X in L. cbn in L. lia.
Qed.

(** A member of a sorted list that is not among the first [n]: the first [n] are below it. *)
Lemma not_first (S : list brow) b : StronglySorted (before o_pk) S -> NoDup (map o_pk S) -> In b S -> forall n, ~ In b (firstn n S) ->
  List.length (firstn n S) = n /\ (forall y, In y (firstn n S) -> o_pk y < o_pk b).
Proof.
  induction 1 as [|a S H1 IH H2]; intros N I n Hn; [destruct I|].
  destruct n; [split; [reflexivity|intros y []]|]. cbn [firstn] in *.
  destruct I as [<-|I]; [exfalso; apply Hn; left; reflexivity|]. inversion N as [|? ? N1 N2]; subst.
  destruct (IH N2 I n) as [X1 X2]; [intros X; apply Hn; right; exact X|]. split; [cbn; rewrite X1; reflexivity|].
  intros y [<-|Hy]; [|auto]. rewrite Forall_forall in H2. specialize (H2 b I). unfold before in H2.
  assert (o_pk a <> o_pk b) by (intros E; apply N1; rewrite E; apply in_map; exact I). lia.
Qed.

Lemma filter_map_len {A} (f g : A -> bool) (h : A -> A) l : (forall x, g (h x) = f x) -> List.length (filter g (map h l)) = List.length (filter f l).
Proof. intros E. induction l as [|x l IH]; [reflexivity|]. cbn [map filter]. rewrite E. destruct (f x); cbn; rewrite IH; reflexivity. Qed.

Lemma sub_filter_len {A} (f g : A -> bool) l : (forall x, In x l -> f x = true -> g x = true) -> (List.length (filter f l) <= List.length (filter g l))%nat.
Proof.
  induction l as [|x l IH]; intros H; [auto|]. cbn [filter].
  assert (X : (List.length (filter f l) <= List.length (filter g l))%nat) by (apply IH; intros; apply H; auto; right; assumption).
  destruct (f x) eqn:E; [rewrite (H x (or_introl eq_refl) E); cbn; lia|destruct (g x); cbn; lia].
Qed.

Lemma nodup_incl_len {A} (l l' : list A) : NoDup l -> (forall x, In x l -> In x l') -> (List.length l <= List.length l')%nat.
Proof. intros N H. apply NoDup_incl_length; [exact N|exact H]. Qed.

Lemma nodup_filter_map {A B} (h : A -> B) f (l : list A) : NoDup (map h l) -> NoDup (map h (filter f l)).
Proof.
  induction l as [|x l IH]; intros H; [constructor|]. inversion H as [|? ? H1 H2]; subst. cbn [filter].
  destruct (f x); [|auto]. cbn [map]. constructor; [|auto]. intros X. apply H1. apply in_map_iff in X.
  destruct X as [y [E Y]]. apply filter_In in Y. rewrite <- E. apply in_map. tauto.
Qed.

Lemma batch_members d u : dinv d ->
  let S := sort_by o_pk (filter (fun b => above (u_last u) (o_pk b) && negb (has_today (u_now u) (g_snaps d ++ u_new u) (o_id b))) (g_bals d)) in
  StronglySorted (before o_pk) S /\ NoDup (map o_pk S) /\ NoDup (map o_id S) /\
  (forall b, In b S <-> In b (g_bals d) /\ above (u_last u) (o_pk b) = true /\ has_today (u_now u) (g_snaps d ++ u_new u) (o_id b) = false).
Proof.
  intros D S. subst S. set (F := filter _ (g_bals d)).
  split; [apply sort_sorted|]. split; [|split].
  - apply (Permutation_NoDup (l := map o_pk F)); [apply Permutation_map, sort_perm|]. apply nodup_filter_map, D.
  - apply (Permutation_NoDup (l := map o_id F)); [apply Permutation_map, sort_perm|]. apply nodup_filter_map, D.
  - intros b. split.
    + intros H. eapply Permutation_in in H; [|apply Permutation_sym, sort_perm]. apply filter_In in H.
      destruct H as [H1 H2]. apply andb_true_iff in H2. rewrite negb_true_iff in H2. tauto.
    + intros [H1 [H2 H3]]. eapply Permutation_in; [apply sort_perm|]. apply filter_In. rewrite H2, H3. auto.
Qed.

Lemma nodup_count (S : list brow) n f t id : NoDup (map o_id S) ->
  (count_on (map (fun b => {| sn_bal := o_id b; sn_cr := o_cr b; sn_db := o_db b; sn_time := t; sn_seen := f |}) (firstn n S)) id t <= 1)%nat.
Proof.
  intros N. assert (N' : NoDup (map o_id (firstn n S))).
  { rewrite <- (firstn_skipn n S), map_app in N. apply nodup_left in N. exact N. }
  revert N'. generalize (firstn n S). clear. intros l. induction l as [|b l IH]; intros N; [cbn; lia|].
  inversion N as [|? ? N1 N2]; subst. unfold count_on, on_day in *. cbn [map filter sn_bal sn_time].
  destruct (String.eqb (o_id b) id) eqn:E; [|cbn [andb]; apply IH; exact N2]. apply String.eqb_eq in E. rewrite Z.eqb_refl. cbn [andb List.length].
  assert (X : forall l', (forall y, In y l' -> o_id y <> id) ->
    filter (fun s => String.eqb (sn_bal s) id && (day (sn_time s) =? day t))
      (map (fun b => {| sn_bal := o_id b; sn_cr := o_cr b; sn_db := o_db b; sn_time := t; sn_seen := f |}) l') = []).
  { induction l' as [|y l' IH']; intros Y; [reflexivity|]. cbn [map filter sn_bal].
    assert (W : String.eqb (o_id y) id = false) by (apply String.eqb_neq, Y; left; reflexivity). rewrite W. cbn [andb].
    apply IH'. intros; apply Y; right; assumption. }
  rewrite X; [cbn; lia|]. intros y Hy W. apply N1. rewrite E, <- W. apply in_map; exact Hy.
Qed.

Lemma count_other_day l id t t' : (forall s, In s l -> sn_time s = t) -> day t <> day t' -> count_on l id t' = 0%nat.
Proof.
  intros H N. unfold count_on, on_day. induction l as [|s l IH]; [reflexivity|]. cbn [filter].
  rewrite (H s (or_introl eq_refl)). rewrite (proj2 (Z.eqb_neq _ _) N), andb_false_r. apply IH. intros; apply H; right; assumption.
Qed.
Lemma count_same_day l id t t' : day t = day t' -> count_on l id t = count_on l id t'.
Proof. intros E. unfold count_on. f_equal. apply filter_ext. intros s. unfold on_day. rewrite E. reflexivity. Qed.

(** The INSERT. *)
Lemma rinv_insert d u : dinv d -> rinv d u -> u_done u = false -> u_count u = None ->
  rinv (with_runs d (set_at 0 (insert_batch d u) [u])) (insert_batch d u).
Proof.
  intros D [O B M K C] Dn Cn. pose proof (batch_members d u D) as [S1 [S2 [S3 S4]]].
  set (S := sort_by o_pk _) in *. assert (T : take_batch d u = map (fun b => {| sn_bal := o_id b; sn_cr := o_cr b; sn_db := o_db b;
    sn_time := u_now u; sn_seen := List.length (g_rows d) |}) (firstn (u_batch u) S)) by reflexivity.
  assert (Tin : forall b, In b (firstn (u_batch u) S) -> has_today (u_now u) (g_snaps d ++ u_new u ++ take_batch d u) (o_id b) = true).
  { intros b Hb. unfold has_today. apply existsb_exists. eexists; split.
    - apply in_or_app; right. apply in_or_app; right. rewrite T. apply in_map. exact Hb.
    - cbn [sn_bal sn_time]. rewrite String.eqb_refl, Z.eqb_refl. reflexivity. }
  constructor; cbn [insert_batch u_new u_batch u_max u_known u_now u_last u_count u_done g_snaps with_runs g_bals]; auto.
  - intros id t. rewrite app_assoc, count_app. destruct (Z.eq_dec (day (u_now u)) (day t)) as [E|E].
    + rewrite <- (count_same_day _ _ _ _ E), <- (count_same_day (take_batch d u) _ _ _ E).
      pose proof (nodup_count S (u_batch u) (List.length (g_rows d)) (u_now u) id S3) as X. rewrite <- T in X.
      destruct (count_on (take_batch d u) id (u_now u)) eqn:Z.
      * specialize (O id (u_now u)). lia.
      * assert (Y : count_on (g_snaps d ++ u_new u) id (u_now u) = 0%nat).
        { unfold count_on in Z. destruct (filter (on_day id (u_now u)) (take_batch d u)) as [|s r] eqn:F; [discriminate|].
          assert (Hs : In s (filter (on_day id (u_now u)) (take_batch d u))) by (rewrite F; left; reflexivity).
          apply filter_In in Hs. destruct Hs as [Hs1 Hs2]. apply take_batch_in in Hs1. destruct Hs1 as [b [_ [_ [B3 ->]]]].
          unfold on_day in Hs2. cbn [sn_bal] in Hs2. apply andb_true_iff in Hs2. destruct Hs2 as [Hs2 _]. apply String.eqb_eq in Hs2. subst id.
          destruct (count_on (g_snaps d ++ u_new u) (o_id b) (u_now u)) eqn:W; [reflexivity|].
          assert (has_today (u_now u) (g_snaps d ++ u_new u) (o_id b) = true) by (apply today_count; lia). congruence. }
        lia.
    + rewrite (count_other_day (take_batch d u) id (u_now u) t); [specialize (O id t); lia| |exact E].
      intros s Hs. apply take_batch_in in Hs. destruct Hs as [b [_ [_ [_ ->]]]]. reflexivity.
  - intros b Hb. destruct (C b Hb) as [C1|[C1 [l [C2 [C3 _]]]]].
    { left. rewrite app_assoc. unfold has_today in *. rewrite existsb_app, C1. reflexivity. }
    destruct (K b Hb) as [b' [K1 [K2 K3]]].
    destruct (has_today (u_now u) (g_snaps d ++ u_new u) (o_id b)) eqn:H0.
    { left. rewrite app_assoc. unfold has_today in *. rewrite existsb_app, H0. reflexivity. }
    assert (Hs : In b' S) by (apply S4; rewrite C2, K3; cbn [above]; repeat split; auto; apply Z.ltb_lt; lia).
    destruct (in_dec Z.eq_dec (o_pk b') (map o_pk (firstn (u_batch u) S))) as [I|I].
    { left. apply in_map_iff in I. destruct I as [b2 [I1 I2]]. rewrite <- K3.
      assert (E : b2 = b').
      { assert (X1 : In b2 (g_bals d)) by (apply firstn_in, S4 in I2; tauto).
        clear - X1 K1 I1 D. pose proof (di_pk _ D) as N. revert X1 K1 N. generalize (g_bals d). induction l as [|x l IH]; intros [] [] N; subst.
        - reflexivity.
        - inversion N as [|? ? N1 _]; subst. exfalso. apply N1. rewrite I1. apply in_map; assumption.
        - inversion N as [|? ? N1 _]; subst. exfalso. apply N1. rewrite <- I1. apply in_map; assumption.
        - inversion N; subst. auto. }
      subst b2. apply Tin. exact I2. }
    right. destruct (not_first S b' S1 S2 Hs (u_batch u)) as [N1 N2]; [intros X; apply I, in_map; exact X|].
    split; [exact eq_refl|]. exists l. split; [exact C2|]. split; [exact C3|].
    cbn [u_count insert_batch]. split.
    + rewrite T, map_length, N1. exact B.
    + cbn [g_bals with_runs u_batch insert_batch]. rewrite <- N1 at 1. rewrite <- (map_length o_pk (firstn (u_batch u) S)), <- (map_length o_pk (filter _ (g_bals d))).
      apply nodup_incl_len.
      * rewrite <- (firstn_skipn (u_batch u) S), map_app in S2. apply nodup_left in S2. exact S2.
      * intros p Hp. apply in_map_iff in Hp. destruct Hp as [y [<- Hy]]. apply in_map. apply filter_In.
        pose proof (N2 y Hy) as Lt. apply firstn_in, S4 in Hy. destruct Hy as [Y1 [Y2 _]]. rewrite C2 in Y2. cbn [above] in Y2.
        split; [exact Y1|]. rewrite Y2. cbn [andb]. apply Z.ltb_lt. lia.
Qed.

(** The query for the next starting point. *)
Lemma rinv_advance d u n : dinv d -> rinv d u -> u_count u = Some n ->
  rinv (with_runs d (set_at 0 (advance d u n) [u])) (advance d u n).
Proof.
  intros D [O B M K C] Cn.
  constructor; cbn [advance u_new u_batch u_max u_known u_now u_last u_count u_done g_snaps with_runs g_bals]; auto.
  intros b Hb. destruct (C b Hb) as [C1|[C1 [l [C2 [C3 C4]]]]]; [left; exact C1|]. rewrite Cn in C4. destruct C4 as [C4 C5].
  right. unfold waiting. cbn [advance u_done u_last u_count].
  set (F := filter (fun x => above (u_last u) (o_pk x)) (g_bals d)).
  assert (W : forall y, In y (firstn (u_batch u) (sort_by o_pk F)) -> o_pk y < o_pk b).
  { apply first_below; [apply sort_sorted|]. etransitivity; [exact C5|].
    rewrite (Permutation_length (filter_perm (fun x => o_pk x <? o_pk b) _ _ (Permutation_sym (sort_perm o_pk F)))).
    subst F. rewrite C2. cbn [above]. clear. induction (g_bals d) as [|x r IH]; [auto|]. cbn [filter].
    destruct (l <? o_pk x) eqn:E1; cbn [andb filter]; [|exact IH]. destruct (o_pk x <? o_pk b); cbn; lia. }
  assert (NE : next_last d u <> None).
  { unfold next_last. fold F. intros X. assert (Y : firstn (u_batch u) (sort_by o_pk F) = []).
    { destruct (firstn (u_batch u) (sort_by o_pk F)); [reflexivity|discriminate]. }
    destruct (K b Hb) as [b' [K1 [K2 _]]]. assert (I : In b' (sort_by o_pk F)).
    { eapply Permutation_in; [apply sort_perm|]. subst F. apply filter_In. split; [exact K1|]. rewrite C2. cbn [above]. apply Z.ltb_lt; lia. }
    destruct (u_batch u); [congruence|]. destruct (sort_by o_pk F); [destruct I|discriminate]. }
  destruct (next_last d u) as [l'|] eqn:E; [|congruence]. destruct (max_pk_in _ _ E) as [y [Y1 Y2]]. apply W in Y1. rewrite Y2 in Y1.
  split; [|exists l'; auto]. unfold finished. rewrite (proj2 (Nat.eqb_neq _ _) C4). cbn [orb].
  destruct (max_pk_ge _ _ Hb) as [m [M1 M2]]. rewrite M, M1. apply Z.leb_gt. lia.
Qed.

(** Steps that only add balances or change counters. *)
Lemma rinv_grow d d' u : rinv d u -> g_snaps d' = g_snaps d ->
  (forall b, In b (g_bals d) -> exists b', In b' (g_bals d') /\ o_pk b' = o_pk b /\ o_id b' = o_id b) ->
  (forall lo hi, (List.length (filter (fun x => (lo <? o_pk x)%Z && (o_pk x <? hi)%Z) (g_bals d)) <=
                  List.length (filter (fun x => (lo <? o_pk x)%Z && (o_pk x <? hi)%Z) (g_bals d')))%nat) ->
  rinv d' u.
Proof.
  intros [O B M K C] E G L. constructor; auto; rewrite ?E; auto.
  - intros b Hb. destruct (K b Hb) as [b' [K1 [K2 K3]]]. destruct (G b' K1) as [b2 [G1 [G2 G3]]]. exists b2; repeat split; congruence.
  - intros b Hb. destruct (C b Hb) as [C1|[C1 [l [C2 [C3 C4]]]]]; [left; exact C1|]. right. split; [exact C1|]. exists l. split; [exact C2|]. split; [exact C3|].
    destruct (u_count u); [|exact C4]. destruct C4 as [C4 C5]. split; [exact C4|]. etransitivity; [exact C5|apply L].
Qed.

Lemma oneinv_step d e d' : dinv d -> oneinv d -> match e with NStart _ => g_runs d = [] | _ => True end -> sstep d e = Some d' -> oneinv d'.
Proof.
  intros D [I1 I2] X H. destruct e as [t|pk id|t|n|i|i|i|i]; cbn [sstep] in H.
  - destruct (t <=? 0); [discriminate|]. injection H as <-. split; [exact I1|]. cbn [g_runs].
    destruct I2 as [I2|[u [U1 U2]]]; [left; exact I2|right; exists u; split; [exact U1|]].
    eapply rinv_grow; [exact U2|reflexivity|cbn [g_bals]; eauto|cbn [g_bals]; auto].
  - destruct ((pk <=? 0) || existsb _ _); [discriminate|]. injection H as <-. split; [exact I1|]. cbn [g_runs].
    destruct I2 as [I2|[u [U1 U2]]]; [left; exact I2|right; exists u; split; [exact U1|]].
    eapply rinv_grow; [exact U2|reflexivity| |].
    + cbn [g_bals]. intros b Hb. exists b. split; [apply in_or_app; auto|auto].
    + cbn [g_bals]. intros. rewrite filter_app, app_length. lia.
  - destruct (existsb _ _ && existsb _ _); [|discriminate]. injection H as <-. split; [exact I1|]. cbn [g_runs].
    destruct I2 as [I2|[u [U1 U2]]]; [left; exact I2|right; exists u; split; [exact U1|]].
    assert (J : forall b, o_id (post_to t b) = o_id b /\ o_pk (post_to t b) = o_pk b) by (intros b; unfold post_to; destruct (r_applied t); auto).
    eapply rinv_grow; [exact U2|reflexivity| |].
    + cbn [g_bals]. intros b Hb. exists (post_to t b). split; [apply in_map; exact Hb|]. destruct (J b); auto.
    + cbn [g_bals]. intros. erewrite filter_map_len; [apply le_n|]. intros b. cbv beta. destruct (J b) as [_ ->]. reflexivity.
  - destruct (Nat.eqb n 0) eqn:N0; [discriminate|]. injection H as <-. apply Nat.eqb_neq in N0. split; [exact I1|]. cbn [g_runs with_runs]. rewrite X.
    right. exists (start_run d n). split; [reflexivity|]. constructor; cbn [start_run u_new u_batch u_max u_known u_now u_last u_count u_done g_snaps with_runs g_bals]; auto.
    + intros id t. rewrite app_nil_r. apply I1.
    + intros b Hb. exists b; auto.
    + intros b Hb. right. unfold waiting. cbn [start_run u_done u_last u_count]. split; [reflexivity|]. exists 0. repeat split; auto. apply D; exact Hb.
  - destruct I2 as [I2|[u [U1 U2]]]; [rewrite I2 in H; destruct i; discriminate|]. rewrite U1 in H. destruct i; [|destruct i; discriminate].
    cbn [nth_error] in H. destruct (u_done u) eqn:Dn; [discriminate|]. destruct (u_count u) eqn:Cn; [discriminate|]. injection H as <-.
    split; [exact I1|]. right. exists (insert_batch d u). split; [reflexivity|]. apply rinv_insert; assumption.
  - destruct I2 as [I2|[u [U1 U2]]]; [rewrite I2 in H; destruct i; discriminate|]. rewrite U1 in H. destruct i; [|destruct i; discriminate].
    cbn [nth_error] in H. destruct (u_count u) as [n|] eqn:Cn; [|discriminate]. injection H as <-.
    split; [exact I1|]. right. exists (advance d u n). split; [reflexivity|]. apply rinv_advance; assumption.
  - destruct I2 as [I2|[u [U1 U2]]]; [rewrite I2 in H; destruct i; discriminate|]. rewrite U1 in H. destruct i; [|destruct i; discriminate].
    cbn [nth_error] in H. destruct (u_done u) eqn:Dn; [|discriminate]. injection H as <-. split; [|left; reflexivity]. cbn [g_snaps]. apply U2.
  - destruct I2 as [I2|[u [U1 U2]]]; [rewrite I2 in H; destruct i; discriminate|]. rewrite U1 in H. destruct i; [|destruct i; discriminate].
    cbn [nth_error] in H. injection H as <-. split; [exact I1|left; reflexivity].
Qed.

Theorem reach_oneinv d : sreach1 d -> oneinv d.
Proof.
  apply sreach1_ind.
  - split; [intros; cbn; lia|left; reflexivity].
  - intros d0 e d' R I X H. eapply oneinv_step; eauto. apply reach_dinv, sreach1_reach, R.
Qed.

Theorem at_most_one d id t : sreach1 d -> (snapshots_on d id t <= 1)%nat.
Proof. intros R. apply (reach_oneinv d R). Qed.

(** A run keeps its time and the balances it knew. *)
Lemma run_kept es : forall d u d', (forall e, In e es -> no_start e) -> g_runs d = [u] -> sruns d es = Some d' ->
  g_runs d' = [] \/ exists u', g_runs d' = [u'] /\ u_now u' = u_now u /\ u_known u' = u_known u.
Proof.
  induction es as [|e es IH]; intros d u d' N G H.
  - cbn in H. injection H as <-. right. exists u. auto.
  - cbn [sruns] in H. destruct (sstep d e) as [d1|] eqn:E; [|discriminate].
    assert (N' : forall e, In e es -> no_start e) by (intros; apply N; right; assumption).
    assert (Z : forall es d d', (forall e, In e es -> no_start e) -> g_runs d = [] -> sruns d es = Some d' -> g_runs d' = []).
    { clear. induction es as [|e es IH]; intros d d' N G H; [cbn in H; injection H as <-; exact G|]. cbn [sruns] in H.
      destruct (sstep d e) as [d1|] eqn:E; [|discriminate]. eapply IH; [intros; apply N; right; eassumption| |exact H].
      specialize (N e (or_introl eq_refl)). destruct e as [t|pk id|t|n|i|i|i|i]; cbn [sstep] in E; try rewrite G in E; try (destruct i; discriminate).
      - destruct (t <=? 0); [discriminate|]. injection E as <-. cbn [g_runs]; first [exact G|reflexivity].
      - destruct (_ || _); [discriminate|]. injection E as <-. cbn [g_runs]; first [exact G|reflexivity].
      - destruct (_ && _); [|discriminate]. injection E as <-. cbn [g_runs]; first [exact G|reflexivity].
      - destruct N. }
    specialize (N e (or_introl eq_refl)).
    assert (K : g_runs d1 = [] \/ exists u', g_runs d1 = [u'] /\ u_now u' = u_now u /\ u_known u' = u_known u).
    { destruct e as [t|pk id|t|n|i|i|i|i]; cbn [sstep] in E; try rewrite G in E.
      - destruct (t <=? 0); [discriminate|]. injection E as <-. right; exists u; cbn [g_runs]; auto.
      - destruct (_ || _); [discriminate|]. injection E as <-. right; exists u; cbn [g_runs]; auto.
      - destruct (_ && _); [|discriminate]. injection E as <-. right; exists u; cbn [g_runs]; auto.
      - destruct N.
      - destruct i; [|destruct i; discriminate]. cbn [nth_error] in E. destruct (u_done u); [discriminate|]. destruct (u_count u); [discriminate|].
        injection E as <-. right. eexists; split; [reflexivity|]. auto.
      - destruct i; [|destruct i; discriminate]. cbn [nth_error] in E. destruct (u_count u); [|discriminate].
        injection E as <-. right. eexists; split; [reflexivity|]. auto.
      - destruct i; [|destruct i; discriminate]. cbn [nth_error] in E. destruct (u_done u); [|discriminate]. injection E as <-. left. reflexivity.
      - destruct i; [|destruct i; discriminate]. cbn [nth_error] in E. injection E as <-. left. reflexivity. }
    destruct K as [K|[u' [K1 [K2 K3]]]].
    + left. eapply Z; eauto.
    + destruct (IH _ _ _ N' K1 H) as [L|[u2 [L1 [L2 L3]]]]; [left; exact L|right; exists u2; repeat split; congruence].
Qed.

Lemma sreach1_more es : forall d d', sreach1 d -> (forall e, In e es -> no_start e) -> sruns d es = Some d' -> sreach1 d'.
Proof.
  intros d d' [es0 [O R]] N H. exists (es0 ++ es). rewrite sruns_app, R. split; [|exact H]. apply one_app. split; [exact O|]. rewrite R.
  clear - N H. revert d d' H. induction es as [|e es IH]; intros d d' H; [exact Logic.I|]. cbn [sruns one_at_a_time] in *.
  destruct (sstep d e) as [d1|]; [|discriminate]. split; [specialize (N e (or_introl eq_refl)); destruct e; auto; destruct N|].
  eapply IH; [intros; apply N; right; assumption|exact H].
Qed.

Theorem exactly_one d0 n d1 es d2 d3 : sreach1 d0 -> g_runs d0 = [] -> sstep d0 (NStart n) = Some d1 ->
  (forall e, In e es -> no_start e) -> sruns d1 es = Some d2 -> sstep d2 (NCommit 0) = Some d3 ->
  forall b, In b (g_bals d0) -> snapshots_on d3 (o_id b) (g_now d0) = 1%nat.
Proof.
  intros R0 G S1 N S2 S3 b Hb.
  assert (R1 : sreach1 d1).
  { destruct R0 as [es0 [O R]]. exists (es0 ++ [NStart n]). rewrite sruns_app, R. split; [|cbn [sruns]; rewrite S1; reflexivity].
    apply one_app. split; [exact O|]. rewrite R. cbn [one_at_a_time]. rewrite S1. auto. }
  assert (R2 : sreach1 d2) by (eapply sreach1_more; eauto).
  assert (R3 : sreach1 d3) by (apply (sreach1_more [NCommit 0] d2); [exact R2|intros e [<-|[]]; exact Logic.I|cbn [sruns]; rewrite S3; reflexivity]).
  cbn [sstep] in S1. destruct (Nat.eqb n 0); [discriminate|]. injection S1 as <-.
  destruct (run_kept es (with_runs d0 (g_runs d0 ++ [start_run d0 n])) (start_run d0 n) d2 N) as [K|[u [K1 [K2 K3]]]]; [cbn [g_runs with_runs]; rewrite G; reflexivity|exact S2| |].
  { cbn [sstep] in S3. rewrite K in S3. discriminate. }
  pose proof (reach_oneinv d2 R2) as [_ [I|[u' [U1 U2]]]]; [congruence|]. rewrite K1 in U1. injection U1 as <-.
  cbn [sstep] in S3. rewrite K1 in S3. cbn [nth_error] in S3. destruct (u_done u) eqn:Dn; [|discriminate]. injection S3 as <-.
  cbn [start_run u_now u_known] in K2, K3. rewrite <- K3 in Hb. pose proof (ri_cov _ _ U2 b Hb) as [C|[C _]]; [|congruence].
  apply today_count in C. rewrite K2 in C. pose proof (at_most_one _ (o_id b) (g_now d0) R3) as A.
  unfold snapshots_on in *. cbn [g_snaps] in *. unfold count_on, on_day in C. lia.
Qed.

(** Snapshots are only ever added. *)
Theorem snapshots_kept es : forall d d', sruns d es = Some d' -> exists more, g_snaps d' = g_snaps d ++ more.
Proof.
  induction es as [|e es IH]; intros d d' H; [cbn in H; injection H as <-; exists []; rewrite app_nil_r; reflexivity|].
  cbn [sruns] in H. destruct (sstep d e) as [d1|] eqn:E; [|discriminate]. destruct (IH _ _ H) as [more M].
  assert (X : exists m, g_snaps d1 = g_snaps d ++ m).
  { destruct e as [t|pk id|t|n|i|i|i|i]; cbn [sstep] in E.
    - destruct (t <=? 0); [discriminate|]. injection E as <-. exists []; rewrite app_nil_r; reflexivity.
    - destruct (_ || _); [discriminate|]. injection E as <-. exists []; rewrite app_nil_r; reflexivity.
    - destruct (_ && _); [|discriminate]. injection E as <-. exists []; rewrite app_nil_r; reflexivity.
    - destruct (Nat.eqb n 0); [discriminate|]. injection E as <-. exists []; rewrite app_nil_r; reflexivity.
    - destruct (nth_error (g_runs d) i); [|discriminate]. destruct (u_done r); [discriminate|]. destruct (u_count r); [discriminate|]. injection E as <-. exists []; rewrite app_nil_r; reflexivity.
    - destruct (nth_error (g_runs d) i); [|discriminate]. destruct (u_count r); [|discriminate]. injection E as <-. exists []; rewrite app_nil_r; reflexivity.
    - destruct (nth_error (g_runs d) i) as [u|]; [|discriminate]. destruct (u_done u); [|discriminate]. injection E as <-. exists (u_new u). reflexivity.
    - destruct (nth_error (g_runs d) i); [|discriminate]. injection E as <-. exists []; rewrite app_nil_r; reflexivity. }
  destruct X as [m X]. exists (m ++ more). rewrite M, X, app_assoc. reflexivity.
Qed.

(** A snapshot row holds what had been posted to its balance when it was read. *)
Theorem snapshot_content d s : sreach d -> In s (g_snaps d) ->
  sn_cr s = money_in (sn_bal s) all_of (before_snap d s) /\ sn_db s = money_out (sn_bal s) all_of (before_snap d s).
Proof. intros R H. apply (di_snap _ (reach_dinv _ R) s (or_introl H)). Qed.

(** Left alone, a run ends. *)
Definition rest (d : sdb) (u : run) : list brow := filter (fun b => above (u_last u) (o_pk b)) (g_bals d).
Lemma run_ends_aux : forall fuel d (u : run), g_runs d = [u] -> u_done u = false -> u_count u = None -> u_batch u <> 0%nat ->
  (List.length (rest d u) < fuel)%nat -> exists k d', (k <= fuel)%nat /\ sruns d (iterations k ++ [NCommit 0]) = Some d'.
Proof.
  induction fuel as [|n IH]; intros d u G Dn Cn B L; [lia|].
  set (u1 := insert_batch d u). set (d1 := with_runs d [u1]).
  set (u2 := advance d1 u1 (List.length (take_batch d u))). set (d2 := with_runs d1 [u2]).
  assert (E1 : sstep d (NInsert 0) = Some d1) by (cbn [sstep]; rewrite G; cbn [nth_error set_at]; rewrite Dn, Cn; reflexivity).
  assert (E2 : sstep d1 (NAdvance 0) = Some d2) by reflexivity.
  destruct (u_done u2) eqn:D2.
  { exists 1%nat. eexists. split; [lia|]. cbn [iterations app sruns]. rewrite E1, E2. cbn [sruns sstep]. subst d2. cbn [g_runs with_runs nth_error]. rewrite D2. reflexivity. }
  destruct (IH d2 u2) as [k [d' [K1 K2]]]; [reflexivity|exact D2|reflexivity|exact B| |].
  2:{ exists (S k), d'. split; [lia|]. cbn [iterations app sruns]. rewrite E1, E2. exact K2. }
  assert (NE : take_batch d u <> []).
  { intros E. subst u2. unfold advance in D2. cbn [u_done] in D2. rewrite E in D2. cbn in D2. discriminate. }
  destruct (take_batch d u) as [|s r] eqn:E; [congruence|].
  assert (Hs : In s (take_batch d u)) by (rewrite E; left; reflexivity). apply take_batch_in in Hs.
  destruct Hs as [b [B1 [B2 _]]].
  assert (W : exists y, In y (rest d u) /\ u_last u2 = Some (o_pk y)).
  { subst u2. cbn [advance u_last]. unfold next_last. cbn [u_batch u_last insert_batch u1 d1 g_bals with_runs].
    fold (rest d u). assert (Hb : In b (sort_by o_pk (rest d u))) by (eapply Permutation_in; [apply sort_perm|]; apply filter_In; auto).
    destruct (max_pk (firstn (u_batch u) (sort_by o_pk (rest d u)))) as [m|] eqn:M.
    - destruct (max_pk_in _ _ M) as [y [Y1 Y2]]. exists y. split; [|congruence]. apply firstn_in in Y1.
      eapply Permutation_in; [apply Permutation_sym, sort_perm|exact Y1].
    - exfalso. destruct (u_batch u); [congruence|]. destruct (sort_by o_pk (rest d u)); [destruct Hb|discriminate]. }
  destruct W as [y [Y1 Y2]]. unfold rest at 1. rewrite Y2. unfold rest in L, Y1. apply filter_In in Y1. destruct Y1 as [Y1 Y3].
  cbn [above g_bals d2 d1 with_runs]. destruct (u_last u) as [l|]; [|discriminate]. cbn [above] in *. apply Z.ltb_lt in Y3.
  assert (X : (List.length (filter (fun b => (o_pk y <? o_pk b)%Z) (g_bals d)) < List.length (filter (fun b => (l <? o_pk b)%Z) (g_bals d)))%nat).
  { clear - Y1 Y3. induction (g_bals d) as [|x r IH]; [destruct Y1|]. cbn [filter]. destruct Y1 as [->|Y1].
    - rewrite Z.ltb_irrefl. rewrite (proj2 (Z.ltb_lt _ _) Y3). cbn [List.length].
      assert (List.length (filter (fun b => (o_pk y <? o_pk b)%Z) r) <= List.length (filter (fun b => (l <? o_pk b)%Z) r))%nat; [|lia].
      apply sub_filter_len. intros z _ Hz. apply Z.ltb_lt in Hz. apply Z.ltb_lt. lia.
    - specialize (IH Y1). destruct (o_pk y <? o_pk x) eqn:E1.
      + apply Z.ltb_lt in E1. assert (E2 : (l <? o_pk x) = true) by (apply Z.ltb_lt; lia). rewrite E2. cbn; lia.
      + destruct (l <? o_pk x); cbn; lia. }
  lia.
Qed.
Theorem run_ends d batch d1 : g_runs d = [] -> sstep d (NStart batch) = Some d1 ->
  exists k d2, (k <= S (List.length (g_bals d)))%nat /\ sruns d1 (iterations k ++ [NCommit 0]) = Some d2.
Proof.
  intros G H. cbn [sstep] in H. destruct (Nat.eqb batch 0) eqn:B; [discriminate|]. injection H as <-. apply Nat.eqb_neq in B.
  apply (run_ends_aux _ _ (start_run d batch)); [cbn [g_runs with_runs]; rewrite G; reflexivity|reflexivity|reflexivity|exact B|]. unfold rest.
  assert (X : forall (f : brow -> bool) l, (List.length (filter f l) <= List.length l)%nat).
  { intros f l. induction l as [|x l IH]; [auto|]. cbn [filter]. destruct (f x); cbn; lia. }
  specialize (X (fun b => above (u_last (start_run d batch)) (o_pk b)) (g_bals d)). cbn [g_bals with_runs]. lia.
Qed.
