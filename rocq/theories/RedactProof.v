From Coq Require Import List String Ascii Bool Arith Lia Permutation.
From Verif Require Import RedactModel RedactSpec.
Import ListNotations.
Local Open Scope nat_scope.
Local Open Scope list_scope.

(** ** Lists and classes *)
Lemma starts_app p : forall s, starts p s = true <-> exists y, s = p ++ y.
Proof.
  induction p as [|x p IH]; intros s; cbn [starts app].
  - split; [eauto|auto].
  - destruct s as [|y s]; [split; [discriminate|intros [z [=]]]|]. rewrite andb_true_iff, IH, Ascii.eqb_eq. split.
    + intros [-> [z ->]]. eauto.
    + intros [z [= -> ->]]. eauto.
Qed.

Lemma has_app p s : has p s = true <-> exists x y, s = x ++ p ++ y.
Proof.
  induction s as [|c s IH]; cbn [has]; rewrite orb_true_iff, starts_app.
  - split; [intros [[y E]|]; [exists [], y; exact E|discriminate]|]. intros (x & y & E). left. symmetry in E. apply app_eq_nil in E. destruct E as [-> E]. exists y. auto.
  - rewrite IH. split.
    + intros [[y ->]|(x & y & ->)]; [exists [], y; reflexivity|exists (c :: x), y; reflexivity].
    + intros (x & y & E). destruct x as [|d x]; [left; exists y; exact E|]. injection E as <- ->. right. eauto.
Qed.

Lemma span_app f x : forall y, Forall (fun c => f c = true) x -> span f (x ++ y) = (x ++ fst (span f y), snd (span f y)).
Proof.
  induction x as [|c x IH]; intros y H; cbn [app span]; [destruct (span f y); reflexivity|].
  inversion H; subst. rewrite H2, IH by assumption. reflexivity.
Qed.

Lemma span_stop f x c y : Forall (fun c => f c = true) x -> f c = false -> span f (x ++ c :: y) = (x, c :: y).
Proof. intros H Hc. rewrite span_app by exact H. cbn. rewrite Hc. cbn. rewrite app_nil_r. reflexivity. Qed.

Lemma span_opens f x y : Forall (fun c => f c = true) x -> opens_not f y -> span f (x ++ y) = (x, y).
Proof. intros H Hy. destruct y as [|c y]; [rewrite span_app by exact H; cbn; rewrite !app_nil_r; reflexivity|apply span_stop; auto]. Qed.

Lemma split_or (f : ascii -> bool) x : Forall (fun c => f c = true) x \/ exists a c y, x = a ++ c :: y /\ Forall (fun c => f c = true) a /\ f c = false.
Proof.
  induction x as [|c x IH]; [left; constructor|]. destruct (f c) eqn:E.
  - destruct IH as [H|(a & d & y & -> & H & Hd)]; [left; constructor; auto|right; exists (c :: a), d, y; repeat split; auto].
  - right. exists [], c, x. repeat split; auto.
Qed.

Definition chars : list ascii := map ascii_of_nat (seq 0 256).
Lemma chars_all c : In c chars.
Proof. unfold chars. rewrite <- (ascii_nat_embedding c). apply in_map. apply in_seq. pose proof (nat_ascii_bounded c). lia. Qed.
Lemma by_all (f : ascii -> bool) : forallb f chars = true -> forall c, f c = true.
Proof. intros H c. rewrite forallb_forall in H. apply H, chars_all. Qed.
Ltac chars_check := match goal with |- forall c : ascii, @?P c = true => apply (by_all P); vm_compute; reflexivity end.

(** ** Replacing *)
Definition last_word (p : bool) (x : bytes) : bool := fold_left (fun _ c => word c) x p.

Lemma replace_skip len by_ x : forall n p s, n = List.length x -> replace len by_ n p (x ++ s) = replace len by_ 0 (last_word p x) s.
Proof.
  induction x as [|c x IH]; intros n p s ->; [reflexivity|]. cbn [app replace List.length last_word fold_left]. apply IH. reflexivity.
Qed.

Lemma replace_none len by_ x : forall p s, (forall y z, x = y ++ z -> z <> [] -> len (last_word p y) (z ++ s) = 0) ->
  replace len by_ 0 p (x ++ s) = x ++ replace len by_ 0 (last_word p x) s.
Proof.
  induction x as [|c x IH]; intros p s H; [reflexivity|]. cbn [app replace].
  pose proof (H [] (c :: x) eq_refl ltac:(discriminate)) as H0. cbn [last_word fold_left app] in H0. rewrite H0. f_equal. apply IH.
  intros y z -> Hz. apply (H (c :: y) z eq_refl Hz).
Qed.

Lemma replace_hit len by_ n m : forall p s, m <> [] -> len p (m ++ s) = n -> n = List.length m ->
  replace len by_ 0 p (m ++ s) = by_ m ++ replace len by_ 0 (last_word p m) s.
Proof.
  intros p s Hm Hn Hl. destruct m as [|c m]; [contradiction|]. cbn [app replace]. cbn [app] in Hn. rewrite Hn, Hl. cbn [List.length].
  change (firstn (S (List.length m)) (c :: m ++ s)) with (c :: firstn (List.length m) (m ++ s)).
  rewrite firstn_app, Nat.sub_diag, firstn_all, firstn_O, app_nil_r. f_equal.
  change (last_word p (c :: m)) with (last_word (word c) m). apply (replace_skip len by_ m). reflexivity.
Qed.

(** ** Tokens *)
Lemma low_length s : List.length (map low s) = List.length s. Proof. apply map_length. Qed.

Lemma bearer_none p s : starts (b "bearer") (map low s) = false -> bearer_len p s = 0.
Proof. intros H. unfold bearer_len. rewrite H. destruct p; reflexivity. Qed.

Lemma bearer_hit w gap t x : map low w = b "bearer" -> all space gap -> all token t -> opens_not token x ->
  bearer_len false (w ++ gap ++ t ++ x) = List.length (w ++ gap ++ t).
Proof.
  intros Hw [Hg Fg] [Ht Ft] Hx. unfold bearer_len. rewrite map_app, Hw.
  replace (starts (b "bearer") (b "bearer" ++ map low (gap ++ t ++ x))) with true by (symmetry; apply starts_app; eauto).
  assert (L : List.length w = 6) by (rewrite <- (low_length w), Hw; reflexivity).
  replace (skipn 6 (w ++ gap ++ t ++ x)) with (gap ++ t ++ x).
  2:{ rewrite <- L. rewrite skipn_app, skipn_all, Nat.sub_diag. reflexivity. }
  rewrite span_opens with (x := gap); [|exact Fg|].
  - rewrite span_opens with (x := t) by assumption. destruct gap; [contradiction|]. destruct t; [contradiction|].
    rewrite !app_length, L. cbn [List.length]. lia.
  - destruct t as [|c t]; [contradiction|]. cbn [app opens_not]. inversion Ft; subst.
    assert (K : forall c, implb (token c) (negb (space c)) = true) by chars_check. specialize (K c). rewrite H1 in K. simpl in K. apply negb_true_iff. exact K.
Qed.

Lemma bearer_before pre s : without (b "bearer") (map low pre) -> closes_not word pre ->
  forall p y z, pre = y ++ z -> z <> [] -> bearer_len p (z ++ s) = 0.
Proof.
  intros Hw (q & c & E & Hc) p y z E' Hz. apply bearer_none. apply not_true_is_false. intros K. apply starts_app in K. destruct K as [r K].
  rewrite map_app in K.
  destruct (le_lt_dec 6 (List.length z)) as [L|L].
  - apply (Hw (map low y) (skipn 6 (map low z))). rewrite E', map_app. f_equal.
    rewrite <- (firstn_skipn 6 (map low z)) at 1. f_equal.
    assert (F : firstn 6 (map low z ++ map low s) = firstn 6 (b "bearer" ++ r)) by (f_equal; exact K).
    rewrite firstn_app in F. replace (6 - List.length (map low z)) with 0 in F by (rewrite low_length; lia). rewrite firstn_O, app_nil_r in F. exact F.
  - destruct (exists_last Hz) as (z' & d & ->). rewrite E' in E. rewrite app_assoc in E. apply app_inj_tail in E. destruct E as [_ ->].
    rewrite map_app in K. cbn [map] in K. rewrite <- app_assoc in K. cbn [app] in K.
    assert (N : nth_error (b "bearer" ++ r) (List.length z') = Some (low c)).
    { rewrite <- K. rewrite nth_error_app2 by (rewrite low_length; lia). rewrite low_length, Nat.sub_diag. reflexivity. }
    rewrite app_length in L. cbn [List.length] in L. rewrite nth_error_app1 in N by (cbn; lia).
    apply nth_error_In in N.
    assert (Q : forall c, implb (existsb (Ascii.eqb (low c)) (b "bearer")) (word c) = true) by chars_check.
    specialize (Q c). replace (existsb (Ascii.eqb (low c)) (b "bearer")) with true in Q; [simpl in Q; congruence|].
    symmetry. apply existsb_exists. exists (low c). split; [exact N|apply Ascii.eqb_refl].
Qed.

Lemma flag_free by_ x : opens_not token x -> forall p p', replace bearer_len by_ 0 p x = replace bearer_len by_ 0 p' x.
Proof.
  destruct x as [|c x]; intros H p p'; [reflexivity|]. cbn [replace].
  assert (Z : forall q, bearer_len q (c :: x) = 0).
  { intros q. apply bearer_none. cbn [map b list_ascii_of_string starts].
    assert (Q : forall c, implb (Ascii.eqb "b" (low c)) (token c) = true) by chars_check. specialize (Q c). cbn in H. rewrite H in Q.
    destruct (Ascii.eqb "b" (low c)); [discriminate|reflexivity]. }
  rewrite !Z. reflexivity.
Qed.

Lemma tokens_gone by_ front s s' : same_but_tokens front s s' -> (forall m m', by_ m = by_ m') ->
  forall p p', (front = true -> p = false /\ p' = false) -> replace bearer_len by_ 0 p s = replace bearer_len by_ 0 p' s'.
Proof.
  intros H Hby. induction H as [front x Hx|front pre w gap t t' x x' Hw Hc Ho Ew Hg Ht Ht' Hx Hx' H IH]; intros p p' Hp.
  - destruct Hx as [->|Hx]; [destruct (Hp eq_refl) as [-> ->]; reflexivity|apply flag_free; exact Hx].
  - assert (Hit : forall t p x, all token t -> opens_not token x -> p = false ->
      replace bearer_len by_ 0 p (w ++ gap ++ t ++ x) = by_ (w ++ gap ++ t) ++ replace bearer_len by_ 0 (last_word p (w ++ gap ++ t)) x).
    { intros t0 p0 x0 Ht0 Hx0 ->. pose proof (bearer_hit w gap t0 x0 Ew Hg Ht0 Hx0) as L.
      replace (w ++ gap ++ t0 ++ x0) with ((w ++ gap ++ t0) ++ x0) by (rewrite <- !app_assoc; reflexivity). apply (replace_hit bearer_len by_ (List.length (w ++ gap ++ t0)) (w ++ gap ++ t0)).
      - destruct w; discriminate.
      - rewrite <- !app_assoc. exact L.
      - reflexivity. }
    destruct Hc as [[-> ->]|Hc].
    + destruct (Hp eq_refl) as [-> ->]. cbn [app]. rewrite !Hit by auto. rewrite (Hby _ (w ++ gap ++ t')). f_equal. apply IH. discriminate.
    + assert (F : forall p, last_word p pre = false).
      { destruct Hc as (q & c & -> & Hc). intros p0. unfold last_word. rewrite fold_left_app. exact Hc. }
      rewrite (replace_none bearer_len by_ pre p), (replace_none bearer_len by_ pre p').
      * rewrite !F. f_equal. rewrite !Hit by auto. rewrite (Hby _ (w ++ gap ++ t')). f_equal. apply IH. discriminate.
      * intros y z E Hz. eapply bearer_before; eauto.
      * intros y z E Hz. eapply bearer_before; eauto.
Qed.

(** ** Values of a query *)
Lemma query_flag k s : forall p p', replace query_len query_by k p s = replace query_len query_by k p' s.
Proof. destruct s; intros p p'; reflexivity. Qed.

Lemma parts_shape s n v : query_parts s = Some (n, v) -> exists c m x, n = c :: m /\ s = n ++ "="%char :: v ++ x /\ query_parts (n ++ "="%char :: v) = Some (n, v).
Proof.
  destruct s as [|c r]; [discriminate|]. cbn [query_parts]. destruct (one_of "?&" c) eqn:Ec; [|discriminate].
  assert (Sp : forall f s, Forall (fun c => f c = true) (fst (span f s)) /\ s = fst (span f s) ++ snd (span f s) /\ opens_not f (snd (span f s))).
  { intros f s0. induction s0 as [|d s0 (I1 & I2 & I3)]; [repeat split; constructor|]. cbn [span]. destruct (f d) eqn:E.
    - destruct (span f s0) as [x y]. cbn [fst snd] in *. repeat split; [constructor; auto|cbn; f_equal; exact I2|exact I3].
    - cbn. repeat split; [constructor|exact E]. }
  destruct (Sp in_name r) as (N1 & N2 & N3). destruct (span in_name r) as [[|x m] [|e w]] eqn:En; try discriminate. cbn [fst snd] in *.
  destruct (Ascii.eqb_spec e "=") as [->|]; [|discriminate]. destruct (Sp in_value w) as (V1 & V2 & V3).
  destruct (span in_value w) as [[|y u] q] eqn:Ev; cbn [fst snd] in *; [discriminate|]. intros [= <- <-].
  exists c, (x :: m), q. split; [reflexivity|]. split; [rewrite N2, V2; reflexivity|].
  cbn [app query_parts]. rewrite Ec. change (x :: m ++ "="%char :: y :: u) with ((x :: m) ++ "="%char :: y :: u).
  rewrite span_stop by (auto; reflexivity). rewrite Ascii.eqb_refl.
  rewrite <- (app_nil_r (y :: u)). rewrite span_opens by (auto; exact I). cbn [fst]. rewrite app_nil_r. reflexivity.
Qed.

Lemma query_at c n v x : In c (b "?&") -> all in_name n -> all in_value v -> opens_not in_value x ->
  query_parts (c :: n ++ "="%char :: v ++ x) = Some (c :: n, v).
Proof.
  intros Hc [Hn Fn] [Hv Fv] Hx. cbn [query_parts].
  replace (one_of "?&" c) with true by (symmetry; unfold one_of; apply existsb_exists; exists c; split; [exact Hc|apply Ascii.eqb_refl]).
  rewrite span_stop by (auto; reflexivity). destruct n as [|d n]; [contradiction|]. rewrite Ascii.eqb_refl. rewrite span_opens by assumption. cbn [fst].
  destruct v; [contradiction|reflexivity].
Qed.

(** What the match that starts in front of a parameter is, whatever the value of that parameter. *)
Lemma query_over d pre c n : In c (b "?&") -> all in_name n ->
  (forall v x, all in_value v -> opens_not in_value x -> query_parts (d :: pre ++ c :: n ++ "="%char :: v ++ x) = None) \/
  (exists m w, List.length m + 1 + List.length w <= S (List.length pre) /\
     forall v x, all in_value v -> opens_not in_value x -> query_parts (d :: pre ++ c :: n ++ "="%char :: v ++ x) = Some (m, w)) \/
  (exists m u, forall v x, all in_value v -> opens_not in_value x -> query_parts (d :: pre ++ c :: n ++ "="%char :: v ++ x) = Some (m, u ++ v) /\
     List.length m + 1 + List.length (u ++ v) = S (List.length pre) + S (List.length n) + 1 + List.length v).
Proof.
  intros Hc [Hn Fn]. cbn [query_parts]. destruct (one_of "?&" d) eqn:Ed; [|left; reflexivity].
  assert (C : c = "?"%char \/ c = "&"%char) by (cbn in Hc; intuition congruence).
  assert (Fv : Forall (fun c => in_value c = true) n).
  { revert Fn. apply Forall_impl. assert (K : forall a, implb (in_name a) (in_value a) = true) by chars_check. intros a Ha. specialize (K a). rewrite Ha in K. exact K. }
  destruct (split_or in_name pre) as [Fp|(a & e & y & -> & Fa & He)].
  - destruct C as [->| ->].
    + right. right. exists (d :: pre ++ "?"%char :: n), []. intros v x [Hv Fv'] Hx.
      assert (Fpn : Forall (fun c => in_name c = true) (pre ++ "?"%char :: n)) by (apply Forall_app; split; [exact Fp|constructor; [reflexivity|exact Fn]]).
      replace (pre ++ "?"%char :: n ++ "="%char :: v ++ x) with ((pre ++ "?"%char :: n) ++ "="%char :: v ++ x) by (rewrite <- app_assoc; reflexivity).
      rewrite span_stop by (auto; reflexivity). rewrite span_opens by assumption.
      destruct (pre ++ "?"%char :: n) as [|z zs] eqn:E; [destruct pre; discriminate|]. rewrite Ascii.eqb_refl. cbn [fst].
      destruct v as [|v0 v]; [contradiction|]. split; [reflexivity|]. cbn [List.length app].
      apply (f_equal (@List.length ascii)) in E. rewrite app_length in E. cbn [List.length] in E. lia.
    + left. intros v x _ _. rewrite span_stop by (auto; reflexivity). destruct pre; reflexivity.
  - destruct a as [|a0 a].
    + left. intros v x _ _. cbn [app]. cbn [span]. rewrite He. reflexivity.
    + destruct (Ascii.eqb_spec e "=") as [->|Ne].
      2:{ left. intros v x _ _. rewrite <- app_assoc. cbn [app]. change (a0 :: a ++ e :: y ++ c :: n ++ "="%char :: v ++ x) with ((a0 :: a) ++ e :: y ++ c :: n ++ "="%char :: v ++ x).
          rewrite span_stop by auto. destruct (Ascii.eqb_spec e "="); [contradiction|reflexivity]. }
      assert (Sp : forall z, span in_name (((a0 :: a) ++ "="%char :: y) ++ z) = (a0 :: a, "="%char :: y ++ z)).
      { intros z. rewrite <- app_assoc. cbn [app]. change (a0 :: a ++ "="%char :: y ++ z) with ((a0 :: a) ++ "="%char :: y ++ z). apply span_stop; auto. }
      destruct (split_or in_value y) as [Fy|(a2 & e2 & y2 & -> & Fa2 & He2)].
      * destruct C as [->| ->].
        -- right. right. exists (d :: a0 :: a), (y ++ "?"%char :: n ++ ["="%char]). intros v x [Hv Fv'] Hx. rewrite Sp, Ascii.eqb_refl.
           replace (y ++ "?"%char :: n ++ "="%char :: v ++ x) with (((y ++ "?"%char :: n ++ ["="%char]) ++ v) ++ x) by (rewrite <- !app_assoc; cbn; rewrite <- !app_assoc; reflexivity).
           rewrite span_opens.
           ++ cbn [fst]. destruct ((y ++ "?"%char :: n ++ ["="%char]) ++ v) as [|q qs] eqn:E; [destruct y; discriminate|]. split; [reflexivity|].
              rewrite <- E. rewrite !app_length. cbn [List.length]. rewrite !app_length. cbn [List.length]. lia.
           ++ apply Forall_app; split; [apply Forall_app; split; [exact Fy|constructor; [reflexivity|apply Forall_app; split; [exact Fv|repeat constructor]]]|exact Fv'].
           ++ exact Hx.
        -- destruct y as [|y0 y].
           ++ left. intros v x _ _. rewrite Sp, Ascii.eqb_refl. reflexivity.
           ++ right. left. exists (d :: a0 :: a), (y0 :: y). split; [rewrite !app_length; cbn [List.length]; lia|]. intros v x _ _. rewrite Sp, Ascii.eqb_refl.
              rewrite (span_stop in_value (y0 :: y) "&"%char) by (auto; reflexivity). reflexivity.
      * destruct a2 as [|b0 a2].
        -- left. intros v x _ _. rewrite Sp, Ascii.eqb_refl. cbn [app span]. rewrite He2. reflexivity.
        -- right. left. exists (d :: a0 :: a), (b0 :: a2). split; [rewrite !app_length; cbn [List.length]; rewrite app_length; cbn [List.length]; lia|].
           intros v x _ _. rewrite Sp, Ascii.eqb_refl. rewrite <- app_assoc. cbn [app].
           change (b0 :: a2 ++ e2 :: y2 ++ c :: n ++ "="%char :: v ++ x) with ((b0 :: a2) ++ e2 :: y2 ++ c :: n ++ "="%char :: v ++ x).
           rewrite span_stop by auto. reflexivity.
Qed.

Lemma query_hit p s n v x : query_parts s = Some (n, v) -> s = n ++ "="%char :: v ++ x ->
  replace query_len query_by 0 p s = n ++ redacted ++ replace query_len query_by 0 false x.
Proof.
  intros H E. destruct (parts_shape s n v H) as (c & m & x' & En & _ & K).
  assert (L : query_len p s = List.length (n ++ "="%char :: v)) by (unfold query_len; rewrite H, app_length; cbn [List.length]; lia).
  replace (n ++ "="%char :: v ++ x) with ((n ++ "="%char :: v) ++ x) in E by (rewrite <- app_assoc; reflexivity). rewrite E in L |- *.
  rewrite (replace_hit query_len query_by (List.length (n ++ "="%char :: v))).
  - unfold query_by at 1. rewrite K. rewrite <- app_assoc. do 2 f_equal. apply query_flag.
  - rewrite En. discriminate.
  - exact L.
  - reflexivity.
Qed.

Lemma same_tail {A} (a a' : list A) : forall x y, List.length a = List.length a' -> a ++ x = a' ++ y -> x = y.
Proof. revert a'. induction a as [|c a IH]; intros [|c' a'] x y L E; try discriminate L; [exact E|]. injection L as L. injection E as _ E. eapply IH; eauto. Qed.

Lemma values_over c n v v' x x' : In c (b "?&") -> all in_name n -> all in_value v -> all in_value v' -> opens_not in_value x -> opens_not in_value x' ->
  replace query_len query_by 0 false x = replace query_len query_by 0 false x' ->
  forall pre k, k <= List.length pre ->
  replace query_len query_by k false (pre ++ c :: n ++ "="%char :: v ++ x) = replace query_len query_by k false (pre ++ c :: n ++ "="%char :: v' ++ x').
Proof.
  intros Hc Hn Hv Hv' Hx Hx' E. induction pre as [|d pre IH]; intros k Hk.
  - cbn [List.length] in Hk. replace k with 0 by lia. cbn [app].
    rewrite (query_hit false _ (c :: n) v x (query_at c n v x Hc Hn Hv Hx) eq_refl), (query_hit false _ (c :: n) v' x' (query_at c n v' x' Hc Hn Hv' Hx') eq_refl).
    rewrite E. reflexivity.
  - cbn [List.length] in Hk. destruct k as [|k].
    + destruct (query_over d pre c n Hc Hn) as [H|[(m & w & L & H)|(m & u & H)]].
      * assert (Q : forall v x, all in_value v -> opens_not in_value x -> query_len false (d :: pre ++ c :: n ++ "="%char :: v ++ x) = 0)
          by (intros; unfold query_len; rewrite H by assumption; reflexivity).
        cbn [app replace]. rewrite !Q by assumption. f_equal. rewrite !(query_flag 0 _ (word d) false). apply IH. lia.
      * assert (Q : forall v x, all in_value v -> opens_not in_value x -> query_len false (d :: pre ++ c :: n ++ "="%char :: v ++ x) = List.length m + 1 + List.length w)
          by (intros; unfold query_len; rewrite H by assumption; reflexivity).
        cbn [app replace]. rewrite !Q by assumption.
        destruct (List.length m + 1 + List.length w) as [|k] eqn:Ek; [lia|].
        assert (F : forall z, firstn (S k) (d :: pre ++ z) = firstn (S k) (d :: pre)).
        { intros z. change (d :: pre ++ z) with ((d :: pre) ++ z). rewrite firstn_app. replace (S k - List.length (d :: pre)) with 0 by (cbn [List.length]; lia). rewrite firstn_O, app_nil_r. reflexivity. }
        rewrite !F. f_equal. rewrite !(query_flag k _ (word d) false). apply IH. lia.
      * destruct (H v x Hv Hx) as [H1 L1], (H v' x' Hv' Hx') as [H2 L2].
        assert (Z : forall v x, query_parts (d :: pre ++ c :: n ++ "="%char :: v ++ x) = Some (m, u ++ v) ->
          List.length m + 1 + List.length (u ++ v) = S (List.length pre) + S (List.length n) + 1 + List.length v ->
          d :: pre ++ c :: n ++ "="%char :: v ++ x = m ++ "="%char :: (u ++ v) ++ x).
        { intros v0 x0 H0 L0. destruct (parts_shape _ _ _ H0) as (c0 & m0 & y & _ & Ey & _). rewrite Ey. do 2 f_equal.
          f_equal. symmetry. apply (same_tail ((d :: pre) ++ (c :: n) ++ "="%char :: v0) (m ++ "="%char :: u ++ v0)).
          - rewrite !app_length in *. cbn [List.length app] in *. rewrite ?app_length in *. cbn [List.length] in *. lia.
          - rewrite <- !app_assoc. cbn [app]. rewrite <- ?app_assoc. cbn [app]. rewrite <- ?app_assoc in Ey. exact Ey. }
        cbn [app]. rewrite (query_hit false _ _ _ x H1 (Z v x H1 L1)), (query_hit false _ _ _ x' H2 (Z v' x' H2 L2)). rewrite E. reflexivity.
    + cbn [app replace]. rewrite !(query_flag k _ (word d) false). apply IH. lia.
Qed.

Lemma values_gone s s' : same_but_values s s' -> replace query_len query_by 0 false s = replace query_len query_by 0 false s'.
Proof. induction 1; [reflexivity|]. apply values_over; auto. lia. Qed.

(** ** Texts *)
Lemma without_has p s : without p s -> forall y z, s = y ++ z -> starts p z = false.
Proof. intros H y z ->. apply not_true_is_false. intros K. apply starts_app in K. destruct K as [w ->]. apply (H y w). reflexivity. Qed.

Lemma no_bearer by_ s : without (b "bearer") (map low s) -> replace bearer_len by_ 0 false s = s.
Proof.
  intros H. rewrite <- (app_nil_r s) at 1. rewrite replace_none; [cbn; apply app_nil_r|]. intros y z E _. apply bearer_none. rewrite app_nil_r.
  apply (without_has _ _ H (map low y)). rewrite E. apply map_app.
Qed.

Lemma no_url u s : without (b "http") s -> replace url_len u 0 false s = s.
Proof.
  intros H. rewrite <- (app_nil_r s) at 1. rewrite replace_none; [cbn; apply app_nil_r|]. intros y z E _. rewrite app_nil_r. unfold url_len.
  assert (K : forall q, starts (b "http" ++ q) z = false).
  { intros q. apply not_true_is_false. intros K. apply starts_app in K. destruct K as [w ->]. apply (H y (q ++ w)). rewrite E, <- app_assoc. reflexivity. }
  change (b "http://") with (b "http" ++ b "://"). change (b "https://") with (b "http" ++ b "s://"). rewrite !K. reflexivity.
Qed.

Lemma no_query s : (forall c, In c (b "?&") -> ~ In c s) -> replace query_len query_by 0 false s = s.
Proof.
  intros H. rewrite <- (app_nil_r s) at 1. rewrite replace_none; [cbn; apply app_nil_r|]. intros y z E Hz. rewrite app_nil_r. unfold query_len.
  destruct z as [|c z]; [contradiction|]. cbn [query_parts]. destruct (one_of "?&" c) eqn:Ec; [|reflexivity].
  exfalso. unfold one_of in Ec. apply existsb_exists in Ec. destruct Ec as (d & Hd & Ed). apply Ascii.eqb_eq in Ed. subst d.
  apply (H c Hd). rewrite E. apply in_or_app. right. left. reflexivity.
Qed.

Lemma url_before pre h s : without (b "http") pre -> In h [b "http://"; b "https://"] ->
  forall p y z, pre = y ++ z -> z <> [] -> url_len p (z ++ h ++ s) = 0.
Proof.
  intros Hw Hh p y z E Hz. unfold url_len.
  assert (K : forall q, starts (b "http" ++ q) (z ++ h ++ s) = false).
  { intros q. apply not_true_is_false. intros K. apply starts_app in K. destruct K as [r K]. rewrite <- app_assoc in K.
    assert (H0 : exists h', h = "h"%char :: h') by (cbn in Hh; destruct Hh as [<-|[<-|[]]]; eexists; reflexivity). destruct H0 as [h' ->].
    destruct z as [|z0 [|z1 [|z2 [|z3 z]]]]; [contradiction| | | |]; cbn in K; injection K; intros; try discriminate; subst.
    apply (Hw y z). reflexivity. }
  change (b "http://") with (b "http" ++ b "://"). change (b "https://") with (b "http" ++ b "s://"). rewrite !K. reflexivity.
Qed.

Lemma url_hit h a x p : In h [b "http://"; b "https://"] -> all in_url a -> opens_not in_url x -> url_len p (h ++ a ++ x) = List.length (h ++ a).
Proof.
  intros Hh [Ha Fa] Hx. unfold url_len.
  assert (Z : (if starts (b "http://") (h ++ a ++ x) then 7 else if starts (b "https://") (h ++ a ++ x) then 8 else 0) = List.length h
    /\ skipn (List.length h) (h ++ a ++ x) = a ++ x) by (cbn in Hh; destruct Hh as [<-|[<-|[]]]; split; reflexivity).
  destruct Z as [-> ->]. rewrite span_opens by assumption. cbn [fst].
  assert (N : (List.length h =? 0) = false) by (cbn in Hh; destruct Hh as [<-|[<-|[]]]; reflexivity). rewrite N.
  destruct a; [contradiction|]. rewrite app_length. reflexivity.
Qed.

Lemma url_flag u k s : forall p p', replace url_len u k p s = replace url_len u k p' s.
Proof. destruct s; intros p p'; reflexivity. Qed.

Lemma urls_gone u s s' : same_but_urls u s s' -> replace url_len u 0 false s = replace url_len u 0 false s'.
Proof.
  induction 1 as [|pre h h' a a' x x' Hp Hh Hh' Ha Ha' E Hx Hx' H IH]; [reflexivity|].
  assert (Z : forall h a x, In h [b "http://"; b "https://"] -> all in_url a -> opens_not in_url x ->
    replace url_len u 0 false (pre ++ h ++ a ++ x) = pre ++ u (h ++ a) ++ replace url_len u 0 false x).
  { intros h0 a0 x0 Hh0 Ha0 Hx0. rewrite (replace_none url_len u pre false).
    - f_equal. rewrite (url_flag u 0 _ _ false). pose proof (url_hit h0 a0 x0 false Hh0 Ha0 Hx0) as L.
      replace (h0 ++ a0 ++ x0) with ((h0 ++ a0) ++ x0) in * by (rewrite <- app_assoc; reflexivity).
      rewrite (replace_hit url_len u (List.length (h0 ++ a0)) (h0 ++ a0)); [f_equal; apply url_flag| |exact L|reflexivity].
      intros C. apply app_eq_nil in C. destruct Ha0 as [Ha0 _]. apply Ha0, C.
    - intros y z E0 Hz. eapply url_before; eauto. }
  rewrite (Z h a x Hh Ha Hx), (Z h' a' x' Hh' Ha' Hx'), E, IH. reflexivity.
Qed.

Theorem text_gone u s s' : same_text u s s' -> redact_string u s = redact_string u s'.
Proof.
  intros [->|[H|[(H & B1 & B2)|(H & B1 & B2 & U1 & U2)]]]; [reflexivity| | |]; unfold redact_string.
  - rewrite (tokens_gone (fun _ => b "Bearer " ++ redacted) true s s' H (fun _ _ => eq_refl) false false (fun _ => conj eq_refl eq_refl)). reflexivity.
  - rewrite !no_bearer by assumption. rewrite (urls_gone u s s' H). reflexivity.
  - rewrite !no_bearer, !no_url by assumption. rewrite (values_gone s s' H). reflexivity.
Qed.

(** ** Harmless texts *)
Lemma span_is f s : s = fst (span f s) ++ snd (span f s) /\ Forall (fun c => f c = true) (fst (span f s)) /\ opens_not f (snd (span f s)).
Proof.
  induction s as [|c s IH]; cbn [span]; [repeat split; constructor|]. destruct (f c) eqn:E; [|cbn; repeat split; [constructor|exact E]].
  destruct (span f s) as [x y]. cbn [fst snd] in *. destruct IH as (-> & H & H'). repeat split; [constructor; assumption|exact H'].
Qed.
Lemma last_word_false x : last_word false x = false -> x = [] \/ closes_not word x.
Proof.
  destruct x as [|c x]; [left; reflexivity|]. intros H. right. destruct (exists_last (l := c :: x) ltac:(discriminate)) as (y & d & E). exists y, d. split; [exact E|].
  rewrite E in H. unfold last_word in H. rewrite fold_left_app in H. exact H.
Qed.
Lemma last_word_closes x : x = [] \/ closes_not word x -> last_word false x = false.
Proof. intros [->|(y & d & -> & H)]; [reflexivity|]. unfold last_word. rewrite fold_left_app. exact H. Qed.
Lemma every len s : (forall x z, s = x ++ z -> len (last_word false x) z = 0) -> forall by_, replace len by_ 0 false s = s.
Proof. intros H by_. rewrite <- (app_nil_r s) at 1. rewrite replace_none; [cbn; apply app_nil_r|]. intros y z E _. rewrite app_nil_r. apply H, E. Qed.

Lemma quiet_bearer s : (forall x w gap c y, s = x ++ w ++ gap ++ c :: y -> x = [] \/ closes_not word x -> map low w = b "bearer" -> all space gap -> token c = false) <->
  (forall x z, s = x ++ z -> bearer_len (last_word false x) z = 0).
Proof.
  split.
  - intros H x z E. unfold bearer_len. destruct (last_word false x) eqn:L; [reflexivity|]. destruct (starts (b "bearer") (map low z)) eqn:St; [|reflexivity].
    apply starts_app in St. destruct St as [q St].
    assert (Ew : map low (firstn 6 z) = b "bearer"). { rewrite <- firstn_map, St. reflexivity. }
    pose proof (firstn_skipn 6 z) as Ez. set (r := skipn 6 z) in *. destruct (span_is space r) as (E1 & F1 & O1). destruct (span space r) as [gap r']. cbn [fst snd] in *.
    destruct (span_is token r') as (E2 & F2 & O2). destruct (span token r') as [t r'']. cbn [fst snd] in *. destruct gap as [|g gap]; [reflexivity|]. destruct t as [|c t]; [reflexivity|]. exfalso.
    assert (K : token c = false). { apply (H x (firstn 6 z) (g :: gap) c (t ++ r'')); [|apply last_word_false, L|exact Ew|split; [discriminate|exact F1]]. rewrite E. f_equal. rewrite E1, E2 in Ez. symmetry. exact Ez. }
    inversion F2; subst. congruence.
  - intros H x w gap c y E Hx Ew [Hg Fg]. specialize (H x _ E). rewrite (last_word_closes x Hx) in H. destruct (token c) eqn:Tc; [|reflexivity]. exfalso. unfold bearer_len in H.
    replace (starts (b "bearer") (map low (w ++ gap ++ c :: y))) with true in H by (symmetry; apply starts_app; rewrite map_app, Ew; eauto).
    assert (L : List.length w = 6) by (rewrite <- (low_length w), Ew; reflexivity).
    replace (skipn 6 (w ++ gap ++ c :: y)) with (gap ++ c :: y) in H by (rewrite <- L, skipn_app, skipn_all, Nat.sub_diag; reflexivity).
    assert (K : forall c, implb (token c) (negb (space c)) = true) by chars_check. specialize (K c). rewrite Tc in K. simpl in K. apply negb_true_iff in K.
    rewrite (span_stop space gap c y Fg K) in H. cbn [span] in H. rewrite Tc in H. destruct (span token y). destruct gap; [contradiction|]. discriminate H.
Qed.
Lemma quiet_url s : (forall x h c y, s = x ++ h ++ c :: y -> In h [b "http://"; b "https://"] -> in_url c = false) <->
  (forall x z, s = x ++ z -> url_len (last_word false x) z = 0).
Proof.
  split.
  - intros H x z E. unfold url_len.
    assert (K : forall h, In h [b "http://"; b "https://"] -> starts h z = true -> fst (span in_url (skipn (List.length h) z)) = []).
    { intros h Hh St. apply starts_app in St. destruct St as [r ->]. rewrite skipn_app, skipn_all, Nat.sub_diag. cbn [app skipn].
      destruct r as [|c r]; [reflexivity|]. cbn [span]. rewrite (H x h c r E Hh). reflexivity. }
    destruct (starts (b "http://") z) eqn:S1.
    + cbn [Nat.eqb]. change 7 with (List.length (b "http://")). rewrite K; [reflexivity|left; reflexivity|exact S1].
    + destruct (starts (b "https://") z) eqn:S2; [|reflexivity]. cbn [Nat.eqb]. change 8 with (List.length (b "https://")). rewrite K; [reflexivity|right; left; reflexivity|exact S2].
  - intros H x h c y E Hh. specialize (H x _ E). destruct (in_url c) eqn:Uc; [|reflexivity]. exfalso. unfold url_len in H.
    assert (Z : (if starts (b "http://") (h ++ c :: y) then 7 else if starts (b "https://") (h ++ c :: y) then 8 else 0) = List.length h) by (cbn in Hh; destruct Hh as [<-|[<-|[]]]; reflexivity).
    rewrite Z in H. rewrite skipn_app, skipn_all, Nat.sub_diag in H. cbn [app skipn span] in H. rewrite Uc in H. destruct (span in_url y).
    cbn in Hh. destruct Hh as [<-|[<-|[]]]; discriminate H.
Qed.
Lemma quiet_query s : (forall x q name c y, s = x ++ q :: name ++ "="%char :: c :: y -> In q (b "?&") -> all in_name name -> in_value c = false) <->
  (forall x z, s = x ++ z -> query_len (last_word false x) z = 0).
Proof.
  split.
  - intros H x z E. unfold query_len. destruct z as [|q r]; [reflexivity|]. cbn [query_parts]. destruct (one_of "?&" q) eqn:Eq; [|reflexivity].
    unfold one_of in Eq. apply existsb_exists in Eq. destruct Eq as (d & Hd & Ed). apply Ascii.eqb_eq in Ed. subst d.
    destruct (span_is in_name r) as (E1 & F1 & O1). destruct (span in_name r) as [n v]. cbn [fst snd] in *. destruct n as [|n0 n]; [reflexivity|]. destruct v as [|e v]; [reflexivity|].
    destruct (Ascii.eqb e "=") eqn:Ee; [|reflexivity]. apply Ascii.eqb_eq in Ee. subst e. destruct v as [|c v]; [reflexivity|]. cbn [span].
    rewrite (H x q (n0 :: n) c v); [reflexivity|rewrite E, E1; reflexivity|exact Hd|split; [discriminate|exact F1]].
  - intros H x q name c y E Hq [Hn Fn]. specialize (H x _ E). destruct (in_value c) eqn:Vc; [|reflexivity]. exfalso. unfold query_len in H. cbn [query_parts] in H.
    replace (one_of "?&" q) with true in H by (symmetry; apply existsb_exists; exists q; split; [exact Hq|apply Ascii.eqb_refl]).
    rewrite (span_stop in_name name "="%char (c :: y) Fn eq_refl) in H. destruct name as [|n0 name]; [contradiction|]. change (Ascii.eqb "=" "=") with true in H. cbn [span] in H. rewrite Vc in H. destruct (span in_value y). discriminate H.
Qed.

Lemma harmless_iff s : harmless s <-> (forall x z, s = x ++ z -> bearer_len (last_word false x) z = 0 /\ url_len (last_word false x) z = 0 /\ query_len (last_word false x) z = 0) /\ List.length s <= 512.
Proof.
  unfold harmless. rewrite (quiet_bearer s), (quiet_url s), (quiet_query s). split.
  - intros (H1 & H2 & H3 & H4). split; [|exact H4]. intros x z E. auto.
  - intros (H & H4). split; [|split; [|split]]; [| | |exact H4]; intros x z E; apply (H x z E).
Qed.
Definition calm (s : bytes) : bool :=
  forallb (fun n => (bearer_len (last_word false (firstn n s)) (skipn n s) =? 0) && (url_len (last_word false (firstn n s)) (skipn n s) =? 0) && (query_len (last_word false (firstn n s)) (skipn n s) =? 0)) (seq 0 (S (List.length s)))
  && (List.length s <=? 512).
Lemma calm_sound s : calm s = true -> harmless s.
Proof.
  unfold calm. intros H. apply andb_true_iff in H. destruct H as [H L]. apply harmless_iff. split; [|apply Nat.leb_le, L]. intros x z ->. rewrite forallb_forall in H.
  specialize (H (List.length x)). rewrite firstn_app, skipn_app, firstn_all, skipn_all, Nat.sub_diag in H. cbn [firstn skipn app] in H. rewrite app_nil_r in H.
  rewrite !andb_true_iff, !Nat.eqb_eq in H. destruct H as [[H1 H2] H3]; [apply in_seq; rewrite app_length; lia|]. auto.
Qed.

Theorem text_kept u s : harmless s -> redact_string u s = s.
Proof.
  intros H. apply harmless_iff in H. destruct H as (H & H4). unfold redact_string.
  rewrite (every bearer_len s) by (intros x z E; apply (H x z E)). rewrite (every url_len s) by (intros x z E; apply (H x z E)). rewrite (every query_len s) by (intros x z E; apply (H x z E)).
  apply Nat.leb_le in H4. rewrite H4. reflexivity.
Qed.

Theorem text_short u s : List.length (redact_string u s) <= 526.
Proof.
  unfold redact_string. set (t := replace query_len query_by 0 false _). destruct (List.length t <=? 512) eqn:E.
  - apply Nat.leb_le in E. lia.
  - rewrite app_length, firstn_length. apply Nat.leb_gt in E. change (List.length (b "...[truncated]")) with 14. lia.
Qed.

(** ** Keys *)
Lemma reads_norm c d : In d (flat_map b parts) -> (reads c d <-> norm c = d).
Proof.
  intros Hd. assert (N : d <> "-"%char).
  { intros ->. assert (K : existsb (Ascii.eqb "-") (flat_map b parts) = false) by (vm_compute; reflexivity).
    rewrite (proj2 (existsb_exists _ _)) in K; [discriminate|]. exists "-"%char. split; [exact Hd|reflexivity]. }
  unfold reads, norm. destruct (Ascii.eqb_spec c "-") as [->|Hc].
  - change (small "-") with "-"%char. change (low "_") with "_"%char. split; [intros [<-|[_ ->]]; [contradiction|reflexivity]|intros <-; auto].
  - split; [intros [H|[H _]]; [exact H|contradiction]|auto].
Qed.

Lemma norm_not_blank c : In (norm c) (flat_map b parts) -> blank c = false.
Proof.
  intros H. assert (K : forall c, implb (existsb (Ascii.eqb (norm c)) (flat_map b parts)) (negb (blank c)) = true) by chars_check.
  specialize (K c). rewrite (proj2 (existsb_exists _ _)) in K; [simpl in K; apply negb_true_iff; exact K|]. exists (norm c). split; [exact H|apply Ascii.eqb_refl].
Qed.

Lemma trim_left_keeps x : forall w y, w <> [] -> Forall (fun c => blank c = false) w -> exists x', trim_left (x ++ w ++ y) = x' ++ w ++ y.
Proof.
  induction x as [|c x IH]; intros w y Hw Fw.
  - destruct w as [|d w]; [contradiction|]. inversion Fw; subst. cbn [app trim_left]. rewrite H1. exists []. reflexivity.
  - cbn [app trim_left]. destruct (blank c); [apply IH; auto|exists (c :: x); reflexivity].
Qed.

Lemma trim_left_suffix s : exists x, s = x ++ trim_left s.
Proof. induction s as [|c s [x IH]]; [exists []; reflexivity|]. cbn [trim_left]. destruct (blank c); [exists (c :: x); cbn; f_equal; exact IH|exists []; reflexivity]. Qed.

Lemma trim_part s : exists x y, s = x ++ trim s ++ y.
Proof.
  unfold trim. destruct (trim_left_suffix s) as [x E]. destruct (trim_left_suffix (rev (trim_left s))) as [y E'].
  exists x, (rev y). rewrite E at 1. f_equal. rewrite <- rev_app_distr, <- E', rev_involutive. reflexivity.
Qed.

Lemma trim_keeps x w y : w <> [] -> Forall (fun c => blank c = false) w -> exists x' y', trim (x ++ w ++ y) = x' ++ w ++ y'.
Proof.
  intros Hw Fw. unfold trim. destruct (trim_left_keeps x w y Hw Fw) as [x' ->].
  rewrite !rev_app_distr, <- app_assoc. destruct (trim_left_keeps (rev y) (rev w) (rev x')) as [y' ->].
  - intros E. apply Hw. rewrite <- (rev_involutive w), E. reflexivity.
  - apply Forall_rev. exact Fw.
  - rewrite !rev_app_distr, !rev_involutive, <- app_assoc. eauto.
Qed.

Lemma map_split {A B} (f : A -> B) l : forall x y, map f l = x ++ y -> exists a c, l = a ++ c /\ map f a = x /\ map f c = y.
Proof.
  induction l as [|d l IH]; intros x y E; cbn in E.
  - symmetry in E. apply app_eq_nil in E. destruct E as [-> ->]. exists [], []. auto.
  - destruct x as [|x0 x]; [exists [], (d :: l); cbn in E; auto|]. cbn in E. injection E as <- E. destruct (IH x y E) as (a & c & -> & <- & <-). exists (d :: a), c. auto.
Qed.

Lemma reads_map w q : incl q (flat_map b parts) -> (Forall2 reads w q <-> map norm w = q).
Proof.
  revert q. induction w as [|c w IH]; intros q Hq; split; intros H.
  - inversion H; reflexivity.
  - cbn in H. subst. constructor.
  - inversion H; subst. cbn. f_equal; [apply reads_norm; [apply Hq; left; reflexivity|assumption]|apply IH; [intros z Hz; apply Hq; right; exact Hz|assumption]].
  - destruct q as [|d q]; [discriminate|]. cbn in H. injection H as Hd Hw. constructor; [apply reads_norm; [apply Hq; left; reflexivity|exact Hd]|apply IH; [intros z Hz; apply Hq; right; exact Hz|exact Hw]].
Qed.

Theorem keys k : sensitive k = true <-> confidential k.
Proof.
  assert (Inc : forall p, In p parts -> incl (b p) (flat_map b parts)) by (intros p Hp z Hz; apply in_flat_map; eauto).
  unfold sensitive, confidential. rewrite existsb_exists. split.
  - intros (p & Hp & H). apply has_app in H. destruct H as (x & y & E). destruct (map_split norm _ _ _ E) as (x1 & r & E1 & _ & E2).
    destruct (map_split norm _ _ _ E2) as (w & y1 & -> & Hw & _). destruct (trim_part k) as (a & c & Ek).
    exists (a ++ x1), w, (y1 ++ c), p. split; [rewrite Ek, E1, <- !app_assoc; reflexivity|]. split; [apply reads_map; auto|exact Hp].
  - intros (x & w & y & p & -> & Hw & Hp). exists p. split; [exact Hp|]. apply (reads_map w (b p) (Inc p Hp)) in Hw.
    destruct (trim_keeps x w y) as (x' & y' & ->).
    + intros ->. cbn in Hw. assert (K : forallb (fun p => negb (List.length (b p) =? 0)) parts = true) by reflexivity.
      rewrite forallb_forall in K. specialize (K p Hp). rewrite <- Hw in K. discriminate.
    + apply Forall_forall. intros c Hc. apply norm_not_blank. apply (Inc p Hp). rewrite <- Hw. apply in_map. exact Hc.
    + apply has_app. exists (map norm x'), (map norm y'). rewrite !map_app, Hw. reflexivity.
Qed.

(** ** Fields *)
Scheme alike_mut := Induction for alike Sort Prop
with entries_mut := Induction for alike_entries Sort Prop
with all_mut := Induction for alike_all Sort Prop.

Theorem fields_gone u l l' : alike_entries u l l' -> redact_fields u l = redact_fields u l'.
Proof.
  revert l l'. apply (entries_mut u (fun v v' _ => redact_value u v = redact_value u v') (fun l l' _ => redact_fields u l = redact_fields u l')
    (fun l l' _ => map (redact_value u) l = map (redact_value u) l')); intros; unfold redact_fields in *; cbn [redact_value map fst snd]; auto.
  - f_equal. apply text_gone. assumption.
  - f_equal. assumption.
  - f_equal. assumption.
  - apply keys in c. rewrite c. f_equal. assumption.
  - rewrite H. f_equal. assumption.
  - f_equal; assumption.
Qed.

Theorem entry_gone u e e' : same_text u (e_message e) (e_message e') -> alike_entries u (e_fields e) (e_fields e') -> payload_of u e = payload_of u e'.
Proof. intros H1 H2. unfold payload_of. f_equal; [apply text_gone; exact H1|apply fields_gone; exact H2]. Qed.

Theorem fields_hidden u l k v : In (k, v) l -> confidential k -> In (k, VText (b "[REDACTED]")) (redact_fields u l) /\ forall v', In (k, v') (redact_fields u l) -> v' = VText (b "[REDACTED]").
Proof.
  intros H Hk. apply keys in Hk. unfold redact_fields. split.
  - apply in_map_iff. exists (k, v). cbn [fst snd]. rewrite Hk. split; [reflexivity|exact H].
  - intros v' H'. apply in_map_iff in H'. destruct H' as ((k' & w) & E & _). cbn [fst snd] in E. injection E as -> <-. rewrite Hk. reflexivity.
Qed.

Theorem fields_kept u l k s : In (k, VText s) l -> ~ confidential k -> harmless s -> In (k, VText s) (redact_fields u l).
Proof.
  intros H Hk Hs. unfold redact_fields. apply in_map_iff. exists (k, VText s). split; [|exact H]. cbn [fst snd redact_value].
  destruct (sensitive k) eqn:E; [apply keys in E; contradiction|]. rewrite text_kept by exact Hs. reflexivity.
Qed.

(** ** The queue *)
Lemma play_app u a c w : play u (a ++ c) w = play u c (play u a w).
Proof. apply fold_left_app. Qed.

Lemma play_last u es ev : play u (es ++ [ev]) start = step u ev (play u es start).
Proof. rewrite play_app. reflexivity. Qed.

Lemma remove_perm {A} (l : list A) : forall i x, nth_error l i = Some x -> Permutation l (x :: remove_at i l).
Proof.
  intros i x H. destruct (nth_error_split l i H) as (a & c & -> & L). unfold remove_at.
  rewrite firstn_app, L, Nat.sub_diag, <- L, firstn_all, firstn_O, app_nil_r.
  rewrite skipn_app, skipn_all2 by lia. replace (S (List.length a) - List.length a) with 1 by lia. cbn [app skipn].
  symmetry. apply Permutation_middle.
Qed.

Theorem dead_stays u es : forall w, w_dead w = true -> play u es w = w.
Proof.
  induction es as [|ev es IH]; intros w H; [reflexivity|]. cbn [play fold_left]. assert (E : step u ev w = w) by (unfold step; rewrite H; reflexivity).
  rewrite E. apply IH. exact H.
Qed.

Lemma logged_app a c : logged (a ++ c) = logged a ++ logged c.
Proof. apply flat_map_app. Qed.

Lemma alive_before u es ev : w_dead (play u (es ++ [ev]) start) = false -> w_dead (play u es start) = false.
Proof. rewrite play_last. intros H. destruct (w_dead (play u es start)) eqn:E; [|reflexivity]. unfold step in H. rewrite E in H. congruence. Qed.

Ltac fields := cbn [w_closed w_shut w_passed w_queue w_sent w_dropped w_late w_dead].

Theorem accounted u es : w_dead (play u es start) = false ->
  exists taken, w_sent (play u es start) ++ w_queue (play u es start) = map (payload_of u) taken /\
    Permutation (logged es) (taken ++ w_passed (play u es start) ++ w_dropped (play u es start) ++ w_late (play u es start)).
Proof.
  induction es as [|ev es IH] using rev_ind; intros H; [exists []; split; [reflexivity|constructor]|].
  destruct (IH (alive_before u es ev H)) as (tk & E & P). pose proof (alive_before u es ev H) as D. rewrite play_last in *. rewrite logged_app.
  set (w := play u es start) in *. unfold step in H |- *. rewrite D in H |- *.
  destruct ev as [e|i| | |]; cbn [logged flat_map app].
  - destruct (w_closed w); fields; exists tk; (split; [exact E|]).
    + rewrite !app_assoc in *. apply Permutation_app_tail. exact P.
    + eapply Permutation_trans; [apply Permutation_app_tail; exact P|]. rewrite <- !app_assoc. do 2 apply Permutation_app_head.
      rewrite (app_assoc (w_dropped w)). apply Permutation_app_comm.
  - rewrite app_nil_r. destruct (nth_error (w_passed w) i) as [e|] eqn:N; [|exists tk; split; assumption].
    pose proof (remove_perm _ _ _ N) as R.
    destruct (w_shut w); [discriminate H|]. destruct (List.length (w_queue w) <? size); fields.
    + exists (tk ++ [e]). split; [rewrite app_assoc, E, map_app; reflexivity|].
      eapply Permutation_trans; [exact P|]. rewrite <- app_assoc. apply Permutation_app_head. cbn [app]. 
      change (e :: remove_at i (w_passed w) ++ w_dropped w ++ w_late w) with ((e :: remove_at i (w_passed w)) ++ w_dropped w ++ w_late w).
      apply Permutation_app_tail. exact R.
    + exists tk. split; [exact E|]. eapply Permutation_trans; [exact P|]. apply Permutation_app_head.
      eapply Permutation_trans; [apply Permutation_app_tail; exact R|]. cbn [app]. rewrite <- app_assoc. cbn [app].
      eapply Permutation_trans; [apply Permutation_middle|]. apply Permutation_app_head. apply Permutation_middle.
  - rewrite app_nil_r. fields. exists tk. split; assumption.
  - rewrite app_nil_r. fields. exists tk. split; assumption.
  - rewrite app_nil_r. destruct (w_queue w) as [|q qs] eqn:Q; [exists tk; rewrite Q; split; assumption|]. fields. exists tk.
    split; [rewrite <- app_assoc; exact E|exact P].
Qed.

Theorem in_order u es fs : exists more, w_sent (play u (es ++ fs) start) ++ w_queue (play u (es ++ fs) start)
  = (w_sent (play u es start) ++ w_queue (play u es start)) ++ more.
Proof.
  induction fs as [|ev fs (m & IH)] using rev_ind; [exists []; rewrite !app_nil_r; reflexivity|].
  rewrite app_assoc, play_last. set (w := play u (es ++ fs) start) in *. unfold step. destruct (w_dead w); [eauto|].
  destruct ev as [e|i| | |]; [destruct (w_closed w); fields; eauto| | fields; eauto | fields; eauto|].
  - destruct (nth_error (w_passed w) i) as [e|]; [|eauto]. destruct (w_shut w); [fields; eauto|].
    destruct (List.length (w_queue w) <? size); fields; [|eauto]. exists (m ++ [payload_of u e]). rewrite !app_assoc. f_equal. rewrite <- app_assoc in *. exact IH.
  - destruct (w_queue w) as [|q qs] eqn:Q; [exists m; rewrite Q; exact IH|]. fields. exists m. rewrite <- IH, <- app_assoc. reflexivity.
Qed.

Theorem dropped_full u es ev : w_dropped (play u (es ++ [ev]) start) <> w_dropped (play u es start) -> List.length (w_queue (play u es start)) = 1024.
Proof.
  assert (B : List.length (w_queue (play u es start)) <= size).
  { induction es as [|e es IH] using rev_ind; [cbn; lia|]. rewrite play_last. set (w := play u es start) in *. unfold step. destruct (w_dead w); [exact IH|].
    destruct e as [e|i| | |]; [destruct (w_closed w); exact IH| |exact IH|exact IH|].
    - destruct (nth_error (w_passed w) i); [|exact IH]. destruct (w_shut w); [exact IH|]. destruct (List.length (w_queue w) <? size) eqn:L; [|exact IH].
      fields. rewrite app_length. cbn [List.length]. apply Nat.ltb_lt in L. lia.
    - destruct (w_queue w) as [|q qs] eqn:Q; [rewrite Q; cbn; lia|]. fields. cbn [List.length] in IH. lia. }
  rewrite play_last. set (w := play u es start) in *. unfold step. destruct (w_dead w); [congruence|].
  destruct ev as [e|i| | |]; [destruct (w_closed w); fields; congruence| |fields; congruence|fields; congruence|].
  - destruct (nth_error (w_passed w) i); [|congruence]. destruct (w_shut w); [fields; congruence|].
    destruct (List.length (w_queue w) <? size) eqn:L; fields; [congruence|]. intros _. apply Nat.ltb_ge in L. unfold size in *. lia.
  - destruct (w_queue w); fields; congruence.
Qed.

Theorem emptied u w : w_dead w = false -> w_sent (play u (repeat ETake (List.length (w_queue w))) w) = w_sent w ++ w_queue w.
Proof.
  remember (w_queue w) as q eqn:Q. revert w Q. induction q as [|e q IH]; intros w Q D; [cbn; rewrite app_nil_r; reflexivity|].
  cbn [List.length repeat play fold_left]. unfold step at 2. rewrite D, <- Q.
  match goal with |- w_sent (fold_left _ _ ?w') = _ => specialize (IH w' eq_refl eq_refl) end. unfold play in IH. rewrite IH. fields. rewrite <- app_assoc. reflexivity.
Qed.

Theorem alive u es : apart u es -> w_dead (play u es start) = false.
Proof.
  intros H.
  assert (K : w_dead (play u es start) = false /\ (w_shut (play u es start) = true -> w_passed (play u es start) = [] /\ w_closed (play u es start) = true)); [|apply K].
  induction es as [|ev es IH] using rev_ind; [split; [reflexivity|discriminate]|].
  assert (A : apart u es) by (intros x y -> C; apply (H x (y ++ [ev])); [rewrite <- app_assoc; reflexivity|exact C]).
  destruct (IH A) as [D S]. specialize (H es []). rewrite play_last. set (w := play u es start) in *. unfold step. rewrite D.
  destruct ev as [e|i| | |].
  - destruct (w_closed w) eqn:C; fields; (split; [reflexivity|]); intros Hs; destruct (S Hs) as [P C']; [auto|congruence].
  - destruct (nth_error (w_passed w) i) eqn:N; [|split; assumption]. destruct (w_shut w) eqn:Hs.
    + destruct (S eq_refl) as [P _]. rewrite P in N. destruct i; discriminate N.
    + destruct (List.length (w_queue w) <? size); fields; (split; [reflexivity|congruence]).
  - fields. split; [reflexivity|]. intros Hs. split; [apply S; exact Hs|reflexivity].
  - fields. split; [reflexivity|]. intros Hc. split; [apply H; [reflexivity|exact Hc]|exact Hc].
  - destruct (w_queue w); fields; (split; auto).
Qed.

(** What is sent over a whole history tells nothing more. *)
Definition paired (u : bytes -> bytes) (w w' : world) : Prop :=
  w_closed w = w_closed w' /\ w_shut w = w_shut w' /\ w_queue w = w_queue w' /\ w_sent w = w_sent w' /\ w_dead w = w_dead w' /\ Forall2 (alike_entry u) (w_passed w) (w_passed w').

Lemma paired_nth u l l' i : Forall2 (alike_entry u) l l' ->
  match nth_error l i, nth_error l' i with Some e, Some e' => alike_entry u e e' | None, None => True | _, _ => False end.
Proof. intros H. revert i. induction H; intros [|i]; cbn; auto. apply IHForall2. Qed.

Lemma paired_remove u l l' i : Forall2 (alike_entry u) l l' -> Forall2 (alike_entry u) (remove_at i l) (remove_at i l').
Proof.
  intros H. revert i. unfold remove_at. induction H as [|x y l l' Hx H IH]; intros [|i]; cbn [firstn skipn app]; auto.
  constructor; [exact Hx|apply IH].
Qed.

Lemma paired_step u ev ev' w w' : alike_event u ev ev' -> paired u w w' -> paired u (step u ev w) (step u ev' w').
Proof.
  intros He (C & S & Q & T & D & P). unfold step. rewrite <- D. destruct (w_dead w) eqn:Dw; [repeat split; congruence|].
  destruct He as [e e' He|i| | |].
  - rewrite <- C. destruct (w_closed w) eqn:Cw; unfold paired; fields; repeat split; auto. apply Forall2_app; auto.
  - pose proof (paired_nth u _ _ i P) as N. destruct (nth_error (w_passed w) i) as [e|], (nth_error (w_passed w') i) as [e'|]; try contradiction.
    + rewrite <- S, <- Q. destruct (w_shut w) eqn:Sw; [unfold paired; fields; repeat split; auto|].
      destruct (List.length (w_queue w) <? size); unfold paired; fields; repeat split; auto using paired_remove.
      destruct N as [N1 N2]. rewrite (entry_gone u e e' N1 N2). congruence.
    + repeat split; auto; congruence.
  - unfold paired; fields; repeat split; auto.
  - unfold paired; fields; repeat split; auto.
  - rewrite <- Q. destruct (w_queue w) eqn:Qw; unfold paired; fields; repeat split; auto; congruence.
Qed.

Theorem history_gone u es es' : Forall2 (alike_event u) es es' -> w_sent (play u es start) = w_sent (play u es' start).
Proof.
  intros H. assert (K : forall w w', paired u w w' -> paired u (play u es w) (play u es' w')).
  { induction H as [|x y l l' Hx H IH]; intros w w' Hw; [exact Hw|]. cbn [play fold_left]. apply IH. apply paired_step; assumption. }
  apply K. repeat split; constructor.
Qed.
