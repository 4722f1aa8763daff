(** Rules: the code's comparison is the one of the specification; the narrowed query. *)
From Coq Require Import ZArith QArith Qabs List String Ascii Bool Lia.
From Verif Require Import Base ReconModel ReconSpec.
Import ListNotations.
Local Open Scope string_scope.
Open Scope Z_scope.

Lemma texts_ok ext int o d : matches_string ext int {| k_field := o; k_op := o; k_drift := d |} = true <-> texts_agree ext int o d.
Proof.
  unfold matches_string; cbn [k_op k_drift]. destruct (String.eqb o "equals") eqn:E1; [|destruct (String.eqb o "contains") eqn:E2].
  - apply String.eqb_eq in E1; subst o. rewrite existsb_exists. unfold equal_fold. split.
    + intros (p & Hp & H). apply String.eqb_eq in H. econstructor; eauto.
    + inversion 1; subst. exists p. split; [assumption|]. now apply String.eqb_eq.
  - apply String.eqb_eq in E2; subst o. rewrite existsb_exists. unfold partial_match. split.
    + intros (p & Hp & H). destruct (has_part (lower p) (lower ext)) eqn:A; [econstructor 2; eauto|].
      destruct (has_part (lower ext) (lower p)) eqn:B; [econstructor 2; eauto|].
      cbn [orb] in H. apply Z.leb_le in H. econstructor 3; eauto.
    + inversion 1 as [|d' p Hp H0|d' p Hp H0]; subst; exists p; (split; [assumption|]).
      * destruct H0 as [-> | ->]; [reflexivity|]. now rewrite orb_true_r.
      * destruct (has_part (lower p) (lower ext) || has_part (lower ext) (lower p)); [reflexivity|]. now apply Z.leb_le.
  - split; [discriminate|]. apply String.eqb_neq in E1, E2. inversion 1; subst; congruence.
Qed.

Lemma texts_field ext int f g o d : matches_string ext int {| k_field := f; k_op := o; k_drift := d |}
  = matches_string ext int {| k_field := g; k_op := o; k_drift := d |}.
Proof. reflexivity. Qed.

Lemma qltb x y : negb (Qle_bool x y) = true <-> (y < x)%Q.
Proof.
  rewrite negb_true_iff. split; intros H.
  - apply Qnot_le_lt. intros H1. apply Qle_bool_iff in H1. congruence.
  - destruct (Qle_bool x y) eqn:E; [|reflexivity]. apply Qle_bool_iff in E. exfalso. eapply Qlt_not_le; eauto.
Qed.

Ltac streq H := apply String.eqb_eq in H; subst.

Lemma met_ok e t c : criterion_met e t c = true <-> meets e t c.
Proof.
  destruct c as [f o d]. unfold criterion_met; cbn [k_field k_op k_drift].
  destruct (String.eqb f "amount") eqn:F1; [streq F1|].
  { unfold matches_amount; cbn [k_field k_op k_drift]. destruct (String.eqb o "equals") eqn:E1; [streq E1|].
    { rewrite Qle_bool_iff. split; [now constructor|]. inversion 1; assumption. }
    destruct (String.eqb o "greater_than") eqn:E2; [streq E2|].
    { rewrite qltb. split; [now constructor|]. inversion 1; assumption. }
    destruct (String.eqb o "less_than") eqn:E3; [streq E3|].
    { rewrite qltb. split; [now constructor|]. inversion 1; assumption. }
    apply String.eqb_neq in E1, E2, E3. split; [discriminate|]. inversion 1; congruence. }
  destruct (String.eqb f "date") eqn:F2; [streq F2|].
  { unfold matches_date; cbn [k_field k_op k_drift]. destruct (String.eqb o "equals") eqn:E1; [streq E1|].
    { rewrite Qle_bool_iff. split; [now constructor|].
      inversion 1 as [ | | | |d' o' [D|D]|d' o' [D|D]| | | | ]; try discriminate; assumption. }
    destruct (String.eqb o "after" || String.eqb o "greater_than") eqn:E2.
    { rewrite Z.ltb_lt. apply orb_true_iff in E2. rewrite !String.eqb_eq in E2. split.
      - intros. now apply date_after.
      - inversion 1 as [ | | | |d' o' D| d' o' D| | | | ]; subst; try assumption; try (exfalso; destruct E2; discriminate).
        exfalso. destruct D, E2; congruence. }
    apply orb_false_iff in E2. destruct E2 as [E2 E2'].
    destruct (String.eqb o "before" || String.eqb o "less_than") eqn:E3.
    { rewrite Z.ltb_lt. apply orb_true_iff in E3. rewrite !String.eqb_eq in E3. split.
      - intros. now apply date_before.
      - inversion 1 as [ | | | |d' o' D| d' o' D| | | | ]; subst; try assumption; try (exfalso; destruct E3; discriminate).
        exfalso. destruct D, E3; congruence. }
    apply orb_false_iff in E3. destruct E3 as [E3 E3']. apply String.eqb_neq in E1, E2, E3, E2', E3'.
    split; [discriminate|]. inversion 1 as [ | | | |d' o' D| d' o' D| | | | ]; try destruct D; congruence. }
  destruct (String.eqb f "description") eqn:F3; [streq F3|].
  { rewrite (texts_field _ _ _ o), texts_ok. split; [now constructor|]. inversion 1; assumption. }
  destruct (String.eqb f "reference") eqn:F4; [streq F4|].
  { rewrite (texts_field _ _ _ o), texts_ok. split; [now constructor|]. inversion 1; assumption. }
  destruct (String.eqb f "currency") eqn:F5; [streq F5|].
  { unfold matches_currency. destruct (String.eqb (n_cur t) "MIXED") eqn:E.
    - apply String.eqb_eq in E. split; [|reflexivity]. intros _. now apply cur_mixed.
    - rewrite (texts_field _ _ _ o), texts_ok. apply String.eqb_neq in E. split.
      + intros. now apply cur_agrees.
      + inversion 1; congruence. }
  apply String.eqb_neq in F1, F2, F3, F4, F5. split; [discriminate|]. inversion 1; congruence.
Qed.

Lemma rules_ok e t rules : matches_rules e t rules = true <-> fulfils rules e t.
Proof.
  unfold matches_rules, fulfils. rewrite existsb_exists. split; intros (r & Hr & H); exists r; (split; [exact Hr|]).
  - rewrite forallb_forall in H. apply Forall_forall. intros c Hc. apply met_ok. auto.
  - rewrite Forall_forall in H. apply forallb_forall. intros c Hc. apply met_ok. auto.
Qed.

(** ** The narrowed query *)

Lemma is_equals_ok f c : is_equals f c = true <-> equals_on f c.
Proof. unfold is_equals, equals_on. now rewrite andb_true_iff, !String.eqb_eq. Qed.

Definition wider (b b' : option (Q * Q)) : Prop :=
  match b with None => True | Some (l, h) => exists l' h', b' = Some (l', h') /\ (l' <= l)%Q /\ (h <= h')%Q end.
Lemma wider_refl b : wider b b.
Proof. destruct b as [[l h]|]; simpl; [|exact Logic.I]. exists l, h. split; [reflexivity|]. split; apply Qle_refl. Qed.
Lemma wider_trans a b c : wider a b -> wider b c -> wider a c.
Proof.
  destruct a as [[l h]|]; simpl; [|auto]. intros (l1 & h1 & -> & A & B). simpl. intros (l2 & h2 & -> & C & D).
  exists l2, h2. split; [reflexivity|]. split; eapply Qle_trans; eauto.
Qed.

Lemma not_qle x y : Qle_bool x y = false -> (y <= x)%Q.
Proof. intros H. apply Qlt_le_weak. apply qltb. now rewrite H. Qed.

Lemma widen_wider b lo hi : wider b (widen b lo hi) /\ wider (Some (lo, hi)) (widen b lo hi).
Proof.
  destruct b as [[l h]|]; cbn.
  - split.
    + eexists _, _. split; [reflexivity|]. split.
      * destruct (Qle_bool l lo) eqn:E; [apply Qle_refl|now apply not_qle].
      * destruct (Qle_bool hi h) eqn:E; [apply Qle_refl|now apply not_qle].
    + eexists _, _. split; [reflexivity|]. split.
      * destruct (Qle_bool l lo) eqn:E; [now apply Qle_bool_iff|apply Qle_refl].
      * destruct (Qle_bool hi h) eqn:E; [now apply Qle_bool_iff|apply Qle_refl].
  - split; [exact Logic.I|]. exists lo, hi. split; [reflexivity|]. split; apply Qle_refl.
Qed.

Definition amount_step (e : entry) (b : option (Q * Q)) (c : criterion) : option (Q * Q) :=
  if is_equals "amount" c then let d := (Qabs (n_amount e) * k_drift c)%Q in widen b (n_amount e - d) (n_amount e + d) else b.

Lemma amount_steps e l : forall b, wider b (fold_left (amount_step e) l b)
  /\ forall c, In c l -> equals_on "amount" c ->
     wider (Some ((n_amount e - Qabs (n_amount e) * k_drift c)%Q, (n_amount e + Qabs (n_amount e) * k_drift c)%Q)) (fold_left (amount_step e) l b).
Proof.
  induction l as [|a l IH]; intros b; cbn [fold_left].
  - split; [apply wider_refl|intros c []].
  - destruct (IH (amount_step e b a)) as [A B]. split.
    + eapply wider_trans; [|exact A]. unfold amount_step. destruct (is_equals "amount" a); [apply widen_wider|apply wider_refl].
    + intros c [<-|Hc] He; [|now apply B]. eapply wider_trans; [|exact A]. unfold amount_step.
      rewrite (proj2 (is_equals_ok _ _) He). apply widen_wider.
Qed.

Lemma amount_none e l : (forall c, In c l -> ~ equals_on "amount" c) -> fold_left (amount_step e) l None = None.
Proof.
  induction l as [|a l IH]; intros H; cbn [fold_left]; [reflexivity|].
  unfold amount_step at 2. destruct (is_equals "amount" a) eqn:E.
  - exfalso. apply (H a); [now left|]. now apply is_equals_ok.
  - apply IH. intros c Hc. apply H. now right.
Qed.

Definition wider_date (b b' : option (Z * Z)) : Prop :=
  match b with None => True | Some (l, h) => exists l' h', b' = Some (l', h') /\ l' <= l /\ h <= h' end.
Definition date_step (e : entry) (b : option (Z * Z)) (c : criterion) : option (Z * Z) :=
  if is_equals "date" c then let d := trunc_q (k_drift c) * second in widen_date b (n_date e - d) (n_date e + d) else b.
Lemma wider_date_trans a b c : wider_date a b -> wider_date b c -> wider_date a c.
Proof.
  destruct a as [[l h]|]; simpl; [|auto]. intros (l1 & h1 & -> & A & B). simpl. intros (l2 & h2 & -> & C & D).
  exists l2, h2. split; [reflexivity|lia].
Qed.
Lemma wider_date_refl b : wider_date b b.
Proof. destruct b as [[l h]|]; simpl; [|exact Logic.I]. exists l, h. split; [reflexivity|lia]. Qed.
Lemma widen_date_wider b lo hi : wider_date b (widen_date b lo hi) /\ wider_date (Some (lo, hi)) (widen_date b lo hi).
Proof.
  destruct b as [[l h]|]; cbn; split; try exact Logic.I; eexists _, _; (split; [reflexivity|lia]).
Qed.
Lemma date_steps e l : forall b, wider_date b (fold_left (date_step e) l b)
  /\ forall c, In c l -> equals_on "date" c ->
     wider_date (Some (n_date e - trunc_q (k_drift c) * second, n_date e + trunc_q (k_drift c) * second)) (fold_left (date_step e) l b).
Proof.
  induction l as [|a l IH]; intros b; cbn [fold_left].
  - split; [apply wider_date_refl|intros c []].
  - destruct (IH (date_step e b a)) as [A B]. split.
    + eapply wider_date_trans; [|exact A]. unfold date_step. destruct (is_equals "date" a); [apply widen_date_wider|apply wider_date_refl].
    + intros c [<-|Hc] He; [|now apply B]. eapply wider_date_trans; [|exact A]. unfold date_step.
      rewrite (proj2 (is_equals_ok _ _) He). apply widen_date_wider.
Qed.
Lemma date_none e l : (forall c, In c l -> ~ equals_on "date" c) -> fold_left (date_step e) l None = None.
Proof.
  induction l as [|a l IH]; intros H; cbn [fold_left]; [reflexivity|].
  unfold date_step at 2. destruct (is_equals "date" a) eqn:E.
  - exfalso. apply (H a); [now left|]. now apply is_equals_ok.
  - apply IH. intros c Hc. apply H. now right.
Qed.

Lemma in_concat_rule (c : criterion) r rules : In r rules -> In c r -> In c (List.concat rules).
Proof. intros. apply in_concat. eauto. Qed.

Lemma reach_ok rules r e t : In r rules -> Forall (meets e t) r -> within_reach rules r e t -> in_range e rules t = true.
Proof.
  intros Hr Hm (A & D & C). unfold in_range. rewrite !andb_true_iff. repeat split.
  - change (amount_range e rules) with (fold_left (amount_step e) (List.concat rules) None).
    destruct A as [A|[(c & Hc & He & Hd) A]].
    + rewrite amount_none; [reflexivity|]. intros c Hc. apply in_concat in Hc. destruct Hc as (r' & H1 & H2). eauto.
    + destruct (proj2 (amount_steps e (List.concat rules) None) c (in_concat_rule _ _ _ Hr Hc) He) as (l & h & -> & Hl & Hh).
      rewrite Forall_forall in Hm. specialize (Hm _ Hc). destruct He as [He1 He2]. destruct c as [f o d]; cbn in *; subst f o.
      assert (Hx : (Qabs (n_amount e - n_amount t) <= Qabs (n_amount e) * d)%Q).
      { inversion Hm as [d' Hq| | | | | | | | | ]; subst. eapply Qle_trans; [exact Hq|]. now apply Qmult_le_compat_r. }
      apply Qabs_Qle_condition in Hx. destruct Hx as [Hx1 Hx2].
      rewrite andb_true_iff, !Qle_bool_iff. split.
      * eapply Qle_trans; [exact Hl|]. apply Qle_minus_iff in Hx2. apply Qle_minus_iff.
        eapply Qle_trans; [exact Hx2|]. apply Qle_lteq. right. ring.
      * eapply Qle_trans; [|exact Hh]. apply Qle_minus_iff in Hx1. apply Qle_minus_iff.
        eapply Qle_trans; [exact Hx1|]. apply Qle_lteq. right. ring.
  - rewrite orb_true_iff, !String.eqb_eq. destruct C; auto.
  - change (date_range e rules) with (fold_left (date_step e) (List.concat rules) None).
    destruct D as [D|(c & n & Hc & He & Hn)].
    + rewrite date_none; [reflexivity|]. intros c Hc. apply in_concat in Hc. destruct Hc as (r' & H1 & H2). eauto.
    + destruct (proj2 (date_steps e (List.concat rules) None) c (in_concat_rule _ _ _ Hr Hc) He) as (l & h & -> & Hl & Hh).
      rewrite Forall_forall in Hm. specialize (Hm _ Hc). destruct He as [He1 He2]. destruct c as [f o d]; cbn in *; subst f o d.
      assert (Hx : Z.abs (n_date e - n_date t) <= n * second).
      { inversion Hm as [ | | |d' Hq|d' o [Ho|Ho]|d' o [Ho|Ho]| | | | ]; subst; try discriminate.
        rewrite <- inject_Z_mult, <- Zle_Qle in Hq. exact Hq. }
      assert (trunc_q (inject_Z n) = n) as Ht by (unfold trunc_q; cbn; apply Z.quot_1_r).
      rewrite Ht in Hl, Hh. rewrite andb_true_iff, !Z.leb_le. lia.
Qed.
