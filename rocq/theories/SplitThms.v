(** Split arithmetic (C16). *)
From Coq Require Import ZArith QArith Qround List String Bool Lia Lqa Permutation.
From Verif Require Import Base SplitModel BalanceModel SplitSpec.
Import ListNotations.
Open Scope Z_scope.

(** ** Maps *)
Lemma am_get_set {A} k k' (v : A) m : am_get k' (am_set k v m) = if String.eqb k' k then Some v else am_get k' m.
Proof.
  induction m as [|[k0 v0] m IH]; simpl; [reflexivity|].
  destruct (String.eqb k k0) eqn:E; simpl.
  - apply String.eqb_eq in E; subst k0. destruct (String.eqb k' k); reflexivity.
  - rewrite IH. destruct (String.eqb k' k0) eqn:E1; [|reflexivity].
    apply String.eqb_eq in E1; subst. rewrite String.eqb_sym, E. reflexivity.
Qed.
Lemma am_set_keys {A} k (v : A) m k' : In k' (map fst (am_set k v m)) <-> k' = k \/ In k' (map fst m).
Proof.
  induction m as [|[k0 v0] m IH]; simpl; [intuition|].
  destruct (String.eqb k k0) eqn:E; simpl; [apply String.eqb_eq in E; subst; intuition|]. rewrite IH. intuition.
Qed.
Lemma am_set_nodup {A} k (v : A) m : NoDup (map fst m) -> NoDup (map fst (am_set k v m)).
Proof.
  induction m as [|[k0 v0] m IH]; simpl; intros H; [constructor; [intros []|constructor]|].
  inversion H as [|? ? H1 H2]; subst.
  destruct (String.eqb k k0) eqn:E; simpl; constructor; auto.
  rewrite am_set_keys. intros [->|H3]; [rewrite String.eqb_refl in E; discriminate|auto].
Qed.
Lemma am_get_in {A} k (v : A) m : am_get k m = Some v -> In (k, v) m.
Proof.
  induction m as [|[k0 v0] m IH]; simpl; [discriminate|]. destruct (String.eqb k k0) eqn:E.
  - apply String.eqb_eq in E; subst. intros H; inversion H; auto.
  - auto.
Qed.
Lemma am_in_get {A} k (v : A) m : NoDup (map fst m) -> In (k, v) m -> am_get k m = Some v.
Proof.
  induction m as [|[k0 v0] m IH]; simpl; intros Hn H; [destruct H|].
  inversion Hn as [|? ? N1 N2]; subst. destruct H as [H|H].
  - inversion H; subst. rewrite String.eqb_refl. reflexivity.
  - destruct (String.eqb k k0) eqn:E; [|auto]. apply String.eqb_eq in E; subst.
    destruct N1. change k0 with (fst (k0, v)). apply in_map; exact H.
Qed.
Lemma am_get_none {A} k (m : amap A) : am_get k m = None <-> ~ In k (map fst m).
Proof.
  induction m as [|[k0 v0] m IH]; simpl; [intuition|]. destruct (String.eqb k k0) eqn:E.
  - apply String.eqb_eq in E; subst. intuition; discriminate.
  - rewrite IH. apply String.eqb_neq in E. intuition.
Qed.

Definition gotq (m : amap Q) (id : string) : Q := match am_get id m with Some v => v | None => 0%Q end.
Definition gotz (m : amap Z) (id : string) : Z := match am_get id m with Some v => v | None => 0 end.

Lemma got_gotz m id : got m id = gotz m id.
Proof.
  unfold got, gotz. induction m as [|[k v] m IH]; simpl; [reflexivity|].
  rewrite String.eqb_sym. destruct (String.eqb id k); [reflexivity|exact IH].
Qed.
Lemma handed_am m : handed_out m = am_sumz m.
Proof. unfold handed_out. induction m as [|[k v] m IH]; simpl; [reflexivity|]. rewrite IH. reflexivity. Qed.

Lemma am_sumz_set k v m : am_sumz (am_set k v m) = am_sumz m + v - gotz m k.
Proof.
  induction m as [|[k0 v0] m IH]; [unfold gotz; simpl; lia|].
  unfold gotz in *; simpl. destruct (String.eqb k k0); simpl; [lia|]. rewrite IH. lia.
Qed.
Lemma am_sum_set k v m : (am_sum (am_set k v m) == am_sum m + v - gotq m k)%Q.
Proof.
  induction m as [|[k0 v0] m IH]; [unfold gotq; simpl; ring|].
  unfold gotq in *; simpl. destruct (String.eqb k k0); simpl; [ring|]. rewrite IH. ring.
Qed.

(** Summing over a superset of the keys. *)
Lemma sumz_ids (ids : list string) : forall m, NoDup ids -> NoDup (map fst m) -> incl (map fst m) ids ->
  sumz (gotz m) ids = am_sumz m.
Proof.
  induction ids as [|i ids IH]; intros m Hi Hm Hs.
  - destruct m as [|x m]; [reflexivity|]. destruct (Hs (fst x)); left; reflexivity.
  - inversion Hi as [|? ? N1 N2]; subst. simpl.
    assert (R : forall m0 : amap Z, NoDup (map fst m0) ->
      exists m1, NoDup (map fst m1) /\ (forall k, In k (map fst m1) <-> In k (map fst m0) /\ k <> i)
        /\ (forall k, k <> i -> am_get k m1 = am_get k m0) /\ am_sumz m0 = gotz m0 i + am_sumz m1).
    { clear. induction m0 as [|[k v] m0 IH]; intros Hn.
      - exists []. split; [constructor|]. split; [simpl; intuition|]. split; [reflexivity|reflexivity].
      - inversion Hn as [|? ? N1 N2]; subst. destruct (IH N2) as (m1 & A & B & C & D). simpl in N1.
        destruct (String.eqb i k) eqn:E.
        + apply String.eqb_eq in E; subst k. exists m0. split; [exact N2|].
          split; [simpl; intros k; split; [intros H; split; [auto|intros ->; auto]|intros [[H|H] H1]; [congruence|exact H]]|].
          split; [intros k Hk; simpl; apply String.eqb_neq in Hk; rewrite Hk; reflexivity|].
          unfold gotz; simpl. rewrite String.eqb_refl. reflexivity.
        + exists ((k, v) :: m1). apply String.eqb_neq in E.
          split; [simpl; constructor; [rewrite B; tauto|exact A]|].
          split; [simpl; intros k'; rewrite B; intuition congruence|].
          split; [intros k' Hk; simpl; rewrite C by exact Hk; reflexivity|].
          simpl. rewrite D. unfold gotz; simpl. apply String.eqb_neq in E. rewrite E. lia. }
    destruct (R m Hm) as (m1 & A & B & C & D). rewrite D.
    assert (Hs1 : incl (map fst m1) ids).
    { intros k Hk. apply B in Hk as [Hk Hne]. apply Hs in Hk as [Hk|Hk]; [congruence|exact Hk]. }
    rewrite <- (IH m1 N2 A Hs1).
    assert (E : sumz (gotz m) ids = sumz (gotz m1) ids); [|lia].
    clear - C N1. induction ids as [|j ids IH]; [reflexivity|]. simpl. rewrite IH by (simpl in N1; tauto).
    unfold gotz at 1 3. rewrite C; [reflexivity|]. intros ->. apply N1; left; reflexivity.
Qed.

(** ** Truncation *)
Lemma trunc_floor q : (0 <= q)%Q -> trunc_q q = Qfloor q.
Proof. destruct q as [n d]. unfold Qle, trunc_q, Qfloor; simpl. intros H. apply Z.quot_div_nonneg; lia. Qed.
Lemma trunc_le q : (0 <= q)%Q -> (inject_Z (trunc_q q) <= q)%Q.
Proof. intros H. rewrite trunc_floor by exact H. apply Qfloor_le. Qed.
Lemma trunc_gt q : (0 <= q)%Q -> (q - 1 < inject_Z (trunc_q q))%Q.
Proof.
  intros H. rewrite trunc_floor by exact H. pose proof (Qlt_floor q) as L. rewrite inject_Z_plus in L.
  change (inject_Z 1) with 1%Q in L. lra.
Qed.
Lemma trunc_mono p q : (0 <= p)%Q -> (p <= q)%Q -> trunc_q p <= trunc_q q.
Proof. intros H1 H2. rewrite !trunc_floor; [apply Qfloor_resp_le; exact H2|lra|exact H1]. Qed.
Lemma trunc_nonneg q : (0 <= q)%Q -> 0 <= trunc_q q.
Proof. intros H. change 0 with (trunc_q 0). apply trunc_mono; [apply Qle_refl|exact H]. Qed.
Lemma trunc_int q z : (q == inject_Z z)%Q -> trunc_q q = z.
Proof.
  destruct q as [n d]. unfold Qeq, trunc_q, inject_Z; simpl. intros H. rewrite Z.mul_1_r in H. rewrite H.
  apply Z.quot_mul. lia.
Qed.

(** ** Sums over the legs, by kind *)
Definition fixed_part (total prec : Z) (d : distribution) : Q :=
  if is_left d || is_percent d then 0%Q else asked total prec d.
Definition percent_part (total prec : Z) (d : distribution) : Q :=
  if is_percent d then asked total prec d else 0%Q.

Lemma parts total prec d : (asked total prec d == fixed_part total prec d + percent_part total prec d)%Q.
Proof. unfold asked, fixed_part, percent_part, asked, is_left, is_percent.
  destruct (d_spec d); cbn -[Qplus Qmult Qdiv inject_Z]; ring.
Qed.
Lemma sumq_parts total prec l :
  (sumq (asked total prec) l == sumq (fixed_part total prec) l + sumq (percent_part total prec) l)%Q.
Proof. induction l as [|d l IH]; simpl; [ring|]. rewrite IH, parts. ring. Qed.
Lemma sumq_nonneg {A} (f : A -> Q) l : (forall x, In x l -> (0 <= f x)%Q) -> (0 <= sumq f l)%Q.
Proof.
  induction l as [|a l IH]; intros H; simpl; [apply Qle_refl|].
  assert (0 <= f a)%Q by (apply H; left; reflexivity).
  assert (0 <= sumq f l)%Q by (apply IH; intros; apply H; right; auto). lra.
Qed.
Lemma sumq_ext {A} (f g : A -> Q) l : (forall x, In x l -> (f x == g x)%Q) -> (sumq f l == sumq g l)%Q.
Proof.
  induction l as [|a l IH]; intros H; simpl; [reflexivity|]. rewrite (H a) by (left; reflexivity).
  rewrite IH; [reflexivity|]. intros; apply H; right; auto.
Qed.
Lemma sumq_in {A} (f : A -> Q) l a : (forall x, In x l -> (0 <= f x)%Q) -> In a l -> (f a <= sumq f l)%Q.
Proof.
  induction l as [|b l IH]; intros H Hin; [destruct Hin|]. simpl.
  assert (Hb : (0 <= f b)%Q) by (apply H; left; reflexivity).
  assert (Hl : (0 <= sumq f l)%Q) by (apply sumq_nonneg; intros; apply H; right; auto).
  destruct Hin as [->|Hin]; [lra|].
  assert (f a <= sumq f l)%Q by (apply IH; [intros; apply H; right; auto|exact Hin]). lra.
Qed.

(** ** The passes of the calculation *)
Section Passes.
  Variables (total prec : Z).
  Definition fine (d : distribution) : Prop := d_spec d <> DBad /\ (0 <= asked total prec d)%Q.

  Lemma fixed_amount d : fine d -> is_left d || is_percent d = false ->
    exists a, parse_fixed_amount d prec = Some a /\ (a == asked total prec d)%Q.
  Proof.
    intros [H _] E. unfold parse_fixed_amount, asked, is_left, is_percent in *.
    destruct (d_spec d); simpl in E; try discriminate; try congruence; eexists; (split; [reflexivity|]); reflexivity.
  Qed.

  Lemma process_fixed_ok l : NoDup (map d_id l) -> Forall fine l -> forall s,
    ds_prec s = prec -> (sumq (fixed_part total prec) l <= ds_left s)%Q ->
    (forall d, In d l -> am_get (d_id d) (ds_fixed s) = None) -> NoDup (map fst (ds_fixed s)) ->
    exists s', process_fixed l s = Some s'
      /\ (ds_left s' == ds_left s - sumq (fixed_part total prec) l)%Q
      /\ (ds_fixtot s' == ds_fixtot s + sumq (fixed_part total prec) l)%Q
      /\ ds_total s' = ds_total s /\ ds_prec s' = prec /\ ds_pct s' = ds_pct s
      /\ ds_percent s' = ds_percent s /\ ds_result s' = ds_result s
      /\ NoDup (map fst (ds_fixed s'))
      /\ (forall k, In k (map fst (ds_fixed s')) -> In k (map fst (ds_fixed s)) \/ exists d, In d l /\ d_id d = k /\ is_left d || is_percent d = false)
      /\ (forall d, In d l -> (gotq (ds_fixed s') (d_id d) == fixed_part total prec d)%Q)
      /\ (forall k, ~ In k (map d_id l) -> am_get k (ds_fixed s') = am_get k (ds_fixed s))
      /\ (am_sum (ds_fixed s') == am_sum (ds_fixed s) + sumq (fixed_part total prec) l)%Q.
  Proof.
    induction l as [|d l IH]; intros Hn Hf s Hp Hle Hnone Hnd.
    { exists s. simpl. split; [reflexivity|]. split; [ring|]. split; [ring|].
      repeat (split; [first [reflexivity|exact Hp|exact Hnd]|]).
      split; [auto|]. split; [intros d []|]. split; [reflexivity|ring]. }
    inversion Hn as [|? ? N1 N2]; subst. inversion Hf as [|? ? F1 F2]; subst.
    assert (Hpos : (0 <= sumq (fixed_part total prec) l)%Q).
    { apply sumq_nonneg. intros x Hx. rewrite Forall_forall in F2. destruct (F2 x Hx) as [_ F].
      unfold fixed_part. destruct (_ || _); [apply Qle_refl|exact F]. }
    simpl in Hle. cbn [process_fixed].
    assert (Hother : forall x, In x l -> d_id x <> d_id d).
    { intros x Hx E. apply N1. rewrite <- E. apply in_map; exact Hx. }
    destruct (is_left d || is_percent d) eqn:E.
    { assert (Ef : fixed_part total prec d = 0%Q) by (unfold fixed_part; rewrite E; reflexivity).
      rewrite Ef in Hle.
      destruct (IH N2 F2 s Hp) as (s' & A1 & A2 & A3 & A4 & A5 & A6 & A7 & A8 & A9 & A10 & A11 & A12 & A13);
        [lra|intros; apply Hnone; right; auto|exact Hnd|].
      exists s'. split; [exact A1|]. simpl. rewrite Ef.
      split; [rewrite A2; ring|]. split; [rewrite A3; ring|]. repeat (split; [assumption|]).
      split; [intros k Hk; destruct (A10 k Hk) as [H|(x & X1 & X2)]; [auto|right; exists x; auto]|].
      split; [|split; [intros k Hk; apply A12; tauto|rewrite A13; ring]].
      intros x [->|Hx]; [|auto]. unfold gotq. rewrite A12 by exact N1. rewrite Hnone by (left; reflexivity). rewrite Ef. reflexivity. }
    destruct (fixed_amount d F1 E) as (a & Ea & Eq). rewrite Hp, Ea.
    assert (Ef : (fixed_part total prec d == a)%Q) by (unfold fixed_part; rewrite E, Eq; reflexivity).
    assert (Ha : (0 <= a)%Q) by (rewrite Eq; apply F1).
    destruct (Qeq_bool a 0) eqn:E0.
    { apply Qeq_bool_eq in E0.
      destruct (IH N2 F2 s Hp) as (s' & A1 & A2 & A3 & A4 & A5 & A6 & A7 & A8 & A9 & A10 & A11 & A12 & A13);
        [lra|intros; apply Hnone; right; auto|exact Hnd|].
      exists s'. split; [exact A1|]. simpl.
      split; [rewrite A2, Ef, E0; ring|]. split; [rewrite A3, Ef, E0; ring|]. repeat (split; [assumption|]).
      split; [intros k Hk; destruct (A10 k Hk) as [H|(x & X1 & X2)]; [auto|right; exists x; auto]|].
      split; [|split; [intros k Hk; apply A12; tauto|rewrite A13, Ef, E0; ring]].
      intros x [->|Hx]; [|auto]. unfold gotq. rewrite A12 by exact N1. rewrite Hnone by (left; reflexivity).
      rewrite Ef, E0. reflexivity. }
    assert (Eq0 : qlt (ds_left s) a = false).
    { unfold qlt. apply negb_false_iff. apply Qle_bool_iff. lra. }
    rewrite Eq0.
    set (s1 := {| ds_total := ds_total s; ds_left := (ds_left s - a)%Q; ds_prec := prec; ds_pct := ds_pct s;
                  ds_fixtot := (ds_fixtot s + a)%Q; ds_fixed := am_set (d_id d) a (ds_fixed s);
                  ds_percent := ds_percent s; ds_result := ds_result s |}).
    destruct (IH N2 F2 s1 eq_refl) as (s' & A1 & A2 & A3 & A4 & A5 & A6 & A7 & A8 & A9 & A10 & A11 & A12 & A13).
    { simpl. lra. }
    { intros x Hx. simpl. rewrite am_get_set. destruct (String.eqb (d_id x) (d_id d)) eqn:E1;
        [apply String.eqb_eq in E1; destruct (Hother x Hx E1)|apply Hnone; right; auto]. }
    { simpl. apply am_set_nodup; exact Hnd. }
    simpl in *. exists s'. split; [exact A1|].
    split; [rewrite A2, Ef; ring|]. split; [rewrite A3, Ef; ring|]. repeat (split; [assumption|]).
    split.
    { intros k Hk. destruct (A10 k Hk) as [H|(x & X1 & X2)]; [|right; exists x; auto].
      apply am_set_keys in H as [-> |H]; [|auto]. right. exists d. auto. }
    split.
    { intros x [->|Hx]; [|auto]. unfold gotq. rewrite A12 by exact N1. rewrite am_get_set, String.eqb_refl. rewrite Ef. reflexivity. }
    split.
    { intros k Hk. rewrite A12 by tauto. rewrite am_get_set. destruct (String.eqb k (d_id d)) eqn:E1; [|reflexivity].
      apply String.eqb_eq in E1. subst. tauto. }
    rewrite A13, am_sum_set, Ef. unfold gotq. rewrite Hnone by (left; reflexivity). ring.
  Qed.

  (** The value the second pass stores for a percentage: nothing if below one unit. *)
  Definition stored (q : Q) : Q := if qlt 0 q && qlt q 1 then 0%Q else q.
  Lemma stored_le q : (0 <= q)%Q -> (0 <= stored q)%Q /\ (stored q <= q)%Q /\ (q - stored q < 1)%Q.
  Proof.
    intros H. unfold stored. destruct (qlt 0 q && qlt q 1) eqn:E.
    - apply andb_prop in E as [_ E]. unfold qlt in E. apply negb_true_iff in E.
      assert (q < 1)%Q. { apply Qnot_le_lt. intros L. apply Qle_bool_iff in L. congruence. } lra.
    - lra.
  Qed.

  Definition stored_part (d : distribution) : Q := if is_percent d then stored (asked total prec d) else 0%Q.
  Lemma stored_sum l : Forall fine l -> (sumq stored_part l <= sumq (percent_part total prec) l)%Q.
  Proof.
    induction l as [|d l IH]; intros H; simpl; [apply Qle_refl|]. inversion H as [|? ? F1 F2]; subst. specialize (IH F2).
    assert (stored_part d <= percent_part total prec d)%Q; [|lra].
    unfold stored_part, percent_part. destruct (is_percent d); [apply stored_le; apply F1|apply Qle_refl].
  Qed.

  Lemma process_percent_ok l : NoDup (map d_id l) -> Forall fine l -> forall s,
    ds_total s = inject_Z total ->
    (forall d, In d l -> am_get (d_id d) (ds_percent s) = None) -> NoDup (map fst (ds_percent s)) ->
    let s' := process_percent l s in
      (inject_Z total * ds_pct s' / 100 == inject_Z total * ds_pct s / 100 + sumq (percent_part total prec) l)%Q
      /\ ds_left s' = ds_left s /\ ds_fixtot s' = ds_fixtot s
      /\ ds_total s' = ds_total s /\ ds_fixed s' = ds_fixed s /\ ds_result s' = ds_result s
      /\ NoDup (map fst (ds_percent s'))
      /\ (forall k, In k (map fst (ds_percent s')) -> In k (map fst (ds_percent s)) \/ exists d, In d l /\ d_id d = k /\ is_percent d = true)
      /\ (forall d, In d l -> is_percent d = true -> exists v, am_get (d_id d) (ds_percent s') = Some v /\ (v == stored (asked total prec d))%Q)
      /\ (forall k, ~ In k (map d_id l) -> am_get k (ds_percent s') = am_get k (ds_percent s))
      /\ (am_sum (ds_percent s') == am_sum (ds_percent s) + sumq stored_part l)%Q.
  Proof.
    induction l as [|d l IH]; intros Hn Hf s Ht Hnone Hnd.
    { simpl. split; [ring|]. repeat (split; [first [reflexivity|exact Hnd]|]). split; [auto|].
      split; [intros d []|]. split; [reflexivity|]. ring. }
    inversion Hn as [|? ? N1 N2]; subst. inversion Hf as [|? ? F1 F2]; subst.
    assert (Hother : forall x, In x l -> d_id x <> d_id d).
    { intros x Hx E. apply N1. rewrite <- E. apply in_map; exact Hx. }
    cbv zeta. cbn [process_percent].
    destruct (is_percent d) eqn:E.
    2:{ assert (Ed : process_percent (d :: l) s = process_percent l s).
        { cbn [process_percent]. unfold is_percent in E. destruct (d_spec d); try reflexivity. discriminate. }
        cbn [process_percent] in Ed. rewrite Ed. clear Ed.
        assert (Ep : percent_part total prec d = 0%Q) by (unfold percent_part; rewrite E; reflexivity).
        destruct (IH N2 F2 s Ht) as (A1 & A2 & A3 & A4 & A5 & A6 & A7 & A8 & A9 & A10 & A11);
          [intros; apply Hnone; right; auto|exact Hnd|].
        simpl. rewrite Ep. split; [rewrite A1; ring|]. repeat (split; [assumption|]).
        split; [intros k Hk; destruct (A8 k Hk) as [H|(x & X1 & X2)]; [auto|right; exists x; auto]|].
        split; [intros x [->|Hx] Ex; [congruence|auto]|]. split; [intros k Hk; apply A10; tauto|].
        rewrite A11. unfold stored_part at 2. rewrite E. ring. }
    destruct (d_spec d) as [|p| | | |] eqn:Es; try (unfold is_percent in E; rewrite Es in E; discriminate).
    assert (Ea : asked total prec d = (inject_Z total * p / 100)%Q) by (unfold asked; rewrite Es; reflexivity).
    assert (Ep : percent_part total prec d = (inject_Z total * p / 100)%Q) by (unfold percent_part; rewrite E; exact Ea).
    set (v := if qlt 0 (ds_total s * p / (100 # 1)) && qlt (ds_total s * p / (100 # 1)) 1 then 0%Q else (ds_total s * p / (100 # 1))%Q).
    assert (Ev : v = stored (asked total prec d)) by (unfold v, stored; rewrite Ea, Ht; reflexivity).
    set (s1 := {| ds_total := ds_total s; ds_left := ds_left s; ds_prec := ds_prec s; ds_pct := (ds_pct s + p)%Q;
                  ds_fixtot := ds_fixtot s; ds_fixed := ds_fixed s; ds_percent := am_set (d_id d) v (ds_percent s);
                  ds_result := ds_result s |}).
    destruct (IH N2 F2 s1 Ht) as (A1 & A2 & A3 & A4 & A5 & A6 & A7 & A8 & A9 & A10 & A11).
    { intros x Hx. simpl. rewrite am_get_set. destruct (String.eqb (d_id x) (d_id d)) eqn:E1;
        [apply String.eqb_eq in E1; destruct (Hother x Hx E1)|apply Hnone; right; auto]. }
    { simpl. apply am_set_nodup; exact Hnd. }
    simpl. change (1 # 1)%Q with 1%Q. fold v. fold s1. 
    split; [rewrite A1, Ep; simpl; field|]. split; [rewrite A2; reflexivity|]. split; [rewrite A3; reflexivity|].
    split; [rewrite A4; reflexivity|]. split; [rewrite A5; reflexivity|]. split; [rewrite A6; reflexivity|].
    split; [exact A7|]. split.
    { intros k Hk. destruct (A8 k Hk) as [H|(x & X1 & X2)]; [|right; exists x; auto].
      simpl in H. apply am_set_keys in H as [-> |H]; [|auto]. right. exists d. auto. }
    split.
    { intros x [->|Hx] Ex; [|auto]. exists v. rewrite A10 by exact N1. simpl. rewrite am_get_set, String.eqb_refl.
      split; [reflexivity|]. rewrite Ev. reflexivity. }
    split.
    { intros k Hk. rewrite A10 by tauto. simpl. rewrite am_get_set. destruct (String.eqb k (d_id d)) eqn:E1; [|reflexivity].
      apply String.eqb_eq in E1. subst. tauto. }
    rewrite A11. simpl. rewrite am_sum_set. unfold gotq. rewrite Hnone by (left; reflexivity).
    unfold stored_part at 2. rewrite E, <- Ev. ring.
  Qed.
End Passes.

(** ** Largest entries *)
Lemma qlt_iff a b : qlt a b = true <-> (a < b)%Q.
Proof.
  unfold qlt. rewrite negb_true_iff. split; intros H.
  - apply Qnot_le_lt. intros L. apply Qle_bool_iff in L. congruence.
  - destruct (Qle_bool b a) eqn:E; [|reflexivity]. apply Qle_bool_iff in E. lra.
Qed.
Lemma largest_q m : forall best, find_largest_q m best = best \/ In (find_largest_q m best) m.
Proof.
  induction m as [|[k v] m IH]; intros best; simpl; [auto|].
  destruct (IH (if qlt (snd best) v then (k, v) else best)) as [->|H]; [|auto].
  destruct (qlt (snd best) v); auto.
Qed.
Lemma largest_z m : forall best, find_largest_z m best = best \/ In (find_largest_z m best) m.
Proof.
  induction m as [|[k v] m IH]; intros best; simpl; [auto|].
  destruct (IH (if snd best <? v then (k, v) else best)) as [->|H]; [|auto].
  destruct (snd best <? v); auto.
Qed.
Lemma largest_z_ge m : forall best, snd best <= snd (find_largest_z m best) /\
  forall x, In x m -> snd x <= snd (find_largest_z m best).
Proof.
  induction m as [|[k v] m IH]; intros best; simpl; [split; [lia|tauto]|].
  destruct (IH (if snd best <? v then (k, v) else best)) as [A B].
  destruct (Z.ltb_spec (snd best) v); simpl in *.
  - split; [lia|]. intros x [<-|Hx]; [exact A|auto].
  - split; [exact A|]. intros x [<-|Hx]; simpl; [lia|auto].
Qed.

(** ** The later passes *)

Lemma adjust_ok ord s : reorders ord -> NoDup (map fst (ds_percent s)) ->
  (am_sum (ds_percent s) <= ds_total s * ds_pct s / (100 # 1))%Q ->
  exists m, adjust_percent ord s =
      {| ds_total := ds_total s; ds_left := ds_left s; ds_prec := ds_prec s; ds_pct := ds_pct s; ds_fixtot := ds_fixtot s;
         ds_fixed := ds_fixed s; ds_percent := m; ds_result := ds_result s |}
    /\ NoDup (map fst m) /\ (forall k, In k (map fst m) <-> In k (map fst (ds_percent s)))
    /\ (forall k v, am_get k (ds_percent s) = Some v -> exists v', am_get k m = Some v' /\ (v <= v')%Q)
    /\ (am_sum (ds_percent s) <= am_sum m)%Q
    /\ (am_sum m <= ds_total s * ds_pct s / (100 # 1))%Q
    /\ ((am_sum (ds_percent s) == ds_total s * ds_pct s / (100 # 1))%Q -> m = ds_percent s).
Proof.
  intros Ho Hn Hs.
  assert (Keep : exists m, s =
      {| ds_total := ds_total s; ds_left := ds_left s; ds_prec := ds_prec s; ds_pct := ds_pct s; ds_fixtot := ds_fixtot s;
         ds_fixed := ds_fixed s; ds_percent := m; ds_result := ds_result s |}
    /\ NoDup (map fst m) /\ (forall k, In k (map fst m) <-> In k (map fst (ds_percent s)))
    /\ (forall k v, am_get k (ds_percent s) = Some v -> exists v', am_get k m = Some v' /\ (v <= v')%Q)
    /\ (am_sum (ds_percent s) <= am_sum m)%Q
    /\ (am_sum m <= ds_total s * ds_pct s / (100 # 1))%Q
    /\ ((am_sum (ds_percent s) == ds_total s * ds_pct s / (100 # 1))%Q -> m = ds_percent s)).
  { exists (ds_percent s). split; [destruct s; reflexivity|]. split; [exact Hn|]. split; [reflexivity|].
    split; [intros k v H; exists v; split; [exact H|apply Qle_refl]|]. split; [apply Qle_refl|]. split; [exact Hs|reflexivity]. }
  unfold adjust_percent. destruct (ds_percent s) as [|x m0] eqn:Em; [exact Keep|]. rewrite <- Em in *. clear Em x m0.
  set (target := (ds_total s * ds_pct s / (100 # 1))%Q) in *.
  destruct (Qeq_bool (target - am_sum (ds_percent s)) 0) eqn:E0; [exact Keep|].
  destruct (find_largest_q (ord (ds_percent s)) (EmptyString, 0%Q)) as [k v] eqn:El.
  destruct (negb (String.eqb k "") && qlt 0 v) eqn:Ek; [|exact Keep]. clear Keep.
  apply andb_prop in Ek as [Ek Ev]. apply negb_true_iff in Ek. apply qlt_iff in Ev.
  assert (Hin : In (k, v) (ds_percent s)).
  { destruct (largest_q (ord (ds_percent s)) (EmptyString, 0%Q)) as [H|H]; rewrite El in H.
    - inversion H; subst. lra.
    - eapply Permutation_in; [apply Permutation_sym; apply Ho|exact H]. }
  pose proof (am_in_get _ _ _ Hn Hin) as Hg.
  exists (am_set k (v + (target - am_sum (ds_percent s)))%Q (ds_percent s)).
  split; [reflexivity|]. split; [apply am_set_nodup; exact Hn|].
  split. { intros k'. rewrite am_set_keys. split; [intros [->|H]; [|exact H]|auto]. change k with (fst (k, v)). apply in_map; exact Hin. }
  split. { intros k' v' H. rewrite am_get_set. destruct (String.eqb k' k) eqn:E1; [|exists v'; split; [exact H|apply Qle_refl]].
    apply String.eqb_eq in E1; subst k'. eexists; split; [reflexivity|]. rewrite Hg in H. inversion H; subst. lra. }
  assert (Esum : (am_sum (am_set k (v + (target - am_sum (ds_percent s))) (ds_percent s)) == target)%Q).
  { rewrite am_sum_set. unfold gotq. rewrite Hg. ring. }
  split; [lra|]. split; [lra|].
  intros E. assert (E1 : Qeq_bool (target - am_sum (ds_percent s)) 0 = true) by (apply Qeq_bool_iff; lra). congruence.
Qed.

Lemma combine_fixed_ok m : NoDup (map fst m) -> forall r, NoDup (map fst r) ->
  NoDup (map fst (combine_fixed m r))
  /\ (forall k, In k (map fst (combine_fixed m r)) <-> In k (map fst m) \/ In k (map fst r))
  /\ (forall k, am_get k (combine_fixed m r) = match am_get k m with Some v => Some (trunc_q v) | None => am_get k r end).
Proof.
  induction m as [|[k v] m IH]; intros Hm r Hr; simpl.
  - split; [exact Hr|]. split; [intuition|reflexivity].
  - inversion Hm as [|? ? N1 N2]; subst. destruct (IH N2 (am_set k (trunc_q v) r)) as (A & B & C); [apply am_set_nodup; exact Hr|].
    split; [exact A|]. split; [intros k'; rewrite B, am_set_keys; intuition|].
    intros k'. rewrite C, am_get_set. destruct (String.eqb k' k) eqn:E; [|reflexivity].
    apply String.eqb_eq in E; subst k'. apply am_get_none in N1. rewrite N1. reflexivity.
Qed.
Lemma combine_fixed_sum m : NoDup (map fst m) -> (forall x, In x m -> (0 <= snd x)%Q) -> forall r,
  (forall k, In k (map fst m) -> am_get k r = None) ->
  (inject_Z (am_sumz (combine_fixed m r)) <= inject_Z (am_sumz r) + am_sum m)%Q.
Proof.
  induction m as [|[k v] m IH]; intros Hm Hp r Hr; simpl; [lra|].
  inversion Hm as [|? ? N1 N2]; subst.
  specialize (IH N2 (fun x Hx => Hp x (or_intror Hx)) (am_set k (trunc_q v) r)).
  assert (H1 : forall k', In k' (map fst m) -> am_get k' (am_set k (trunc_q v) r) = None).
  { intros k' Hk. rewrite am_get_set. destruct (String.eqb k' k) eqn:E; [apply String.eqb_eq in E; subst; tauto|].
    apply Hr. simpl; auto. }
  specialize (IH H1). rewrite am_sumz_set in IH. unfold gotz in IH. rewrite Hr in IH by (simpl; auto).
  rewrite Z.sub_0_r, inject_Z_plus in IH.
  assert (Hv : (0 <= v)%Q) by (apply (Hp (k, v)); left; reflexivity).
  pose proof (trunc_le v Hv). lra.
Qed.
Lemma combine_percent_fixed m : forall r rest,
  fst (combine_percent m r rest) = combine_fixed m r /\ (snd (combine_percent m r rest) == rest - am_sum m)%Q.
Proof.
  induction m as [|[k v] m IH]; intros r rest; simpl; [split; [reflexivity|ring]|].
  destruct (IH (am_set k (trunc_q v) r) (rest - v)%Q) as [A B]. split; [exact A|]. rewrite B. ring.
Qed.

Definition has_left (l : list distribution) : Prop := exists d, In d l /\ d_spec d = DLeft.

Lemma process_left_ok l s : NoDup (map d_id l) ->
  (forall d, In d l -> d_spec d = DLeft -> am_get (d_id d) (ds_result s) = None) ->
  (exists d, In d l /\ d_spec d = DLeft /\ exists s', process_left l s = Some s' /\
     ds_result s' = am_set (d_id d) (trunc_q (ds_left s)) (ds_result s))
  \/ (~ has_left l /\ process_left l s = Some s).
Proof.
  induction l as [|d l IH]; intros Hn H.
  - right. split; [intros (d & [] & _)|reflexivity].
  - inversion Hn as [|? ? N1 N2]; subst. cbn [process_left]. destruct (is_left d) eqn:E.
    + left. exists d. split; [left; reflexivity|].
      assert (Ed : d_spec d = DLeft) by (unfold is_left in E; destruct (d_spec d); congruence).
      split; [exact Ed|]. cbn [negb]. rewrite (H d (or_introl eq_refl) Ed). eexists. split; [reflexivity|reflexivity].
    + cbn [negb]. destruct (IH N2 (fun x Hx => H x (or_intror Hx))) as [(x & X1 & X2 & X3)|[X1 X2]].
      * left. exists x. split; [right; exact X1|]. auto.
      * right. split; [|exact X2]. intros (x & [<-|Hx] & Ex); [|apply X1; exists x; auto].
        unfold is_left in E. rewrite Ex in E. discriminate.
Qed.

Lemma balance_ok ord total m : reorders ord -> NoDup (map fst m) -> ~ In EmptyString (map fst m) ->
  am_sumz m <= total -> (am_sumz m = total \/ exists x, In x m /\ 0 < snd x) ->
  let m' := balance_distributions ord total m in
  am_sumz m' = total /\ NoDup (map fst m') /\ (forall k, In k (map fst m') <-> In k (map fst m))
  /\ (forall k, gotz m k <= gotz m' k).
Proof.
  intros Ho Hn He Hle Hx. cbv zeta. unfold balance_distributions.
  destruct (am_sumz m =? total) eqn:E.
  - apply Z.eqb_eq in E. split; [exact E|]. split; [exact Hn|]. split; [reflexivity|]. intros; lia.
  - apply Z.eqb_neq in E. destruct Hx as [Hx|(x & Hx & Px)]; [congruence|].
    destruct (find_largest_z (ord m) (EmptyString, 0)) as [k v] eqn:El.
    assert (Hv : snd x <= v).
    { destruct (largest_z_ge (ord m) (EmptyString, 0)) as [_ B]. rewrite El in B. apply B.
      eapply Permutation_in; [apply Ho|exact Hx]. }
    assert (Hin : In (k, v) m).
    { destruct (largest_z (ord m) (EmptyString, 0)) as [H|H]; rewrite El in H.
      - inversion H; subst. lia.
      - eapply Permutation_in; [apply Permutation_sym; apply Ho|exact H]. }
    assert (Hk : In k (map fst m)) by (change k with (fst (k, v)); apply in_map; exact Hin).
    destruct (String.eqb k "") eqn:E1; [apply String.eqb_eq in E1; subst; tauto|].
    pose proof (am_in_get _ _ _ Hn Hin) as Hg.
    split. { rewrite am_sumz_set. unfold gotz. rewrite Hg. lia. }
    split; [apply am_set_nodup; exact Hn|].
    split. { intros k'. rewrite am_set_keys. split; [intros [->|H]; auto|auto]. }
    intros k'. unfold gotz. rewrite am_get_set. destruct (String.eqb k' k) eqn:E2; [|lia].
    apply String.eqb_eq in E2; subst. rewrite Hg. lia.
Qed.

(** ** Putting the passes together *)
Lemma same_leg (l : list distribution) d d' : NoDup (map d_id l) -> In d l -> In d' l -> d_id d = d_id d' -> d = d'.
Proof.
  induction l as [|x l IH]; intros Hn H1 H2 E; [destruct H1|]. inversion Hn as [|? ? N1 N2]; subst.
  destruct H1 as [->|H1], H2 as [->|H2]; auto.
  - exfalso. apply N1. rewrite E. apply in_map; exact H2.
  - exfalso. apply N1. rewrite <- E. apply in_map; exact H1.
Qed.
Lemma trunc_eq p q : (0 <= p)%Q -> (p == q)%Q -> trunc_q p = trunc_q q.
Proof. intros H E. apply Z.le_antisymm; apply trunc_mono; lra. Qed.

Lemma stored_whole q z : (0 <= q)%Q -> (q == inject_Z z)%Q -> stored q = q.
Proof.
  intros H E. unfold stored. destruct (qlt 0 q && qlt q 1) eqn:E1; [|reflexivity]. exfalso.
  apply andb_prop in E1 as [A B]. apply qlt_iff in A, B. rewrite E in A, B.
  change 0%Q with (inject_Z 0) in A. change 1%Q with (inject_Z 1) in B. rewrite <- Zlt_Qlt in A, B. lia.
Qed.

Definition start (total prec : Z) : dstate :=
  {| ds_total := q_of_Z total; ds_left := q_of_Z total; ds_prec := prec; ds_pct := 0%Q; ds_fixtot := 0%Q;
     ds_fixed := []; ds_percent := []; ds_result := [] |}.

Lemma before_balancing ordq total prec l : reorders ordq -> 0 < total -> proper total prec l ->
  exists s1 s3, process_fixed l (start total prec) = Some s1
    /\ validate_distributions (process_percent l s1) = true
    /\ process_left l (combine_distributions (adjust_percent ordq (process_percent l s1))) = Some s3
    /\ let m := ds_result s3 in
       NoDup (map fst m) /\ incl (map fst m) (map d_id l)
       /\ (forall d, In d l -> 0 <= gotz m (d_id d) /\ (entitled total prec l d - 1 < inject_Z (gotz m (d_id d)))%Q
                               /\ ((1 <= entitled total prec l d)%Q -> 1 <= gotz m (d_id d)))
       /\ am_sumz m <= total
       /\ (all_whole total prec l -> forall d, In d l -> (inject_Z (gotz m (d_id d)) == entitled total prec l d)%Q).
Proof.
  intros Ho Ht (Hn & He & Hfine & Hleft & Hone & Huse).
  assert (Hf : Forall (fine total prec) l) by (apply Forall_forall; exact Hfine).
  assert (Hfx : forall d, In d l -> (0 <= fixed_part total prec d)%Q).
  { intros d Hd. unfold fixed_part. destruct (_ || _); [apply Qle_refl|apply Hfine; exact Hd]. }
  assert (Hpx : forall d, In d l -> (0 <= percent_part total prec d)%Q).
  { intros d Hd. unfold percent_part. destruct (is_percent d); [apply Hfine; exact Hd|apply Qle_refl]. }
  pose proof (sumq_nonneg _ _ Hfx) as Sfx. pose proof (sumq_nonneg _ _ Hpx) as Spx.
  pose proof (sumq_parts total prec l) as Sp. unfold left_over in Hleft.
  destruct (process_fixed_ok total prec l Hn Hf (start total prec)) as
    (s1 & A1 & A2 & A3 & A4 & A5 & A6 & A7 & A8 & A9 & A10 & A11 & A12 & A13).
  { reflexivity. } { simpl. change (q_of_Z total) with (inject_Z total). lra. } { reflexivity. } { constructor. }
  simpl in A2, A3, A4, A6, A7, A8, A10, A12, A13. change (q_of_Z total) with (inject_Z total) in *.
  destruct (process_percent_ok total prec l Hn Hf s1) as (B1 & B2 & B3 & B4 & B5 & B6 & B7 & B8 & B9 & B10 & B11).
  { exact A4. } { intros. rewrite A7. reflexivity. } { rewrite A7. constructor. }
  set (s2 := process_percent l s1) in *. rewrite A6 in B1. rewrite A7 in B8, B10, B11. simpl in B8, B10, B11.
  assert (T : (ds_total s2 * ds_pct s2 / (100 # 1) == sumq (percent_part total prec) l)%Q).
  { rewrite B4, A4. change (100 # 1)%Q with 100%Q. rewrite B1. field. }
  pose proof (stored_sum total prec l Hf) as Sst.
  destruct (adjust_ok ordq s2 Ho B7) as (m & C1 & C2 & C3 & C4 & C5 & C6 & C7); [lra|].
  exists s1.
  assert (Dfix : forall k, In k (map fst (ds_fixed s1)) -> exists d, In d l /\ d_id d = k /\ is_left d || is_percent d = false).
  { intros k Hk. destruct (A10 k Hk) as [[]|H]; exact H. }
  assert (Dper : forall k, In k (map fst m) -> exists d, In d l /\ d_id d = k /\ is_percent d = true).
  { intros k Hk. apply C3 in Hk. destruct (B8 k Hk) as [[]|H]; exact H. }
  (* results of combining *)
  fold s2. rewrite C1. set (sa := {| ds_total := ds_total s2; ds_left := ds_left s2; ds_prec := ds_prec s2; ds_pct := ds_pct s2;
     ds_fixtot := ds_fixtot s2; ds_fixed := ds_fixed s2; ds_percent := m; ds_result := ds_result s2 |}).
  set (r1 := combine_fixed (ds_fixed s1) []). set (r2 := combine_fixed m r1).
  assert (Ec : exists rest, (rest == ds_left s1 - am_sum m)%Q /\ combine_distributions sa =
    {| ds_total := ds_total s2; ds_left := rest; ds_prec := ds_prec s2; ds_pct := ds_pct s2;
     ds_fixtot := ds_fixtot s2; ds_fixed := ds_fixed s2; ds_percent := m; ds_result := r2 |}).
  { unfold combine_distributions, sa; simpl. rewrite B2, B5, B6, A8. fold r1.
    destruct (combine_percent_fixed m r1 (ds_left s1)) as [X Y].
    destruct (combine_percent m r1 (ds_left s1)) as [x y]. simpl in X, Y. exists y. split; [exact Y|]. rewrite X. reflexivity. }
  destruct Ec as (rest & Er & Ec).
  destruct (combine_fixed_ok (ds_fixed s1) A9 [] (NoDup_nil _)) as (R1 & R2 & R3). fold r1 in R1, R2, R3.
  destruct (combine_fixed_ok m C2 r1 R1) as (R4 & R5 & R6). fold r2 in R4, R5, R6.
  assert (Hrest : (rest == inject_Z total - sumq (fixed_part total prec) l - am_sum m)%Q) by (rewrite Er, A2; reflexivity).
  assert (Hrest0 : (left_over total prec l <= rest)%Q) by (unfold left_over; lra).
  assert (Hrest1 : (0 <= rest)%Q) by (unfold left_over in Hrest0; lra).
  (* what the legs have in r2 *)
  assert (Gfix : forall d, In d l -> is_left d || is_percent d = false -> gotz r2 (d_id d) = trunc_q (fixed_part total prec d)).
  { intros d Hd Ed. unfold gotz. rewrite R6.
    assert (Em : am_get (d_id d) m = None).
    { apply am_get_none. intros Hk. destruct (Dper _ Hk) as (x & X1 & X2 & X3).
      rewrite (same_leg l x d Hn X1 Hd X2) in X3. rewrite X3, orb_true_r in Ed. discriminate. }
    rewrite Em, R3. specialize (A11 d Hd). unfold gotq in A11.
    destruct (am_get (d_id d) (ds_fixed s1)) as [v|]; simpl.
    - apply trunc_eq; [rewrite A11; auto|exact A11].
    - symmetry. apply trunc_int. rewrite <- A11. reflexivity. }
  assert (Gper : forall d, In d l -> is_percent d = true -> exists v, am_get (d_id d) m = Some v
      /\ (stored (asked total prec d) <= v)%Q /\ gotz r2 (d_id d) = trunc_q v).
  { intros d Hd Ed. destruct (B9 d Hd Ed) as (v & V1 & V2). destruct (C4 _ _ V1) as (v' & V3 & V4).
    exists v'. split; [exact V3|]. split; [lra|]. unfold gotz. rewrite R6, V3. reflexivity. }
  assert (Nleft : forall d, In d l -> d_spec d = DLeft -> am_get (d_id d) r2 = None).
  { intros d Hd Ed. apply am_get_none. intros Hk. apply R5 in Hk as [Hk|Hk].
    - destruct (Dper _ Hk) as (x & X1 & X2 & X3). rewrite (same_leg l x d Hn X1 Hd X2) in X3.
      unfold is_percent in X3. rewrite Ed in X3. discriminate.
    - apply R2 in Hk as [Hk|[]]. destruct (Dfix _ Hk) as (x & X1 & X2 & X3). rewrite (same_leg l x d Hn X1 Hd X2) in X3.
      unfold is_left in X3. rewrite Ed in X3. discriminate. }
  assert (Sum2 : (inject_Z (am_sumz r2) <= sumq (fixed_part total prec) l + am_sum m)%Q).
  { assert (X1 : (inject_Z (am_sumz r1) <= inject_Z 0 + am_sum (ds_fixed s1))%Q).
    { apply combine_fixed_sum; [exact A9| |reflexivity]. intros [k v] Hx. simpl.
      assert (Hk : In k (map fst (ds_fixed s1))) by (change k with (fst (k, v)); apply in_map; exact Hx).
      destruct (Dfix k Hk) as (d & D1 & D2 & D3). specialize (A11 d D1). unfold gotq in A11. rewrite D2 in A11.
      rewrite (am_in_get _ _ _ A9 Hx) in A11. rewrite A11. auto. }
    assert (X2 : (inject_Z (am_sumz r2) <= inject_Z (am_sumz r1) + am_sum m)%Q).
    { apply combine_fixed_sum; [exact C2| |].
      - intros [k v] Hx. simpl. assert (Hk : In k (map fst m)) by (change k with (fst (k, v)); apply in_map; exact Hx).
        destruct (Dper k Hk) as (d & D1 & D2 & D3). destruct (Gper d D1 D3) as (v' & V1 & V2 & _). rewrite D2 in V1.
        rewrite (am_in_get _ _ _ C2 Hx) in V1. inversion V1; subst v'.
        pose proof (stored_le (asked total prec d) (proj2 (Hfine d D1))). lra.
      - intros k Hk. apply am_get_none. intros Hk2. apply R2 in Hk2 as [Hk2|[]].
        destruct (Dper k Hk) as (d & D1 & D2 & D3). destruct (Dfix k Hk2) as (x & X3 & X4 & X5).
        rewrite (same_leg l x d Hn X3 D1 (eq_trans X4 (eq_sym D2))) in X5. rewrite D3, orb_true_r in X5. discriminate. }
    change (inject_Z 0) with 0%Q in X1. rewrite A13 in X1. lra. }
  assert (Hval : validate_distributions s2 = true).
  { unfold validate_distributions. apply negb_true_iff. apply orb_false_iff. split.
    - destruct (qlt (100 # 1) (ds_pct s2)) eqn:E; [|reflexivity]. exfalso. apply qlt_iff in E.
      assert (Hm : (inject_Z total * (100 # 1) < inject_Z total * ds_pct s2)%Q).
      { apply Qmult_lt_l; [change 0%Q with (inject_Z 0); rewrite <- Zlt_Qlt; exact Ht|exact E]. }
      rewrite B4, A4 in T.
      assert (E2 : (inject_Z total * ds_pct s2 == 100 * sumq (percent_part total prec) l)%Q).
      { rewrite <- T. change (100 # 1)%Q with 100%Q. field. }
      rewrite E2 in Hm. change (100 # 1)%Q with 100%Q in Hm. lra.
    - destruct (qlt (ds_total s2) (ds_fixtot s2)) eqn:E; [|reflexivity]. exfalso. apply qlt_iff in E.
      rewrite B4, A4, B3, A3 in E. lra. }
  assert (Eent : forall d, d_spec d <> DLeft -> entitled total prec l d = asked total prec d).
  { intros d Hd. unfold entitled. destruct (d_spec d); auto; congruence. }
  assert (Low : forall d, In d l -> d_spec d <> DLeft ->
     0 <= gotz r2 (d_id d) /\ (entitled total prec l d - 1 < inject_Z (gotz r2 (d_id d)))%Q
     /\ ((1 <= entitled total prec l d)%Q -> 1 <= gotz r2 (d_id d))).
  { intros d Hd Hl. rewrite (Eent d Hl).
    assert (Ha : (0 <= asked total prec d)%Q) by apply (proj2 (Hfine d Hd)).
    destruct (is_percent d) eqn:Ep.
    - destruct (Gper d Hd Ep) as (v & V1 & V2 & ->). pose proof (stored_le _ Ha) as (S1 & S2 & S3).
      split; [apply trunc_nonneg; lra|].
      assert (V3 : (1 <= asked total prec d -> asked total prec d <= v)%Q).
      { intros Hx. unfold stored in V2. destruct (qlt 0 (asked total prec d) && qlt (asked total prec d) 1) eqn:E; [|exact V2].
        apply andb_prop in E as [_ E]. apply qlt_iff in E. lra. }
      split.
      + destruct (Qlt_le_dec (asked total prec d) 1) as [Hx|Hx].
        * assert (0 <= trunc_q v) by (apply trunc_nonneg; lra).
          assert (inject_Z 0 <= inject_Z (trunc_q v))%Q by (rewrite <- Zle_Qle; assumption). change (inject_Z 0) with 0%Q in *. lra.
        * specialize (V3 Hx). pose proof (trunc_gt v ltac:(lra)). lra.
      + intros Hx. specialize (V3 Hx). change 1 with (trunc_q 1). apply trunc_mono; lra.
    - assert (El : is_left d || is_percent d = false).
      { rewrite Ep. unfold is_left. destruct (d_spec d); auto; congruence. }
      rewrite (Gfix d Hd El). unfold fixed_part. rewrite El. split; [apply trunc_nonneg; exact Ha|].
      split; [apply trunc_gt; exact Ha|]. intros Hx. change 1 with (trunc_q 1). apply trunc_mono; [discriminate|exact Hx]. }
  assert (Hwhole : all_whole total prec l -> (am_sum m == sumq (percent_part total prec) l)%Q /\
     forall d, In d l -> d_spec d <> DLeft -> (inject_Z (gotz r2 (d_id d)) == entitled total prec l d)%Q).
  { intros Hw.
    assert (Es : (sumq (stored_part total prec) l == sumq (percent_part total prec) l)%Q).
    { apply sumq_ext. intros d Hd. unfold stored_part, percent_part. destruct (is_percent d) eqn:Ep; [|reflexivity].
      destruct (Hw d Hd) as (z & Hz). rewrite Eent in Hz by (unfold is_percent in Ep; destruct (d_spec d); congruence).
      rewrite (stored_whole _ z (proj2 (Hfine d Hd)) Hz). reflexivity. }
    assert (Em : m = ds_percent s2) by (apply C7; rewrite T, B11; lra).
    split; [rewrite Em, B11; lra|].
    intros d Hd Hl. destruct (Hw d Hd) as (z & Hz). rewrite (Eent d Hl) in *.
    assert (Ha : (0 <= asked total prec d)%Q) by apply (proj2 (Hfine d Hd)).
    destruct (is_percent d) eqn:Ep.
    - destruct (Gper d Hd Ep) as (v & V1 & V2 & ->). destruct (B9 d Hd Ep) as (v0 & W1 & W2).
      rewrite Em, W1 in V1. inversion V1; subst v0. rewrite (stored_whole _ z Ha Hz) in W2.
      rewrite (trunc_int v z) by (rewrite W2; exact Hz). symmetry. exact Hz.
    - assert (El : is_left d || is_percent d = false).
      { rewrite Ep. unfold is_left. destruct (d_spec d); auto; congruence. }
      rewrite (Gfix d Hd El). unfold fixed_part. rewrite El. rewrite (trunc_int _ z Hz). symmetry; exact Hz. }
  assert (Keys2 : forall k, In k (map fst r2) -> In k (map d_id l)).
  { intros k Hk. apply R5 in Hk as [Hk|Hk].
    - destruct (Dper _ Hk) as (x & X1 & X2 & _). subst k. apply in_map; exact X1.
    - apply R2 in Hk as [Hk|[]]. destruct (Dfix _ Hk) as (x & X1 & X2 & _). subst k. apply in_map; exact X1. }
  rewrite Ec. set (sc := {| ds_total := ds_total s2; ds_left := rest; ds_prec := ds_prec s2; ds_pct := ds_pct s2;
     ds_fixtot := ds_fixtot s2; ds_fixed := ds_fixed s2; ds_percent := m; ds_result := r2 |}).
  destruct (process_left_ok l sc Hn Nleft) as [(dl & L1 & L2 & s3 & L3 & L4)|[L1 L2]].
  - simpl in L4. exists s3. split; [exact A1|]. split; [exact Hval|]. split; [exact L3|]. cbv zeta. rewrite L4.
    assert (Gset : forall d, In d l -> gotz (am_set (d_id dl) (trunc_q rest) r2) (d_id d) =
              match d_spec d with DLeft => trunc_q rest | _ => gotz r2 (d_id d) end).
    { intros d Hd. unfold gotz. rewrite am_get_set. destruct (String.eqb (d_id d) (d_id dl)) eqn:E.
      - apply String.eqb_eq in E. rewrite (same_leg l d dl Hn Hd L1 E), L2. reflexivity.
      - destruct (d_spec d) eqn:Ed; try reflexivity. rewrite (Hone d dl Hd L1 Ed L2), String.eqb_refl in E. discriminate. }
    split; [apply am_set_nodup; exact R4|].
    split. { intros k Hk. apply am_set_keys in Hk as [->|Hk]; [apply in_map; exact L1|auto]. }
    split.
    { intros d Hd. rewrite (Gset d Hd). destruct (d_spec d) eqn:Ed; try (apply Low; [exact Hd|congruence]).
      unfold entitled. rewrite Ed. split; [apply trunc_nonneg; exact Hrest1|].
      split; [pose proof (trunc_gt rest Hrest1); lra|]. intros Hx. change 1 with (trunc_q 1). apply trunc_mono; [discriminate|lra]. }
    split.
    { rewrite am_sumz_set. unfold gotz. rewrite (Nleft dl L1 L2). rewrite Z.sub_0_r.
      rewrite Zle_Qle, inject_Z_plus. pose proof (trunc_le rest Hrest1). lra. }
    intros Hw d Hd. rewrite (Gset d Hd). destruct (Hwhole Hw) as [W1 W2].
    destruct (d_spec d) eqn:Ed; try (apply W2; [exact Hd|congruence]).
    unfold entitled. rewrite Ed. destruct (Hw d Hd) as (z & Hz). unfold entitled in Hz. rewrite Ed in Hz.
    rewrite (trunc_int rest z); [symmetry; exact Hz|]. rewrite <- Hz. unfold left_over. lra.
  - exists sc. split; [exact A1|]. split; [exact Hval|]. split; [exact L2|]. cbv zeta. simpl.
    destruct Huse as [Huse|Huse]; [destruct L1; exact Huse|]. unfold left_over in Huse.
    split; [exact R4|]. split; [intros k Hk; auto|].
    assert (NL : forall d, In d l -> d_spec d <> DLeft) by (intros d Hd Ed; apply L1; exists d; auto).
    split; [intros d Hd; apply Low; auto|].
    split. { rewrite Zle_Qle. lra. }
    intros Hw d Hd. apply (Hwhole Hw); auto.
Qed.

(** Sum of the entitlements. *)
Lemma entitled_total total prec l : proper total prec l -> (sumq (entitled total prec l) l == inject_Z total)%Q.
Proof.
  intros (Hn & He & Hfine & Hleft & Hone & Huse).
  assert (G : forall l0, NoDup (map d_id l0) -> incl l0 l ->
     (sumq (entitled total prec l) l0 == sumq (asked total prec) l0 +
        (if existsb is_left l0 then left_over total prec l else 0))%Q).
  { induction l0 as [|d l0 IH]; intros Hn0 Hi; simpl; [ring|]. inversion Hn0 as [|? ? N1 N2]; subst.
    rewrite IH by (auto; intros x Hx; apply Hi; right; exact Hx).
    destruct (is_left d) eqn:El; cbn [orb].
    - assert (Ed : d_spec d = DLeft) by (unfold is_left in El; destruct (d_spec d); congruence).
      assert (E0 : existsb is_left l0 = false).
      { destruct (existsb is_left l0) eqn:E; [|reflexivity]. apply existsb_exists in E as (x & Hx & Ex). exfalso. apply N1.
        assert (Ex' : d_spec x = DLeft) by (unfold is_left in Ex; destruct (d_spec x); congruence).
        rewrite (Hone d x (Hi d (or_introl eq_refl)) (Hi x (or_intror Hx)) Ed Ex'). apply in_map; exact Hx. }
      assert (X1 : entitled total prec l d = left_over total prec l) by (unfold entitled; rewrite Ed; reflexivity).
      assert (X2 : asked total prec d = 0%Q) by (unfold asked; rewrite Ed; reflexivity).
      rewrite E0, X1, X2. ring.
    - replace (entitled total prec l d) with (asked total prec d); [ring|].
      unfold entitled. unfold is_left in El. destruct (d_spec d); auto; discriminate. }
  rewrite (G l Hn (incl_refl _)). unfold left_over in *. destruct (existsb is_left l) eqn:E; [ring|].
  destruct Huse as [(d & Hd & Ed)|Huse]; [|lra]. exfalso.
  assert (X : existsb is_left l = true) by (apply existsb_exists; exists d; split; [exact Hd|unfold is_left; rewrite Ed; reflexivity]).
  congruence.
Qed.

Lemma upper_from_lower (l : list distribution) (e : distribution -> Q) (g : string -> Z) :
  (forall d, In d l -> (e d - 1 < inject_Z (g (d_id d)))%Q) ->
  (inject_Z (sumz g (map d_id l)) == sumq e l)%Q ->
  forall d, In d l -> (inject_Z (g (d_id d)) < e d + inject_Z (Z.of_nat (List.length l)))%Q.
Proof.
  assert (G : forall l0, (forall d, In d l0 -> (e d - 1 < inject_Z (g (d_id d)))%Q) ->
     (sumq e l0 - inject_Z (Z.of_nat (List.length l0)) <= inject_Z (sumz g (map d_id l0)))%Q).
  { induction l0 as [|d l0 IH]; intros H; [apply Qle_refl|]. cbn [sumq].
    specialize (IH (fun x Hx => H x (or_intror Hx))). pose proof (H d (or_introl eq_refl)).
    cbn [List.length map sumz]. rewrite Nat2Z.inj_succ. unfold Z.succ. rewrite !inject_Z_plus. change (inject_Z 1) with 1%Q. lra. }
  intros H Hs d Hd. apply in_split in Hd as (l1 & l2 & ->).
  assert (Hm : forall a b : list distribution, sumz g (map d_id (a ++ b)) = sumz g (map d_id a) + sumz g (map d_id b)).
  { induction a as [|x a IH]; intros b; simpl; [reflexivity|]. rewrite IH. lia. }
  assert (Hq : forall a b : list distribution, (sumq e (a ++ b) == sumq e a + sumq e b)%Q).
  { induction a as [|x a IH]; intros b; simpl; [ring|]. rewrite IH. ring. }
  rewrite Hm, Hq in Hs. simpl in Hs. rewrite !inject_Z_plus in Hs.
  pose proof (G l1 (fun x Hx => H x (in_or_app _ _ _ (or_introl Hx)))) as G1.
  assert (G2 := G l2 ltac:(intros x Hx; apply H; apply in_or_app; right; right; exact Hx)).
  rewrite app_length. cbn [List.length]. rewrite Nat2Z.inj_add, Nat2Z.inj_succ. unfold Z.succ.
  rewrite !inject_Z_plus. change (inject_Z 1) with 1%Q. lra.
Qed.

Lemma sum_shares (l : list distribution) (e : distribution -> Q) (g : string -> Z) :
  (forall d, In d l -> (inject_Z (g (d_id d)) == e d)%Q) -> (inject_Z (sumz g (map d_id l)) == sumq e l)%Q.
Proof.
  induction l as [|d l IH]; intros H; simpl; [reflexivity|]. rewrite inject_Z_plus, IH, (H d (or_introl eq_refl)); [reflexivity|].
  intros x Hx. apply H. right; exact Hx.
Qed.

Lemma split_fair ordq ordz total prec l : reorders ordq -> reorders ordz -> 2 <= total -> proper total prec l ->
  (exists d, In d l /\ (1 <= entitled total prec l d)%Q) ->
  exists m, calculate_distributions ordq ordz total l prec = Some m
    /\ NoDup (map fst m) /\ incl (map fst m) (map d_id l) /\ handed_out m = total
    /\ (forall d, In d l -> 0 <= got m (d_id d)
         /\ (entitled total prec l d - 1 < inject_Z (got m (d_id d)))%Q
         /\ (inject_Z (got m (d_id d)) < entitled total prec l d + inject_Z (Z.of_nat (List.length l)))%Q)
    /\ (all_whole total prec l -> forall d, In d l -> (inject_Z (got m (d_id d)) == entitled total prec l d)%Q).
Proof.
  intros Hq Hz Ht Hp (d0 & Hd0 & H1).
  destruct (before_balancing ordq total prec l Hq ltac:(lia) Hp) as (s1 & s3 & A1 & A2 & A3 & B1 & B2 & B3 & B4 & B5).
  assert (Hn : NoDup (map d_id l)) by apply Hp.
  assert (He : ~ In EmptyString (map d_id l)) by apply Hp.
  unfold calculate_distributions.
  replace (total =? 0) with false by (symmetry; apply Z.eqb_neq; lia).
  replace (total =? 1) with false by (symmetry; apply Z.eqb_neq; lia). cbn [andb].
  fold (start total prec). rewrite A1, A2, A3. cbn [negb]. cbv zeta.
  set (m := ds_result s3) in *.
  assert (Hpos : exists x, In x m /\ 0 < snd x).
  { destruct (B3 d0 Hd0) as (_ & _ & X). specialize (X H1). unfold gotz in X.
    destruct (am_get (d_id d0) m) as [v|] eqn:E; [|lia]. exists (d_id d0, v). split; [apply am_get_in; exact E|simpl; lia]. }
  destruct (balance_ok ordz total m Hz B1) as (C1 & C2 & C3 & C4); [intros H; apply He; auto|exact B4|auto|].
  set (m' := balance_distributions ordz total m) in *.
  exists m'. split; [reflexivity|]. split; [exact C2|].
  assert (Hi : incl (map fst m') (map d_id l)) by (intros k Hk; apply B2; apply C3; exact Hk).
  split; [exact Hi|]. split; [rewrite handed_am; exact C1|].
  assert (Hlow : forall d, In d l -> (entitled total prec l d - 1 < inject_Z (gotz m' (d_id d)))%Q).
  { intros d Hd. destruct (B3 d Hd) as (X1 & X2 & X3). pose proof (C4 (d_id d)) as X4. rewrite Zle_Qle in X4. lra. }
  assert (Hsum : sumz (gotz m') (map d_id l) = total) by (rewrite (sumz_ids _ _ Hn C2 Hi); exact C1).
  split.
  - intros d Hd. rewrite got_gotz. destruct (B3 d Hd) as (X1 & X2 & X3). pose proof (C4 (d_id d)) as X4.
    split; [lia|]. split; [auto|].
    apply (upper_from_lower l (entitled total prec l) (gotz m')); [exact Hlow| |exact Hd].
    rewrite Hsum. symmetry. apply entitled_total. exact Hp.
  - intros Hw d Hd. rewrite got_gotz.
    assert (E : am_sumz m = total).
    { rewrite <- (sumz_ids _ _ Hn B1 B2). apply inject_Z_injective. rewrite <- (entitled_total total prec l Hp).
      apply sum_shares. exact (B5 Hw). }
    unfold m', balance_distributions. rewrite E, Z.eqb_refl. apply B5; assumption.
Qed.

(** ** Any accepted split *)
Lemma process_fixed_keys ids l : incl (map d_id l) ids -> forall s s', process_fixed l s = Some s' ->
  NoDup (map fst (ds_fixed s)) -> incl (map fst (ds_fixed s)) ids ->
  NoDup (map fst (ds_fixed s')) /\ incl (map fst (ds_fixed s')) ids
  /\ ds_percent s' = ds_percent s /\ ds_result s' = ds_result s.
Proof.
  induction l as [|d l IH]; intros Hi s s' H Hn Hk; simpl in H; [inversion H; subst; auto|].
  assert (Hd : In (d_id d) ids) by (apply Hi; left; reflexivity).
  assert (Hl : incl (map d_id l) ids) by (intros x Hx; apply Hi; right; exact Hx).
  destruct (is_left d || is_percent d); [eapply IH; eauto|].
  destruct (parse_fixed_amount d (ds_prec s)) as [a|]; [|discriminate].
  destruct (Qeq_bool a 0); [eapply IH; eauto|]. destruct (qlt (ds_left s) a); [discriminate|].
  apply (IH Hl) in H; simpl in *; auto.
  - apply am_set_nodup; exact Hn.
  - intros k Hx. apply am_set_keys in Hx as [->|Hx]; auto.
Qed.
Lemma process_percent_keys ids l : incl (map d_id l) ids -> forall s,
  NoDup (map fst (ds_percent s)) -> incl (map fst (ds_percent s)) ids ->
  let s' := process_percent l s in
  NoDup (map fst (ds_percent s')) /\ incl (map fst (ds_percent s')) ids
  /\ ds_fixed s' = ds_fixed s /\ ds_result s' = ds_result s.
Proof.
  induction l as [|d l IH]; intros Hi s Hn Hk; cbv zeta; simpl; [auto|].
  assert (Hd : In (d_id d) ids) by (apply Hi; left; reflexivity).
  assert (Hl : incl (map d_id l) ids) by (intros x Hx; apply Hi; right; exact Hx).
  destruct (d_spec d); try (apply (IH Hl); assumption).
  match goal with |- context [process_percent l ?s0] => destruct (IH Hl s0) as (A & B & C & D) end; simpl.
  - apply am_set_nodup; exact Hn.
  - intros k Hx. apply am_set_keys in Hx as [->|Hx]; auto.
  - simpl in *. auto.
Qed.
Lemma adjust_keys ord s : reorders ord -> NoDup (map fst (ds_percent s)) ->
  let s' := adjust_percent ord s in
  NoDup (map fst (ds_percent s')) /\ incl (map fst (ds_percent s')) (map fst (ds_percent s))
  /\ ds_fixed s' = ds_fixed s /\ ds_result s' = ds_result s.
Proof.
  intros Ho Hn. cbv zeta. unfold adjust_percent. destruct (ds_percent s) as [|x m] eqn:E; [rewrite E; auto using incl_refl|].
  rewrite <- E in *. destruct (Qeq_bool _ 0); [auto using incl_refl|].
  destruct (find_largest_q (ord (ds_percent s)) (EmptyString, 0%Q)) as [k v] eqn:El.
  destruct (negb (String.eqb k "") && qlt 0 v) eqn:E1; [|auto using incl_refl]. simpl.
  split; [apply am_set_nodup; exact Hn|]. split; [|auto].
  intros k' Hk. apply am_set_keys in Hk as [->|Hk]; [|exact Hk].
  destruct (largest_q (ord (ds_percent s)) (EmptyString, 0%Q)) as [H|H]; rewrite El in H.
  - inversion H; subst. discriminate.
  - change k with (fst (k, v)). apply in_map. eapply Permutation_in; [apply Permutation_sym; apply Ho|exact H].
Qed.
Lemma process_left_keys ids l : incl (map d_id l) ids -> forall s s', process_left l s = Some s' ->
  NoDup (map fst (ds_result s)) -> incl (map fst (ds_result s)) ids ->
  NoDup (map fst (ds_result s')) /\ incl (map fst (ds_result s')) ids.
Proof.
  induction l as [|d l IH]; intros Hi s s' H Hn Hk; simpl in H; [inversion H; subst; auto|].
  assert (Hl : incl (map d_id l) ids) by (intros x Hx; apply Hi; right; exact Hx).
  destruct (is_left d); simpl in H; [|eapply IH; eauto].
  destruct (am_get (d_id d) (ds_result s)); [discriminate|]. inversion H; subst; simpl.
  split; [apply am_set_nodup; exact Hn|]. intros k Hx. apply am_set_keys in Hx as [->|Hx]; auto. apply Hi; left; reflexivity.
Qed.

Lemma balance_any ord total m : reorders ord -> NoDup (map fst m) -> ~ In EmptyString (map fst m) ->
  let m' := balance_distributions ord total m in
  NoDup (map fst m') /\ incl (map fst m') (map fst m)
  /\ (am_sumz m' = total \/ forall x, In x m' -> snd x <= 0).
Proof.
  intros Ho Hn He. cbv zeta. unfold balance_distributions.
  destruct (am_sumz m =? total) eqn:E; [apply Z.eqb_eq in E; auto using incl_refl|].
  destruct (find_largest_z (ord m) (EmptyString, 0)) as [k v] eqn:El.
  destruct (largest_z_ge (ord m) (EmptyString, 0)) as [_ B]. rewrite El in B. simpl in B.
  destruct (largest_z (ord m) (EmptyString, 0)) as [H|H]; rewrite El in H.
  - inversion H; subst. rewrite String.eqb_refl. split; [exact Hn|]. split; [apply incl_refl|]. right.
    intros x Hx. apply B. eapply Permutation_in; [apply Ho|exact Hx].
  - assert (Hin : In (k, v) m) by (eapply Permutation_in; [apply Permutation_sym; apply Ho|exact H]).
    assert (Hk : In k (map fst m)) by (change k with (fst (k, v)); apply in_map; exact Hin).
    destruct (String.eqb k "") eqn:E1; [apply String.eqb_eq in E1; subst; tauto|].
    split; [apply am_set_nodup; exact Hn|]. split.
    + intros k' Hx. apply am_set_keys in Hx as [->|Hx]; auto.
    + left. rewrite am_sumz_set. unfold gotz. rewrite (am_in_get _ _ _ Hn Hin). lia.
Qed.

Lemma split_sum ordq ordz total prec l m : reorders ordq -> reorders ordz -> 2 <= total ->
  ~ In EmptyString (map d_id l) ->
  calculate_distributions ordq ordz total l prec = Some m ->
  NoDup (map fst m) /\ incl (map fst m) (map d_id l)
  /\ (handed_out m = total \/ forall x, In x m -> snd x <= 0).
Proof.
  intros Hq Hz Ht He H. unfold calculate_distributions in H.
  replace (total =? 0) with false in H by (symmetry; apply Z.eqb_neq; lia).
  replace (total =? 1) with false in H by (symmetry; apply Z.eqb_neq; lia). cbn [andb] in H.
  fold (start total prec) in H.
  destruct (process_fixed l (start total prec)) as [s1|] eqn:E1; [|discriminate].
  destruct (process_fixed_keys (map d_id l) l (incl_refl _) _ _ E1) as (A1 & A2 & A3 & A4); [constructor|intros x []|].
  simpl in A3, A4.
  destruct (process_percent_keys (map d_id l) l (incl_refl _) s1) as (B1 & B2 & B3 & B4);
    [rewrite A3; constructor|rewrite A3; intros x []|]. cbv zeta in H.
  set (s2 := process_percent l s1) in *. destruct (validate_distributions s2); simpl in H; [|discriminate].
  destruct (adjust_keys ordq s2 Hq B1) as (C1 & C2 & C3 & C4). set (sa := adjust_percent ordq s2) in *.
  destruct (process_left l (combine_distributions sa)) as [s3|] eqn:E3; [|discriminate]. inversion H; subst m; clear H.
  assert (Hc : NoDup (map fst (ds_result (combine_distributions sa)))
               /\ incl (map fst (ds_result (combine_distributions sa))) (map d_id l)).
  { unfold combine_distributions. rewrite C3, C4, B3, B4, A4. cbn [ds_result start].
    destruct (combine_fixed_ok (ds_fixed s1) A1 [] (NoDup_nil _)) as (D1 & D2 & _).
    destruct (combine_percent_fixed (ds_percent sa) (combine_fixed (ds_fixed s1) []) (ds_left sa)) as [X _].
    destruct (combine_percent _ _ _) as [x y]. simpl in *. subst x.
    destruct (combine_fixed_ok (ds_percent sa) C1 _ D1) as (D3 & D4 & _). split; [exact D3|].
    intros k Hk. apply D4 in Hk as [Hk|Hk]; [auto|]. apply D2 in Hk as [Hk|[]]; auto. }
  destruct Hc as [Hc1 Hc2].
  destruct (process_left_keys (map d_id l) l (incl_refl _) _ _ E3 Hc1 Hc2) as [F1 F2].
  destruct (balance_any ordz total (ds_result s3) Hz F1) as (G1 & G2 & G3); [intros X; auto|].
  split; [exact G1|]. split; [intros k Hk; auto|]. rewrite handed_am. exact G3.
Qed.

(** A total of zero or one minor unit. *)
Lemma zero_amounts_keys l : forall m, NoDup (map fst m) -> NoDup (map fst (zero_amounts l m))
  /\ (forall k, In k (map fst (zero_amounts l m)) <-> In k (map d_id l) \/ In k (map fst m))
  /\ (forall k, gotz (zero_amounts l m) k = if existsb (fun d => String.eqb k (d_id d)) l then 0 else gotz m k).
Proof.
  induction l as [|d l IH]; intros m Hn; simpl; [intuition|].
  destruct (IH (am_set (d_id d) 0 m)) as (A & B & C); [apply am_set_nodup; exact Hn|].
  split; [exact A|]. split; [intros k; rewrite B, am_set_keys; intuition|].
  intros k. rewrite C. unfold gotz. rewrite am_get_set. destruct (String.eqb k (d_id d)); [|reflexivity].
  simpl. destruct (existsb _ l); reflexivity.
Qed.
Lemma split_nothing ordq ordz prec l :
  exists m, calculate_distributions ordq ordz 0 l prec = Some m /\ handed_out m = 0 /\ forall id, got m id = 0.
Proof.
  exists (zero_amounts l []). split; [reflexivity|].
  destruct (zero_amounts_keys l [] (NoDup_nil _)) as (A & B & C).
  assert (Z0 : forall k, gotz (zero_amounts l []) k = 0) by (intros k; rewrite C; destruct (existsb _ _); reflexivity).
  split; [|intros id; rewrite got_gotz; apply Z0].
  rewrite handed_am, <- (sumz_ids (map fst (zero_amounts l [])) _ A A (incl_refl _)).
  clear - Z0. set (ks := map fst _) in *. clearbody ks. induction ks; simpl; [reflexivity|]. rewrite Z0, IHks. reflexivity.
Qed.
Lemma split_unit ordq ordz prec l : l <> [] -> NoDup (map d_id l) ->
  exists m, calculate_distributions ordq ordz 1 l prec = Some m /\ handed_out m = 1
    /\ NoDup (map fst m) /\ incl (map fst m) (map d_id l) /\ forall id, 0 <= got m id.
Proof.
  destruct l as [|d l]; intros Hl Hn; [congruence|]. inversion Hn as [|? ? N1 N2]; subst.
  exists (zero_amounts l [(d_id d, 1)]). split; [reflexivity|].
  destruct (zero_amounts_keys l [(d_id d, 1)]) as (A & B & C); [constructor; [simpl; tauto|constructor]|].
  assert (Hi : incl (map fst (zero_amounts l [(d_id d, 1)])) (map d_id (d :: l))).
  { intros k Hk. apply B in Hk as [Hk|[Hk|[]]]; [right; exact Hk|left; exact Hk]. }
  split; [|split; [exact A|split; [exact Hi|]]].
  - rewrite handed_am, <- (sumz_ids (map d_id (d :: l)) _ Hn A Hi). simpl.
    assert (Z1 : forall ids, incl ids (map d_id l) -> sumz (gotz (zero_amounts l [(d_id d, 1)])) ids = 0).
    { induction ids as [|k ids IH]; intros H; [reflexivity|]. simpl. rewrite IH by (intros x Hx; apply H; right; exact Hx).
      rewrite C. replace (existsb _ l) with true; [reflexivity|]. symmetry. apply existsb_exists.
      assert (Hk : In k (map d_id l)) by (apply H; left; reflexivity). apply in_map_iff in Hk as (x & X1 & X2).
      exists x. split; [exact X2|]. rewrite X1. apply String.eqb_refl. }
    rewrite (Z1 _ (incl_refl _)), C. replace (existsb _ l) with false.
    + unfold gotz. simpl. rewrite String.eqb_refl. reflexivity.
    + symmetry. apply Bool.not_true_is_false. intros E. apply existsb_exists in E as (x & X1 & X2). apply N1.
      apply String.eqb_eq in X2. rewrite X2. apply in_map; exact X1.
  - intros id. rewrite got_gotz, C. destruct (existsb _ l); [lia|]. unfold gotz. simpl. destruct (String.eqb id (d_id d)); lia.
Qed.
