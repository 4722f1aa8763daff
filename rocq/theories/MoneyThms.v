(** Amount conversion: C17, and the arithmetic half of C10. *)
From Coq Require Import ZArith QArith Qabs Lia Lqa.
From Verif Require Import Base MoneyModel MoneyProof MoneySpec.
Open Scope Z_scope.

Lemma Qabs_cases (q : Q) : ((0 <= q)%Q /\ Qabs q = q \/ (q <= 0)%Q /\ (Qabs q == - q)%Q).
Proof.
  destruct (Qlt_le_dec q 0) as [H|H].
  - right. split; [apply Qlt_le_weak; exact H|]. apply Qabs_neg. apply Qlt_le_weak; exact H.
  - left. split; [exact H|]. destruct q as [n d]. unfold Qabs. unfold Qle in H; simpl in H.
    rewrite Z.abs_eq by lia. reflexivity.
Qed.

Lemma round_away (q : Q) : (Qabs (inject_Z (round_half_away q) - q) == 1 # 2)%Q ->
  (Qabs q <= Qabs (inject_Z (round_half_away q)))%Q.
Proof.
  destruct q as [n d]. unfold round_half_away; cbn [Qnum Qden].
  destruct (n <? 0) eqn:E.
  - apply Z.ltb_lt in E.
    pose proof (Z.mod_pos_bound (2 * - n + Z.pos d) (2 * Z.pos d) ltac:(lia)) as Hm.
    pose proof (Z.div_mod (2 * - n + Z.pos d) (2 * Z.pos d) ltac:(lia)) as Hd.
    set (z := (2 * - n + Z.pos d) / (2 * Z.pos d)) in *.
    unfold Qeq, Qle, Qabs, Qminus, Qplus, Qopp, inject_Z; cbn [Qnum Qden]. intros H.
    assert (0 <= z) by nia. rewrite ?Pos2Z.inj_mul in *. nia.
  - apply Z.ltb_ge in E.
    pose proof (Z.mod_pos_bound (2 * n + Z.pos d) (2 * Z.pos d) ltac:(lia)) as Hm.
    pose proof (Z.div_mod (2 * n + Z.pos d) (2 * Z.pos d) ltac:(lia)) as Hd.
    set (z := (2 * n + Z.pos d) / (2 * Z.pos d)) in *.
    unfold Qeq, Qle, Qabs, Qminus, Qplus, Qopp, inject_Z; cbn [Qnum Qden]. intros H.
    assert (0 <= z) by nia. rewrite ?Pos2Z.inj_mul in *. nia.
Qed.

Lemma round_spec (q : Q) : rounds_to q (round_half_away q).
Proof. split; [apply round_half_away_near|apply round_away]. Qed.

Lemma rounds_le (q1 q2 : Q) (z1 z2 : Z) : (q1 <= q2)%Q -> rounds_to q1 z1 -> rounds_to q2 z2 -> z1 <= z2.
Proof.
  intros Hq [A1 B1] [A2 B2]. destruct (Z_lt_le_dec z2 z1) as [H|H]; [|exact H]. exfalso.
  apply Qabs_Qle_condition in A1, A2.
  assert (Hz : (inject_Z z2 + 1 <= inject_Z z1)%Q)
    by (change 1%Q with (inject_Z 1); rewrite <- inject_Z_plus, <- Zle_Qle; lia).
  assert (E1 : (inject_Z z1 - q1 == 1 # 2)%Q) by lra.
  assert (E2 : (inject_Z z2 - q2 == - (1 # 2))%Q) by lra.
  assert (E : (q1 == q2)%Q) by lra.
  assert (H1 : (Qabs (inject_Z z1 - q1) == 1 # 2)%Q) by (rewrite E1; reflexivity).
  assert (H2 : (Qabs (inject_Z z2 - q2) == 1 # 2)%Q) by (rewrite E2; reflexivity).
  specialize (B1 H1). specialize (B2 H2).
  assert (Hi : forall z, (inject_Z z <= -1 \/ inject_Z z == 0 \/ 1 <= inject_Z z)%Q).
  { intros z. assert (C : z <= -1 \/ z = 0 \/ 1 <= z) by lia. destruct C as [C|[C|C]].
    - left. change (-1)%Q with (inject_Z (-1)). rewrite <- Zle_Qle. exact C.
    - right; left. rewrite C. reflexivity.
    - right; right. change 1%Q with (inject_Z 1). rewrite <- Zle_Qle. exact C. }
  pose proof (Hi z1) as I1. pose proof (Hi z2) as I2. clear Hi.
  destruct (Qabs_cases q1) as [[S1 V1]|[S1 V1]], (Qabs_cases q2) as [[S2 V2]|[S2 V2]],
    (Qabs_cases (inject_Z z1)) as [[S3 V3]|[S3 V3]], (Qabs_cases (inject_Z z2)) as [[S4 V4]|[S4 V4]];
    rewrite V1, V3 in B1; rewrite V2, V4 in B2;
    clear V1 V2 V3 V4; destruct I1 as [I1|[I1|I1]], I2 as [I2|[I2|I2]]; lra.
Qed.

Lemma rounds_unique (q : Q) (z1 z2 : Z) : rounds_to q z1 -> rounds_to q z2 -> z1 = z2.
Proof.
  intros A B. apply Z.le_antisymm; [apply (rounds_le q q z1 z2)|apply (rounds_le q q z2 z1)]; auto using Qle_refl.
Qed.

Lemma rounds_Qeq (q q' : Q) (z : Z) : (q == q')%Q -> rounds_to q z -> rounds_to q' z.
Proof. intros E [A B]. split; [rewrite <- E; exact A|intros H; rewrite <- E; apply B; rewrite E; exact H]. Qed.

Lemma ratio_back (z p : Z) : 0 < p -> (q_of_ratio z p * inject_Z p == inject_Z z)%Q.
Proof. intros H. destruct p as [|p|p]; try lia. unfold q_of_ratio, Qeq, Qmult, inject_Z; simpl. lia. Qed.

(** A decimal amount becomes its nearest number of minor units; a positive precise
    amount is kept. *)
Lemma convert_amount (precise : Z) (amount : Q) (prec : Z) : precise <= 0 -> 0 <= prec ->
  forall p a pr, apply_precision precise amount prec = (p, a, pr) ->
  a = amount /\ 1 <= pr /\ (1 <= prec -> pr = prec) /\ rounds_to (amount * inject_Z pr) p.
Proof.
  intros Hp Hq p a pr E. unfold apply_precision in E.
  assert (Hl : (0 <? precise) = false) by (apply Z.ltb_ge; lia). rewrite Hl in E. inversion E; subst; clear E.
  refine (conj eq_refl (conj _ (conj _ _))).
  - destruct (prec =? 0) eqn:E0; [lia|apply Z.eqb_neq in E0; lia].
  - intros. destruct (prec =? 0) eqn:E0; [apply Z.eqb_eq in E0; lia|reflexivity].
  - apply round_spec.
Qed.

Lemma keep_precise (precise : Z) (amount : Q) (prec : Z) : 0 < precise -> 0 <= prec ->
  forall p a pr, apply_precision precise amount prec = (p, a, pr) ->
  p = precise /\ (a * inject_Z pr == inject_Z p)%Q.
Proof.
  intros Hp Hq p a pr E. unfold apply_precision in E.
  assert (Hl : (0 <? precise) = true) by (apply Z.ltb_lt; lia). rewrite Hl in E. inversion E; subst; clear E.
  split; [reflexivity|]. apply ratio_back. destruct (prec =? 0) eqn:E0; [lia|apply Z.eqb_neq in E0; lia].
Qed.

(** Converting again leaves the minor units alone. *)
Lemma convert_again (precise : Z) (amount : Q) (prec : Z) : 0 <= prec ->
  forall p a pr, apply_precision precise amount prec = (p, a, pr) ->
  exists a', apply_precision p a pr = (p, a', pr) /\ apply_precision p a' pr = (p, a', pr).
Proof.
  intros Hq p a pr E.
  assert (Hpr : 1 <= pr /\ (if prec =? 0 then 1 else prec) = pr).
  { unfold apply_precision in E. destruct (prec =? 0) eqn:E0.
    - destruct (0 <? precise); inversion E; subst; auto; lia.
    - apply Z.eqb_neq in E0. destruct (0 <? precise); inversion E; subst; split; auto; lia. }
  destruct Hpr as [Hpr Hpr2].
  assert (E1 : (pr =? 0) = false) by (apply Z.eqb_neq; lia).
  destruct (0 <? p) eqn:Ep.
  - exists (convert_precise_to_decimal p pr). unfold apply_precision. rewrite E1, Ep. auto.
  - exists a. unfold apply_precision in *. rewrite E1, Ep. rewrite Hpr2 in E.
    destruct (0 <? precise) eqn:Eq; inversion E; subst p a pr; [congruence|auto].
Qed.

Lemma convert_monotone (a b : Q) (prec : Z) : (a <= b)%Q -> 1 <= prec ->
  convert_decimal_to_precise a prec <= convert_decimal_to_precise b prec.
Proof.
  intros H Hp. eapply rounds_le; [|apply round_spec|apply round_spec]. apply Qmult_le_compat_r; [exact H|].
  unfold q_of_Z, Qle; simpl; lia.
Qed.

(** Minor units turned into a decimal amount and back are the same. *)
Lemma round_trip (z prec : Z) : 1 <= prec ->
  convert_decimal_to_precise (convert_precise_to_decimal z prec) prec = z.
Proof. intros H. apply round_half_away_int. apply ratio_back. lia. Qed.
