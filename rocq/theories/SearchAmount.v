(** How the search index shows amounts. *)
From Coq Require Import ZArith Lia Bool.
Local Open Scope Z_scope.

(** toMap, internal/search/search.go:282-300, and the tasks (cmd/workers.go:215-221) take every
    number through encoding/json into a float64, the nearest with 53 significant bits, the even
    one of two; convertNumberField, 330-340, prints it without a fraction. Amounts are whole
    numbers of any size (a *big.Int marshals to its digits). *)
Definition near (m : Z) : Z :=
  let e := Z.log2 m - 52 in
  if e <=? 0 then m
  else let q := m / 2 ^ e in let r := m mod 2 ^ e in let h := 2 ^ (e - 1) in
       (if (r <? h) || ((r =? h) && Z.even q) then q else q + 1) * 2 ^ e.
(** A number that rounds to 2 ^ 1024 or more is an error: the document is not written. *)
Definition shown_amount (z : Z) : option Z :=
  if near (Z.abs z) <? 2 ^ 1024 then Some (Z.sgn z * near (Z.abs z)) else None.

(** ** Independently: a float64 that is a whole number, within its range. *)
Definition float (f : Z) : Prop := exists k j, 0 <= j <= 971 /\ Z.abs k < 2 ^ 53 /\ f = k * 2 ^ j.

Lemma near_exact : forall m, 0 <= m -> m <= 2 ^ 53 -> near m = m.
Proof.
  intros m P L. unfold near. destruct (Z.leb_spec (Z.log2 m - 52) 0) as [H|H]; [reflexivity|].
  assert (E : m = 2 ^ 53).
  { assert (53 <= Z.log2 m) by lia. assert (2 ^ 53 <= m); [|lia].
    apply Z.log2_le_pow2; [|exact H0]. destruct (Z.eq_dec m 0) as [-> |Nz]; [cbn in H; lia|lia]. }
  subst m. reflexivity.
Qed.

Section Far.
Variables (m e : Z).
Hypothesis E : e = Z.log2 m - 52.
Hypothesis Pe : 0 < e.
Let q := m / 2 ^ e.
Let r := m mod 2 ^ e.
Lemma pow_pos : 0 < 2 ^ e. Proof. apply Z.pow_pos_nonneg; lia. Qed.
Lemma split_m : m = q * 2 ^ e + r /\ 0 <= r < 2 ^ e.
Proof.
  pose proof pow_pos. split; [|apply Z.mod_pos_bound; lia]. unfold q, r. rewrite (Z.mul_comm (m / 2 ^ e)). apply Z.div_mod. lia.
Qed.
Lemma m_pos : 0 < m.
Proof. destruct (Z.lt_ge_cases 0 m) as [H|H]; [exact H|]. rewrite Z.log2_nonpos in E by exact H. lia. Qed.
Lemma q_bounds : 2 ^ 52 <= q < 2 ^ 53.
Proof.
  pose proof m_pos as Pm. pose proof pow_pos as Pp. destruct (Z.log2_spec m Pm) as [L U].
  replace (Z.log2 m) with (52 + e) in L, U by lia. rewrite Z.pow_add_r in L by lia.
  replace (Z.succ (52 + e)) with (53 + e) in U by lia. rewrite Z.pow_add_r in U by lia.
  split.
  - apply Z.div_le_lower_bound; lia.
  - apply Z.div_lt_upper_bound; lia.
Qed.
Lemma half : 2 ^ e = 2 * 2 ^ (e - 1).
Proof. replace e with (1 + (e - 1)) at 1 by lia. rewrite Z.pow_add_r by lia. reflexivity. Qed.
Lemma near_far : exists b, (b = 0 \/ b = 1) /\ near m = (q + b) * 2 ^ e /\ (b = 0 -> r <= 2 ^ (e - 1)) /\ (b = 1 -> 2 ^ (e - 1) <= r).
Proof.
  unfold near. rewrite <- E. destruct (Z.leb_spec e 0); [lia|]. fold q. fold r.
  destruct (Z.ltb_spec r (2 ^ (e - 1))) as [A|A]; cbn [orb].
  - exists 0. rewrite Z.add_0_r. repeat split; auto; lia.
  - destruct (Z.eqb_spec r (2 ^ (e - 1))) as [B|B]; cbn [andb].
    + destruct (Z.even q); [exists 0|exists 1]; rewrite ?Z.add_0_r; repeat split; auto; lia.
    + exists 1. repeat split; auto; lia.
Qed.
(** Nothing with 53 bits is nearer. *)
Lemma far_nearest : forall k j, 0 <= j -> Z.abs k <= 2 ^ 53 -> Z.abs (near m - m) <= Z.abs (k * 2 ^ j - m).
Proof.
  intros k j J K. destruct near_far as (b & B & N & B0 & B1). destruct split_m as [S R]. pose proof half as H. pose proof pow_pos as Pp.
  pose proof q_bounds as Q.
  assert (D : Z.abs (near m - m) <= r /\ Z.abs (near m - m) <= 2 ^ e - r).
  { rewrite N. destruct B as [-> | ->].
    - specialize (B0 eq_refl). split; apply Z.abs_le; lia.
    - specialize (B1 eq_refl). split; apply Z.abs_le; lia. }
  destruct (Z.le_gt_cases e j) as [L|L].
  - assert (F : exists t, k * 2 ^ j = t * 2 ^ e).
    { exists (k * 2 ^ (j - e)). rewrite <- Z.mul_assoc, <- Z.pow_add_r by lia. do 2 f_equal. lia. }
    destruct F as (t & ->). destruct (Z.le_gt_cases t q) as [T|T].
    + assert (t * 2 ^ e <= q * 2 ^ e) by (apply Z.mul_le_mono_nonneg_r; lia). lia.
    + assert ((q + 1) * 2 ^ e <= t * 2 ^ e) by (apply Z.mul_le_mono_nonneg_r; lia). lia.
  - assert (F : k * 2 ^ j <= 2 ^ 52 * 2 ^ e).
    { assert (2 ^ j <= 2 ^ (e - 1)) by (apply Z.pow_le_mono_r; lia). assert (0 < 2 ^ j) by (apply Z.pow_pos_nonneg; lia).
      apply Z.le_trans with (2 ^ 53 * 2 ^ (e - 1)); [|rewrite H; change (2 ^ 53) with (2 ^ 52 * 2); lia].
      apply Z.le_trans with (2 ^ 53 * 2 ^ j); [apply Z.mul_le_mono_nonneg_r; lia|apply Z.mul_le_mono_nonneg_l; lia]. }
    assert (2 ^ 52 * 2 ^ e <= q * 2 ^ e) by (apply Z.mul_le_mono_nonneg_r; lia). lia.
Qed.
Lemma far_form : exists k, 0 <= k <= 2 ^ 53 /\ near m = k * 2 ^ e.
Proof. destruct near_far as (b & B & N & _). pose proof q_bounds. exists (q + b). split; [lia|exact N]. Qed.
Lemma far_error : 2 ^ 53 * Z.abs (near m - m) <= m.
Proof.
  destruct near_far as (b & B & N & B0 & B1). destruct split_m as [S R]. pose proof half as H. pose proof pow_pos as Pp. pose proof q_bounds as Q.
  assert (D : Z.abs (near m - m) <= 2 ^ (e - 1)).
  { rewrite N. destruct B as [-> | ->]; [specialize (B0 eq_refl)|specialize (B1 eq_refl)]; apply Z.abs_le; lia. }
  apply Z.le_trans with (2 ^ 53 * 2 ^ (e - 1)); [apply Z.mul_le_mono_nonneg_l; lia|].
  change (2 ^ 53) with (2 ^ 52 * 2). rewrite <- Z.mul_assoc, <- H.
  assert (2 ^ 52 * 2 ^ e <= q * 2 ^ e) by (apply Z.mul_le_mono_nonneg_r; lia). lia.
Qed.
End Far.

Lemma near_nonneg : forall m, 0 <= m -> 0 <= near m.
Proof.
  intros m P. destruct (Z.le_gt_cases (Z.log2 m - 52) 0) as [H|H].
  - unfold near. destruct (Z.leb_spec (Z.log2 m - 52) 0); lia.
  - destruct (far_form m _ eq_refl ltac:(lia)) as (k & K & ->). assert (0 < 2 ^ (Z.log2 m - 52)) by (apply Z.pow_pos_nonneg; lia).
    apply Z.mul_nonneg_nonneg; lia.
Qed.
Lemma near_nearest : forall m k j, 0 <= m -> 0 <= j -> Z.abs k <= 2 ^ 53 -> Z.abs (near m - m) <= Z.abs (k * 2 ^ j - m).
Proof.
  intros m k j P J K. destruct (Z.le_gt_cases (Z.log2 m - 52) 0) as [H|H].
  - unfold near. destruct (Z.leb_spec (Z.log2 m - 52) 0); [rewrite Z.sub_diag; apply Z.abs_nonneg|lia].
  - apply (far_nearest m _ eq_refl); lia.
Qed.
Lemma signed : forall z f, Z.abs (Z.sgn z * f - z) = Z.abs (f - Z.abs z) \/ z = 0.
Proof. intros z f. destruct z as [|p|p]; cbn [Z.sgn Z.abs]; [right; reflexivity|left|left]; lia. Qed.
Lemma abs_apart : forall a b, Z.abs (Z.abs a - Z.abs b) <= Z.abs (a - b).
Proof. intros a b. lia. Qed.

(** What is shown is a float64, and none is nearer to the amount. *)
Theorem shown_nearest : forall z s, shown_amount z = Some s -> float s /\ forall f, float f -> Z.abs (s - z) <= Z.abs (f - z).
Proof.
  intros z s H. unfold shown_amount in H. destruct (Z.ltb_spec (near (Z.abs z)) (2 ^ 1024)) as [L|L]; [|discriminate H]. injection H as <-. split.
  - assert (F : float (near (Z.abs z))).
    { destruct (Z.le_gt_cases (Z.abs z) (2 ^ 53)) as [S|S].
      - rewrite near_exact by lia. destruct (Z.eq_dec (Z.abs z) (2 ^ 53)) as [->|N].
        + exists 1, 53. repeat split; try lia.
        + exists (Z.abs z), 0. repeat split; lia.
      - assert (G : 53 <= Z.log2 (Z.abs z)) by (apply Z.log2_le_pow2; lia).
        set (e := Z.log2 (Z.abs z) - 52) in *. assert (Pe : 0 < e) by lia.
        destruct (far_form (Z.abs z) e eq_refl Pe) as (k & K & N). rewrite N in *.
        assert (Lo : 2 ^ 52 * 2 ^ e <= k * 2 ^ e).
        { destruct (near_far (Z.abs z) e eq_refl Pe) as (b & B & N' & _). pose proof (q_bounds (Z.abs z) e eq_refl Pe).
          rewrite <- N, N'. assert (0 < 2 ^ e) by (apply Z.pow_pos_nonneg; lia). apply Z.mul_le_mono_nonneg_r; lia. }
        assert (Ee : e <= 971).
        { assert (X : 2 ^ 52 * 2 ^ e < 2 ^ 1024) by lia. rewrite <- Z.pow_add_r in X by lia. apply Z.pow_lt_mono_r_iff in X; lia. }
        destruct (Z.eq_dec k (2 ^ 53)) as [->|Nk].
        + assert (e <> 971). { intros ->. rewrite <- Z.pow_add_r in L by lia. apply Z.pow_lt_mono_r_iff in L; lia. }
          exists (2 ^ 52), (e + 1). repeat split; try lia. rewrite Z.pow_add_r by lia. change (2 ^ 53) with (2 ^ 52 * 2). change (2 ^ 1) with 2. lia.
        + exists k, e. repeat split; try lia. }
    destruct F as (k & j & J & K & ->). exists (Z.sgn z * k), j. split; [exact J|]. split; [|lia]. destruct z; cbn [Z.sgn]; lia.
  - intros f (k & j & J & K & ->). destruct (signed z (near (Z.abs z))) as [S|S].
    + rewrite S. eapply Z.le_trans; [apply (near_nearest (Z.abs z) (Z.abs k) j); lia|].
      replace (Z.abs k * 2 ^ j) with (Z.abs (k * 2 ^ j)); [apply abs_apart|]. rewrite Z.abs_mul. f_equal. apply Z.abs_eq. apply Z.pow_nonneg. lia.
    + subst z. cbn. lia.
Qed.
(** So amounts of up to 2 ^ 53 are shown as they are, *)
Theorem shown_exact : forall z, Z.abs z <= 2 ^ 53 -> shown_amount z = Some z.
Proof.
  intros z L. unfold shown_amount. rewrite near_exact by lia. destruct (Z.ltb_spec (Z.abs z) (2 ^ 1024)) as [H|H].
  - f_equal. destruct z; cbn [Z.sgn Z.abs]; lia.
  - assert (2 ^ 53 < 2 ^ 1024) by (apply Z.pow_lt_mono_r; lia). lia.
Qed.
(** and larger ones to within one part in 2 ^ 53. *)
Theorem shown_close : forall z s, shown_amount z = Some s -> 2 ^ 53 * Z.abs (s - z) <= Z.abs z.
Proof.
  intros z s H. unfold shown_amount in H. destruct (near (Z.abs z) <? 2 ^ 1024); [|discriminate H]. injection H as <-.
  destruct (signed z (near (Z.abs z))) as [S|S]; [|subst z; cbn; lia]. rewrite S.
  destruct (Z.le_gt_cases (Z.log2 (Z.abs z) - 52) 0) as [G|G].
  - unfold near. destruct (Z.leb_spec (Z.log2 (Z.abs z) - 52) 0); [|lia]. rewrite Z.sub_diag. cbn. lia.
  - apply (far_error _ _ eq_refl). lia.
Qed.
Theorem shown_refuted : shown_amount (2 ^ 53 + 1) = Some (2 ^ 53).
Proof. vm_compute. reflexivity. Qed.
(** Less than 2 ^ 1023 is shown, somehow. *)
Theorem shown_something : forall z, Z.abs z < 2 ^ 1023 -> shown_amount z <> None.
Proof.
  intros z L. unfold shown_amount. destruct (Z.ltb_spec (near (Z.abs z)) (2 ^ 1024)) as [H|H]; [discriminate|exfalso].
  assert (N : 2 ^ 53 * Z.abs (near (Z.abs z) - Z.abs z) <= Z.abs z).
  { destruct (Z.le_gt_cases (Z.log2 (Z.abs z) - 52) 0) as [G|G].
    - unfold near. destruct (Z.leb_spec (Z.log2 (Z.abs z) - 52) 0); [|lia]. rewrite Z.sub_diag. cbn. lia.
    - apply (far_error _ _ eq_refl). lia. }
  assert (P : 2 ^ 1024 = 2 * 2 ^ 1023) by reflexivity. set (x := 2 ^ 1023) in *. change (2 ^ 53) with 9007199254740992 in N. lia.
Qed.
