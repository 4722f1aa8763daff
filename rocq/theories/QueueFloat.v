(** The floating-point memory check compared with exact arithmetic. *)
From Coq Require Import ZArith Reals Lia Lra Psatz Bool.
From Coq Require Import Floats.SpecFloat.
From Flocq Require Import Core IEEE754.BinarySingleNaN Relative.
From Verif Require Import QueueModel.
Open Scope Z_scope.

Local Instance prec53 : Prec_gt_0 53 := eq_refl.
Local Instance emax1024 : Prec_lt_emax 53 1024 := eq_refl.
Local Instance exp53 : Valid_exp (SpecFloat.fexp 53 1024) := fexp_correct 53 1024 prec53.
Notation b64 := (binary_float 53 1024).
Notation rnd := (round radix2 (SpecFloat.fexp 53 1024) ZnearestE).

(** ** The model's arithmetic is Flocq's *)
Lemma round_ne_equiv s m l : round_nearest_even m l = choice_mode mode_NE s m l.
Proof. destruct l as [|[]]; try reflexivity. simpl. unfold Round.cond_incr. now destruct (Z.even m). Qed.
Lemma round_aux_equiv sx mx ex lx :
  SpecFloat.binary_round_aux 53 1024 sx mx ex lx = BinarySingleNaN.binary_round_aux 53 1024 mode_NE sx mx ex lx.
Proof.
  unfold SpecFloat.binary_round_aux, BinarySingleNaN.binary_round_aux. destruct (shr_fexp _ _ _ _ _) as [mrs e]. simpl.
  now rewrite (round_ne_equiv sx).
Qed.
Definition Bint (z : Z) : b64 := BinarySingleNaN.binary_normalize 53 1024 prec53 emax1024 mode_NE z 0 false.
Lemma to_float_B z : to_float z = B2SF (Bint z).
Proof.
  unfold to_float, Bint. destruct z as [|p|p]; [reflexivity| |]; simpl; rewrite B2SF_SF2B;
    unfold SpecFloat.binary_round, BinarySingleNaN.binary_round, shl_align_fexp; destruct (shl_align _ _ _); apply round_aux_equiv.
Qed.
Lemma fmul_B (x y : b64) : fmul (B2SF x) (B2SF y) = B2SF (Bmult mode_NE x y).
Proof. destruct x, y; try reflexivity. simpl. rewrite B2SF_SF2B. apply round_aux_equiv. Qed.
Lemma fdiv_B (x y : b64) : fdiv (B2SF x) (B2SF y) = B2SF (Bdiv mode_NE x y).
Proof.
  destruct x, y; try reflexivity. unfold fdiv. simpl. rewrite B2SF_SF2B. destruct (SFdiv_core_binary _ _ _ _ _ _) as [[mz ez] lz]. apply round_aux_equiv.
Qed.
Lemma leb_B (x y : b64) : is_finite x = true -> is_finite y = true -> SFleb (B2SF x) (B2SF y) = Rle_bool (B2R x) (B2R y).
Proof.
  intros Hx Hy. pose proof (Bcompare_correct 53 1024 x y Hx Hy) as H. unfold Bcompare in H. unfold SFleb. rewrite H.
  unfold Rle_bool. destruct (Rcompare (B2R x) (B2R y)); reflexivity.
Qed.

(** ** Values *)
Open Scope R_scope.
Lemma in_format_pow k : (0 <= k < 1000)%Z -> generic_format radix2 (SpecFloat.fexp 53 1024) (bpow radix2 k).
Proof. intros H. apply generic_format_bpow. unfold SpecFloat.fexp, emin. lia. Qed.
Lemma rnd_small x k : (0 <= k < 1000)%Z -> Rabs x <= bpow radix2 k -> Rabs (rnd x) <= bpow radix2 k.
Proof. intros Hk H. apply abs_round_le_generic; auto with typeclass_instances. apply in_format_pow, Hk. Qed.
Lemma rnd_fits x k : (0 <= k < 1000)%Z -> Rabs x <= bpow radix2 k -> Rlt_bool (Rabs (rnd x)) (bpow radix2 1024) = true.
Proof.
  intros Hk H. apply Rlt_bool_true. eapply Rle_lt_trans; [apply (rnd_small x k Hk H)|]. apply bpow_lt. lia.
Qed.

Lemma Bint_correct z : (Z.abs z <= 2 ^ 63)%Z -> is_finite (Bint z) = true /\ B2R (Bint z) = rnd (IZR z).
Proof.
  intros Hz. pose proof (BinarySingleNaN.binary_normalize_correct 53 1024 prec53 emax1024 mode_NE z 0 false) as H. cbv zeta in H.
  fold (Bint z) in H. assert (E : F2R (Float radix2 z 0) = IZR z) by (unfold F2R; simpl; lra). rewrite E in H. simpl round_mode in H.
  rewrite (rnd_fits (IZR z) 63) in H; [tauto|lia|]. rewrite <- abs_IZR. change (bpow radix2 63) with (IZR (2 ^ 63)). apply IZR_le, Hz.
Qed.
Lemma int_format z : (Z.abs z <= 2 ^ 53)%Z -> generic_format radix2 (SpecFloat.fexp 53 1024) (IZR z).
Proof.
  intros Hz. destruct (Z.eq_dec (Z.abs z) (2 ^ 53)) as [E|E].
  - assert (z = 2 ^ 53 \/ z = - 2 ^ 53)%Z as [->| ->] by lia.
    + apply (in_format_pow 53). lia.
    + rewrite opp_IZR. apply generic_format_opp. apply (in_format_pow 53). lia.
  - replace (IZR z) with (F2R (Float radix2 z 0)) by (unfold F2R; simpl; lra).
    apply generic_format_F2R. intros H0. unfold cexp. rewrite mag_F2R_Zdigits by exact H0.
    assert (Zdigits radix2 z <= 53)%Z by (apply Zdigits_le_Zpower; simpl; lia).
    unfold SpecFloat.fexp, emin. lia.
Qed.
Lemma Bint_exact z : (Z.abs z <= 2 ^ 53)%Z -> B2R (Bint z) = IZR z.
Proof.
  intros Hz. destruct (Bint_correct z) as [_ ->]; [lia|]. apply round_generic; auto with typeclass_instances. apply int_format, Hz.
Qed.
Lemma Bdiv_value (x y : b64) k : is_finite x = true -> B2R y <> 0 -> (0 <= k < 1000)%Z -> Rabs (B2R x / B2R y) <= bpow radix2 k ->
  is_finite (Bdiv mode_NE x y) = true /\ B2R (Bdiv mode_NE x y) = rnd (B2R x / B2R y).
Proof.
  intros Hx Hy Hk Hb. pose proof (Bdiv_correct 53 1024 prec53 emax1024 mode_NE x y Hy) as H. simpl round_mode in H.
  rewrite (rnd_fits _ k Hk Hb) in H. destruct H as (H1 & H2 & _). rewrite H2. auto.
Qed.
Lemma Bmult_value (x y : b64) k : is_finite x = true -> is_finite y = true -> (0 <= k < 1000)%Z -> Rabs (B2R x * B2R y) <= bpow radix2 k ->
  is_finite (Bmult mode_NE x y) = true /\ B2R (Bmult mode_NE x y) = rnd (B2R x * B2R y).
Proof.
  intros Hx Hy Hk Hb. pose proof (Bmult_correct 53 1024 prec53 emax1024 mode_NE x y) as H. simpl round_mode in H.
  rewrite (rnd_fits _ k Hk Hb) in H. destruct H as (H1 & H2 & _). rewrite H2, Hx, Hy. auto.
Qed.

Lemma to_float_leb a b : (Z.abs a <= 2 ^ 53)%Z -> (Z.abs b <= 2 ^ 53)%Z -> SFleb (to_float a) (to_float b) = (a <=? b)%Z.
Proof.
  intros Ha Hb. rewrite !to_float_B. destruct (Bint_correct a) as [Fa _]; [lia|]. destruct (Bint_correct b) as [Fb _]; [lia|].
  rewrite leb_B by assumption. rewrite !Bint_exact by assumption.
  destruct (Z.leb_spec a b) as [H|H]; [apply Rle_bool_true, IZR_le, H|apply Rle_bool_false, IZR_lt, H].
Qed.

(** ** The check *)
Lemma pos_int m : (0 < m < 2 ^ 63)%Z -> 1 <= rnd (IZR m).
Proof.
  intros H. apply round_ge_generic; auto with typeclass_instances; [apply (in_format_pow 0); lia|]. apply (IZR_le 1). lia.
Qed.
Lemma nonneg_int u : (0 <= u < 2 ^ 63)%Z -> 0 <= rnd (IZR u) <= bpow radix2 63.
Proof.
  intros H. split.
  - apply round_ge_generic; auto with typeclass_instances; [apply generic_format_0|]. apply (IZR_le 0). lia.
  - eapply Rle_trans; [apply Rle_abs|]. apply rnd_small; [lia|]. rewrite <- abs_IZR.
    change (bpow radix2 63) with (IZR (2 ^ 63)). apply IZR_le. lia.
Qed.
Lemma full_value c u m (T : b64) : (0 <= u < 2 ^ 63)%Z -> (0 < m < 2 ^ 63)%Z -> percent c = B2SF T -> is_finite T = true ->
  memory_full c {| m_used := u; m_max := m |} = Rle_bool (B2R T) (rnd (rnd (rnd (IZR u) / rnd (IZR m)) * 100)).
Proof.
  intros Hu Hm HT HF. unfold memory_full, usage. simpl m_max. simpl m_used. destruct (m <=? 0)%Z eqn:E; [apply Z.leb_le in E; lia|].
  rewrite HT, !to_float_B, fdiv_B, fmul_B.
  destruct (Bint_correct u) as [Fu Vu]; [lia|]. destruct (Bint_correct m) as [Fm Vm]; [lia|]. destruct (Bint_correct 100) as [Fh _]; [lia|].
  pose proof (pos_int m Hm) as Pm. pose proof (nonneg_int u Hu) as [Pu Bu].
  assert (Hq : 0 <= rnd (IZR u) / rnd (IZR m) <= bpow radix2 63).
  { split; [apply Rmult_le_pos; [lra|left; apply Rinv_0_lt_compat; lra]|]. apply Rle_trans with (rnd (IZR u) / 1); [|lra].
    apply Rmult_le_compat_l; [exact Pu|]. apply Rinv_le; lra. }
  destruct (Bdiv_value (Bint u) (Bint m) 63) as [Fd Vd]; [exact Fu|lra|lia|rewrite Vu, Vm, Rabs_pos_eq; apply Hq|].
  rewrite Vu, Vm in Vd.
  assert (Hr : 0 <= rnd (rnd (IZR u) / rnd (IZR m)) <= bpow radix2 63).
  { split; [apply round_ge_generic; auto with typeclass_instances; [apply generic_format_0|apply Hq]|].
    eapply Rle_trans; [apply Rle_abs|]. apply rnd_small; [lia|]. rewrite Rabs_pos_eq; apply Hq. }
  assert (V100 : B2R (Bint 100) = 100) by (apply Bint_exact; lia).
  destruct (Bmult_value (Bdiv mode_NE (Bint u) (Bint m)) (Bint 100) 70) as [Fx Vx]; [exact Fd|exact Fh|lia| |].
  - rewrite Vd, V100, Rabs_pos_eq by lra. change (bpow radix2 70) with (IZR (2 ^ 70)). change (bpow radix2 63) with (IZR (2 ^ 63)) in Hr. simpl in *. lra.
  - rewrite leb_B by assumption. rewrite Vx, Vd, V100. reflexivity.
Qed.

(** A value computed once with Flocq's operations. *)
Lemma concrete_div a b mant ex : (Z.abs a <= 2 ^ 53)%Z -> (0 < b <= 2 ^ 53)%Z -> (Z.abs a <= b)%Z ->
  fdiv (to_float a) (to_float b) = S754_finite false mant ex -> rnd (IZR a / IZR b) = IZR (Zpos mant) * bpow radix2 ex.
Proof.
  intros Ha Hb Hab E. rewrite !to_float_B, fdiv_B in E. destruct (Bint_correct a) as [Fa _]; [lia|].
  assert (Va : B2R (Bint a) = IZR a) by (apply Bint_exact; lia). assert (Vb : B2R (Bint b) = IZR b) by (apply Bint_exact; lia).
  assert (Pb : 1 <= IZR b) by (apply (IZR_le 1); lia).
  destruct (Bdiv_value (Bint a) (Bint b) 0) as [_ V]; [exact Fa|lra|lia| |].
  - rewrite Va, Vb. unfold Rdiv. rewrite Rabs_mult, Rabs_inv, (Rabs_pos_eq (IZR b)) by lra. simpl.
    apply Rmult_le_reg_r with (IZR b); [lra|]. rewrite Rmult_assoc, Rinv_l, Rmult_1_r, Rmult_1_l by lra.
    rewrite <- abs_IZR. apply IZR_le. exact Hab.
  - rewrite Va, Vb in V. rewrite <- V. destruct (Bdiv mode_NE (Bint a) (Bint b)) as [| | |s mm ee Hb']; try discriminate E.
    simpl in E. inversion E; subst. reflexivity.
Qed.
Lemma concrete_mul (x : b64) mant ex : is_finite x = true -> Rabs (B2R x) <= 1 ->
  fmul (B2SF x) (to_float 100) = S754_finite false mant ex -> rnd (B2R x * 100) = IZR (Zpos mant) * bpow radix2 ex.
Proof.
  intros Fx Hx E. rewrite to_float_B, fmul_B in E. destruct (Bint_correct 100) as [Fh _]; [lia|].
  assert (V100 : B2R (Bint 100) = 100) by (apply Bint_exact; lia).
  destruct (Bmult_value x (Bint 100) 7) as [_ V]; [exact Fx|exact Fh|lia| |].
  - rewrite V100, Rabs_mult, (Rabs_pos_eq 100) by lra. change (bpow radix2 7) with 128. lra.
  - rewrite V100 in V. rewrite <- V. destruct (Bmult mode_NE x (Bint 100)) as [| | |s mm ee Hb']; try discriminate E.
    simpl in E. inversion E; subst. reflexivity.
Qed.

Definition c85 : b64 := @B754_finite 53 1024 false 7656119366529843 (-53) eq_refl.
Definition below85 : b64 := @B754_finite 53 1024 false 7656119366529842 (-53) eq_refl.
Lemma c85_value : B2R c85 = 7656119366529843 / IZR (2 ^ 53).
Proof. reflexivity. Qed.
Lemma below85_value : B2R below85 = 7656119366529842 / IZR (2 ^ 53).
Proof. reflexivity. Qed.
Lemma rnd_85 : rnd (17 / 20) = B2R c85.
Proof. rewrite (concrete_div 17 20 7656119366529843 (-53)); [reflexivity|lia|lia|lia|vm_compute; reflexivity]. Qed.
Lemma rnd_85_100 : rnd (B2R c85 * 100) = 85.
Proof.
  rewrite (concrete_mul c85 5981343255101440 (-46)); [|reflexivity| |vm_compute; reflexivity].
  - change (bpow radix2 (-46)) with (/ IZR (2 ^ 46)). simpl. lra.
  - rewrite c85_value. rewrite Rabs_pos_eq; simpl; lra.
Qed.
Lemma rnd_below_100 : rnd (B2R below85 * 100) < 85.
Proof.
  rewrite (concrete_mul below85 5981343255101439 (-46)); [|reflexivity| |vm_compute; reflexivity].
  - change (bpow radix2 (-46)) with (/ IZR (2 ^ 46)). simpl. lra.
  - rewrite below85_value. rewrite Rabs_pos_eq; simpl; lra.
Qed.

(** With the default percentage the check is exact for memories up to 2^48 bytes. *)
Theorem default_exact c u m : percent c = to_float 85 -> (0 <= u <= 2 ^ 53)%Z -> (0 < m <= 2 ^ 48)%Z ->
  memory_full c {| m_used := u; m_max := m |} = (85 * m <=? 100 * u)%Z.
Proof.
  intros HT Hu Hm. rewrite to_float_B in HT. rewrite (full_value c u m (Bint 85)); [|lia|lia|exact HT|apply Bint_correct; lia].
  rewrite (Bint_exact 85) by lia.
  assert (Ru : rnd (IZR u) = IZR u) by (apply round_generic; auto with typeclass_instances; apply int_format; lia).
  assert (Rm : rnd (IZR m) = IZR m) by (apply round_generic; auto with typeclass_instances; apply int_format; lia).
  rewrite Ru, Rm. assert (Pm : 1 <= IZR m) by (apply (IZR_le 1); lia).
  destruct (85 * m <=? 100 * u)%Z eqn:E.
  - apply Z.leb_le in E. apply Rle_bool_true. rewrite <- rnd_85_100 at 1. apply round_le; auto with typeclass_instances.
    apply Rmult_le_compat_r; [lra|]. rewrite <- rnd_85. apply round_le; auto with typeclass_instances.
    apply IZR_le in E. rewrite !mult_IZR in E. apply Rmult_le_reg_r with (IZR m); [lra|]. unfold Rdiv at 2.
    rewrite Rmult_assoc, Rinv_l by lra. lra.
  - apply Z.leb_gt in E. apply Rle_bool_false. eapply Rle_lt_trans; [|exact rnd_below_100]. apply round_le; auto with typeclass_instances.
    apply Rmult_le_compat_r; [lra|]. rewrite <- (round_generic radix2 (SpecFloat.fexp 53 1024) ZnearestE (B2R below85)) by apply generic_format_B2R.
    apply round_le; auto with typeclass_instances. rewrite below85_value.
    assert (E' : (100 * u + 5 <= 85 * m)%Z).
    { assert (E5 : (exists k, 85 * m - 100 * u = 5 * k)%Z) by (exists (17 * m - 20 * u)%Z; ring). destruct E5 as [k Ek]. lia. }
    apply IZR_le in E'. rewrite plus_IZR, !mult_IZR in E'. assert (Bm : IZR m <= IZR (2 ^ 48)) by (apply IZR_le; lia).
    apply Rmult_le_reg_r with (IZR m); [lra|]. unfold Rdiv at 1. rewrite Rmult_assoc, Rinv_l by lra.
    simpl in Bm. simpl (IZR (2 ^ 53)). lra.
Qed.

(** For any percentage, the check errs by less than one part in 2^50. *)
Lemma rel x : bpow radix2 (-1022) <= Rabs x -> exists e, Rabs e <= bpow radix2 (-53) /\ rnd x = x * (1 + e).
Proof.
  intros H. destruct (relative_error_N_FLT_ex radix2 (-1074) 53 prec53 (fun x => negb (Z.even x)) x H) as (e & He & E).
  exists e. split; [|exact E]. eapply Rle_trans; [exact He|]. change (bpow radix2 (-53 + 1)) with (/ IZR (2 ^ 52)).
  change (bpow radix2 (-53)) with (/ IZR (2 ^ 53)). simpl. lra.
Qed.
Lemma small_le x : bpow radix2 (-64) <= x -> bpow radix2 (-1022) <= Rabs x.
Proof.
  intros H. eapply Rle_trans; [|eapply Rle_trans; [exact H|apply Rle_abs]]. apply bpow_le. lia.
Qed.
Lemma computed_percent u m : (0 < u < 2 ^ 63)%Z -> (0 < m < 2 ^ 63)%Z ->
  exists d, Rabs d <= / IZR (2 ^ 50) /\ rnd (rnd (rnd (IZR u) / rnd (IZR m)) * 100) = 100 * IZR u / IZR m * (1 + d).
Proof.
  intros Hu Hm. assert (Pu : 1 <= IZR u) by (apply (IZR_le 1); lia). assert (Pm : 1 <= IZR m) by (apply (IZR_le 1); lia).
  assert (Bm : IZR m <= IZR (2 ^ 63)) by (apply IZR_le; lia).
  set (e53 := bpow radix2 (-53)). assert (V53 : e53 = / IZR (2 ^ 53)) by reflexivity.
  assert (One : bpow radix2 (-64) <= 1) by (change (bpow radix2 (-64)) with (/ IZR (2 ^ 64)); simpl; lra).
  destruct (rel (IZR u)) as (a & Ha & Ea); [apply small_le; lra|]. destruct (rel (IZR m)) as (b & Hb & Eb); [apply small_le; lra|].
  rewrite Ea, Eb. fold e53 in Ha, Hb. apply Rabs_le_inv in Ha. apply Rabs_le_inv in Hb.
  set (q := IZR u * (1 + a) / (IZR m * (1 + b))).
  assert (Hq : bpow radix2 (-64) <= q).
  { unfold q. apply Rmult_le_reg_r with (IZR m * (1 + b)); [apply Rmult_lt_0_compat; [lra|simpl in V53; lra]|].
    unfold Rdiv. rewrite Rmult_assoc, Rinv_l, Rmult_1_r; [|apply Rmult_integral_contrapositive; simpl in V53; split; lra].
    change (bpow radix2 (-64)) with (/ IZR (2 ^ 64)). simpl in V53, Bm |- *.
    assert (IZR m * (1 + b) <= 9223372036854775808 * (1 + e53)) by (apply Rmult_le_compat; lra).
    assert (1 * (1 - e53) <= IZR u * (1 + a)) by (apply Rmult_le_compat; lra). lra. }
  destruct (rel q) as (r & Hr & Er); [apply small_le; exact Hq|]. rewrite Er. fold e53 in Hr. apply Rabs_le_inv in Hr.
  assert (Hq0 : 0 < q) by (eapply Rlt_le_trans; [apply bpow_gt_0|exact Hq]).
  destruct (rel (q * (1 + r) * 100)) as (s & Hs & Es).
  { apply small_le. simpl in V53. apply Rle_trans with (q * 1); [lra|]. rewrite Rmult_assoc. apply Rmult_le_compat_l; lra. }
  rewrite Es. fold e53 in Hs. apply Rabs_le_inv in Hs.
  exists ((1 + a) / (1 + b) * (1 + r) * (1 + s) - 1). simpl in V53. assert (N1 : 1 + b <> 0) by lra. assert (N2 : IZR m <> 0) by lra. split.
  - assert (Hab : 1 - 3 * e53 <= (1 + a) / (1 + b) <= 1 + 3 * e53).
    { split; (apply Rmult_le_reg_r with (1 + b); [lra|]); unfold Rdiv; rewrite (Rmult_assoc (1 + a)), Rinv_l, Rmult_1_r by lra; nra. }
    assert (Hrs : 1 - 3 * e53 <= (1 + r) * (1 + s) <= 1 + 3 * e53) by (split; nra).
    rewrite Rmult_assoc. set (X := (1 + a) / (1 + b)) in *. set (Y := (1 + r) * (1 + s)) in *.
    apply Rabs_le. split; simpl; nra.
  - unfold q. field. split; assumption.
Qed.

Theorem check_near c u m (T : b64) : (0 <= u < 2 ^ 63)%Z -> (0 < m < 2 ^ 63)%Z -> percent c = B2SF T -> is_finite T = true -> 0 < B2R T ->
  (B2R T <= 100 * IZR u / IZR m * (1 - / IZR (2 ^ 50)) -> memory_full c {| m_used := u; m_max := m |} = true) /\
  (memory_full c {| m_used := u; m_max := m |} = true -> B2R T <= 100 * IZR u / IZR m * (1 + / IZR (2 ^ 50))).
Proof.
  intros Hu Hm HT HF HP. rewrite (full_value c u m T Hu Hm HT HF).
  assert (Pm : 1 <= IZR m) by (apply (IZR_le 1); lia).
  destruct (Z.eq_dec u 0) as [->|Hn].
  - assert (R0 : rnd 0 = 0) by (apply round_0; auto with typeclass_instances).
    rewrite R0. unfold Rdiv. rewrite Rmult_0_l, R0, Rmult_0_l, R0, Rmult_0_r, Rmult_0_l, Rmult_0_l.
    split; [lra|]. intros H. exfalso. destruct (Rle_bool_spec (B2R T) 0); [lra|discriminate].
  - destruct (computed_percent u m) as (d & Hd & ->); [lia|lia|]. apply Rabs_le_inv in Hd.
    assert (HX : 0 <= 100 * IZR u / IZR m).
    { apply Rmult_le_pos; [|left; apply Rinv_0_lt_compat; lra]. assert (0 <= IZR u) by (apply (IZR_le 0); lia). lra. }
    split; [intros H; apply Rle_bool_true|intros H; destruct (Rle_bool_spec (B2R T) (100 * IZR u / IZR m * (1 + d))) as [H'|H']; [|discriminate]].
    + eapply Rle_trans; [exact H|]. apply Rmult_le_compat_l; lra.
    + eapply Rle_trans; [exact H'|]. apply Rmult_le_compat_l; lra.
Qed.

(** The same for a whole number of percent, in integers. *)
Theorem whole_percent_near c k u m : percent c = to_float k -> (0 < k <= 2 ^ 53)%Z -> (0 <= u < 2 ^ 63)%Z -> (0 < m < 2 ^ 63)%Z ->
  (k * m * 2 ^ 50 <= 100 * u * (2 ^ 50 - 1) -> memory_full c {| m_used := u; m_max := m |} = true)%Z /\
  (memory_full c {| m_used := u; m_max := m |} = true -> k * m * 2 ^ 50 <= 100 * u * (2 ^ 50 + 1))%Z.
Proof.
  intros HT Hk Hu Hm. rewrite to_float_B in HT. assert (V : B2R (Bint k) = IZR k) by (apply Bint_exact; lia).
  assert (Pk : 1 <= IZR k) by (apply (IZR_le 1); lia). assert (Pm : 1 <= IZR m) by (apply (IZR_le 1); lia).
  destruct (check_near c u m (Bint k) Hu Hm HT) as [H1 H2]; [apply Bint_correct; lia|rewrite V; lra|]. rewrite V in H1, H2. split.
  - intros H. apply H1. apply IZR_le in H. rewrite !mult_IZR, minus_IZR in H.
    apply Rmult_le_reg_r with (IZR m * IZR (2 ^ 50)); [apply Rmult_lt_0_compat; simpl; lra|].
    replace (100 * IZR u / IZR m * (1 - / IZR (2 ^ 50)) * (IZR m * IZR (2 ^ 50))) with (100 * IZR u * (IZR (2 ^ 50) - 1)) by (field; simpl; split; lra). lra.
  - intros H. apply le_IZR. rewrite !mult_IZR, plus_IZR. specialize (H2 H).
    apply (Rmult_le_compat_r (IZR m * IZR (2 ^ 50))) in H2; [|apply Rmult_le_pos; simpl; lra].
    replace (100 * IZR u / IZR m * (1 + / IZR (2 ^ 50)) * (IZR m * IZR (2 ^ 50))) with (100 * IZR u * (IZR (2 ^ 50) + 1)) in H2 by (field; simpl; split; lra). lra.
Qed.
