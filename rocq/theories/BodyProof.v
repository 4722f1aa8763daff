(** Proofs about rewritten bodies. *)
From Coq Require Import ZArith List String Ascii Bool Lia Permutation Sorting.Sorted.
From Verif Require Import Base BodyModel BodySpec.
Import ListNotations.
Local Open Scope string_scope.
Local Open Scope list_scope.
Open Scope Z_scope.

(** ** Numbers *)

Lemma nearest_small a : a < 2 ^ 53 -> nearest a = a.
Proof. intros H. unfold nearest. destruct (Z.ltb_spec a (2 ^ 53)); [reflexivity|lia]. Qed.
Lemma nearest_big a : 2 ^ 53 <= a -> exists k q, 1 <= k /\ 2 ^ 52 <= q /\ nearest a = q * 2 ^ k.
Proof.
  intros H. unfold nearest. destruct (Z.ltb_spec a (2 ^ 53)); [lia|].
  assert (L : 53 <= Z.log2 a) by (apply Z.log2_le_pow2; lia).
  assert (Q : 2 ^ 52 <= a / 2 ^ (Z.log2 a - 52)).
  { apply Z.div_le_lower_bound; [apply Z.pow_pos_nonneg; lia|]. rewrite <- Z.pow_add_r by lia. replace (Z.log2 a - 52 + 52) with (Z.log2 a) by lia.
    apply Z.log2_spec. lia. }
  exists (Z.log2 a - 52). cbv zeta.
  destruct (2 * _ <? _); [eexists; split; [lia|]; split; [exact Q|reflexivity]|].
  destruct (_ <? 2 * _); [exists (a / 2 ^ (Z.log2 a - 52) + 1); split; [lia|]; split; [lia|reflexivity]|].
  destruct (Z.even _); [eexists; split; [lia|]; split; [exact Q|reflexivity]|]. exists (a / 2 ^ (Z.log2 a - 52) + 1). split; [lia|]. split; [lia|reflexivity].
Qed.
Lemma nearest_ge a : 2 ^ 53 <= a -> 2 ^ 53 <= nearest a.
Proof.
  intros H. destruct (nearest_big a H) as (k & q & A & B & ->).
  assert (2 ^ 1 <= 2 ^ k) by (apply Z.pow_le_mono_r; lia). change (2 ^ 53) with (2 ^ 52 * 2 ^ 1). apply Z.mul_le_mono_nonneg; lia.
Qed.
Lemma nearest_even a : 2 ^ 53 <= a -> Z.even (nearest a) = true.
Proof.
  intros H. destruct (nearest_big a H) as (k & q & A & B & ->). rewrite Z.even_mul. apply orb_true_iff. right.
  replace k with (1 + (k - 1)) by lia. rewrite Z.pow_add_r by lia. rewrite Z.even_mul. reflexivity.
Qed.
Lemma nearest_id m v : v < 2 ^ 53 -> nearest m = v -> m = v.
Proof.
  intros H E. destruct (Z.lt_ge_cases m (2 ^ 53)) as [L|L]; [rewrite nearest_small in E; auto|]. apply nearest_ge in L. lia.
Qed.
Lemma nearest_nonneg a : 0 <= a -> 0 <= nearest a.
Proof. intros H. destruct (Z.lt_ge_cases a (2 ^ 53)) as [L|L]; [rewrite nearest_small; auto|]. apply nearest_ge in L. lia. Qed.
(** Rounding twice is rounding once. *)
Lemma nearest_twice a : 0 <= a -> nearest (nearest a) = nearest a.
Proof.
  intros N. destruct (Z.lt_ge_cases a (2 ^ 53)) as [L|L]; [rewrite !nearest_small; rewrite ?nearest_small; auto|].
  assert (Lg : 53 <= Z.log2 a) by (apply Z.log2_le_pow2; lia).
  assert (Hk : exists q, 2 ^ 52 <= q <= 2 ^ 53 /\ nearest a = q * 2 ^ (Z.log2 a - 52)).
  { pose proof (Z.log2_spec a ltac:(lia)) as [S1 S2].
    assert (Pk : 0 < 2 ^ (Z.log2 a - 52)) by (apply Z.pow_pos_nonneg; lia).
    assert (Q : 2 ^ 52 <= a / 2 ^ (Z.log2 a - 52)).
    { apply Z.div_le_lower_bound; [exact Pk|]. rewrite <- Z.pow_add_r by lia. replace (Z.log2 a - 52 + 52) with (Z.log2 a) by lia. exact S1. }
    assert (Q' : a / 2 ^ (Z.log2 a - 52) < 2 ^ 53).
    { apply Z.div_lt_upper_bound; [exact Pk|]. rewrite <- Z.pow_add_r by lia. replace (Z.log2 a - 52 + 53) with (Z.succ (Z.log2 a)) by lia. exact S2. }
    unfold nearest. destruct (Z.ltb_spec a (2 ^ 53)); [lia|]. cbv zeta.
    destruct (2 * _ <? _); [eexists; split; [|reflexivity]; lia|]. destruct (_ <? 2 * _); [eexists; split; [|reflexivity]; lia|].
    destruct (Z.even _); eexists; (split; [|reflexivity]); lia. }
  destruct Hk as (q & [Q1 Q2] & ->). set (k := Z.log2 a - 52) in *.
  assert (Pk : 0 < 2 ^ k) by (apply Z.pow_pos_nonneg; lia).
  assert (Big : 2 ^ 53 <= q * 2 ^ k).
  { assert (2 ^ 1 <= 2 ^ k) by (apply Z.pow_le_mono_r; lia). change (2 ^ 53) with (2 ^ 52 * 2 ^ 1). apply Z.mul_le_mono_nonneg; lia. }
  assert (E : forall q0 k0, 0 <= k0 -> 2 ^ 52 <= q0 < 2 ^ 53 -> 2 ^ 53 <= q0 * 2 ^ k0 -> nearest (q0 * 2 ^ k0) = q0 * 2 ^ k0).
  { clear. intros q k Hk Q B. assert (Pk : 0 < 2 ^ k) by (apply Z.pow_pos_nonneg; lia).
    assert (Lg : Z.log2 (q * 2 ^ k) = 52 + k).
    { apply Z.log2_unique; [lia|]. rewrite <- Z.add_succ_l, !Z.pow_add_r by lia. change (Z.succ 52) with 53. split; [apply Z.mul_le_mono_nonneg_r; lia|apply Z.mul_lt_mono_pos_r; lia]. }
    unfold nearest. destruct (Z.ltb_spec (q * 2 ^ k) (2 ^ 53)); [lia|]. rewrite Lg. replace (52 + k - 52) with k by lia. cbv zeta.
    rewrite Z.div_mul, Z.mod_mul by lia. destruct (Z.ltb_spec (2 * 0) (2 ^ k)); [reflexivity|lia]. }
  destruct (Z.eq_dec q (2 ^ 53)) as [->|Ne]; [|apply E; lia].
  replace (2 ^ 53 * 2 ^ k) with (2 ^ 52 * 2 ^ (k + 1)) by (rewrite Z.pow_add_r by lia; change (2 ^ 53) with (2 * 2 ^ 52); lia).
  apply E; [lia|lia|]. assert (2 ^ 1 <= 2 ^ (k + 1)) by (apply Z.pow_le_mono_r; lia). change (2 ^ 53) with (2 ^ 52 * 2 ^ 1). apply Z.mul_le_mono_nonneg; lia.
Qed.

Lemma shortest_reads e : forall v, nearest v = v -> nearest (shortest e v) = v.
Proof.
  induction e as [|e IH]; intros v H; [exact H|]. cbn [shortest]. cbv zeta. destruct (Z.eqb_spec (nearest ((v + 10 ^ Z.of_nat (S e) / 2) / 10 ^ Z.of_nat (S e) * 10 ^ Z.of_nat (S e))) v); auto.
Qed.
Lemma shortest_nonneg e : forall v, 0 <= v -> 0 <= shortest e v.
Proof.
  induction e as [|e IH]; intros v H; [exact H|]. cbn [shortest]. cbv zeta. destruct (_ =? _); [|auto].
  assert (0 < 10 ^ Z.of_nat (S e)) by (apply Z.pow_pos_nonneg; lia). apply Z.mul_nonneg_nonneg; [|lia]. apply Z.div_pos; [|lia].
  assert (0 <= 10 ^ Z.of_nat (S e) / 2) by (apply Z.div_pos; lia). lia.
Qed.
Lemma shortest_small e v : v < 2 ^ 53 -> shortest e v = v.
Proof. intros H. apply (nearest_id _ v H), shortest_reads, nearest_small, H. Qed.
Lemma shortest_even e : forall v, Z.even v = true -> Z.even (shortest e v) = true.
Proof.
  induction e as [|e IH]; intros v H; [exact H|]. cbn [shortest]. cbv zeta. destruct (_ =? _); [|auto].
  rewrite Z.even_mul. apply orb_true_iff. right. rewrite Z.even_pow by lia. reflexivity.
Qed.

Lemma float_some n f : float_of n = Some f -> f = Z.sgn n * nearest (Z.abs n) /\ nearest (Z.abs n) < 2 ^ 1024.
Proof. unfold float_of. destruct (Z.ltb_spec (nearest (Z.abs n)) (2 ^ 1024)); [|discriminate]. intros E. injection E as <-. auto. Qed.
Lemma nearest_zero a : 0 <= a -> nearest a = 0 -> a = 0.
Proof. intros _ E. apply (nearest_id a 0); [lia|exact E]. Qed.
(** What is written is read as the same float64. *)
Lemma show_reads n f : float_of n = Some f -> exists p m, show f = JNum p m /\ float_of m = Some f.
Proof.
  intros E. destruct (float_some _ _ E) as [-> L]. set (a := Z.abs n) in *. assert (A : 0 <= a) by (unfold a; lia).
  pose proof (nearest_nonneg a A) as N. eexists. eexists. split; [reflexivity|].
  assert (Ab : Z.abs (Z.sgn n * nearest a) = nearest a).
  { rewrite Z.abs_mul. destruct (Z.eq_dec n 0) as [->|Nz]; [simpl; unfold a in *; simpl in *; reflexivity|].
    replace (Z.abs (Z.sgn n)) with 1 by (destruct n; simpl; auto; lia). lia. }
  rewrite Ab. set (s := shortest (Z.to_nat (Z.log2 (nearest a) / 3 + 1)) (nearest a)). assert (R : nearest s = nearest a) by (apply shortest_reads, nearest_twice, A).
  assert (S0 : 0 <= s) by (apply shortest_nonneg, N).
  assert (Sg : Z.sgn (Z.sgn n * nearest a) * s = Z.sgn n * s /\ Z.sgn (Z.sgn n * s) * nearest s = Z.sgn n * nearest a /\ Z.abs (Z.sgn n * s) = s).
  { destruct (Z.eq_dec (nearest a) 0) as [Z0|Nz].
    - assert (s = 0) by (apply nearest_zero; [exact S0|congruence]). rewrite H, Z0, !Z.mul_0_r. auto.
    - assert (0 < s). { destruct (Z.eq_dec s 0) as [E0|]; [|lia]. rewrite E0 in R. change (nearest 0) with 0 in R. congruence. }
      assert (n <> 0) by (intros ->; apply Nz; reflexivity).
      assert (Ps : Z.sgn s = 1) by (apply Z.sgn_pos; lia). assert (Pa : Z.sgn (nearest a) = 1) by (apply Z.sgn_pos; lia).
      assert (An : Z.abs (Z.sgn n) = 1) by (destruct n; simpl; auto; congruence).
      rewrite !Z.sgn_mul, Z.sgn_sgn, Ps, Pa, R, Z.abs_mul, An. split; [lia|]. split; [lia|]. rewrite Z.abs_eq; lia. }
  destruct Sg as (Sg1 & Sg2 & Sg3). rewrite Sg1. unfold float_of. rewrite Sg3, R. destruct (Z.ltb_spec (nearest a) (2 ^ 1024)); [|lia].
  rewrite R in Sg2. rewrite Sg2. reflexivity.
Qed.
Lemma show_small n : Z.abs n <= 2 ^ 53 -> exists f, float_of n = Some f /\ show f = JNum true n.
Proof.
  intros H. destruct (Z.eq_dec (Z.abs n) (2 ^ 53)) as [E|Ne].
  - assert (n = 2 ^ 53 \/ n = - 2 ^ 53) as [-> | ->] by lia; [exists (2 ^ 53)|exists (- 2 ^ 53)]; split; vm_compute; reflexivity.
  - exists n. unfold float_of. rewrite nearest_small by lia. destruct (Z.ltb_spec (Z.abs n) (2 ^ 1024)) as [_|B].
    2: { assert (2 ^ 53 <= 2 ^ 1024) by (apply Z.pow_le_mono_r; lia). lia. }
    assert (E : Z.sgn n * Z.abs n = n) by (destruct n; simpl; lia). rewrite E. split; [reflexivity|].
    unfold show. rewrite shortest_small by lia. rewrite E. destruct (Z.ltb_spec (Z.abs n) (10 ^ 21)); [reflexivity|].
    assert (2 ^ 53 <= 10 ^ 21) by (vm_compute; discriminate). lia.
Qed.
