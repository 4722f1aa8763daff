(** Facts about rounding and the amount/precision conversions. *)
From Coq Require Import ZArith QArith Qabs List String Bool Lia Lqa ZifyBool.
From Verif Require Import Base MoneyModel.
Open Scope Z_scope.

Lemma round_half_away_near (q : Q) : (Qabs (inject_Z (round_half_away q) - q) <= 1 # 2)%Q.
Proof.
  destruct q as [n d]. apply Qabs_Qle_condition.
  unfold round_half_away; simpl Qnum; simpl Qden.
  destruct (n <? 0) eqn:E.
  - pose proof (Z.mod_pos_bound (2 * - n + Z.pos d) (2 * Z.pos d) ltac:(lia)) as Hm.
    pose proof (Z.div_mod (2 * - n + Z.pos d) (2 * Z.pos d) ltac:(lia)) as Hd.
    set (z := (2 * - n + Z.pos d) / (2 * Z.pos d)) in *.
    unfold Qle, Qminus, Qplus, Qopp, inject_Z; simpl. split; nia.
  - pose proof (Z.mod_pos_bound (2 * n + Z.pos d) (2 * Z.pos d) ltac:(lia)) as Hm.
    pose proof (Z.div_mod (2 * n + Z.pos d) (2 * Z.pos d) ltac:(lia)) as Hd.
    set (z := (2 * n + Z.pos d) / (2 * Z.pos d)) in *.
    unfold Qle, Qminus, Qplus, Qopp, inject_Z; simpl. split; nia.
Qed.

Lemma round_half_away_nonneg (q : Q) : (0 <= q)%Q -> 0 <= round_half_away q.
Proof.
  destruct q as [n d]. unfold Qle, round_half_away; cbn [Qnum Qden]. intros H.
  assert (Hn : 0 <= n) by lia.
  destruct (Z.ltb_spec n 0) as [E|E]; [lia|]. apply Z.div_pos; lia.
Qed.

Lemma wrap64_le (z : Z) : 0 <= z -> wrap64 z <= z.
Proof.
  intros H. unfold wrap64.
  pose proof (Z.mod_le z 18446744073709551616 H ltac:(lia)).
  destruct (_ <=? _); lia.
Qed.

Lemma round_half_away_int (z : Z) (q : Q) : (q == inject_Z z)%Q -> round_half_away q = z.
Proof.
  destruct q as [n d]. unfold Qeq, inject_Z, round_half_away; cbn [Qnum Qden]. intros H.
  rewrite Z.mul_1_r in H. destruct (n <? 0) eqn:E.
  - assert (Hz : (2 * - n + Z.pos d) / (2 * Z.pos d) = - z); [|lia].
    symmetry. apply Z.div_unique with (r := Z.pos d); nia.
  - symmetry. apply Z.div_unique with (r := Z.pos d); nia.
Qed.

Lemma overdraft_limit_le (l : Q) (p : Z) :
  (0 <= l)%Q -> 0 <= p ->
  overdraft_limit_precise l p <= round_half_away (l * inject_Z p).
Proof.
  intros Hl Hp. unfold overdraft_limit_precise. apply wrap64_le.
  apply round_half_away_nonneg. unfold q_of_Z.
  apply Qmult_le_0_compat; [exact Hl|]. unfold Qle; simpl; lia.
Qed.
