(** Which matching rules are taken, and what a taken rule can be relied on for. *)
From Coq Require Import ZArith QArith Qabs List String Ascii Bool Lia Lqa.
From Verif Require Import Base ReconModel ReconSpec ReconRules.
Import ListNotations.
Local Open Scope string_scope.
Open Scope Z_scope.

(** A rule has a name and criteria, each on a known field with a known operator; a drift of
    an amount is a fraction, one of a date not negative. *)
Definition rule_taken (name : string) (r : rule) : Prop :=
  name <> "" /\ r <> [] /\ Forall (fun c =>
    In (k_op c) ["equals"; "greater_than"; "less_than"; "contains"]
    /\ In (k_field c) ["amount"; "date"; "description"; "reference"; "currency"]
    /\ (equals_on "amount" c -> 0 <= k_drift c <= 1)%Q /\ (equals_on "date" c -> 0 <= k_drift c)%Q) r.

Lemma among_iff x l : existsb (String.eqb x) l = true <-> In x l.
Proof.
  rewrite existsb_exists. split.
  - intros (y & I & E). apply String.eqb_eq in E. now subst.
  - intros I. exists x. split; [exact I|apply String.eqb_refl].
Qed.

Lemma criterion_taken c : valid_criterion c = true <->
  In (k_op c) ["equals"; "greater_than"; "less_than"; "contains"]
  /\ In (k_field c) ["amount"; "date"; "description"; "reference"; "currency"]
  /\ (equals_on "amount" c -> 0 <= k_drift c <= 1)%Q /\ (equals_on "date" c -> 0 <= k_drift c)%Q.
Proof.
  unfold valid_criterion, equals_on. rewrite !andb_true_iff, !negb_true_iff, !among_iff. split.
  - intros ((((_ & _) & O) & F) & D). split; [exact O|]. split; [exact F|].
    split; intros [Ef Eo]; rewrite Ef, Eo in D; cbn [String.eqb Ascii.eqb Bool.eqb] in D.
    + apply andb_true_iff in D as [A B]. apply Qle_bool_iff in A. apply Qle_bool_iff in B. now split.
    + now apply Qle_bool_iff.
  - intros (O & F & A & B).
    assert (N : String.eqb (k_field c) "" = false).
    { apply String.eqb_neq. intros E. rewrite E in F. cbn in F. intuition discriminate. }
    assert (M : String.eqb (k_op c) "" = false).
    { apply String.eqb_neq. intros E. rewrite E in O. cbn in O. intuition discriminate. }
    rewrite N, M. repeat split; try assumption.
    destruct (String.eqb_spec (k_op c) "equals") as [Eo|]; [|reflexivity].
    destruct (String.eqb_spec (k_field c) "amount") as [Ef|].
    + apply andb_true_iff. split; apply Qle_bool_iff; apply A; split; assumption.
    + destruct (String.eqb_spec (k_field c) "date") as [Ef|]; [|reflexivity].
      apply Qle_bool_iff. apply B. split; assumption.
Qed.

Theorem rule_check name r : valid_rule name r = true <-> rule_taken name r.
Proof.
  unfold valid_rule, rule_taken. rewrite andb_true_iff, negb_true_iff, String.eqb_neq.
  destruct r as [|c r].
  - split; [intros [_ H]; discriminate H|intros (_ & H & _); congruence].
  - rewrite forallb_forall, Forall_forall. split.
    + intros [N H]. split; [exact N|]. split; [discriminate|]. intros d I. apply criterion_taken. now apply H.
    + intros (N & _ & H). split; [exact N|]. intros d I. apply criterion_taken. now apply H.
Qed.

(** A taken rule that compares amounts by equality never matches amounts of opposite signs. *)
Theorem signs_agree name r e t : valid_rule name r = true -> (exists c, In c r /\ equals_on "amount" c) ->
  Forall (meets e t) r -> ~ (n_amount e < 0 /\ 0 < n_amount t)%Q /\ ~ (0 < n_amount e /\ n_amount t < 0)%Q.
Proof.
  intros V (c & I & [Ef Eo]) M. apply rule_check in V as (_ & _ & V). rewrite Forall_forall in V, M.
  destruct (V _ I) as (_ & _ & D & _). specialize (D (conj Ef Eo)). specialize (M _ I).
  destruct M; cbn in Ef, Eo; try discriminate. cbn [k_drift] in D. destruct D as [D0 D1].
  assert (B : (Qabs (n_amount e - n_amount t) <= Qabs (n_amount t))%Q).
  { eapply Qle_trans; [exact H|]. rewrite <- (Qmult_1_r (Qabs (n_amount t))) at 2.
    rewrite !(Qmult_comm (Qabs (n_amount t))). apply Qmult_le_compat_r; [exact D1|apply Qabs_nonneg]. }
  apply Qabs_Qle_condition in B as [B1 B2]. split; intros [A C].
  - rewrite (Qabs_pos (n_amount t)) in B1 by lra. lra.
  - rewrite (Qabs_neg (n_amount t)) in B2 by lra. lra.
Qed.

(** ** The same transaction on both sides *)

Lemma split_step acc c r : prefix " | " (String c r) = false ->
  split_bar acc (String c r) = split_bar (acc ++ String c "") r.
Proof.
  intros P. destruct (ascii_dec c " ") as [->|N].
  - destruct r as [|d r]; [reflexivity|]. destruct (ascii_dec d "|") as [->|M].
    + destruct r as [|f r]; [reflexivity|]. destruct (ascii_dec f " ") as [->|K].
      * cbn in P. destruct r; discriminate P.
      * destruct f as [[] [] [] [] [] [] [] []]; try reflexivity. congruence.
    + destruct d as [[] [] [] [] [] [] [] []]; try reflexivity. congruence.
  - destruct c as [[] [] [] [] [] [] [] []]; try reflexivity. congruence.
Qed.

Lemma app_assoc_str : forall a b c : string, (a ++ b) ++ c = a ++ b ++ c.
Proof. induction a as [|x a IH]; intros b c; [reflexivity|]. cbn. now rewrite IH. Qed.
Lemma app_nil_str : forall a : string, a ++ "" = a.
Proof. induction a as [|x a IH]; [reflexivity|]. cbn. now rewrite IH. Qed.

Lemma split_whole s : forall acc, has_part " | " s = false -> split_bar acc s = [(acc ++ s)%string].
Proof.
  induction s as [|c s IH]; intros acc H.
  - cbn. now rewrite app_nil_str.
  - change (has_part " | " (String c s)) with (prefix " | " (String c s) || has_part " | " s) in H.
    apply orb_false_iff in H as [P H]. rewrite (split_step _ _ _ P), (IH _ H), app_assoc_str. reflexivity.
Qed.

Lemma text_itself s d : has_part " | " s = false -> texts_agree s s "equals" d.
Proof. intros H. apply ta_equals with (p := s); [|reflexivity]. rewrite (split_whole s "" H). now left. Qed.

(** A taken rule of equalities is fulfilled by two transactions that are the same in amount,
    date, description, reference and currency, if the texts are free of " | ". *)
Theorem identical_match name r e t : valid_rule name r = true -> Forall (fun c => k_op c = "equals") r ->
  n_amount e = n_amount t -> n_date e = n_date t -> n_desc e = n_desc t -> n_ref e = n_ref t -> n_cur e = n_cur t ->
  Forall (fun s => has_part " | " s = false) [n_desc t; n_ref t; n_cur t] ->
  Forall (meets e t) r.
Proof.
  intros V Q A D De R C B. apply rule_check in V as (_ & _ & V). rewrite Forall_forall in *.
  intros c I. destruct (V _ I) as (_ & F & DA & DD). specialize (Q _ I).
  destruct c as [f o d]. cbn [k_field k_op k_drift equals_on] in *. subst o.
  repeat (destruct F as [<- | F]); [..|destruct F].
  - apply amount_equals. rewrite A. setoid_replace (n_amount t - n_amount t)%Q with 0%Q by ring.
    apply Qmult_le_0_compat; [apply Qabs_nonneg|]. apply DA. split; reflexivity.
  - apply date_equals. rewrite D, Z.sub_diag. change (inject_Z (Z.abs 0)) with 0%Q.
    apply Qmult_le_0_compat; [apply DD; split; reflexivity|]. unfold Qle. cbn. lia.
  - apply desc_agrees. rewrite De. apply text_itself. apply B. now left.
  - apply ref_agrees. rewrite R. apply text_itself. apply B. right. now left.
  - apply cur_agrees. rewrite C. apply text_itself. apply B. right. right. now left.
Qed.

(** With " | " in a description a transaction does not match itself. *)
Definition by_description : rule := [{| k_field := "description"; k_op := "equals"; k_drift := 0 |}].
Definition rent : entry := {| n_id := "t"; n_amount := 5; n_date := 0; n_desc := "rent | may"; n_ref := "r"; n_cur := "USD";
                              n_col := fun _ => "" |}.

Theorem bar_refuted : ~ (forall name r e, valid_rule name r = true -> Forall (fun c => k_op c = "equals") r ->
  matches_rules e e [r] = true).
Proof.
  intros H. assert (X : matches_rules rent rent [by_description] = false) by reflexivity.
  rewrite (H "rule" by_description rent) in X; [discriminate X|reflexivity|]. repeat constructor.
Qed.

(** A rule is taken that nothing can ever fulfil. *)
Definition useless : rule := [{| k_field := "amount"; k_op := "contains"; k_drift := 0 |}].
Theorem useless_taken : valid_rule "rule" useless = true /\ forall e t, ~ Forall (meets e t) useless.
Proof.
  split; [reflexivity|]. intros e t H. inversion H as [|? ? M _]; subst. inversion M.
Qed.

Example identical_case : valid_rule "same" [{| k_field := "amount"; k_op := "equals"; k_drift := 0 |};
    {| k_field := "date"; k_op := "equals"; k_drift := 60 |}; {| k_field := "reference"; k_op := "equals"; k_drift := 0 |}] = true
  /\ Forall (fun s => has_part " | " s = false) ["rent may"; "r"; "USD"].
Proof. split; [reflexivity|repeat constructor]. Qed.
