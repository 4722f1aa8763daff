(** What the order of commits and voids means for a hold's budget. *)
From Coq Require Import ZArith QArith List String Bool Lia.
From Verif Require Import Base SplitModel BalanceModel LedgerModel LedgerProgs ConcModel LedgerSpec
  BudgetSpec LedgerInv LedgerSafe LedgerThms BudgetProof.
Import ListNotations.
Open Scope Z_scope.

Lemma in_order_app n j : actions_in_order (n ++ j) -> actions_in_order j.
Proof. induction n as [|r n IH]; simpl; [auto|]. intros [_ H]. auto. Qed.

Lemma in_order_at n r j :
  actions_in_order (n ++ r :: j) -> r_kind r = KCommit \/ r_kind r = KVoid -> action_in_order j r.
Proof. intros H Hk. apply in_order_app in H. destruct H as [H _]. auto. Qed.

Lemma only_commits_app h n j : only_commits h (n ++ j) -> only_commits h j.
Proof. intros H r Hr. apply H. apply in_or_app. right; exact Hr. Qed.

(** Nothing happens to a hold after its void. *)
Lemma after_void h n v j :
  actions_in_order (n ++ v :: j) -> r_kind v = KVoid -> t_parent (r_t v) = h ->
  forall r, In r n -> ~ is_action h r.
Proof.
  intros Ho Hv Hp r Hr [Hk Hh]. apply in_split in Hr as (n1 & n2 & ->).
  rewrite <- app_assoc in Ho. simpl in Ho. apply in_order_at in Ho; [|exact Hk].
  destruct Ho as (x & _ & _ & _ & _ & _ & Hnv & _).
  apply (Hnv v); [apply in_or_app; right; left; reflexivity| |exact Hv]. congruence.
Qed.

Lemma committed_cons h r j : committed h (r :: j)
  = match r_kind r with KCommit => if String.eqb (t_parent (r_t r)) h then amount r else 0 | _ => 0 end + committed h j.
Proof. reflexivity. Qed.
Lemma voided_cons h r j : voided h (r :: j)
  = match r_kind r with KVoid => if String.eqb (t_parent (r_t r)) h then amount r else 0 | _ => 0 end + voided h j.
Proof. reflexivity. Qed.

Lemma committed_none h j : (forall r, In r j -> ~ is_action h r) -> committed h j = 0 /\ voided h j = 0.
Proof.
  induction j as [|r j IH]; intros H; [split; reflexivity|].
  destruct (IH (fun x Hx => H x (or_intror Hx))) as [I1 I2].
  rewrite committed_cons, voided_cons, I1, I2. specialize (H r (or_introl eq_refl)). unfold is_action in H.
  destruct (r_kind r); try (split; reflexivity);
    (destruct (String.eqb_spec (t_parent (r_t r)) h) as [E|E]; [exfalso; apply H; auto|split; reflexivity]).
Qed.

Lemma committed_app h n j : committed h (n ++ j) = committed h n + committed h j.
Proof. induction n as [|r n IH]; [reflexivity|]. rewrite <- app_comm_cons, !committed_cons, IH. lia. Qed.
Lemma voided_app h n j : voided h (n ++ j) = voided h n + voided h j.
Proof. induction n as [|r n IH]; [reflexivity|]. rewrite <- app_comm_cons, !voided_cons, IH. lia. Qed.

Section Hold.
Variable h : row.
Notation id := (t_id (r_t h)).
Hypothesis Hpos : 0 <= amount h.

(** Every action on the hold takes a positive amount that had not been committed. *)
Lemma action_amount j r :
  actions_in_order (r :: j) -> NoDup (map (fun r => t_id (r_t r)) (r :: j)) -> In h (r :: j) ->
  only_commits id (r :: j) -> is_action id r ->
  In h j /\ 0 < amount r <= amount h - committed id j
  /\ (r_kind r = KVoid -> amount r = amount h - committed id j)
  /\ source r = source h /\ destination r = destination h.
Proof.
  intros [Ho _] Hnd Hin Hoc [Hk Hp]. destruct (Ho Hk) as (x & Hx & Ex & Es & Ed & Ec & Hnv & Ha).
  assert (x = h). { apply (NoDup_map_inv_eq _ _ _ _ Hnd); [right; exact Hx|exact Hin|congruence]. } subst x.
  rewrite Hp in Ha. destruct (Ha Hpos) as [H1 H2]. { intros y Hy. apply Hoc. right; exact Hy. }
  auto.
Qed.

Lemma no_action_before j : actions_in_order j -> NoDup (map (fun r => t_id (r_t r)) j) ->
  ~ In h j -> (exists n, NoDup (map (fun r => t_id (r_t r)) (n ++ j)) /\ In h n) -> forall r, In r j -> ~ is_action id r.
Proof.
  intros Ho Hnd Hni (n & Hn & Hh) r Hr [Hk Hp]. apply in_split in Hr as (j1 & j2 & ->).
  apply in_order_at in Ho; auto. destruct Ho as (x & Hx & Ex & _).
  apply Hni. assert (x = h); [|subst; apply in_or_app; right; right; exact Hx].
  apply (NoDup_map_inv_eq _ _ _ _ Hn).
  - apply in_or_app; right. apply in_or_app; right; right; exact Hx.
  - apply in_or_app; left; exact Hh.
  - congruence.
Qed.

Lemma hold_totals j :
  actions_in_order j -> NoDup (map (fun r => t_id (r_t r)) j) -> In h j -> only_commits id j ->
  0 <= committed id j /\ 0 <= voided id j /\ committed id j + voided id j <= amount h
  /\ (voided id j <> 0 -> committed id j + voided id j = amount h /\ exists v, In v j /\ r_kind v = KVoid /\ t_parent (r_t v) = id).
Proof.
  induction j as [|r j IH]; intros Ho Hnd Hin Hoc; [contradiction|].
  assert (Hoc' : only_commits id j) by (intros y Hy; apply Hoc; right; exact Hy).
  assert (Hdec : {is_action id r} + {~ is_action id r}).
  { unfold is_action. destruct (string_dec (t_parent (r_t r)) id); [|right; tauto].
    destruct (r_kind r); auto; right; intros [[?|?] _]; discriminate. }
  destruct Hdec as [Ha|Ha].
  - destruct (action_amount _ _ Ho Hnd Hin Hoc Ha) as (Hh & [H1 H2] & H3 & _).
    destruct Ho as [Hr Ho]. inversion Hnd; subst. specialize (IH Ho H5 Hh Hoc').
    rewrite committed_cons, voided_cons. destruct Ha as [Hk Hp].
    assert (Hv0 : voided id j = 0).
    { destruct (Z.eq_dec (voided id j) 0); auto. exfalso. destruct IH as (_ & _ & _ & IH). destruct (IH n) as (_ & v & Hv & Hvk & Hvp).
      destruct (Hr Hk) as (x & _ & _ & _ & _ & _ & Hnv & _). apply (Hnv v Hv); congruence. }
    destruct IH as (I1 & I2 & I3 & I4).
    destruct Hk as [Hk|Hk]; rewrite Hk, Hp, String.eqb_refl.
    + repeat split; try lia; intros; lia.
    + specialize (H3 Hk). repeat split; try lia. exists r. split; [left; reflexivity|auto].
  - rewrite committed_cons, voided_cons.
    assert (E : match r_kind r with KCommit => if String.eqb (t_parent (r_t r)) id then amount r else 0 | _ => 0 end = 0
             /\ match r_kind r with KVoid => if String.eqb (t_parent (r_t r)) id then amount r else 0 | _ => 0 end = 0).
    { unfold is_action in Ha. destruct (r_kind r); try (split; reflexivity);
       (destruct (String.eqb_spec (t_parent (r_t r)) id) as [E|E]; [exfalso; apply Ha; auto|split; reflexivity]). }
    destruct E as [-> ->]. destruct Ho as [Hr Ho]. pose proof Hnd as Hnd'. inversion Hnd; subst.
    destruct Hin as [->|Hin].
    + assert (Hn : forall x, In x j -> ~ is_action id x).
      { apply no_action_before; auto.
        - intros Hj. apply H1. apply (in_map (fun r => t_id (r_t r)) _ _ Hj).
        - exists [h]. split; [exact Hnd'|left; reflexivity]. }
      destruct (committed_none _ _ Hn) as [-> ->]. repeat split; try lia; intros; lia.
    + destruct (IH Ho H2 Hin Hoc') as (I1 & I2 & I3 & I4). repeat split; try lia.
      destruct I4 as (_ & v & Hv & Hk); [lia|]. exists v. split; [right; exact Hv|exact Hk].
Qed.

(** Nothing happens to a hold once it is entirely committed. *)
Lemma after_full n j :
  actions_in_order (n ++ j) -> NoDup (map (fun r => t_id (r_t r)) (n ++ j)) -> In h j -> only_commits id (n ++ j) ->
  committed id j = amount h -> forall r, In r n -> ~ is_action id r.
Proof.
  intros Ho Hnd Hin Hoc Hf.
  enough (H : (forall r, In r n -> ~ is_action id r)) by exact H.
  induction n as [|x n IH]; [intros r []|].
  assert (Hn : forall r, In r n -> ~ is_action id r).
  { apply IH.
    - destruct Ho; auto.
    - inversion Hnd; auto.
    - intros y Hy. apply Hoc. right; exact Hy. }
  intros r [<-|Hr]; [|auto]. intros Ha.
  destruct (action_amount _ _ Ho Hnd ltac:(right; apply in_or_app; right; exact Hin) Hoc Ha) as (_ & H1 & _).
  rewrite committed_app, (proj1 (committed_none _ _ Hn)) in H1. lia.
Qed.
End Hold.
