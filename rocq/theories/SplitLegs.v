(** The legs of a split transaction (C16). *)
From Coq Require Import ZArith QArith List String Bool Lia Permutation Decimal DecimalString DecimalNat.
From Verif Require Import Base MoneyModel SplitModel BalanceModel LedgerModel LedgerProgs PostSpec PostProof SplitSpec SplitThms.
Import ListNotations.
Local Open Scope string_scope.
Open Scope Z_scope.

Lemma traces_some n {A} (a b : A) tr : traces n (Ret a) tr (Some b) -> tr = [] /\ b = a.
Proof. intros [-> [H|H]]; [inversion H; auto|discriminate]. Qed.

Lemma nat_str_inj i j : nat_str i = nat_str j -> i = j.
Proof.
  unfold nat_str. intros H. apply (f_equal NilZero.uint_of_string) in H.
  assert (N : forall n, Nat.to_uint n <> Decimal.Nil).
  { intros n E. pose proof (DecimalNat.Unsigned.of_to n) as O. rewrite E in O. simpl in O. subst n. discriminate. }
  rewrite !NilZero.usu in H by apply N. injection H as H.
  rewrite <- (DecimalNat.Unsigned.of_to i), <- (DecimalNat.Unsigned.of_to j), H. reflexivity.
Qed.
Lemma app_inj (a x y : string) : (a ++ x = a ++ y)%string -> x = y.
Proof. induction a as [|c a IH]; simpl; intros H; [exact H|]. injection H as H. auto. Qed.
Lemma legs_refs n t m : forall i tr ls, traces n (make_legs t i m) tr (Some ls) ->
  NoDup (map t_ref ls) /\ forall l, In l ls -> exists j, (i <= j)%nat /\ t_ref l = t_ref t ++ "-" ++ nat_str j.
Proof.
  induction m as [|[id p] m IH]; intros i tr ls H; cbn [make_legs] in H.
  - apply traces_some in H as [_ ->]. split; [constructor|intros l []].
  - apply traces_bind in H as [[H _]|(tr1 & tr2 & x & -> & _ & H)]; [discriminate|].
    apply traces_bind in H as [[H _]|(tr3 & tr4 & ls' & -> & H1 & H)]; [discriminate|].
    apply traces_some in H as [_ ->]. apply IH in H1 as [A B]. split.
    + cbn [map]. constructor; [|exact A]. intros X. apply in_map_iff in X as (l & X1 & X2).
      destruct (B l X2) as (j & J1 & J2). rewrite J2 in X1.
      assert (E : t_ref t ++ "-" ++ nat_str j = t_ref t ++ "-" ++ nat_str i) by (rewrite X1; destruct (t_sources t); reflexivity).
      apply app_inj, app_inj, nat_str_inj in E. lia.
    + intros l [<-|Hl]; [exists i; split; [lia|destruct (t_sources t); reflexivity]|].
      destruct (B l Hl) as (j & J1 & J2). exists j. split; [lia|exact J2].
Qed.

Lemma legs_made n t m : forall i tr ls, traces n (make_legs t i m) tr (Some ls) ->
  map (fun l => (who t l, t_precise l)) ls = m /\ Forall (leg t) ls.
Proof.
  induction m as [|[id p] m IH]; intros i tr ls H; cbn [make_legs] in H.
  - apply traces_some in H as [_ ->]. auto.
  - apply traces_bind in H as [[H _]|(tr1 & tr2 & x & -> & _ & H)]; [discriminate|].
    apply traces_bind in H as [[H _]|(tr3 & tr4 & ls' & -> & H1 & H)]; [discriminate|].
    apply traces_some in H as [_ ->]. apply IH in H1 as [A B]. split.
    + simpl. rewrite A. unfold who. destruct (t_sources t); reflexivity.
    + constructor; [|exact B]. unfold leg. destruct (t_sources t); simpl; auto 10.
Qed.

Lemma split_legs n e t tr r : reorders (se_l e) -> traces n (split_txn e t) tr (Some r) ->
  match r with
  | Ok ls => Forall (leg t) ls /\ NoDup (map t_ref ls) /\ exists m, Permutation m (map (fun l => (who t l, t_precise l)) ls)
       /\ calculate_distributions (se_q e) (se_z e) (t_precise t) (split_over t) (t_prec t) = Some m
  | Err _ => calculate_distributions (se_q e) (se_z e) (t_precise t) (split_over t) (t_prec t) = None
  end.
Proof.
  intros Hl H. unfold split_txn in H. fold (split_over t) in H.
  destruct (calculate_distributions _ _ _ _ _) as [m|].
  - apply traces_bind in H as [[H _]|(tr1 & tr2 & ls & -> & H1 & H)]; [discriminate|].
    apply traces_some in H as [_ ->]. pose proof (legs_refs _ _ _ _ _ _ H1) as [R _]. apply legs_made in H1 as [A B]. split; [exact B|]. split; [exact R|].
    exists m. split; [|reflexivity]. rewrite A. apply Hl.
  - apply traces_some in H as [_ ->]. reflexivity.
Qed.

Lemma sumz_perm {A} (f : A -> Z) l l' : Permutation l l' -> sumz f l = sumz f l'.
Proof. induction 1; simpl; lia. Qed.
Lemma sumz_map {A B} (f : B -> Z) (g : A -> B) l : sumz f (map g l) = sumz (fun x => f (g x)) l.
Proof. induction l; simpl; congruence. Qed.
Lemma got_sum m id : NoDup (map fst m) -> got m id = sumz (fun x => if String.eqb (fst x) id then snd x else 0) m.
Proof.
  unfold got. induction m as [|[k v] m IH]; intros Hn; [reflexivity|]. inversion Hn as [|? ? N1 N2]; subst. simpl.
  destruct (String.eqb k id) eqn:E; [|rewrite IH by exact N2; reflexivity].
  apply String.eqb_eq in E. subst k. simpl. clear - N1. 
  assert (sumz (fun x => if String.eqb (fst x) id then snd x else 0) m = 0); [|lia].
  induction m as [|[k w] m IH]; [reflexivity|]. simpl in *. destruct (String.eqb k id) eqn:E.
  - apply String.eqb_eq in E. tauto.
  - apply IH. tauto.
Qed.
Lemma legs_share t ls m : Permutation m (map (fun l => (who t l, t_precise l)) ls) -> NoDup (map fst m) ->
  sumz t_precise ls = handed_out m /\ forall id, share t id ls = got m id.
Proof.
  intros H Hn. unfold handed_out, share. split.
  - rewrite (sumz_perm snd _ _ H), sumz_map. reflexivity.
  - intros id. rewrite got_sum by exact Hn. rewrite (sumz_perm _ _ _ H), sumz_map. reflexivity.
Qed.


Lemma split_shares n e t tr r : fair_env e -> 2 <= t_precise t -> proper (t_precise t) (t_prec t) (split_over t) ->
  (exists d, In d (split_over t) /\ (1 <= entitled (t_precise t) (t_prec t) (split_over t) d)%Q) ->
  traces n (split_txn e t) tr (Some r) ->
  exists ls, r = Ok ls /\ Forall (leg t) ls /\ NoDup (map t_ref ls) /\ sumz t_precise ls = t_precise t
    /\ (forall l, In l ls -> exists d, In d (split_over t) /\ who t l = d_id d)
    /\ (forall d, In d (split_over t) -> let e := entitled (t_precise t) (t_prec t) (split_over t) d in
          0 <= share t (d_id d) ls /\ (e - 1 < inject_Z (share t (d_id d) ls))%Q
          /\ (inject_Z (share t (d_id d) ls) < e + inject_Z (Z.of_nat (List.length (split_over t))))%Q)
    /\ (all_whole (t_precise t) (t_prec t) (split_over t) -> forall d, In d (split_over t) ->
          (inject_Z (share t (d_id d) ls) == entitled (t_precise t) (t_prec t) (split_over t) d)%Q).
Proof.
  intros (Hq & Hz & Hl) Ht Hp Hd H.
  destruct (split_fair _ _ _ _ _ Hq Hz Ht Hp Hd) as (m & A1 & A2 & A3 & A4 & A5 & A6).
  apply split_legs in H; [|exact Hl]. destruct r as [ls|]; [|congruence].
  destruct H as (B1 & B0 & m' & B2 & B3). rewrite A1 in B3. inversion B3; subst m'.
  destruct (legs_share t ls m B2 A2) as [C1 C2].
  exists ls. split; [reflexivity|]. split; [exact B1|]. split; [exact B0|]. split; [congruence|]. split; [|split].
  - intros l Hin. assert (X : In (who t l) (map fst m)).
    { change (who t l) with (fst (who t l, t_precise l)). apply in_map. eapply Permutation_in; [apply Permutation_sym; exact B2|].
      apply in_map_iff. exists l; auto. }
    apply A3 in X. apply in_map_iff in X as (d & X1 & X2). exists d; auto.
  - intros d Hin. cbv zeta. rewrite C2. apply A5; exact Hin.
  - intros Hw d Hin. rewrite C2. apply A6; auto.
Qed.

Lemma split_total n e t tr ls : fair_env e -> 2 <= t_precise t -> ~ In "" (map d_id (split_over t)) ->
  traces n (split_txn e t) tr (Some (Ok ls)) ->
  sumz t_precise ls = t_precise t \/ Forall (fun l => t_precise l <= 0) ls.
Proof.
  intros (Hq & Hz & Hl) Ht He H. apply split_legs in H; [|exact Hl]. destruct H as (B1 & _ & m & B2 & B3).
  destruct (split_sum _ _ _ _ _ _ Hq Hz Ht He B3) as (A1 & A2 & A3).
  destruct (legs_share t ls m B2 A1) as [C1 C2].
  destruct A3 as [A3|A3]; [left; congruence|]. right. apply Forall_forall. intros l Hin.
  apply (A3 (who t l, t_precise l)). eapply Permutation_in; [apply Permutation_sym; exact B2|].
  apply in_map_iff. exists l; auto.
Qed.
