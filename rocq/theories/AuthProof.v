(** Proofs about API keys. *)
From Coq Require Import ZArith List String Ascii Bool Lia.
From Verif Require Import Base AuthModel AuthSpec.
Import ListNotations.
Local Open Scope string_scope.
Open Scope Z_scope.

(** ** Strings *)

Fixpoint free (c : ascii) (s : string) : bool :=
  match s with EmptyString => true | String x r => negb (Ascii.eqb x c) && free c r end.

Lemma cut_some c s : exists p l, cut c s = p :: l.
Proof.
  induction s as [|x s (p & l & E)]; simpl; [eauto|]. destruct (Ascii.eqb x c); [eauto|]. rewrite E. eauto.
Qed.
Lemma cut_free c s : free c s = true -> cut c s = [s].
Proof.
  induction s as [|x s IH]; simpl; [reflexivity|]. intros H. apply andb_true_iff in H. destruct H as [H1 H2].
  apply negb_true_iff in H1. rewrite H1, (IH H2). reflexivity.
Qed.
Lemma cut_app c a r : free c a = true -> cut c (a ++ String c r) = a :: cut c r.
Proof.
  induction a as [|x a IH]; simpl; intros H.
  - rewrite Ascii.eqb_refl. reflexivity.
  - apply andb_true_iff in H. destruct H as [H1 H2]. apply negb_true_iff in H1. rewrite H1, (IH H2). reflexivity.
Qed.
(** The first part and what comes after it. *)
Lemma cut_head c s : forall p l, cut c s = p :: l ->
  free c p = true /\ ((l = [] /\ s = p) \/ exists r, s = p ++ String c r /\ l = cut c r).
Proof.
  induction s as [|x s IH]; simpl; intros p l H.
  - injection H as <- <-. auto.
  - destruct (Ascii.eqb x c) eqn:E.
    + injection H as <- <-. apply Ascii.eqb_eq in E. subst x. split; [reflexivity|]. right. exists s. auto.
    + destruct (cut_some c s) as (p' & l' & E'). rewrite E' in H. injection H as <- <-.
      destruct (IH _ _ E') as (F & G). split; [simpl; rewrite E; exact F|].
      destruct G as [[-> ->]|(r & -> & ->)]; [left; auto|right; exists r; auto].
Qed.

Lemma parse_is s r a : parse_scope s = (r, a) -> r <> "" \/ a <> "" -> s = r ++ ":" ++ a /\ free ":" r = true /\ free ":" a = true.
Proof.
  unfold parse_scope. destruct (cut_some ":" s) as (p & l & E). rewrite E. destruct l as [|b [|c l]]; try (intros H [N|N]; congruence).
  intros H _. injection H as -> ->. destruct (cut_head _ _ _ _ E) as (F & [[X _]|(t & -> & X)]); [discriminate|].
  destruct (cut_head _ _ _ _ (eq_sym X)) as (F' & [[_ ->]|(t' & -> & Y)]); [auto|].
  destruct (cut_some ":" t') as (u & v & W). congruence.
Qed.
Lemma parse_of r a : free ":" r = true -> free ":" a = true -> parse_scope (r ++ ":" ++ a) = (r, a).
Proof. intros Hr Ha. unfold parse_scope. simpl. rewrite (cut_app ":" r a Hr), (cut_free ":" a Ha). reflexivity. Qed.

Lemma split_free c r a r' a' : free c r = true -> free c r' = true -> r ++ String c a = r' ++ String c a' -> r = r' /\ a = a'.
Proof.
  revert r'. induction r as [|x r IH]; intros [|x' r'] Hr Hr' H; simpl in *.
  - injection H as ->. auto.
  - injection H as <- _. rewrite Ascii.eqb_refl in Hr'. discriminate.
  - injection H as -> _. rewrite Ascii.eqb_refl in Hr. discriminate.
  - injection H as -> H. apply andb_true_iff in Hr, Hr'. destruct Hr as [_ Hr], Hr' as [_ Hr'].
    destruct (IH _ Hr Hr' H) as [-> ->]. auto.
Qed.

Lemma action_ops m a : a <> "" -> (action_of m = a <-> In (m, a) operations).
Proof.
  intros N. unfold action_of, operations. split.
  - repeat match goal with |- context [String.eqb m ?x] => destruct (String.eqb_spec m x) as [->|] end; simpl; intros <-;
      try congruence; tauto.
  - simpl. intros H. repeat (destruct H as [H|H]; [injection H as <- <-; reflexivity|]). destruct H.
Qed.
Lemma action_free m : free ":" (action_of m) = true.
Proof. unfold action_of. repeat match goal with |- context [if ?b then _ else _] => destruct b end; reflexivity. Qed.

Lemma perm_grants scopes res m : has_permission scopes res m = true ->
  action_of m <> "" /\ grants scopes res (action_of m).
Proof.
  unfold has_permission. destruct (String.eqb_spec (action_of m) "") as [|N]; [discriminate|]. intros H. split; [exact N|].
  apply existsb_exists in H. destruct H as (s & Hs & H). destruct (parse_scope s) as [r a] eqn:P.
  assert (Ha : (String.eqb a "*" || String.eqb a (action_of m)) = true) by
    (destruct (String.eqb r "*"); [exact H|destruct (String.eqb r res); [exact H|discriminate]]).
  assert (Na : a <> "") by (intros ->; apply orb_true_iff in Ha; destruct Ha as [Ha|Ha]; [discriminate|apply String.eqb_eq in Ha; congruence]).
  destruct (parse_is _ _ _ P (or_intror Na)) as (-> & _ & _). exists r, a. split; [exact Hs|]. split.
  - destruct (String.eqb_spec r "*"); [auto|]. destruct (String.eqb_spec r res); [auto|discriminate].
  - apply orb_true_iff in Ha. destruct Ha as [Ha|Ha]; apply String.eqb_eq in Ha; auto.
Qed.
Lemma grants_perm scopes res m : action_of m <> "" -> free ":" res = true ->
  grants scopes res (action_of m) -> has_permission scopes res m = true.
Proof.
  intros N Hr (r & a & Hs & R & A). unfold has_permission. destruct (String.eqb_spec (action_of m) "") as [|_]; [contradiction|].
  apply existsb_exists. exists (r ++ ":" ++ a). split; [exact Hs|].
  assert (Fr : free ":" r = true) by (destruct R as [-> | ->]; [reflexivity|exact Hr]).
  assert (Fa : free ":" a = true) by (destruct A as [-> | ->]; [reflexivity|apply action_free]).
  rewrite (parse_of _ _ Fr Fa).
  assert (Fit : (String.eqb a "*" || String.eqb a (action_of m)) = true) by
    (destruct A as [-> | ->]; [reflexivity|rewrite String.eqb_refl; apply orb_true_r]).
  rewrite Fit. destruct R as [-> | ->]; [reflexivity|]. rewrite String.eqb_refl. destruct (String.eqb res "*"); reflexivity.
Qed.

Lemma covers_grants caller asked : can_grant caller asked = true ->
  forall res act, grants asked res act -> grants caller res act.
Proof.
  unfold can_grant. intros C res act (r & a & Hs & R & A). rewrite forallb_forall in C. specialize (C _ Hs).
  apply existsb_exists in C. destruct C as (g & Hg & C). unfold scope_covers in C.
  destruct (parse_scope g) as [gr ga] eqn:P. destruct (parse_scope (r ++ ":" ++ a)) as [rr ra] eqn:Q.
  destruct (String.eqb_spec gr "") as [|N1]; [discriminate|]. destruct (String.eqb_spec ga "") as [|N2]; [discriminate|].
  destruct (String.eqb_spec rr "") as [|N3]; [discriminate|]. destruct (String.eqb_spec ra "") as [|N4]; [discriminate|]. simpl in C.
  destruct (parse_is _ _ _ P (or_introl N1)) as (-> & _ & _). destruct (parse_is _ _ _ Q (or_introl N3)) as (E & F1 & F2).
  assert (Ea : (ga = "*" \/ ga = ra) /\ (gr = "*" \/ gr = rr)).
  { destruct (String.eqb_spec gr "*"); [|destruct (String.eqb_spec gr rr); [|discriminate]]; apply orb_true_iff in C;
      (split; [destruct C as [C|C]; apply String.eqb_eq in C; auto|auto]). }
  destruct Ea as [Ea Er].
  assert (Same : r = rr /\ a = ra).
  { simpl in E. destruct (free ":" r) eqn:Fr; [apply (split_free ":" _ _ _ _ Fr F1 E)|].
    exfalso. clear - E Fr F1 F2. revert rr E F1. induction r as [|x r IH]; simpl in Fr; [discriminate|].
    intros [|y rr] E F1; simpl in E.
    - injection E as -> E. clear - E F2. subst ra. revert F2. clear. induction r as [|z r IH]; simpl; [discriminate|].
      intros H. apply andb_true_iff in H. destruct H as [_ H]. auto.
    - injection E as -> E. simpl in F1. apply andb_true_iff in F1. destruct F1 as [F0 F1]. rewrite F0 in Fr. simpl in Fr.
      exact (IH Fr rr E F1). }
  destruct Same as [-> ->]. exists gr, ga. split; [exact Hg|]. split.
  - destruct Er as [-> | ->]; [auto|exact R].
  - destruct Ea as [-> | ->]; [auto|exact A].
Qed.

Lemma area_of_resource p res : (if String.eqb p "mocked-account" then "accounts"
  else if String.eqb p "multi-search" then "search"
  else if String.eqb p "refund-transaction" then "transactions"
  else if existsb (String.eqb p) resources then p
  else "") = res -> res <> "" -> In (p, res) areas.
Proof.
  intros <-. unfold resources, areas.
  destruct (String.eqb_spec p "mocked-account") as [->|_]; [simpl; tauto|].
  destruct (String.eqb_spec p "multi-search") as [->|_]; [simpl; tauto|].
  destruct (String.eqb_spec p "refund-transaction") as [->|_]; [simpl; tauto|].
  destruct (existsb (String.eqb p) _) eqn:X; [|congruence]. intros _. apply existsb_exists in X. destruct X as (x & Hx & E).
  apply String.eqb_eq in E. subst x. simpl in Hx. simpl.
  repeat (destruct Hx as [<-|Hx]; [tauto|]). destruct Hx.
Qed.
Lemma resource_belongs path : resource_of path <> "" -> belongs path (resource_of path).
Proof.
  intros N. pose proof (area_of_resource (first_part path) (resource_of path) eq_refl N) as A.
  unfold first_part in A. set (s := match path with String "/" r => r | _ => path end) in A.
  assert (Hs : path = "/" ++ s \/ path = s).
  { unfold s. destruct path as [|c path]; [auto|]. destruct c as [[] [] [] [] [] [] [] []]; auto. }
  destruct (cut_some "/" s) as (p & l & E). rewrite E in A. exists p.
  destruct (cut_head _ _ _ _ E) as (_ & [[_ X]|(r & X & _)]).
  - exists "". split; [exact A|]. split; [|auto]. rewrite X in Hs.
    destruct Hs as [Hs|Hs]; [left|right]; rewrite Hs; simpl.
    + f_equal. clear. induction p; simpl; congruence.
    + clear. induction p; simpl; congruence.
  - exists ("/" ++ r). split; [exact A|]. split; [|right; eauto]. rewrite X in Hs. exact Hs.
Qed.
Lemma belongs_resource path res : belongs path res -> free ":" res = true /\ res <> "" /\ resource_of path = res.
Proof.
  intros (p & rest & A & Hp & Hr).
  assert (F : first_part path = p).
  { assert (Fp : free "/" p = true /\ exists c p', p = String c p' /\ Ascii.eqb c "/" = false).
    { simpl in A. repeat (destruct A as [A|A]; [injection A as <- _; split; [reflexivity|eexists _, _; split; reflexivity]|]). destruct A. }
    destruct Fp as (Fp & c & p' & Ec & Nc).
    assert (S0 : match path with String "/" r => r | _ => path end = p ++ rest).
    { destruct Hp as [-> | ->]; [reflexivity|]. rewrite Ec. simpl. destruct c as [[] [] [] [] [] [] [] []]; try reflexivity. discriminate Nc. }
    unfold first_part. rewrite S0. destruct Hr as [->|(r & ->)].
    - replace (p ++ "") with p by (clear; induction p; simpl; congruence). rewrite (cut_free _ _ Fp). reflexivity.
    - simpl. rewrite (cut_app _ _ _ Fp). reflexivity. }
  unfold resource_of. rewrite F. simpl in A.
  repeat (destruct A as [A|A]; [injection A as <- <-; repeat split; discriminate|]). destruct A.
Qed.
