(** The theorems about rewritten bodies. *)
From Coq Require Import ZArith List String Ascii Bool Lia Permutation Sorting.Sorted.
From Verif Require Import Base BodyModel BodySpec BodyProof.
Import ListNotations.
Local Open Scope string_scope.
Local Open Scope list_scope.
Open Scope Z_scope.

(** ** Names in order *)

Lemma before_irrefl a : before a a = false.
Proof. induction a as [|c a IH]; [reflexivity|]. simpl. rewrite Nat.ltb_irrefl. exact IH. Qed.
Lemma before_trans a : forall b c, before a b = true -> before b c = true -> before a c = true.
Proof.
  induction a as [|x a IH]; intros [|y b] [|z c]; simpl; try discriminate; auto.
  destruct (Nat.ltb_spec (nat_of_ascii x) (nat_of_ascii y)), (Nat.ltb_spec (nat_of_ascii y) (nat_of_ascii x)),
    (Nat.ltb_spec (nat_of_ascii y) (nat_of_ascii z)), (Nat.ltb_spec (nat_of_ascii z) (nat_of_ascii y)),
    (Nat.ltb_spec (nat_of_ascii x) (nat_of_ascii z)), (Nat.ltb_spec (nat_of_ascii z) (nat_of_ascii x)); try lia; try discriminate; auto.
  apply IH.
Qed.
Lemma ascii_same c d : nat_of_ascii c = nat_of_ascii d -> c = d.
Proof. intros E. rewrite <- (ascii_nat_embedding c), E. apply ascii_nat_embedding. Qed.
Lemma before_total a : forall b, a <> b -> before a b = false -> before b a = true.
Proof.
  induction a as [|x a IH]; intros [|y b] N; simpl; try discriminate; try congruence; auto.
  destruct (Nat.ltb_spec (nat_of_ascii x) (nat_of_ascii y)), (Nat.ltb_spec (nat_of_ascii y) (nat_of_ascii x)); try lia; try discriminate; auto.
  apply IH. intros ->. apply N. rewrite (ascii_same x y) by lia. reflexivity.
Qed.

Definition sorted {A} (l : list (string * A)) : Prop := StronglySorted (fun a b => before (fst a) (fst b) = true) l.
Definition names {A} (l : list (string * A)) : list string := map fst l.
Lemma sorted_nodup {A} (l : list (string * A)) : sorted l -> NoDup (names l).
Proof.
  induction 1 as [|[k v] l S0 IH F]; simpl; constructor; auto. intros I. unfold names in I. apply in_map_iff in I. destruct I as ([k' v'] & E & I).
  simpl in E. subst k'. rewrite Forall_forall in F. specialize (F _ I). simpl in F. rewrite before_irrefl in F. discriminate.
Qed.
Lemma in_put {A} k (v : A) l x : In x (put k v l) -> x = (k, v) \/ In x l.
Proof.
  induction l as [|[k' v'] r IH]; simpl; [intuition|]. destruct (String.eqb_spec k k') as [->|N]; simpl; [intuition|].
  destruct (before k k'); simpl; intuition.
Qed.
Lemma put_in {A} k (v : A) l : In (k, v) (put k v l).
Proof.
  induction l as [|[k' v'] r IH]; simpl; [auto|]. destruct (String.eqb_spec k k'); simpl; [auto|]. destruct (before k k'); simpl; auto.
Qed.
Lemma put_sorted {A} k (v : A) l : sorted l -> sorted (put k v l).
Proof.
  induction 1 as [|[k' v'] r S0 IH F]; simpl; [repeat constructor|].
  destruct (String.eqb_spec k k') as [->|N]; [constructor; auto|].
  destruct (before k k') eqn:B.
  - constructor; [constructor; auto|]. constructor; [exact B|]. rewrite Forall_forall in F |- *. intros x I. specialize (F x I). simpl in *.
    exact (before_trans _ _ _ B F).
  - constructor; [exact IH|]. rewrite Forall_forall in F |- *. intros x I. apply in_put in I. destruct I as [->|I]; [|auto]. simpl.
    apply before_total; auto.
Qed.
Lemma get_put {A} k (v : A) l : get k (put k v l) = Some v.
Proof.
  induction l as [|[k' v'] r IH]; simpl; [rewrite String.eqb_refl; reflexivity|].
  destruct (String.eqb k k') eqn:E; simpl; [rewrite String.eqb_refl; reflexivity|].
  destruct (before k k'); simpl; [rewrite String.eqb_refl; reflexivity|]. rewrite E. exact IH.
Qed.
Lemma get_put_other {A} k k0 (v : A) l : k0 <> k -> get k0 (put k v l) = get k0 l.
Proof.
  intros N. induction l as [|[k' v'] r IH]; simpl; [rewrite (proj2 (String.eqb_neq k0 k) N); reflexivity|].
  destruct (String.eqb_spec k k') as [->|E]; simpl; [rewrite (proj2 (String.eqb_neq k0 k') N); reflexivity|].
  destruct (before k k'); simpl; [rewrite (proj2 (String.eqb_neq k0 k) N); reflexivity|]. rewrite IH. reflexivity.
Qed.
Lemma put_new {A} k (v : A) l : ~ In k (names l) -> Permutation (put k v l) ((k, v) :: l).
Proof.
  induction l as [|[k' v'] r IH]; simpl; intros N; [apply Permutation_refl|].
  destruct (String.eqb_spec k k') as [->|E]; [destruct N; auto|]. destruct (before k k'); [apply Permutation_refl|].
  rewrite IH by tauto. apply perm_swap.
Qed.
Lemma get_in {A} k (v : A) l : get k l = Some v -> In (k, v) l.
Proof.
  induction l as [|[k' v'] r IH]; simpl; [discriminate|]. destruct (String.eqb_spec k k') as [->|]; [intros E; injection E as ->; auto|auto].
Qed.
Lemma in_get {A} k (v : A) l : NoDup (names l) -> In (k, v) l -> get k l = Some v.
Proof.
  induction l as [|[k' v'] r IH]; simpl; [intros _ []|]. intros N [E|I]; inversion N; subst.
  - injection E as -> ->. rewrite String.eqb_refl. reflexivity.
  - destruct (String.eqb_spec k k') as [->|]; [|auto]. exfalso. apply H1. unfold names. apply in_map_iff. exists (k', v). auto.
Qed.

(** Case. *)
Lemma lower_char_le c : (nat_of_ascii c <= nat_of_ascii (lower_char c))%nat.
Proof.
  unfold lower_char. destruct (Nat.leb_spec 65 (nat_of_ascii c)), (Nat.leb_spec (nat_of_ascii c) 90); simpl; try lia.
  rewrite nat_ascii_embedding; lia.
Qed.
Lemma lower_last a : forall b, lower a = b -> a = b \/ before a b = true.
Proof.
  induction a as [|c a IH]; intros b <-; [auto|]. simpl. pose proof (lower_char_le c) as L.
  destruct (Nat.ltb_spec (nat_of_ascii c) (nat_of_ascii (lower_char c))); [auto|].
  assert (E : c = lower_char c) by (apply ascii_same; lia). rewrite <- E, Nat.ltb_irrefl.
  destruct (IH _ eq_refl) as [E'|B]; [left; congruence|auto].
Qed.

(** ** Rewriting *)

Lemma json_rect' (P : json -> Prop) : P JNull -> (forall b, P (JBool b)) -> (forall p n, P (JNum p n)) -> (forall s, P (JText s)) ->
  (forall l, Forall P l -> P (JList l)) -> (forall l, Forall (fun kv => P (snd kv)) l -> P (JObj l)) -> forall v, P v.
Proof.
  intros H1 H2 H3 H4 H5 H6. fix IH 1. intros [|b|p n|s|l|l].
  - exact H1.
  - exact (H2 b).
  - exact (H3 p n).
  - exact (H4 s).
  - apply H5. induction l as [|x r R]; constructor; [exact (IH x)|exact R].
  - apply H6. induction l as [|[k x] r R]; constructor; [exact (IH x)|exact R].
Qed.

Fixpoint each (l : list json) : option (list json) :=
  match l with [] => Some [] | x :: r => match remarshal x, each r with Some x', Some r' => Some (x' :: r') | _, _ => None end end.
Fixpoint members (l m : list (string * json)) : option (list (string * json)) :=
  match l with [] => Some m | (k, x) :: r => match remarshal x with Some x' => members r (put k x' m) | None => None end end.
Lemma remarshal_list l : remarshal (JList l) = match each l with Some l' => Some (JList l') | None => None end.
Proof. reflexivity. Qed.
Lemma remarshal_obj l : remarshal (JObj l) = match members l [] with Some m => Some (JObj m) | None => None end.
Proof. reflexivity. Qed.

Lemma members_sorted l : forall m m', members l m = Some m' -> sorted m -> sorted m'.
Proof.
  induction l as [|[k x] r IH]; intros m m' E S0; simpl in E; [injection E as <-; exact S0|]. destruct (remarshal x); [|discriminate].
  apply (IH _ _ E), put_sorted, S0.
Qed.
Lemma members_values l : forall m m' k v, members l m = Some m' -> In (k, v) m' -> In (k, v) m \/ exists x, In (k, x) l /\ remarshal x = Some v.
Proof.
  induction l as [|[k0 x] r IH]; intros m m' k v E I; simpl in E; [injection E as <-; auto|]. destruct (remarshal x) as [x'|] eqn:R; [|discriminate].
  destruct (IH _ _ _ _ E I) as [I'|(y & A & B)]; [|right; exists y; simpl; auto]. apply in_put in I'. destruct I' as [I'|I']; [|auto].
  injection I' as -> ->. right. exists x. simpl. auto.
Qed.
Definition member_rel (a b : string * json) : Prop := fst a = fst b /\ remarshal (snd a) = Some (snd b).
Lemma members_perm l : forall m m', members l m = Some m' -> NoDup (names l ++ names m) ->
  exists l', Forall2 member_rel l l' /\ Permutation m' (l' ++ m).
Proof.
  induction l as [|[k x] r IH]; intros m m' E N; simpl in E; [injection E as <-; exists []; split; [constructor|apply Permutation_refl]|].
  destruct (remarshal x) as [x'|] eqn:R; [|discriminate]. simpl in N. inversion N as [|? ? N1 N2]; subst.
  assert (Pm : Permutation (put k x' m) ((k, x') :: m)) by (apply put_new; intros I; apply N1, in_app_iff; auto).
  destruct (IH _ _ E) as (l' & F & P).
  { assert (Permutation (names (put k x' m)) (k :: names m)) as Pn by (exact (Permutation_map fst Pm)).
    eapply Permutation_NoDup; [|exact N]. rewrite Pn. apply Permutation_middle. }
  exists ((k, x') :: l'). split; [constructor; [split; auto|exact F]|]. rewrite P, Pm. simpl. symmetry. apply Permutation_middle.
Qed.

(** ** Fields *)

Definition folded (l : list (string * json)) : list string := map (fun kv => lower (fst kv)) l.
Lemma folded_names l : NoDup (folded l) -> NoDup (names l).
Proof. unfold folded, names. intros H. rewrite <- (map_map fst lower) in H. exact (NoDup_map_inv _ _ H). Qed.
Lemma field_in f l v : field f l = Some v -> exists k, In (k, v) l /\ lower k = lower f.
Proof.
  induction l as [|[k x] r IH]; simpl; [discriminate|]. destruct (field f r) as [y|] eqn:E.
  - intros H. injection H as ->. destruct (IH eq_refl) as (k' & A & B). exists k'. auto.
  - destruct (String.eqb_spec (lower k) (lower f)); [|discriminate]. intros H. injection H as ->. exists k. auto.
Qed.
Lemma field_none f l : field f l = None -> forall k v, In (k, v) l -> lower k <> lower f.
Proof.
  induction l as [|[k x] r IH]; simpl; [intros _ ? ? []|]. destruct (field f r) as [y|] eqn:E; [discriminate|].
  destruct (String.eqb_spec (lower k) (lower f)); [discriminate|]. intros _ k' v [H|H]; [injection H as <- <-; auto|eauto].
Qed.
Lemma folded_unique l k k' v v' : NoDup (folded l) -> In (k, v) l -> In (k', v') l -> lower k = lower k' -> k = k' /\ v = v'.
Proof.
  induction l as [|[k0 x] r IH]; simpl; [intros _ []|]. intros N [A|A] [B|B] E; inversion N; subst; try (injection A as <- <-); try (injection B as <- <-); auto.
  - exfalso. apply H1. rewrite E. apply in_map_iff. exists (k', v'). auto.
  - exfalso. apply H1. rewrite <- E. apply in_map_iff. exists (k, v). auto.
Qed.
Lemma in_field f l k v : NoDup (folded l) -> In (k, v) l -> lower k = lower f -> field f l = Some v.
Proof.
  intros N I E. destruct (field f l) as [w|] eqn:F; [|destruct (field_none _ _ F _ _ I E)].
  destruct (field_in _ _ _ F) as (k' & I' & E'). f_equal. apply (folded_unique l k' k w v); auto. congruence.
Qed.
Lemma field_perm f l l' : NoDup (folded l) -> Permutation l l' -> field f l = field f l'.
Proof.
  intros N P. assert (N' : NoDup (folded l')) by (eapply Permutation_NoDup; [apply Permutation_map; exact P|exact N]).
  destruct (field f l) as [v|] eqn:E.
  - destruct (field_in _ _ _ E) as (k & I & L). symmetry. apply (in_field f l' k v N'); [|exact L]. exact (Permutation_in _ P I).
  - destruct (field f l') as [v|] eqn:E'; [|reflexivity]. destruct (field_in _ _ _ E') as (k & I & L).
    destruct (field_none _ _ E k v); [|exact L]. exact (Permutation_in _ (Permutation_sym P) I).
Qed.
Lemma field_put f k v l : lower k <> lower f -> field f (put k v l) = field f l.
Proof.
  intros N. assert (B : String.eqb (lower k) (lower f) = false) by (apply String.eqb_neq; exact N).
  induction l as [|[k' v'] r IH]; simpl; [rewrite B; reflexivity|]. destruct (String.eqb_spec k k') as [->|E]; simpl.
  - rewrite B. reflexivity.
  - destruct (before k k'); simpl; [rewrite B; destruct (field f r); [reflexivity|]; destruct (String.eqb (lower k') (lower f)); reflexivity|]. rewrite IH. reflexivity.
Qed.

(** ** The same up to order *)

Fixpoint tidy_list (l : list json) : Prop := match l with [] => True | x :: r => tidy x /\ tidy_list r end.
Fixpoint tidy_members (l : list (string * json)) : Prop := match l with [] => True | (_, x) :: r => tidy x /\ tidy_members r end.
Lemma tidy_l l : tidy (JList l) = tidy_list l. Proof. reflexivity. Qed.
Lemma tidy_o l : tidy (JObj l) = (NoDup (folded l) /\ tidy_members l). Proof. reflexivity. Qed.
Fixpoint small_list (l : list json) : Prop := match l with [] => True | x :: r => small x /\ small_list r end.
Fixpoint small_members (l : list (string * json)) : Prop := match l with [] => True | (_, x) :: r => small x /\ small_members r end.
Lemma small_l l : small (JList l) = small_list l. Proof. reflexivity. Qed.
Lemma small_o l : small (JObj l) = small_members l. Proof. reflexivity. Qed.

Section Alike.
Variable N : bool * Z -> bool * Z -> Prop.
Variable good : json -> Prop.
Hypothesis good_list : forall l, good (JList l) -> Forall good l.
Hypothesis good_obj : forall l, good (JObj l) -> Forall (fun kv => good (snd kv)) l.
Hypothesis good_num : forall p n f, good (JNum p n) -> float_of n = Some f -> alike N (JNum p n) (show f).

Lemma alike_fields l l' : NoDup (folded l) -> Forall2 member_rel l l' ->
  (forall kv v', In kv l -> remarshal (snd kv) = Some v' -> alike N (snd kv) v') ->
  folded l' = folded l /\ (forall f, orel (alike N) (field f l) (field f l')) /\ (forall k, orel (alike N) (get k l) (get k l')).
Proof.
  intros _ F. induction F as [|[k v] [k' v'] l l' [E R] F IH]; intros A; [split; [reflexivity|split; intros; constructor]|].
  simpl in E, R. subst k'. destruct IH as (I1 & I2 & I3); [intros; apply A; simpl; auto|]. split; [simpl; rewrite I1; reflexivity|].
  assert (Av : alike N v v') by (apply (A (k, v)); simpl; auto). split.
  - intros f. simpl. specialize (I2 f). destruct I2 as [|a b I2]; [|constructor; exact I2].
    destruct (String.eqb _ _); constructor. exact Av.
  - intros k0. simpl. destruct (String.eqb k0 k); [constructor; exact Av|apply I3].
Qed.
Lemma get_perm {A} k (l l' : list (string * A)) : NoDup (names l) -> Permutation l l' -> get k l = get k l'.
Proof.
  intros Nd P. assert (N' : NoDup (names l')) by (eapply Permutation_NoDup; [apply Permutation_map; exact P|exact Nd]).
  destruct (get k l) as [v|] eqn:E.
  - symmetry. apply (in_get _ _ _ N'). apply (Permutation_in _ P), get_in, E.
  - destruct (get k l') as [v|] eqn:E'; [|reflexivity]. apply get_in in E'. apply (Permutation_in _ (Permutation_sym P)) in E'.
    rewrite (in_get _ _ _ Nd E') in E. discriminate.
Qed.

Lemma remarshal_alike : forall v v', tidy v -> good v -> remarshal v = Some v' -> alike N v v'.
Proof.
  intros v. induction v as [|b|p n|s|l IH|l IH] using json_rect'; intros v' T G R.
  - injection R as <-. constructor.
  - injection R as <-. constructor.
  - simpl in R. destruct (float_of n) as [f|] eqn:E; [|discriminate]. injection R as <-. exact (good_num _ _ _ G E).
  - injection R as <-. constructor.
  - rewrite remarshal_list in R. destruct (each l) as [l'|] eqn:E; [|discriminate]. injection R as <-. constructor.
    apply good_list in G. rewrite tidy_l in T. revert l' E. induction l as [|x r R]; intros l' E; simpl in E; [injection E as <-; constructor|].
    inversion IH; inversion G; subst. destruct T as [T1 T2]. destruct (remarshal x) as [x'|] eqn:Ex; [|discriminate].
    destruct (each r) as [r'|]; [|discriminate]. injection E as <-. constructor; auto.
  - rewrite remarshal_obj in R. destruct (members l []) as [m|] eqn:E; [|discriminate]. injection R as <-.
    rewrite tidy_o in T. destruct T as [T1 T2]. apply good_obj in G.
    destruct (members_perm _ _ _ E) as (l' & F & P); [unfold names at 2; simpl; rewrite app_nil_r; exact (folded_names _ T1)|].
    rewrite app_nil_r in P. destruct (alike_fields l l' T1 F) as (A1 & A2 & A3).
    { intros [k x] x' I Rx. rewrite Forall_forall in IH, G. specialize (IH _ I). simpl in *. apply IH; auto; [|exact (G _ I)].
      clear - T2 I. induction l as [|[k0 x0] r R]; [destruct I|]. destruct T2 as [T2 T3]. destruct I as [I|I]; [injection I as <- <-; exact T2|auto]. }
    assert (Nm : NoDup (folded m)).
    { eapply Permutation_NoDup; [apply Permutation_map, Permutation_sym, P|]. unfold folded in A1. rewrite A1. exact T1. }
    constructor; [intros f; rewrite (field_perm f m l' Nm P); apply A2|intros k; rewrite (get_perm k m l' (folded_names _ Nm) P); apply A3].
Qed.
Lemma members_folded l m : NoDup (folded l) -> members l [] = Some m -> NoDup (folded m).
Proof.
  intros T1 E. destruct (members_perm _ _ _ E) as (l' & F & P); [unfold names at 2; simpl; rewrite app_nil_r; exact (folded_names _ T1)|].
  rewrite app_nil_r in P. eapply Permutation_NoDup; [apply Permutation_map, Permutation_sym, P|].
  assert (folded l' = folded l) as E'.
  { clear - F. induction F as [|[k v] [k' v'] l l' [E R] F IH]; [reflexivity|]. simpl in *. subst k'. rewrite IH. reflexivity. }
  unfold folded in *. rewrite E'. exact T1.
Qed.
End Alike.

(** ** The metadata *)

Definition puts (m l : list (string * json)) : list (string * json) := fold_left (fun m kv => put (fst kv) (snd kv) m) l m.
Lemma get_puts l : forall m k, NoDup (names l) -> get k (puts m l) = match get k l with Some v => Some v | None => get k m end.
Proof.
  unfold puts. induction l as [|[k0 v0] r IH]; intros m k N; [reflexivity|]. simpl in *. inversion N as [|? ? N1 N2]; subst. rewrite IH by exact N2.
  destruct (String.eqb_spec k k0) as [->|E].
  - destruct (get k0 r) as [v|] eqn:G; [|apply get_put]. exfalso. apply N1, in_map_iff. exists (k0, v). split; [reflexivity|]. exact (get_in _ _ _ G).
  - destruct (get k r); [reflexivity|]. apply get_put_other. exact E.
Qed.
Lemma map_field_app f a : forall b m, map_field f (a ++ b) m = match map_field f a m with Some m' => map_field f b m' | None => None end.
Proof.
  induction a as [|[k v] a IH]; intros b m; [reflexivity|]. simpl. destruct (String.eqb _ _); [|apply IH]. destruct (into_map m v); [apply IH|reflexivity].
Qed.
Lemma map_field_none f l m : (forall k v, In (k, v) l -> lower k <> lower f) -> map_field f l m = Some m.
Proof.
  induction l as [|[k v] r IH]; intros H; [reflexivity|]. simpl. destruct (String.eqb_spec (lower k) (lower f)) as [E|_]; [destruct (H k v); simpl; auto|].
  apply IH. intros k' v' I. apply (H k' v'). simpl. auto.
Qed.
Lemma put_split {A} k (v : A) l : sorted l ->
  exists a b, put k v l = a ++ (k, v) :: b /\ (forall x, In x b -> before k (fst x) = true) /\ (forall x, In x a -> In x l /\ fst x <> k).
Proof.
  intros S0. pose proof (put_sorted k v l S0) as S1. destruct (in_split _ _ (put_in k v l)) as (a & b & E). exists a, b. split; [exact E|].
  pose proof (sorted_nodup _ S1) as N. rewrite E in S1, N. split.
  - clear - S1. induction a as [|x a IH]; simpl in S1; inversion S1; subst; [|auto]. rewrite Forall_forall in H2. intros x I. exact (H2 x I).
  - intros x I. assert (I' : In x (put k v l)) by (rewrite E; apply in_app_iff; auto). apply in_put in I'.
    assert (Nk : fst x <> k).
    { intros Ek. unfold names in N. rewrite map_app in N. simpl in N. apply NoDup_remove_2 in N. apply N, in_app_iff. left. rewrite <- Ek. apply in_map, I. }
    split; [|exact Nk]. destruct I' as [->|I']; [destruct Nk; reflexivity|exact I'].
Qed.

Lemma rewritten id l v : inject id (JObj l) = Rewritten v ->
  exists m, members l [] = Some m /\ sorted m /\
    v = JObj (put "meta_data" (JObj (put "BLNK_GENERATED_BY" (JText id) (match get "meta_data" m with Some (JObj x) => x | _ => [] end))) m)
    /\ sorted (match get "meta_data" m with Some (JObj x) => x | _ => [] end).
Proof.
  unfold inject. rewrite remarshal_obj. destruct (members l []) as [m|] eqn:E; [|discriminate]. intros H. injection H as <-. exists m.
  split; [reflexivity|]. split; [apply (members_sorted _ _ _ E); constructor|]. split; [reflexivity|].
  destruct (get "meta_data" m) as [x|] eqn:G; [|constructor]. destruct x; try constructor. apply get_in in G.
  destruct (members_values _ _ _ _ _ E G) as [[]|(x & I & R)]. destruct x; try discriminate.
  - simpl in R. destruct (float_of n); discriminate.
  - rewrite remarshal_list in R. destruct (each l1); discriminate.
  - rewrite remarshal_obj in R. destruct (members l1 []) as [m1|] eqn:E1; [|discriminate]. injection R as <-. apply (members_sorted _ _ _ E1). constructor.
Qed.

Lemma attributed id l l' meta : inject id (JObj l) = Rewritten (JObj l') -> map_field "meta_data" l' [] = Some meta ->
  get "BLNK_GENERATED_BY" meta = Some (JText id).
Proof.
  intros H M. destruct (rewritten _ _ _ H) as (m & Em & Sm & E & Sx). injection E as ->. set (x := match get "meta_data" m with Some (JObj x) => x | _ => [] end) in *.
  destruct (put_split "meta_data" (JObj (put "BLNK_GENERATED_BY" (JText id) x)) m Sm) as (a & b & E & B & _). rewrite E, map_field_app in M.
  destruct (map_field "meta_data" a []) as [m1|]; [|discriminate]. change (map_field "meta_data" (("meta_data", JObj (put "BLNK_GENERATED_BY" (JText id) x)) :: b) m1)
    with (map_field "meta_data" b (puts m1 (put "BLNK_GENERATED_BY" (JText id) x))) in M.
  rewrite map_field_none in M.
  - injection M as <-. rewrite get_puts; [rewrite get_put; reflexivity|]. apply sorted_nodup, put_sorted, Sx.
  - intros k v I L. specialize (B _ I). cbn [fst] in B. change (lower "meta_data") with "meta_data" in L.
    destruct (lower_last k _ L) as [-> |B']; [rewrite before_irrefl in B; discriminate|].
    pose proof (before_trans _ _ _ B B') as C. rewrite before_irrefl in C. discriminate.
Qed.

Lemma nodup_left {A} (a b : list A) : NoDup (a ++ b) -> NoDup a.
Proof.
  induction a as [|x a IH]; intros H; [constructor|]. simpl in H. inversion H as [|? ? H1 H2]; subst. constructor; auto.
  intros I. apply H1, in_app_iff. auto.
Qed.

Section Same.
Variable N : bool * Z -> bool * Z -> Prop.
Variable good : json -> Prop.
Hypothesis good_list : forall l, good (JList l) -> Forall good l.
Hypothesis good_obj : forall l, good (JObj l) -> Forall (fun kv => good (snd kv)) l.
Hypothesis good_num : forall p n f, good (JNum p n) -> float_of n = Some f -> alike N (JNum p n) (show f).
Variables (id : string) (l l' : list (string * json)).
Hypothesis T : tidy (JObj l).
Hypothesis G : good (JObj l).
Hypothesis H : inject id (JObj l) = Rewritten (JObj l').

Lemma same_fields f : lower f <> "meta_data" -> orel (alike N) (field f l) (field f l').
Proof.
  intros Nf. destruct (rewritten _ _ _ H) as (m & Em & Sm & E & Sx). injection E as ->.
  rewrite field_put by (intros Ef; apply Nf; rewrite <- Ef; reflexivity).
  assert (A : alike N (JObj l) (JObj m)).
  { apply (remarshal_alike N good good_list good_obj good_num); auto. rewrite remarshal_obj, Em. reflexivity. }
  inversion A as [| | | | |? ? A1 A2]; subst. apply A1.
Qed.

Lemma map_field_one f : forall ll m, NoDup (folded ll) ->
  map_field f ll m = match field f ll with None => Some m | Some v => into_map m v end.
Proof.
  induction ll as [|[k v] r IH]; intros m Nd; [reflexivity|]. simpl in *. inversion Nd as [|? ? N1 N2]; subst.
  destruct (String.eqb_spec (lower k) (lower f)) as [E|E].
  - destruct (field f r) as [w|] eqn:F.
    + exfalso. destruct (field_in _ _ _ F) as (k' & I & E'). apply N1. rewrite E, <- E'. apply in_map_iff. exists (k', w). auto.
    + destruct (into_map m v); [|reflexivity]. apply map_field_none. exact (field_none _ _ F).
  - rewrite IH by exact N2. destruct (field f r); reflexivity.
Qed.

Lemma same_metadata M : map_field "meta_data" l [] = Some M ->
  exists M', map_field "meta_data" l' [] = Some M' /\ forall k, k <> "BLNK_GENERATED_BY" -> orel (alike N) (get k M) (get k M').
Proof.
  intros HM. destruct (rewritten _ _ _ H) as (m & Em & Sm & E & Sx). injection E as El'. subst l'.
  set (x := match get "meta_data" m with Some (JObj x) => x | _ => [] end) in *.
  assert (A : alike N (JObj l) (JObj m)).
  { apply (remarshal_alike N good good_list good_obj good_num); auto. rewrite remarshal_obj, Em. reflexivity. }
  inversion A as [| | | | |? ? A1 A2]; subst.
  assert (Tl : NoDup (folded l)) by (rewrite tidy_o in T; apply T). pose proof (members_folded l m Tl Em) as Tm.
  rewrite map_field_one in HM by exact Tl.
  destruct (put_split "meta_data" (JObj (put "BLNK_GENERATED_BY" (JText id) x)) m Sm) as (a & b & E & B & Ia).
  assert (Bn : forall k v, In (k, v) b -> lower k <> lower "meta_data").
  { intros k v I L. specialize (B _ I). cbn [fst] in B. change (lower "meta_data") with "meta_data" in L.
    destruct (lower_last k _ L) as [-> |B']; [rewrite before_irrefl in B; discriminate|].
    pose proof (before_trans _ _ _ B B') as C. rewrite before_irrefl in C. discriminate. }
  assert (Red : forall m1, map_field "meta_data" a [] = Some m1 ->
    map_field "meta_data" (put "meta_data" (JObj (put "BLNK_GENERATED_BY" (JText id) x)) m) [] = Some (puts m1 (put "BLNK_GENERATED_BY" (JText id) x))).
  { intros m1 E1. rewrite E, map_field_app, E1.
    change (map_field "meta_data" (("meta_data", JObj (put "BLNK_GENERATED_BY" (JText id) x)) :: b) m1)
      with (map_field "meta_data" b (puts m1 (put "BLNK_GENERATED_BY" (JText id) x))). apply map_field_none. exact Bn. }
  assert (Sp : NoDup (names (put "BLNK_GENERATED_BY" (JText id) x))) by (apply sorted_nodup, put_sorted, Sx).
  specialize (A1 "meta_data"). remember (field "meta_data" l) as ol eqn:Fl. remember (field "meta_data" m) as om eqn:Fm. symmetry in Fl, Fm.
  destruct A1 as [|v w Avw].
  - injection HM as <-. pose proof (field_none _ _ Fm) as Nm.
    assert (x = []) as ->.
    { unfold x. destruct (get "meta_data" m) as [y|] eqn:Gm; [|reflexivity]. destruct (Nm _ _ (get_in _ _ _ Gm) eq_refl). }
    eexists. split; [apply Red, map_field_none; intros k v I; apply (Nm k v), (Ia _ I)|].
    intros k Nk. rewrite get_puts by exact Sp. rewrite get_put_other by exact Nk. constructor.
  - destruct (field_in _ _ _ Fm) as (k0 & I0 & L0). change (lower "meta_data") with "meta_data" in L0.
    destruct (String.eqb_spec k0 "meta_data") as [->|N0].
    + pose proof (in_get _ _ _ (folded_names _ Tm) I0) as Gm.
      assert (Ra : map_field "meta_data" a [] = Some []).
      { apply map_field_none. intros k v' I L. destruct (Ia _ I) as [I' Nk]. destruct (folded_unique m k "meta_data" v' w Tm I' I0 L) as [E1 _]. auto. }
      eexists. split; [apply Red, Ra|]. intros k Nk. rewrite get_puts by exact Sp. rewrite get_put_other by exact Nk.
      unfold x. rewrite Gm. inversion Avw as [| | | | |xs x' B1 B2]; subst v w; try discriminate.
      * injection HM as <-. constructor.
      * injection HM as <-. assert (Nx : NoDup (names xs)).
        { destruct (field_in _ _ _ Fl) as (k1 & I1 & _). assert (Tx : tidy (JObj xs)).
          { rewrite tidy_o in T. destruct T as [_ T2]. clear - T2 I1. induction l as [|[kk xx] r R]; [destruct I1|]. destruct T2 as [T2 T3].
            destruct I1 as [I1|I1]; [injection I1 as <- ->; exact T2|auto]. }
          rewrite tidy_o in Tx. apply folded_names, Tx. }
        change (fold_left (fun m kv => put (fst kv) (snd kv) m) xs []) with (puts [] xs). rewrite get_puts by exact Nx. specialize (B2 k).
        destruct (get k xs), (get k x'); inversion B2; subst; simpl; constructor; auto.
    + assert (x = []) as Ex.
      { unfold x. destruct (get "meta_data" m) as [y|] eqn:Gm; [|reflexivity]. apply get_in in Gm.
        destruct (folded_unique m k0 "meta_data" w y Tm I0 Gm L0) as [E1 _]. contradiction. }
      assert (I0a : In (k0, w) a).
      { assert (I1 : In (k0, w) (put "meta_data" (JObj (put "BLNK_GENERATED_BY" (JText id) x)) m)).
        { eapply Permutation_in; [apply Permutation_sym, put_new|right; exact I0]. intros I. apply in_map_iff in I. destruct I as ([k1 y] & E1 & I1).
          simpl in E1. subst k1. destruct (folded_unique m k0 "meta_data" w y Tm I0 I1 L0) as [E1 _]. contradiction. }
        rewrite E in I1. apply in_app_iff in I1. destruct I1 as [I1|[I1|I1]]; [exact I1|congruence|]. destruct (Bn _ _ I1 L0). }
      assert (Fa : NoDup (folded a)).
      { assert (Na : NoDup (names a)).
        { pose proof (sorted_nodup _ (put_sorted "meta_data" (JObj (put "BLNK_GENERATED_BY" (JText id) x)) m Sm)) as Nn. rewrite E in Nn.
          unfold names in Nn. rewrite map_app in Nn. exact (nodup_left _ _ Nn). }
        clear - Na Ia Tm. induction a as [|[k y] r IH]; [constructor|]. simpl. simpl in Na. inversion Na as [|? ? N1 N2]; subst. constructor.
        - intros I. apply in_map_iff in I. destruct I as ([k' y'] & E1 & I1). simpl in E1.
          destruct (folded_unique m k' k y' y Tm) as [E2 _]; [apply (Ia (k', y')); simpl; auto|apply (Ia (k, y)); simpl; auto|exact E1|].
          apply N1, in_map_iff. exists (k', y'). auto.
        - apply IH; [|exact N2]. intros z I. apply Ia. simpl. auto. }
      assert (Ra : map_field "meta_data" a [] = into_map [] w).
      { rewrite map_field_one by exact Fa. rewrite (in_field "meta_data" a k0 w Fa I0a L0). reflexivity. }
      inversion Avw as [| | | | |xs x' B1 B2]; subst v w; try discriminate.
      * injection HM as <-. eexists. split; [apply Red, Ra|]. intros k Nk. rewrite Ex. cbn. destruct (String.eqb_spec k "BLNK_GENERATED_BY"); [contradiction|]. constructor.
      * injection HM as <-. eexists. split; [apply Red, Ra|]. intros k Nk. rewrite get_puts by exact Sp. rewrite get_put_other by exact Nk. rewrite Ex.
        assert (Nx : NoDup (names xs)).
        { destruct (field_in _ _ _ Fl) as (k1 & I1 & _). assert (Tx : tidy (JObj xs)).
          { rewrite tidy_o in T. destruct T as [_ T2]. clear - T2 I1. induction l as [|[kk xx] r R]; [destruct I1|]. destruct T2 as [T2 T3].
            destruct I1 as [I1|I1]; [injection I1 as <- ->; exact T2|auto]. }
          rewrite tidy_o in Tx. apply folded_names, Tx. }
        assert (Nx' : NoDup (names x')).
        { destruct (members_values _ _ _ _ _ Em I0) as [[]|(y & I1 & R)]. destruct y; try discriminate.
          - simpl in R. destruct (float_of n); discriminate.
          - rewrite remarshal_list in R. destruct (each l0); discriminate.
          - rewrite remarshal_obj in R. destruct (members l0 []) as [m1|] eqn:E1; [|discriminate]. injection R as <-.
            apply sorted_nodup, (members_sorted _ _ _ E1). constructor. }
        change (fold_left (fun m kv => put (fst kv) (snd kv) m) xs []) with (puts [] xs).
        change (fold_left (fun m kv => put (fst kv) (snd kv) m) x' []) with (puts [] x').
        rewrite !get_puts by assumption. specialize (B2 k). cbn [get]. destruct (get k xs), (get k x'); inversion B2; subst; simpl; constructor; auto.
Qed.
End Same.
