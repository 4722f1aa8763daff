(** More about listings: values stay out of the text; queries the database refuses; filters
    that vanish. *)

From Coq Require Import List Bool Arith ZArith Lia Ascii String Sorted Permutation.
From Verif Require Import BodyModel FilterSql FilterModel FilterSpec FilterLex FilterParse FilterGen FilterBuild FilterQuery FilterMean FilterTake FilterThms.
Import ListNotations.
Local Open Scope nat_scope.
Local Open Scope string_scope.
Local Open Scope list_scope.

(** * Values stay out of the text *)

Definition shape (x : piece) : string * nat := (fst (fst x), snd x).

Lemma all_strings_iff : forall l, all_strings l = true <-> Forall is_text l.
Proof.
  intros l. unfold all_strings. rewrite forallb_forall, Forall_forall. split; intros H x I; specialize (H x I);
    destruct x; cbn in *; try discriminate; try contradiction; auto.
Qed.

Lemma all_strings_same : forall l m, (Forall is_text l <-> Forall is_text m) -> all_strings l = all_strings m.
Proof. intros l m H. apply eq_true_iff_eq. now rewrite !all_strings_iff. Qed.

Lemma two_same : forall (A : Type) (l m : list value) (g : value -> value -> A) (d : A),
  List.length l = List.length m -> (forall a b c e, g a b = g c e) ->
  match l with [a; b] => g a b | _ => d end = match m with [a; b] => g a b | _ => d end.
Proof. intros A [|a [|b [|]]] [|c [|e [|]]] g d L G; try discriminate L; auto. Qed.

Lemma two_shape : forall l m t n d, List.length l = List.length m ->
  shape match l with [a; b] => (t, [extract a; extract b], n) | _ => d end
  = shape match m with [a; b] => (t, [extract a; extract b], n) | _ => d end.
Proof. intros [|a [|b [|]]] [|c [|e [|]]] t n d L; try discriminate L; reflexivity. Qed.

Ltac same_start H :=
  let A := fresh "AL" in let L := fresh "LE" in let T := fresh "TX" in
  let E := fresh in let E2 := fresh in
  destruct H as (E & E2 & A & L & T); try rewrite E; rewrite E2; apply all_strings_same in T.

Lemma standard_shape : forall table f g p, same_shape f g -> shape (standard table f p) = shape (standard table g p).
Proof.
  intros table f g p H. unfold standard. same_start H. destruct (_ =? ""); [reflexivity|].
  destruct (op_of (f_op g)) as [[]|]; try reflexivity.
  - destruct (f_value f), (f_value g); cbn in AL; try contradiction; try reflexivity.
    destruct (range t), (range t0). reflexivity.
  - rewrite LE, TX. destruct (0 <? _)%nat; [|reflexivity]. destruct (all_strings (f_values g)); reflexivity.
  - now apply two_shape.
Qed.

Lemma json_shape : forall f g p, same_shape f g -> shape (json_path f p) = shape (json_path g p).
Proof.
  intros f g p H. unfold json_path. same_start H. destruct (split_dot (f_field g)) as [[c r]|]; [|reflexivity].
  destruct (_ || _); [reflexivity|].
  destruct (op_of (f_op g)) as [[]|]; try reflexivity.
  - destruct (f_value f), (f_value g); cbn in AL; try contradiction; try reflexivity;
      try (subst; reflexivity).
    + subst. destruct finite0; reflexivity.
    + destruct (range t), (range t0). reflexivity.
  - rewrite LE. destruct (0 <? _)%nat; reflexivity.
  - now apply two_shape.
Qed.

Lemma side_shape : forall f g p, same_shape f g -> shape (balance_side f p) = shape (balance_side g p).
Proof.
  intros f g p H. unfold balance_side. same_start H.
  destruct (op_of (f_op g)) as [[]|]; try reflexivity.
  rewrite LE, TX. destruct (0 <? _)%nat; [|reflexivity]. destruct (all_strings (f_values g)); reflexivity.
Qed.

Lemma indicator_shape : forall f g p, same_shape f g -> shape (indicator_text f p) = shape (indicator_text g p).
Proof.
  intros f g p H. unfold indicator_text. same_start H.
  destruct (op_of (f_op g)) as [[]|]; try reflexivity.
  - rewrite LE, TX. destruct (0 <? _)%nat; [|reflexivity]. destruct (all_strings (f_values g)); reflexivity.
  - now apply two_shape.
Qed.

Definition alike (b c : built) : Prop := b_ctes b = b_ctes c /\ b_conds b = b_conds c /\ b_next b = b_next c.

Lemma add_alike : forall table b c f g, alike b c -> same_shape f g -> alike (add table b f) (add table c g).
Proof.
  intros table b c f g (C & D & N) H. unfold add. rewrite N. cbv zeta.
  pose proof (standard_shape table f g (b_next c) H) as P1. pose proof (json_shape f g (b_next c) H) as P2.
  pose proof (side_shape f g (b_next c) H) as P3. pose proof (indicator_shape f g (b_next c) H) as P4.
  destruct H as (-> & _).
  destruct (standard table f (b_next c)) as [[t1 a1] n1], (standard table g (b_next c)) as [[u1 d1] m1].
  destruct (json_path f (b_next c)) as [[t2 a2] n2], (json_path g (b_next c)) as [[u2 d2] m2].
  destruct (balance_side f (b_next c)) as [[t3 a3] n3], (balance_side g (b_next c)) as [[u3 d3] m3].
  destruct (indicator_text f (b_next c)) as [[t4 a4] n4], (indicator_text g (b_next c)) as [[u4 d4] m4].
  unfold shape in *. cbn [fst snd] in *. injection P1 as -> ->. injection P2 as -> ->.
  injection P3 as -> ->. injection P4 as -> ->.
  repeat match goal with |- context [if ?x then _ else _] => destruct x end;
    unfold alike; cbn [b_ctes b_conds b_next]; rewrite ?C, ?D; repeat split; assumption || reflexivity.
Qed.

Lemma fold_alike : forall table fs gs, Forall2 same_shape fs gs -> forall b c, alike b c ->
  alike (fold_left (add table) fs b) (fold_left (add table) gs c).
Proof.
  intros table fs gs F. induction F as [|f g fs gs H F IH]; intros b c A; [exact A|].
  cbn [fold_left]. apply IH. now apply add_alike.
Qed.

Lemma valid_same : forall table f g, same_shape f g -> valid_filter table f = valid_filter table g.
Proof.
  intros table f g (E1 & E2 & _ & L & _). unfold valid_filter. now rewrite E1, E2, L.
Qed.

Lemma validate_same : forall table lop fs gs, Forall2 same_shape fs gs ->
  validate table lop fs = validate table lop gs.
Proof.
  intros table lop fs gs F. unfold validate. f_equal.
  induction F as [|f g fs gs H F IH]; [reflexivity|]. cbn [forallb]. now rewrite (valid_same _ _ _ H), IH.
Qed.

Theorem values_apart : forall table r s, Forall2 same_shape (r_filters r) (r_filters s) ->
  r_lop r = r_lop s -> r_by r = r_by s -> r_order r = r_order s -> r_count r = r_count s ->
  option_map fst (filtered table r) = option_map fst (filtered table s).
Proof.
  intros table r s F L B O C. unfold filtered. rewrite L, B, O, C. destruct (resolve (r_lop s)); [|reflexivity].
  unfold listing. cbn [o_by o_asc o_count]. destruct (_ && _); [reflexivity|].
  assert (X : match build table s0 (r_filters r), build table s0 (r_filters s) with
              | Some b, Some c => alike b c | None, None => True | _, _ => False end).
  { unfold build. destruct F as [|f g fs gs H F]; [repeat split|].
    rewrite (validate_same table s0 _ _ (Forall2_cons _ _ H F)).
    destruct (validate table s0 (g :: gs)); [|exact I].
    apply fold_alike; [now constructor|repeat split]. }
  destruct (build table s0 (r_filters r)) as [b|], (build table s0 (r_filters s)) as [c|]; try contradiction;
    [|reflexivity].
  destruct X as (-> & -> & ->). reflexivity.
Qed.

(** * Two filters on the indicator *)

Lemma subs_indicators : forall fs q,
  List.length (subs_in "transactions" (placed "transactions" fs q)) = List.length (filter about_indicator fs).
Proof.
  induction fs as [|f fs IH]; intros q; [reflexivity|].
  cbn [placed subs_in flat_map fst snd filter]. rewrite app_length. unfold subs_in in IH. rewrite IH.
  unfold about_indicator, sub_of, kind_of. destruct (String.eqb_spec (f_field f) "indicator") as [->|N].
  - reflexivity.
  - destruct (after _ _); [reflexivity|]. cbn [String.eqb andb]. destruct (_ && _); [reflexivity|].
    replace (f_field f =? "indicator") with false by (symmetry; now apply String.eqb_neq).
    rewrite andb_false_r. reflexivity.
Qed.

Theorem two_indicators : forall w r text args out n,
  Forall (fun f => ~ not_a_number f) (r_filters r) -> 1 < List.length (filter about_indicator (r_filters r)) ->
  filtered "transactions" r = Some (text, args) -> ~ served w text args out n.
Proof.
  intros w r text args out n N L F (q & li & off & l & R & A & _).
  unfold filtered in F. destruct (resolve (r_lop r)) as [lop|]; [|discriminate].
  edestruct listing_read as (Q & _); [|exact N|exact F|]; [now left|].
  rewrite Q in R. injection R as <-. pose proof (a_names _ _ _ _ A) as D.
  cbn [the_query q_subs] in D. rewrite <- (subs_indicators (r_filters r) 1) in L.
  destruct (subs_in "transactions" (placed "transactions" (r_filters r) 1)) as [|a [|b us]]; cbn in L; try lia.
  cbn in D. inversion D as [|? ? X _]. apply X. now left.
Qed.

(** * Sorting by what is not a column *)

Theorem sort_refused : forall w r text args out n,
  Forall (fun f => ~ not_a_number f) (r_filters r) -> In (r_by r) ["balance_id"; "indicator"] ->
  filtered "transactions" r = Some (text, args) -> ~ served w text args out n.
Proof.
  intros w r text args out n N B F (q & li & off & l & R & A & _).
  unfold filtered in F. destruct (resolve (r_lop r)) as [lop|]; [|discriminate].
  edestruct listing_read as (Q & _); [|exact N|exact F|]; [now left|].
  rewrite Q in R. injection R as <-. pose proof (a_order _ _ _ _ A) as D.
  cbn [the_query q_order q_from o_by] in D.
  destruct B as [E | [E | []]]; rewrite <- E in D; vm_compute in D;
    repeat (destruct D as [D|D]; [discriminate D|]); exact D.
Qed.

(** * A filter that vanishes *)

Definition with_filters (r : request) (fs : list filt) : request :=
  {| r_filters := fs; r_lop := r_lop r; r_limit := r_limit r; r_offset := r_offset r;
     r_by := r_by r; r_order := r_order r; r_count := r_count r |}.

Lemma add_nan : forall table b f, taken table f -> In table tables -> not_a_number f -> add table b f = b.
Proof.
  intros table b f T I (O & (k & F) & s & V). unfold add. rewrite F, split_meta.
  change (after "meta_data" ("meta_data." ++ k)) with (Some ("." ++ k)%string). cbn [andb].
  unfold json_path. rewrite F, split_meta, O, V. cbn [containment].
  change (op_of "eq") with (Some OEq). cbv zeta. destruct (_ || _); reflexivity.
Qed.

Theorem nan_vanishes : forall table r f fs, In table tables -> taken table f -> not_a_number f ->
  In (r_lop r) [""; "and"; "or"] ->
  filtered table (with_filters r (f :: fs)) = filtered table (with_filters r fs).
Proof.
  intros table r f fs T K N L. unfold filtered, with_filters. cbn [r_lop r_filters r_limit r_offset r_by r_order r_count].
  destruct (resolve (r_lop r)) as [lop|] eqn:R; [|reflexivity].
  unfold listing. destruct (_ && _); [reflexivity|].
  assert (B : build table lop (f :: fs) = build table lop fs).
  { unfold build. destruct fs as [|g fs].
    - unfold validate. rewrite (known_table _ T). cbn [forallb]. rewrite (proj2 (valid_taken _ _ T) K).
      destruct (resolve_lops _ _ R) as [-> | ->]; cbn [String.eqb Ascii.eqb Bool.eqb orb andb negb fold_left];
        now rewrite add_nan.
    - unfold validate. cbn [forallb]. rewrite (proj2 (valid_taken _ _ T) K). cbn [andb].
      destruct (_ && _); [|reflexivity]. cbn [fold_left]. now rewrite (add_nan _ _ f). }
  now rewrite B.
Qed.

(** * The order of filters *)

Lemma existsb_perm : forall A (g : A -> bool) l m, Permutation l m -> existsb g l = existsb g m.
Proof.
  intros A g l m P. induction P; cbn; try congruence.
  destruct (g x), (g y); reflexivity.
Qed.

Lemma forallb_perm : forall A (g : A -> bool) l m, Permutation l m -> forallb g l = forallb g m.
Proof.
  intros A g l m P. induction P; cbn; try congruence.
  destruct (g x), (g y); reflexivity.
Qed.

Theorem wanted_perm : forall w table any fs gs r, Permutation fs gs ->
  wanted w table any fs r = wanted w table any gs r.
Proof.
  intros w table any fs gs r P. unfold wanted. destruct fs as [|f fs].
  - apply Permutation_nil in P. now subst.
  - destruct gs as [|g gs]; [symmetry in P; apply Permutation_nil in P; discriminate|].
    destruct any; [now apply existsb_perm|now apply forallb_perm].
Qed.

Theorem order_free : forall w table r gs out n, Permutation (r_filters r) gs ->
  (answer w table r out n <-> answer w table (with_filters r gs) out n).
Proof.
  intros w table r gs out n P. unfold answer, sorted_by, page_size, with_filters.
  cbn [r_lop r_filters r_limit r_offset r_by r_order r_count].
  rewrite (filter_ext _ _ (fun x => wanted_perm w table (r_lop r =? "or") _ _ x P)). tauto.
Qed.

Lemma filter_perm : forall A (g : A -> bool) l m, Permutation l m -> Permutation (filter g l) (filter g m).
Proof.
  intros A g l m P. induction P; cbn; [constructor| | |eapply Permutation_trans; eassumption].
  - destruct (g x); [now constructor|exact IHP].
  - destruct (g x), (g y); try reflexivity. apply perm_swap.
Qed.

Lemma covered_perm : forall table r gs, Permutation (r_filters r) gs -> covered table r ->
  covered table (with_filters r gs).
Proof.
  intros table r gs P [V N D B]. constructor; cbn [with_filters r_filters r_by].
  - exact (Permutation_Forall P V).
  - exact (Permutation_Forall P N).
  - intros T. rewrite <- (Permutation_length (filter_perm _ about_indicator _ _ P)). exact (D T).
  - exact B.
Qed.

Theorem served_any_order : forall w table r gs text args, sane w -> In table tables -> covered table r ->
  Permutation (r_filters r) gs -> filtered table r = Some (text, args) ->
  exists text' args', filtered table (with_filters r gs) = Some (text', args')
    /\ forall out n, served w text args out n <-> served w text' args' out n.
Proof.
  intros w table r gs text args S T C P F.
  assert (N : filtered table r <> None) by congruence. apply (filtered_some _ _ T) in N as [L K].
  pose proof (proj2 (filtered_some table (with_filters r gs) T) (conj L (Permutation_Forall P K))) as M.
  destruct (filtered table (with_filters r gs)) as [[text' args']|] eqn:E; [|congruence].
  exists text', args'. split; [reflexivity|]. intros out n.
  rewrite (served_answer w _ _ _ _ S T C F), (served_answer w _ _ _ _ S T (covered_perm _ _ _ P C) E).
  now apply order_free.
Qed.
