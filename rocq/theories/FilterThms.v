(** Listings: what is sent, and what comes back. *)

From Coq Require Import List Bool Arith ZArith Lia Ascii String Sorted Permutation.
From Verif Require Import BodyModel FilterSql FilterModel FilterSpec FilterLex FilterParse FilterGen FilterBuild FilterQuery FilterMean FilterTake.
Import ListNotations.
Local Open Scope nat_scope.
Local Open Scope string_scope.
Local Open Scope list_scope.

(** * Sorting *)

Section Sort.
  Variable A : Type.
  Variable le : A -> A -> bool.
  Hypothesis total : forall a b, le a b = true \/ le b a = true.
  Hypothesis trans : forall a b c, le a b = true -> le b c = true -> le a c = true.

  Fixpoint put (x : A) (l : list A) : list A :=
    match l with [] => [x] | y :: l => if le x y then x :: y :: l else y :: put x l end.

  Lemma put_perm : forall x l, Permutation (put x l) (x :: l).
  Proof using.
    intros x. induction l as [|y l IH]; [reflexivity|]. cbn. destruct (le x y); [reflexivity|].
    rewrite IH. constructor.
  Qed.

  Lemma put_sorted : forall x l, StronglySorted (fun a b => le a b = true) l ->
    StronglySorted (fun a b => le a b = true) (put x l).
  Proof using total trans.
    intros x l H. induction H as [|y l H IH F]; cbn; [constructor; constructor|].
    destruct (le x y) eqn:E.
    - constructor; [now constructor|]. constructor; [exact E|].
      eapply Forall_impl; [|exact F]. intros z L. exact (trans _ _ _ E L).
    - constructor; [exact IH|]. apply (Permutation_Forall (Permutation_sym (put_perm x l))).
      constructor; [|exact F]. destruct (total x y); congruence.
  Qed.

  Lemma sorted_some : forall l, exists s, Permutation s l /\ StronglySorted (fun a b => le a b = true) s.
  Proof using total trans.
    induction l as [|x l (s & P & H)]; [exists []; split; constructor|].
    exists (put x s). split; [rewrite put_perm; now constructor|now apply put_sorted].
  Qed.
End Sort.

(** * Requests *)

Lemma resolve_or : forall s lop, resolve s = Some lop -> (lop =? "or") = (s =? "or").
Proof.
  intros s lop. unfold resolve.
  destruct (String.eqb_spec s "") as [->|]; [intros [= <-]; reflexivity|].
  destruct (String.eqb_spec s "and") as [->|]; [intros [= <-]; reflexivity|].
  destruct (String.eqb_spec s "or") as [->|]; [intros [= <-]; reflexivity|discriminate].
Qed.

Lemma resolve_lops : forall s lop, resolve s = Some lop -> lop = "and" \/ lop = "or".
Proof.
  intros s lop. unfold resolve. destruct ((s =? "") || (s =? "and")); [intros [= <-]; auto|].
  destruct (s =? "or"); [intros [= <-]; auto|discriminate].
Qed.

Lemma resolve_iff : forall s, resolve s <> None <-> In s [""; "and"; "or"].
Proof.
  intros s. unfold resolve. cbn [In]. split.
  - destruct (String.eqb_spec s "") as [->|]; [auto|]. destruct (String.eqb_spec s "and") as [->|]; [auto|].
    destruct (String.eqb_spec s "or") as [->|]; [auto|]. cbn. congruence.
  - intros [<- | [<- | [<- | []]]]; discriminate.
Qed.

Lemma known_table : forall table, In table tables -> (List.length (valid_fields table) =? 0)%nat = false.
Proof. intros table I. pattern table. apply in_tables; [exact I|..]; reflexivity. Qed.

Lemma build_some : forall table lop fs, In table tables -> lop = "and" \/ lop = "or" ->
  (build table lop fs <> None <-> Forall (taken table) fs).
Proof.
  intros table lop fs T L. unfold build. destruct fs as [|f fs]; [split; [constructor|discriminate]|].
  assert (V : validate table lop (f :: fs) = forallb (valid_filter table) (f :: fs)).
  { unfold validate. rewrite (known_table _ T). destruct L as [-> | ->]; reflexivity. }
  rewrite V. split.
  - destruct (forallb (valid_filter table) (f :: fs)) eqn:F; [|congruence]. intros _.
    rewrite forallb_forall in F. apply Forall_forall. intros g I. apply valid_taken; auto.
  - intros F. replace (forallb (valid_filter table) (f :: fs)) with true; [discriminate|].
    symmetry. apply forallb_forall. intros g I. rewrite Forall_forall in F. apply valid_taken; auto.
Qed.

Lemma by_known : forall table b,
  negb ((if mem b (valid_fields table) then b else "") =? "")
  && negb (mem (if mem b (valid_fields table) then b else "") (valid_fields table)) = false.
Proof.
  intros table b. destruct (mem b (valid_fields table)) eqn:M; [rewrite M; now rewrite andb_false_r|reflexivity].
Qed.

(** What is sent, unless the request is refused. *)
Theorem filtered_some : forall table r, In table tables ->
  (filtered table r <> None <-> In (r_lop r) [""; "and"; "or"] /\ Forall (taken table) (r_filters r)).
Proof.
  intros table r T. rewrite <- resolve_iff. unfold filtered.
  destruct (resolve (r_lop r)) as [lop|] eqn:R; [|split; [congruence|intros [? _]; congruence]].
  rewrite <- (build_some table lop) by (assumption || exact (resolve_lops _ _ R)).
  unfold listing. cbn [o_by]. rewrite by_known.
  destruct (build table lop (r_filters r)); split; try (intros [_ ?]; congruence); try congruence;
    intros _; try (split; discriminate); discriminate.
Qed.

Definition limit_of (r : request) : Z := (if (r_limit r <=? 0) || (100 <? r_limit r) then 20 else r_limit r)%Z.
Definition offset_of (r : request) : Z := (if r_offset r <? 0 then 0 else r_offset r)%Z.

Lemma limit_page : forall table r, capped table (limit_of r) = Z.of_nat (page_size r).
Proof.
  intros table r. unfold capped, limit_of, page_size.
  destruct ((table =? "transactions") || (table =? "balances"));
    destruct (Z.leb_spec (r_limit r) 0), (Z.ltb_spec 100 (r_limit r)), (Z.ltb_spec 0 (r_limit r)),
             (Z.leb_spec (r_limit r) 100); try lia; cbn [orb andb]; try reflexivity;
    repeat match goal with |- context [Z.leb ?a ?b] => destruct (Z.leb_spec a b); try lia
                         | |- context [Z.ltb ?a ?b] => destruct (Z.ltb_spec a b); try lia end; cbn [orb]; lia.
Qed.

Lemma offset_nat : forall r, offset_of r = Z.of_nat (Z.to_nat (r_offset r)).
Proof. intros r. unfold offset_of. destruct (Z.ltb_spec (r_offset r) 0); lia. Qed.

(** The query sent, as the database reads it. *)
Lemma filtered_read : forall table r text args, In table tables -> covered table r ->
  filtered table r = Some (text, args) ->
  exists lop,
  let l := placed table (r_filters r) 1 in
  let q := the_query table lop (r_count r) (conds_of table l) (subs_in table l)
             (sorted_by table r) (r_order r =? "asc") (1 + List.length (args_of table l)) in
  (lop =? "or") = (r_lop r =? "or") /\ read text = Some q
  /\ args = args_of table l ++ [VInt (Z.of_nat (page_size r)); VInt (Z.of_nat (Z.to_nat (r_offset r)))]
  /\ accepted q args (page_size r) (Z.to_nat (r_offset r))
  /\ Forall (fun f => valid_filter table f = true) (r_filters r).
Proof.
  intros table r text args T [CV CN CI CS] F. unfold filtered in F.
  destruct (resolve (r_lop r)) as [lop|] eqn:R; [|discriminate]. exists lop. cbv zeta.
  fold (limit_of r) in F. fold (offset_of r) in F.
  destruct (listing_read _ _ _ _ _ _ _ _ T CN F) as (Q & A & V). cbn [o_count o_by o_asc] in Q.
  rewrite limit_page, offset_nat in A.
  assert (B : sort_field table (if mem (r_by r) (valid_fields table) then r_by r else "") = sorted_by table r).
  { destruct (sort_there table _ T CS) as [E _]. unfold sorted_by. rewrite <- E.
    unfold sort_field at 2. destruct (mem (r_by r) (valid_fields table)) eqn:M.
    - unfold sort_field. now rewrite M.
    - destruct (r_by r =? ""); reflexivity. }
  rewrite B in Q. split; [exact (resolve_or _ _ R)|]. split; [exact Q|]. split; [exact A|]. split; [|exact V].
  rewrite A. replace (sorted_by table r) with (sort_field table (r_by r)) by exact (proj1 (sort_there table _ T CS)).
  apply query_accepted; assumption.
Qed.

(** * Answers *)

Theorem served_answer : forall w table r text args, sane w -> In table tables -> covered table r ->
  filtered table r = Some (text, args) ->
  forall out n, served w text args out n <-> answer w table r out n.
Proof.
  intros w table r text args S T C F out n.
  destruct (filtered_read _ _ _ _ T C F) as (lop & L & Q & A & K & V).
  set (l := placed table (r_filters r) 1) in *.
  assert (W : forall x, kept w (the_query table lop (r_count r) (conds_of table l) (subs_in table l)
             (sorted_by table r) (r_order r =? "asc") (1 + List.length (args_of table l))) args x
    = wanted w table (r_lop r =? "or") (r_filters r) x).
  { intros x. rewrite A, <- L. apply kept_wanted; [exact S|exact V|].
    destruct (String.eqb_spec table "transactions") as [E|E]; [left; exact (c_indicator _ _ C E)|now right]. }
  split.
  - intros (q & li & off & rows & Q' & K' & P & O & -> & ->).
    rewrite Q in Q'. injection Q' as <-.
    assert (E1 : li = page_size r).
    { pose proof (eq_trans (eq_sym (a_limit _ _ _ _ K')) (a_limit _ _ _ _ K)) as X. injection X as X. lia. }
    assert (E2 : off = Z.to_nat (r_offset r)).
    { pose proof (eq_trans (eq_sym (a_offset _ _ _ _ K')) (a_offset _ _ _ _ K)) as X. injection X as X. lia. }
    subst li off. exists rows. rewrite (filter_ext _ _ W) in P. cbn [the_query q_from q_order q_desc] in *.
    repeat split; assumption.
  - intros (rows & P & O & -> & ->).
    eexists _, _, _, rows. split; [exact Q|]. split; [exact K|]. rewrite (filter_ext _ _ W).
    cbn [the_query q_from q_order q_desc]. repeat split; assumption.
Qed.

Theorem answer_some : forall w table r, sane w -> exists out n, answer w table r out n.
Proof.
  intros w table r (_ & To & Tr).
  destruct (sorted_some _ (fun a b => if negb (r_order r =? "asc") then upto w (sorted_by table r) b a
                                      else upto w (sorted_by table r) a b)) with
    (l := filter (wanted w table (String.eqb (r_lop r) "or") (r_filters r)) (rows_of w ("blnk." ++ table)))
    as (s & P & O).
  - intros a b. destruct (negb (r_order r =? "asc")); apply To.
  - intros a b c. destruct (negb (r_order r =? "asc")); intros X Y; eapply Tr; eassumption.
  - eexists _, _, s. repeat split; [exact P|exact O].
Qed.

Theorem count_asked : forall table r text args, In table tables -> covered table r ->
  filtered table r = Some (text, args) -> r_count r = true ->
  exists q, read text = Some q /\ counted q.
Proof.
  intros table r text args T C F Y. destruct (filtered_read _ _ _ _ T C F) as (lop & _ & Q & _).
  eexists. split; [exact Q|]. unfold counted. cbn [the_query q_cols]. rewrite Y.
  pattern table. apply in_tables; [exact T|..].
  all: match goal with |- exists l, ?c = l ++ ?t =>
         exists (firstn (List.length c - List.length t) c); vm_compute; reflexivity end.
Qed.

Theorem filtered_none : forall table r, In table tables ->
  (filtered table r = None <-> ~ (In (r_lop r) [""; "and"; "or"] /\ Forall (taken table) (r_filters r))).
Proof.
  intros table r T. rewrite <- (filtered_some _ _ T). destruct (filtered table r); split; try congruence.
  intros H. exfalso. apply H. discriminate.
Qed.

Theorem listing_answers : forall w table r, sane w -> In table tables -> In (r_lop r) [""; "and"; "or"] ->
  Forall (taken table) (r_filters r) -> covered table r ->
  exists text args, filtered table r = Some (text, args)
    /\ (exists out n, served w text args out n)
    /\ (forall out n, served w text args out n <-> answer w table r out n)
    /\ (r_count r = true -> exists q, read text = Some q /\ counted q).
Proof.
  intros w table r S T L K C.
  pose proof (proj2 (filtered_some _ _ T) (conj L K)) as N.
  destruct (filtered table r) as [[text args]|] eqn:F; [|congruence]. exists text, args.
  pose proof (served_answer w table r text args S T C F) as A.
  split; [reflexivity|]. split; [|split; [exact A|exact (count_asked _ _ _ _ T C F)]].
  destruct (answer_some w table r S) as (out & n & H). exists out, n. now apply A.
Qed.
