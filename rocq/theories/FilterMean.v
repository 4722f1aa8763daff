(** The conditions made of a filter hold of the rows the filter asks for. *)

From Coq Require Import List Bool Arith ZArith Lia Ascii String.
From Verif Require Import BodyModel FilterSql FilterModel FilterSpec FilterLex FilterParse FilterGen FilterBuild FilterQuery.
Import ListNotations.
Local Open Scope nat_scope.
Local Open Scope string_scope.
Local Open Scope list_scope.

(** The values from parameter [p] on. *)
Definition at_ (args : list value) (p : nat) (own : list value) : Prop :=
  forall i, i < List.length own -> value_at args (p + i) = nth i own VNull.

Lemma at_one : forall args p v, at_ args p [v] -> value_at args p = v.
Proof. intros args p v A. specialize (A 0 ltac:(cbn; lia)). now rewrite Nat.add_0_r in A. Qed.

Lemma at_two : forall args p a b, at_ args p [a; b] -> value_at args p = a /\ value_at args (S p) = b.
Proof.
  intros args p a b A. split.
  - specialize (A 0 ltac:(cbn; lia)). now rewrite Nat.add_0_r in A.
  - specialize (A 1 ltac:(cbn; lia)). now rewrite Nat.add_1_r in A.
Qed.

Lemma at_tail : forall args p a l, at_ args p (a :: l) -> at_ args (S p) l.
Proof.
  intros args p a l A i L. specialize (A (S i) ltac:(cbn; lia)). cbn [nth] in A. rewrite <- A. f_equal. lia.
Qed.

Lemma at_seq : forall (g : value -> bool) args l p, at_ args p l ->
  existsb (fun n => g (value_at args n)) (seq p (List.length l)) = existsb g l.
Proof.
  intros g args. induction l as [|a l IH]; intros p A; [reflexivity|].
  cbn [List.length seq existsb]. rewrite IH by exact (at_tail _ _ _ _ A).
  f_equal. f_equal. specialize (A 0 ltac:(cbn; lia)). now rewrite Nat.add_0_r in A.
Qed.

Lemma extract_exact : forall v, extract v = exact v.
Proof. destruct v; reflexivity. Qed.

Lemma as_worded : forall v, as_text v = worded v.
Proof. destruct v as [|[]| | | | | | | |]; reflexivity. Qed.

Lemma strings_any : forall (g : value -> bool) vs, all_strings vs = true ->
  existsb (fun s => g (VStr s)) (to_strings vs) = existsb g (map exact vs).
Proof.
  intros g. induction vs as [|v vs IH]; intros A; [reflexivity|].
  destruct v; try discriminate A. change (all_strings (VStr s :: vs)) with (all_strings vs) in A.
  cbn [to_strings map existsb exact]. f_equal. exact (IH A).
Qed.

(** * Columns *)

Lemma column_holds : forall w subs alias args r c o v vs p, enough o vs ->
  at_ args p (snd (column_made c o v vs p)) ->
  holds w subs alias args r (fst (fst (column_made c o v vs p)))
  = meets (true_ w r (Col (column alias c))) (null w r (Col (column alias c))) o (exact v) (map exact vs).
Proof.
  intros w subs alias args r c o v vs p E A.
  destruct o; cbn [column_made single fst snd holds here meets] in *;
    try (rewrite (at_one _ _ _ A), extract_exact; reflexivity); try reflexivity.
  - destruct (all_strings vs) eqn:S; cbn [single fst snd holds here] in *.
    + rewrite (at_one _ _ _ A). now apply strings_any.
    + rewrite (map_ext _ _ extract_exact) in A.
      rewrite <- (at_seq (true_ w r (Col (column alias c)) Eq) args (map exact vs) p A).
      now rewrite map_length.
  - destruct vs as [|a [|b [|]]]; try discriminate E. cbn [map] in A.
    destruct (at_two _ _ _ _ A) as [-> ->]. now rewrite !extract_exact.
Qed.

Lemma range_since : forall t, fst (range t) = since t /\ snd (range t) = (since t + unit_of (t_prec t))%Z.
Proof.
  intros [ns z p]. unfold range, since, unit_of, truncate, second. cbn [t_ns t_zone t_prec].
  destruct (String.eqb_spec p "microseconds") as [->|]; [cbn [fst snd String.eqb Ascii.eqb Bool.eqb]; rewrite Z.add_0_r; split; reflexivity|].
  destruct (String.eqb_spec p "milliseconds") as [->|]; [cbn [fst snd String.eqb Ascii.eqb Bool.eqb]; rewrite Z.add_0_r; split; reflexivity|].
  destruct (String.eqb_spec p "second") as [->|]; [cbn [fst snd String.eqb Ascii.eqb Bool.eqb]; rewrite Z.add_0_r; split; reflexivity|].
  destruct (String.eqb_spec p "minute") as [->|]; [cbn [fst snd String.eqb Ascii.eqb Bool.eqb]; rewrite Z.add_0_r; split; reflexivity|].
  destruct (String.eqb_spec p "hour") as [->|]; [cbn [fst snd String.eqb Ascii.eqb Bool.eqb]; rewrite Z.add_0_r; split; reflexivity|].
  destruct (String.eqb_spec p "day") as [->|]; cbn [fst snd].
  - change (86400 * 1000000000)%Z with 86400000000000%Z. split; lia.
  - rewrite Z.add_0_r. split; reflexivity.
Qed.

Lemma period_holds : forall w subs args r x t p,
  at_ args p (snd (period_made x t p)) -> here "" x = x ->
  holds w subs "" args r (fst (fst (period_made x t p)))
  && forallb (holds w subs "" args r) (snd (fst (period_made x t p)))
  = true_ w r x Ge (first t) && true_ w r x Lt (next t).
Proof.
  intros w subs args r x t p A H. cbn [period_made fst snd] in *.
  destruct (at_two _ _ _ _ A) as [A1 A2]. cbn [holds forallb]. rewrite A1, A2, H, andb_true_r.
  destruct (range_since t) as [-> ->]. reflexivity.
Qed.

Lemma one_holds : forall w subs args r c a, forall m, m = single c a ->
  holds w subs "" args r (fst (fst m)) && forallb (holds w subs "" args r) (snd (fst m))
  = holds w subs "" args r c.
Proof. intros w subs args r c a m ->. cbn. now rewrite andb_true_r. Qed.

Definition all_hold (w : pg) subs args (r : row w) (m : made) : bool :=
  holds w subs "" args r (fst (fst m)) && forallb (holds w subs "" args r) (snd (fst m)).

Lemma standard_holds : forall w subs args r c o f p, enough o (f_values f) ->
  at_ args p (snd (standard_made c o f p)) ->
  all_hold w subs args r (standard_made c o f p) = meets_column w r c o f.
Proof.
  intros w subs args r c o f p E A.
  assert (G : forall v, at_ args p (snd (column_made c o v (f_values f) p)) ->
    all_hold w subs args r (column_made c o v (f_values f) p)
    = meets (true_ w r (Col c)) (null w r (Col c)) o (exact v) (map exact (f_values f))).
  { intros v B. unfold all_hold. rewrite column_alone. cbn [forallb]. rewrite andb_true_r.
    exact (column_holds w subs "" args r c o v (f_values f) p E B). }
  unfold standard_made, meets_column in *.
  destruct o; try exact (G _ A). destruct (f_value f); try exact (G _ A).
  exact (period_holds w subs args r (Col c) t p A eq_refl).
Qed.

(** * Metadata *)

Lemma meta_holds : forall w subs args r k o f p, sane w -> enough o (f_values f) ->
  at_ args p (snd (meta_made k o f p)) ->
  all_hold w subs args r (meta_made k o f p) = meets_meta w r k o f.
Proof.
  intros w subs args r k o f p (N & _) E A. unfold meta_made, meets_meta in *.
  destruct o; cbn [enough] in E;
    try (unfold all_hold, single in *; cbn [fst snd forallb holds here meets] in *;
         rewrite (at_one _ _ _ A), andb_true_r; rewrite ?extract_exact, ?as_worded; reflexivity).
  - destruct (f_value f);
      try (unfold all_hold, single in *; cbn [fst snd forallb holds] in *;
           rewrite (at_one _ _ _ A), andb_true_r; reflexivity).
    exact (period_holds w subs args r (As "meta_data" k "timestamp") t p A eq_refl).
  - unfold all_hold, single in *; cbn [fst snd forallb holds here meets] in *. rewrite andb_true_r.
    rewrite (map_ext _ _ as_worded) in A.
    rewrite <- (at_seq (true_ w r (Text "meta_data" k) Eq) args (map worded (f_values f)) p A).
    now rewrite map_length.
  - unfold all_hold, single in *; cbn [fst snd forallb holds here meets] in *. rewrite andb_true_r.
    destruct (f_values f) as [|a [|b [|]]]; try discriminate E. cbn [map] in *.
    destruct (at_two _ _ _ _ A) as [-> ->]. now rewrite !extract_exact.
  - unfold all_hold, single; cbn [fst snd forallb holds here meets]. rewrite andb_true_r.
    change (column "" "meta_data") with "meta_data".
    destruct (null w r (Text "meta_data" k)) eqn:Q; [reflexivity|]. now rewrite (N _ _ _ Q).
  - unfold all_hold, single; cbn [fst snd forallb holds here meets]. rewrite andb_true_r.
    change (column "" "meta_data") with "meta_data".
    destruct (null w r (Text "meta_data" k)) eqn:Q; [reflexivity|]. now rewrite (N _ _ _ Q).
Qed.

(** * Sides *)

Lemma sides_holds : forall w subs args r o f p, enough o (f_values f) ->
  at_ args p (snd (sides_made o (f_value f) (f_values f) p)) ->
  all_hold w subs args r (sides_made o (f_value f) (f_values f) p) = meets_sides w r o f.
Proof.
  intros w subs args r o f p E A. unfold sides_made in *. cbn [snd] in A.
  assert (A' : at_ args p (snd (column_made "destination" o (f_value f) (f_values f) p))).
  { replace (snd (column_made "destination" o (f_value f) (f_values f) p))
      with (snd (column_made "source" o (f_value f) (f_values f) p)); [exact A|].
    destruct o; try reflexivity. cbn. destruct (all_strings (f_values f)); reflexivity. }
  pose proof (column_holds w subs "" args r "source" o _ _ p E A) as H1.
  pose proof (column_holds w subs "" args r "destination" o _ _ p E A') as H2.
  unfold all_hold, meets_sides. change (column "" "source") with "source" in H1.
  change (column "" "destination") with "destination" in H2.
  destruct o; cbn [fst snd forallb holds]; rewrite H1, H2, andb_true_r; reflexivity.
Qed.

Lemma existsb_filter : forall A (g h : A -> bool) l, existsb g (filter h l) = existsb (fun x => g x && h x) l.
Proof.
  intros A g h. induction l as [|x l IH]; [reflexivity|]. cbn.
  destruct (h x); cbn; rewrite IH, ?andb_true_r, ?andb_false_r; reflexivity.
Qed.

Lemma existsb_or : forall A (g h : A -> bool) l, existsb g l || existsb h l = existsb (fun x => g x || h x) l.
Proof.
  intros A g h. induction l as [|x l IH]; [reflexivity|]. cbn. rewrite <- IH.
  destruct (g x), (h x), (existsb g l), (existsb h l); reflexivity.
Qed.

Lemma existsb_ext_ : forall A (g h : A -> bool) l, (forall x, g x = h x) -> existsb g l = existsb h l.
Proof. intros A g h l E. induction l as [|x l IH]; [reflexivity|]. cbn. now rewrite E, IH. Qed.

Lemma indicator_holds : forall w subs args r o f p, enough o (f_values f) ->
  at_ args p (snd (indicator_made o f p)) ->
  subs "_indicator_matches"
  = (sub_rows w args (matches (fst (fst (indicator_made o f p)))), "balance_id") ->
  all_hold w subs args r ((sides, []), snd (indicator_made o f p)) = meets_indicator w r o f.
Proof.
  intros w subs args r o f p E A Q. unfold all_hold, sides, meets_indicator.
  cbn [fst snd forallb holds here]. rewrite andb_true_r, Q. cbn [fst snd].
  change (column "" "source") with "source". change (column "" "destination") with "destination".
  unfold sub_rows. cbn [matches s_alias s_cond s_from].
  rewrite !existsb_filter, existsb_or. apply existsb_ext_. intros b.
  rewrite <- andb_orb_distrib_l. f_equal.
  exact (column_holds w (fun _ => ([], "")) "b" args b "b.indicator" o _ _ p E A).
Qed.

(** * One filter *)

Lemma op_find : forall s o, op_of s = Some o -> find (fun x => String.eqb (fst x) s) op_names = Some (s, o).
Proof.
  intros s o. unfold op_of, op_names. cbn [find fst].
  repeat match goal with
  | |- (if ?a =? ?b then _ else _) = _ -> _ =>
      rewrite (String.eqb_sym b a); destruct (String.eqb_spec a b) as [->|]; [intros [= <-]; reflexivity|]
  end. discriminate.
Qed.

Lemma made_holds : forall w subs table args r f p, sane w -> valid_filter table f = true ->
  at_ args p (snd (made_of table f p)) ->
  (kind_of table f = KInd ->
   subs "_indicator_matches" = (sub_rows w args (matches (fst (fst (indicator_made (o_of f) f p)))), "balance_id")) ->
  all_hold w subs args r (made_of table f p) = fits w table r f.
Proof.
  intros w subs table args r f p S V A Q. destruct (valid_op _ _ V) as [O E].
  unfold fits. rewrite (op_find _ _ O). unfold made_of in *.
  pose proof (valid_kind _ _ V) as K. unfold kind_of in *.
  destruct (after "meta_data." (f_field f)) as [k|]; [now apply meta_holds|].
  destruct (String.eqb table "transactions" && String.eqb (f_field f) "balance_id"); [now apply sides_holds|].
  destruct (String.eqb table "transactions" && String.eqb (f_field f) "indicator"); [now apply indicator_holds; auto|].
  now apply standard_holds.
Qed.

(** * All filters *)

Lemma holds_joined : forall w subs args r cs c,
  holds w subs "" args r (joined c cs) = holds w subs "" args r c && forallb (holds w subs "" args r) cs.
Proof.
  intros w subs args r. induction cs as [|d cs IH]; intros c; cbn [joined forallb]; [now rewrite andb_true_r|].
  cbn [holds]. now rewrite IH.
Qed.

Definition both (w : pg) subs args (r : row w) (x : cond * list cond) : bool :=
  holds w subs "" args r (fst x) && forallb (holds w subs "" args r) (snd x).

Lemma forallb_flat : forall w subs args r xs,
  forallb (holds w subs "" args r) (flat xs) = forallb (both w subs args r) xs.
Proof.
  intros w subs args r. induction xs as [|x xs IH]; [reflexivity|].
  unfold flat in *. cbn [flat_map app forallb]. rewrite forallb_app, IH. unfold both at 2. now rewrite andb_assoc.
Qed.

Lemma holds_disj : forall w subs args r xs x,
  holds w subs "" args r (disj x xs) = existsb (both w subs args r) (x :: xs).
Proof.
  intros w subs args r. induction xs as [|y xs IH]; intros x; cbn [disj].
  - rewrite holds_joined. cbn [existsb]. now rewrite orb_false_r.
  - cbn [holds]. rewrite holds_joined, IH. reflexivity.
Qed.

Lemma where_holds : forall w subs args r lop x xs, exists c, where_of lop (x :: xs) = Some c
  /\ holds w subs "" args r c
     = if lop =? "or" then existsb (both w subs args r) (x :: xs) else forallb (both w subs args r) (x :: xs).
Proof.
  intros w subs args r lop x xs. eexists. split; [reflexivity|].
  destruct (lop =? "or"); [apply holds_disj|].
  rewrite holds_joined, forallb_app, forallb_flat. cbn [forallb]. unfold both at 2. now rewrite andb_assoc.
Qed.

Lemma placed_at : forall table fs q f p, In (f, p) (placed table fs q) ->
  exists pre post, args_of table (placed table fs q) = pre ++ snd (made_of table f p) ++ post
                   /\ p = q + List.length pre.
Proof.
  intros table. induction fs as [|g fs IH]; intros q f p I; [destruct I|].
  cbn [placed args_of flat_map fst snd]. destruct I as [E|I].
  - injection E as -> ->. exists [], (args_of table (placed table fs (p + width table f p))).
    split; [reflexivity|cbn; lia].
  - destruct (IH _ _ _ I) as (pre & post & E & P).
    exists (snd (made_of table g q) ++ pre), post. unfold args_of in E. rewrite E, <- app_assoc.
    split; [reflexivity|]. rewrite app_length. unfold width in P. lia.
Qed.

Lemma own_at : forall table fs f p extra, In (f, p) (placed table fs 1) ->
  at_ (args_of table (placed table fs 1) ++ extra) p (snd (made_of table f p)).
Proof.
  intros table fs f p extra I. destruct (placed_at _ _ _ _ _ I) as (pre & post & E & P).
  intros i L. unfold value_at. rewrite E, <- !app_assoc, app_nth2 by lia.
  replace (p + i - 1 - List.length pre) with i by lia. now rewrite app_nth1.
Qed.

Lemma kind_about : forall table f, kind_of table f = KInd -> about_indicator f = true.
Proof.
  intros table f. unfold kind_of, about_indicator. destruct (after _ _); [discriminate|].
  destruct (String.eqb table "transactions" && String.eqb (f_field f) "balance_id"); [discriminate|].
  destruct (String.eqb (f_field f) "indicator"); [reflexivity|]. rewrite andb_false_r. discriminate.
Qed.

Lemma none_about : forall table fs q, filter about_indicator fs = [] -> subs_in table (placed table fs q) = [].
Proof.
  intros table. induction fs as [|f fs IH]; intros q N; [reflexivity|].
  cbn [filter] in N. destruct (about_indicator f) eqn:B; [discriminate|].
  cbn [placed subs_in flat_map fst snd]. unfold subs_in in IH. rewrite IH by exact N. rewrite app_nil_r.
  unfold sub_of. destruct (kind_of table f) eqn:K; try reflexivity. apply kind_about in K. congruence.
Qed.

Lemma one_about : forall table fs q f p, In (f, p) (placed table fs q) -> kind_of table f = KInd ->
  List.length (filter about_indicator fs) <= 1 ->
  subs_in table (placed table fs q) = [fst (fst (indicator_made (o_of f) f p))].
Proof.
  intros table. induction fs as [|g fs IH]; intros q f p I K L; [destruct I|].
  cbn [placed subs_in flat_map fst snd] in *. destruct I as [E|I].
  - injection E as -> ->. pose proof (kind_about _ _ K) as B. cbn [filter] in L. rewrite B in L. cbn in L.
    assert (N : filter about_indicator fs = []) by (destruct (filter about_indicator fs); [reflexivity|cbn in L; lia]).
    pose proof (none_about table fs (p + width table f p) N) as Z. unfold subs_in in Z. rewrite Z.
    unfold sub_of. now rewrite K.
  - assert (B : about_indicator g = false).
    { destruct (about_indicator g) eqn:B; [|reflexivity]. cbn [filter] in L. rewrite B in L. cbn in L.
      assert (N : filter about_indicator fs = []) by (destruct (filter about_indicator fs); [reflexivity|cbn in L; lia]).
      pose proof (kind_about _ _ K) as C. pose proof (placed_in _ _ _ _ _ I) as J.
      assert (X : In f (filter about_indicator fs)) by (apply filter_In; split; assumption). rewrite N in X. destruct X. }
    cbn [filter] in L. rewrite B in L. pose proof (IH _ _ _ I K L) as Z. unfold subs_in in Z. rewrite Z.
    unfold sub_of. destruct (kind_of table g) eqn:KG; try reflexivity. apply kind_about in KG. congruence.
Qed.

Lemma forallb_placed : forall (g : filt * nat -> bool) (h : filt -> bool) table fs q,
  (forall f p, In (f, p) (placed table fs q) -> g (f, p) = h f) ->
  forallb g (placed table fs q) = forallb h fs.
Proof.
  intros g h table fs q. revert q. induction fs as [|f fs IH]; intros q E; [reflexivity|].
  cbn [placed forallb]. rewrite (E f q) by now left. f_equal. apply IH. intros f' p I. apply E. now right.
Qed.

Lemma existsb_placed : forall (g : filt * nat -> bool) (h : filt -> bool) table fs q,
  (forall f p, In (f, p) (placed table fs q) -> g (f, p) = h f) ->
  existsb g (placed table fs q) = existsb h fs.
Proof.
  intros g h table fs q. revert q. induction fs as [|f fs IH]; intros q E; [reflexivity|].
  cbn [placed existsb]. rewrite (E f q) by now left. f_equal. apply IH. intros f' p I. apply E. now right.
Qed.

Lemma forallb_map_ : forall A B (g : B -> bool) (h : A -> B) l, forallb g (map h l) = forallb (fun x => g (h x)) l.
Proof. intros A B g h. induction l as [|x l IH]; [reflexivity|]. cbn. now rewrite IH. Qed.
Lemma existsb_map_ : forall A B (g : B -> bool) (h : A -> B) l, existsb g (map h l) = existsb (fun x => g (h x)) l.
Proof. intros A B g h. induction l as [|x l IH]; [reflexivity|]. cbn. now rewrite IH. Qed.

(** The rows kept are the rows wanted. *)
Lemma kept_wanted : forall w table lop count fs order asc n extra r,
  sane w -> Forall (fun f => valid_filter table f = true) fs ->
  List.length (filter about_indicator fs) <= 1 \/ table <> "transactions" ->
  let l := placed table fs 1 in
  let q := the_query table lop count (conds_of table l) (subs_in table l) order asc n in
  kept w q (args_of table l ++ extra) r = wanted w table (lop =? "or") fs r.
Proof.
  intros w table lop count fs order asc n extra r S V L l q. rewrite Forall_forall in V.
  unfold kept. cbn [q the_query q_where q_subs].
  assert (H : forall f p, In (f, p) l ->
    both w (subs_of w (args_of table l ++ extra) (map matches (subs_in table l))) (args_of table l ++ extra) r
         (fst (made_of table f p)) = fits w table r f).
  { intros f p I. apply made_holds; [exact S|apply V; exact (placed_in _ _ _ _ _ I)|now apply own_at|].
    intros K. destruct L as [L|T].
    - unfold subs_of. unfold l. rewrite (one_about _ _ _ _ _ I K L). reflexivity.
    - exfalso. pose proof (valid_kind table f (V _ (placed_in _ _ _ _ _ I))) as X. rewrite K in X. tauto. }
  destruct fs as [|f fs]; [reflexivity|].
  assert (Q : exists x xs, conds_of table l = x :: xs) by (unfold l; cbn; eauto).
  destruct Q as (x & xs & Q). rewrite Q.
  edestruct (where_holds w (subs_of w (args_of table l ++ extra) (map matches (subs_in table l)))
              (args_of table l ++ extra) r lop x xs) as (c & W & E).
  rewrite W, E, <- Q. unfold conds_of, wanted. rewrite forallb_map_, existsb_map_.
  destruct (lop =? "or").
  - now apply existsb_placed.
  - now apply forallb_placed.
Qed.
