(** The query a listing sends is one the database takes. *)

From Coq Require Import List Bool Arith ZArith Lia Ascii String.
From Verif Require Import BodyModel FilterSql FilterModel FilterSpec FilterLex FilterParse FilterGen FilterBuild FilterQuery FilterMean.
Import ListNotations.
Local Open Scope nat_scope.
Local Open Scope string_scope.
Local Open Scope list_scope.

(** * Filters taken *)

Lemma op_iff : forall s o, op_of s = Some o <-> In (s, o) op_names.
Proof.
  intros s o. split.
  - intros E. apply op_find in E. now apply find_some in E.
  - unfold op_names. cbn [In]. intros H.
    repeat (destruct H as [H|H]; [injection H as <- <-; reflexivity|]). destruct H.
Qed.

Lemma fields_filterable : forall table c, In table tables ->
  (In c (valid_fields table) <-> In c (filterable table)).
Proof.
  intros table c I. pattern table. apply in_tables; [exact I|..]; vm_compute; tauto.
Qed.

Lemma letter_in : forall c, is_letter c = true <-> In c (list_ascii_of_string letters).
Proof.
  intros c. split; intros H.
  - destruct c as [[] [] [] [] [] [] [] []]; try discriminate H; vm_compute; tauto.
  - assert (F : forallb is_letter (list_ascii_of_string letters) = true) by reflexivity.
    rewrite forallb_forall in F. now apply F.
Qed.

Lemma key_in : forall c, key_char c = true <-> In c (list_ascii_of_string (letters ++ "0123456789_")).
Proof.
  intros c. split; intros H.
  - destruct c as [[] [] [] [] [] [] [] []]; try discriminate H; vm_compute; tauto.
  - assert (F : forallb key_char (list_ascii_of_string (letters ++ "0123456789_")) = true) by reflexivity.
    rewrite forallb_forall in F. now apply F.
Qed.

Lemma good_plain : forall k, good_key k = true <-> plain_key k.
Proof.
  intros [|c s]; cbn [good_key].
  - split; [discriminate|]. intros (c & s & E & _). discriminate E.
  - rewrite andb_true_iff, letter_in, forallb_forall. split.
    + intros [L F]. exists c, s. split; [reflexivity|]. split; [exact L|]. apply Forall_forall.
      intros x I. apply key_in. now apply F.
    + intros (c' & s' & E & L & F). injection E as <- <-. split; [exact L|]. rewrite Forall_forall in F.
      intros x I. apply key_in. now apply F.
Qed.

Lemma meta_field : forall table, In table tables -> mem "meta_data" (valid_fields table) = true.
Proof. intros table I. pattern table. apply in_tables; [exact I|..]; reflexivity. Qed.

Theorem valid_taken : forall table f, In table tables -> (valid_filter table f = true <-> taken table f).
Proof.
  intros table f T. unfold valid_filter. rewrite (meta_field _ T). split.
  - destruct (op_of (f_op f)) as [o|] eqn:O; [|discriminate]. intros V.
    apply andb_true_iff in V as [V F]. apply andb_true_iff in V as [N S]. constructor.
    + exists o. split; [now apply op_iff|]. split; [|split].
      * intros -> Q. rewrite Q in N. discriminate N.
      * intros ->. now apply Nat.eqb_eq.
      * intros -> E. rewrite E in S. cbn in S. destruct o; try discriminate S; cbn; tauto.
    + destruct (after "meta_data." (f_field f)) as [k|] eqn:A.
      * right. exists k. split; [now apply after_app|now apply good_plain].
      * left. apply fields_filterable; [exact T|]. now apply mem_in.
  - intros [(o & I & N & B & S) F]. rewrite (proj2 (op_iff _ _) I).
    apply andb_true_iff. split; [apply andb_true_iff; split|].
    + destruct o; try reflexivity.
      * destruct (f_values f); [exfalso; now apply N|reflexivity].
      * now apply Nat.eqb_eq, B.
    + destruct (String.eqb_spec table "transactions") as [E|]; [|reflexivity].
      destruct (String.eqb_spec (f_field f) "balance_id") as [G|]; [|reflexivity].
      specialize (S E G). cbn [In] in S. cbn [andb].
      repeat (destruct S as [<- | S]; [reflexivity|]). destruct S.
    + destruct F as [F|(k & E & K)].
      * apply fields_filterable in F; [|exact T]. destruct (fields_plain _ _ F) as [_ ->]. now apply mem_in.
      * rewrite E, after_of. now apply good_plain.
Qed.

(** * Parameters *)

Lemma column_params : forall c o v vs p n, enough o vs ->
  (In n (params_in (fst (fst (column_made c o v vs p))))
   <-> p <= n < p + List.length (snd (column_made c o v vs p))).
Proof.
  intros c o v vs p n E.
  destruct o; cbn [column_made single fst snd params_in List.length In]; try lia.
  - destruct (all_strings vs); cbn [single fst snd params_in List.length In]; [lia|].
    rewrite in_seq, map_length. lia.
  - rewrite map_length. cbn [enough] in E. rewrite E. lia.
Qed.

(** Everything in the conditions made of a filter. *)
Definition in_made {A} (g : cond -> list A) (m : made) : list A := g (fst (fst m)) ++ flat_map g (snd (fst m)).

Lemma made_params : forall table f p n, valid_filter table f = true ->
  (In n (in_made params_in (made_of table f p) ++ flat_map params_in (sub_of table f p))
   <-> p <= n < p + width table f p).
Proof.
  intros table f p n V. destruct (valid_op _ _ V) as [_ E]. unfold width, in_made, sub_of, made_of.
  destruct (kind_of table f) as [k| | |].
  - rewrite app_nil_r. unfold meta_made.
    destruct (o_of f); try (cbn; lia).
    + destruct (f_value f); cbn; lia.
    + cbn [single fst snd params_in flat_map]. rewrite app_nil_r, in_seq, map_length. lia.
    + cbn [single fst snd params_in flat_map app In]. cbn [enough] in E. rewrite map_length, E. lia.
  - rewrite app_nil_r. unfold sides_made. cbn [fst snd].
    pose proof (column_params "source" (o_of f) (f_value f) (f_values f) p n E) as A.
    pose proof (column_params "destination" (o_of f) (f_value f) (f_values f) p n E) as B.
    assert (L : snd (column_made "destination" (o_of f) (f_value f) (f_values f) p)
                = snd (column_made "source" (o_of f) (f_value f) (f_values f) p)).
    { destruct (o_of f); try reflexivity. cbn. destruct (all_strings (f_values f)); reflexivity. }
    rewrite L in B. revert A B. generalize (column_made "source" (o_of f) (f_value f) (f_values f) p).
    generalize (column_made "destination" (o_of f) (f_value f) (f_values f) p).
    intros b a A B. destruct (o_of f); cbn [fst snd params_in flat_map]; rewrite app_nil_r, in_app_iff, A, B; tauto.
  - cbn [fst snd sides params_in flat_map app]. rewrite app_nil_r. now apply column_params.
  - rewrite app_nil_r. unfold standard_made.
    assert (G : forall v, In n (params_in (fst (fst (column_made (f_field f) (o_of f) v (f_values f) p)))
      ++ flat_map params_in (snd (fst (column_made (f_field f) (o_of f) v (f_values f) p))))
      <-> p <= n < p + List.length (snd (column_made (f_field f) (o_of f) v (f_values f) p))).
    { intros v. rewrite column_alone, app_nil_r. now apply column_params. }
    destruct (o_of f); try exact (G _). destruct (f_value f); try exact (G _). cbn. lia.
Qed.

Lemma placed_params : forall table fs q n, Forall (fun f => valid_filter table f = true) fs ->
  ((exists f p, In (f, p) (placed table fs q)
      /\ In n (in_made params_in (made_of table f p) ++ flat_map params_in (sub_of table f p)))
   <-> q <= n < q + List.length (args_of table (placed table fs q))).
Proof.
  intros table fs q n V. revert q. induction V as [|f fs Vf Vs IH]; intros q.
  - cbn. split; [intros (f & p & [] & _)|lia].
  - cbn [placed args_of flat_map fst snd]. rewrite app_length.
    specialize (IH (q + width table f q)). unfold args_of in IH.
    pose proof (made_params table f q n Vf) as M. unfold width in *. split.
    + intros (g & p & [E|I] & H).
      * injection E as -> ->. apply M in H. lia.
      * assert (X : q + List.length (snd (made_of table f q)) <= n
          < q + List.length (snd (made_of table f q))
            + List.length (flat_map (fun x : filt * nat => snd (made_of table (fst x) (snd x)))
                (placed table fs (q + List.length (snd (made_of table f q)))))).
        { apply IH. exists g, p. split; [exact I|exact H]. }
        lia.
    + intros L. destruct (le_lt_dec (q + List.length (snd (made_of table f q))) n) as [G|G].
      * destruct (proj2 IH ltac:(lia)) as (g & p & I & H). exists g, p. split; [now right|exact H].
      * exists f, q. split; [now left|]. apply M. lia.
Qed.

(** * What is in the whole condition *)

Section Whole.
  Variable A : Type.
  Variable g : cond -> list A.
  Hypothesis g_and : forall a b, g (And a b) = g a ++ g b.
  Hypothesis g_or : forall a b, g (Or a b) = g a ++ g b.

  Lemma joined_all : forall cs c, g (joined c cs) = g c ++ flat_map g cs.
  Proof using g_and.
    induction cs as [|d cs IH]; intros c; cbn [joined flat_map]; [now rewrite app_nil_r|].
    now rewrite g_and, IH.
  Qed.

  Lemma disj_all : forall xs x, g (disj x xs) = flat_map (fun x => g (fst x) ++ flat_map g (snd x)) (x :: xs).
  Proof using g_and g_or.
    induction xs as [|y xs IH]; intros x; cbn [disj].
    - rewrite joined_all. cbn. now rewrite app_nil_r.
    - rewrite g_or, joined_all, IH. reflexivity.
  Qed.

  Lemma flat_all : forall xs, flat_map g (flat xs) = flat_map (fun x => g (fst x) ++ flat_map g (snd x)) xs.
  Proof using.
    unfold flat. induction xs as [|x xs IH]; [reflexivity|]. cbn [flat_map app].
    rewrite flat_map_app, IH, app_assoc. reflexivity.
  Qed.

  Lemma where_all : forall lop xs,
    match where_of lop xs with Some c => g c | None => [] end
    = flat_map (fun x => g (fst x) ++ flat_map g (snd x)) xs.
  Proof using g_and g_or.
    intros lop [|x xs]; [reflexivity|]. cbn [where_of]. destruct (lop =? "or"); [apply disj_all|].
    rewrite joined_all, flat_map_app, flat_all. cbn [flat_map]. now rewrite app_assoc.
  Qed.
End Whole.

Lemma where_in : forall A (g : cond -> list A),
  (forall a b, g (And a b) = g a ++ g b) -> (forall a b, g (Or a b) = g a ++ g b) ->
  forall table lop l y,
  In y (match where_of lop (conds_of table l) with Some c => g c | None => [] end)
  <-> exists f p, In (f, p) l /\ In y (in_made g (made_of table f p)).
Proof.
  intros A g G1 G2 table lop l y. rewrite (where_all A g G1 G2). unfold conds_of. rewrite in_flat_map. split.
  - intros (x & I & H). apply in_map_iff in I as ([f p] & <- & I). exists f, p. split; assumption.
  - intros (f & p & I & H). exists (fst (made_of table f p)). split; [|exact H].
    apply in_map_iff. exists (f, p). split; [reflexivity|exact I].
Qed.

(** * Columns *)

Lemma column_columns : forall c o v vs p, columns_in (fst (fst (column_made c o v vs p))) = [c].
Proof. intros c o v vs p. destruct o; try reflexivity. cbn. destruct (all_strings vs); reflexivity. Qed.

Lemma columns_there : forall table c, In table tables -> In c (columns table) ->
  ~ (table = "transactions" /\ (c = "balance_id" \/ c = "indicator")) -> In c (schema ("blnk." ++ table)).
Proof.
  intros table c T I N. rewrite <- fields_columns in I. apply fields_filterable in I; [|exact T].
  unfold filterable in I. apply in_app_iff in I as [I|I]; [now apply filter_In in I|].
  exfalso. destruct (String.eqb_spec table "transactions"); [|destruct I].
  apply N. split; [assumption|]. destruct I as [<- | [<- | []]]; tauto.
Qed.

Lemma meta_there : forall table, In table tables -> In "meta_data" (schema ("blnk." ++ table)).
Proof. intros table I. pattern table. apply in_tables; [exact I|..]; vm_compute; tauto. Qed.

Lemma made_columns : forall table f p c, In table tables -> valid_filter table f = true ->
  In c (in_made columns_in (made_of table f p)) -> In c (schema ("blnk." ++ table)).
Proof.
  intros table f p c T V. unfold in_made, made_of. pose proof (valid_kind _ _ V) as K.
  destruct (kind_of table f) as [k| | |].
  - intros I. replace c with "meta_data"; [now apply meta_there|].
    unfold meta_made in I. destruct (o_of f); try (destruct (f_value f)); cbn in I; intuition.
  - destruct K as (_ & _ & ->). intros I. unfold sides_made in I.
    pose proof (column_columns "source" (o_of f) (f_value f) (f_values f) p) as A.
    pose proof (column_columns "destination" (o_of f) (f_value f) (f_values f) p) as B.
    assert (X : c = "source" \/ c = "destination").
    { destruct (o_of f); cbn [fst snd columns_in flat_map] in I; rewrite A, B in I; cbn in I; intuition. }
    destruct X as [-> | ->]; vm_compute; tauto.
  - destruct K as (_ & ->). intros I. cbn in I. destruct I as [<- | [<- | []]]; vm_compute; tauto.
  - destruct K as (F & _ & N). intros I. replace c with (f_field f); [now apply columns_there|].
    unfold standard_made in I.
    assert (G : forall v, In c (columns_in (fst (fst (column_made (f_field f) (o_of f) v (f_values f) p)))
      ++ flat_map columns_in (snd (fst (column_made (f_field f) (o_of f) v (f_values f) p)))) -> f_field f = c).
    { intros v. rewrite column_alone, column_columns. cbn. intuition. }
    destruct (o_of f); try exact (G _ I). destruct (f_value f); try exact (G _ I). cbn in I. intuition.
Qed.

Lemma column_uses : forall c o v vs p, uses (fst (fst (column_made c o v vs p))) = [].
Proof. intros c o v vs p. destruct o; try reflexivity. cbn. destruct (all_strings vs); reflexivity. Qed.

Lemma made_uses : forall table f p u, In u (in_made uses (made_of table f p)) ->
  kind_of table f = KInd /\ u = ("_indicator_matches", "balance_id").
Proof.
  intros table f p u. unfold in_made, made_of. destruct (kind_of table f) as [k| | |]; intros I.
  - exfalso. unfold meta_made in I. destruct (o_of f); try (destruct (f_value f)); cbn in I; intuition.
  - exfalso. unfold sides_made in I.
    pose proof (column_uses "source" (o_of f) (f_value f) (f_values f) p) as A.
    pose proof (column_uses "destination" (o_of f) (f_value f) (f_values f) p) as B.
    destruct (o_of f); cbn [fst snd uses flat_map] in I; rewrite A, B in I; exact I.
  - cbn in I. split; [reflexivity|]. destruct I as [<- | [<- | []]]; reflexivity.
  - exfalso. unfold standard_made in I.
    assert (G : forall v, ~ In u (uses (fst (fst (column_made (f_field f) (o_of f) v (f_values f) p)))
      ++ flat_map uses (snd (fst (column_made (f_field f) (o_of f) v (f_values f) p))))).
    { intros v. rewrite column_alone, column_uses. auto. }
    destruct (o_of f); try exact (G _ I). destruct (f_value f); try exact (G _ I). cbn in I. intuition.
Qed.

(** * Values *)

Definition plainly (f : filt) : Prop :=
  (simple (f_value f)
   \/ f_op f = "eq" /\ exists k s, f_field f = ("meta_data." ++ k)%string /\ f_value f = VOther s)
  /\ Forall simple (f_values f).

Lemma sent_exact : forall v, simple v -> sendable (extract v).
Proof. destruct v; cbn; auto. Qed.

Lemma sent_text : forall v, simple v -> sendable (as_text v).
Proof. destruct v as [|[]| | | | | | | |]; cbn; auto. Qed.

Lemma sent_map : forall g l, (forall v, simple v -> sendable (g v)) -> Forall simple l -> Forall sendable (map g l).
Proof. intros g l H F. induction F; constructor; auto. Qed.

Lemma column_sent : forall c o v vs p, simple v -> Forall simple vs -> Forall sendable (snd (column_made c o v vs p)).
Proof.
  intros c o v vs p H F. pose proof (sent_exact _ H).
  destruct o; cbn [column_made single snd]; try (repeat constructor; assumption).
  - destruct (all_strings vs); cbn [single snd]; [repeat constructor|]. now apply sent_map; [apply sent_exact|].
  - now apply sent_map; [apply sent_exact|].
Qed.

Lemma made_sent : forall table f p, plainly f -> Forall sendable (snd (made_of table f p)).
Proof.
  intros table f p [[H|(E & k & s & Q & W)] F].
  - unfold made_of. destruct (kind_of table f) as [k| | |].
    + pose proof (sent_exact _ H). pose proof (sent_text _ H).
      unfold meta_made. destruct (o_of f); cbn [single snd]; try (repeat constructor; assumption).
      * destruct (f_value f); cbn; repeat constructor.
      * apply sent_map; [apply sent_text|exact F].
      * apply sent_map; [apply sent_exact|exact F].
    + now apply column_sent.
    + now apply column_sent.
    + unfold standard_made. pose proof (fun v (S : simple v) => column_sent (f_field f) (o_of f) v (f_values f) p S F) as G.
      destruct (o_of f); try exact (G _ H). destruct (f_value f); try exact (G _ H). cbn. repeat constructor.
  - unfold made_of, kind_of, o_of. rewrite Q, after_of, E. cbn [op_of String.eqb Ascii.eqb Bool.eqb].
    unfold meta_made. rewrite W. cbn. repeat constructor.
Qed.

(** * The query *)

Lemma sort_there : forall table by_, In table tables ->
  (In by_ (filterable table) -> In by_ (schema ("blnk." ++ table))) ->
  sort_field table by_ = (if mem by_ (filterable table) then by_ else "created_at")
  /\ In (sort_field table by_) (schema ("blnk." ++ table)).
Proof.
  intros table by_ T S.
  assert (M : mem by_ (filterable table) = mem by_ (valid_fields table)).
  { apply eq_true_iff_eq. rewrite !mem_in. symmetry. now apply fields_filterable. }
  assert (C : In "created_at" (schema ("blnk." ++ table))).
  { pattern table. apply in_tables; [exact T|..]; vm_compute; tauto. }
  rewrite M. unfold sort_field, safe_column. replace (columns table) with (valid_fields table) by apply fields_columns.
  destruct (String.eqb_spec by_ "") as [->|N].
  - assert (E : mem "" (valid_fields table) = false).
    { pattern table. apply in_tables; [exact T|..]; reflexivity. }
    rewrite E. split; [reflexivity|exact C].
  - destruct (mem by_ (valid_fields table)) eqn:B; [|split; [reflexivity|exact C]].
    replace (by_ =? "") with false by (symmetry; now apply String.eqb_neq).
    split; [reflexivity|]. apply S. apply mem_in. exact M.
Qed.

Lemma selected_there : forall (count : bool) table c, In table tables -> In (TWord c) (cols table count) ->
  In c (schema ("blnk." ++ table)) \/ In c ["COALESCE"; "COUNT"; "OVER"; "total_count"].
Proof.
  intros count table c T I.
  assert (F : forallb (fun t => match t with
     | TWord c => mem c (schema ("blnk." ++ table)) || mem c ["COALESCE"; "COUNT"; "OVER"; "total_count"]
     | _ => true end) (cols table count) = true).
  { pattern table. apply in_tables; [exact T|..]; destruct count; vm_compute; reflexivity. }
  rewrite forallb_forall in F. specialize (F _ I). apply orb_true_iff in F as [F|F]; apply mem_in in F; auto.
Qed.

Lemma few_subs : forall table fs, (table = "transactions" -> List.length (filter about_indicator fs) <= 1) ->
  forall q, List.length (subs_in table (placed table fs q)) <= 1.
Proof.
  intros table fs L q.
  destruct (String.eqb_spec table "transactions") as [T|T]; [|rewrite no_subs by exact T; cbn; lia].
  specialize (L T). revert q. induction fs as [|f fs IH]; intros q; [cbn; lia|].
  cbn [filter] in L. cbn [placed subs_in flat_map fst snd]. rewrite app_length.
  destruct (about_indicator f) eqn:B.
  - cbn in L. assert (N : filter about_indicator fs = []) by (destruct (filter about_indicator fs); [reflexivity|cbn in L; lia]).
    pose proof (none_about table fs (q + width table f q) N) as Z. unfold subs_in in Z. rewrite Z.
    unfold sub_of. destruct (kind_of table f); cbn; lia.
  - specialize (IH L (q + width table f q)). unfold subs_in in IH.
    assert (Z : sub_of table f q = []).
    { unfold sub_of. destruct (kind_of table f) eqn:K; try reflexivity. apply kind_about in K. congruence. }
    rewrite Z. cbn [List.length]. lia.
Qed.

Lemma query_accepted : forall table lop count fs by_ asc limit offset,
  In table tables -> Forall (fun f => valid_filter table f = true) fs -> Forall plainly fs ->
  (table = "transactions" -> List.length (filter about_indicator fs) <= 1) ->
  (In by_ (filterable table) -> In by_ (schema ("blnk." ++ table))) ->
  let l := placed table fs 1 in
  let n := 1 + List.length (args_of table l) in
  accepted (the_query table lop count (conds_of table l) (subs_in table l) (sort_field table by_) asc n)
           (args_of table l ++ [VInt (Z.of_nat limit); VInt (Z.of_nat offset)]) limit offset.
Proof.
  intros table lop count fs by_ asc limit offset T V P L So l n.
  assert (V' : forall f p, In (f, p) l -> valid_filter table f = true).
  { intros f p I. rewrite Forall_forall in V. apply V. exact (placed_in _ _ _ _ _ I). }
  constructor; cbn [the_query q_subs q_cols q_from q_where q_order q_desc q_limit q_offset].
  - apply Forall_app. split; [|repeat constructor]. unfold args_of. apply Forall_flat_map.
    apply Forall_forall. intros [f p] I. apply made_sent. rewrite Forall_forall in P. apply P.
    exact (placed_in _ _ _ _ _ I).
  - intros m. unfold params, where_. cbn [the_query q_subs q_where q_limit q_offset].
    rewrite !in_app_iff, (where_in _ params_in (fun _ _ => eq_refl) (fun _ _ => eq_refl)), app_length.
    pose proof (placed_params table fs 1 m V) as Q. fold l in Q. cbn [In List.length].
    assert (X : In m (flat_map (fun s => params_in (s_cond s)) (map matches (subs_in table l)))
                <-> exists f p, In (f, p) l /\ In m (flat_map params_in (sub_of table f p))).
    { rewrite in_flat_map. unfold subs_in. split.
      - intros (s & I & H). apply in_map_iff in I as (c & <- & I). apply in_flat_map in I as ([f p] & I & J).
        exists f, p. split; [exact I|]. apply in_flat_map. exists c. split; assumption.
      - intros (f & p & I & H). apply in_flat_map in H as (c & J & H). exists (matches c). split; [|exact H].
        apply in_map. apply in_flat_map. exists (f, p). split; assumption. }
    rewrite X. unfold n. split.
    + intros [(f & p & I & H)|[(f & p & I & H)|[E|[E|[]]]]]; [| |lia|lia].
      * assert (1 <= m < 1 + List.length (args_of table l)); [|lia].
        apply Q. exists f, p. split; [exact I|]. apply in_app_iff. now right.
      * assert (1 <= m < 1 + List.length (args_of table l)); [|lia].
        apply Q. exists f, p. split; [exact I|]. apply in_app_iff. now left.
    + intros R. destruct (le_lt_dec m (List.length (args_of table l))) as [G|G].
      * destruct (proj2 Q ltac:(lia)) as (f & p & I & H). apply in_app_iff in H as [H|H].
        -- right; left. exists f, p. split; assumption.
        -- left. exists f, p. split; assumption.
      * right; right. lia.
  - apply Forall_forall. intros c I. unfold where_ in I. cbn [the_query q_where] in I.
    apply (where_in _ columns_in (fun _ _ => eq_refl) (fun _ _ => eq_refl)) in I as (f & p & I & H).
    exact (made_columns table f p c T (V' _ _ I) H).
  - exact (proj2 (sort_there _ _ T So)).
  - intros c I. exact (selected_there count table c T I).
  - pose proof (few_subs table fs L 1) as F. fold l in F. destruct (subs_in table l) as [|a [|b us]].
    + constructor.
    + constructor; [intros []|constructor].
    + cbn in F. lia.
  - apply Forall_forall. intros s I. apply in_map_iff in I as (c & <- & I).
    unfold subs_in in I. apply in_flat_map in I as ([f p] & I & J). cbn [fst snd] in J.
    unfold sub_of in J. destruct (kind_of table f); try contradiction. destruct J as [<- | []].
    cbn [matches s_alias s_from s_col s_cond]. unfold indicator_made. rewrite column_columns, column_uses.
    split; [|reflexivity]. repeat constructor; vm_compute; tauto.
  - apply Forall_forall. intros u I. unfold where_ in I. cbn [the_query q_where] in I.
    apply (where_in _ uses (fun _ _ => eq_refl) (fun _ _ => eq_refl)) in I as (f & p & I & H).
    apply made_uses in H as [K ->].
    exists (matches (fst (fst (indicator_made (o_of f) f p)))). split; [|split; reflexivity].
    apply in_map. unfold subs_in. apply in_flat_map. exists (f, p). split; [exact I|].
    cbn [fst snd]. unfold sub_of. rewrite K. now left.
  - unfold value_at, n. rewrite app_nth2 by lia.
    replace (1 + List.length (args_of table l) - 1 - List.length (args_of table l)) with 0 by lia. reflexivity.
  - unfold value_at, n. rewrite app_nth2 by lia.
    replace (S (1 + List.length (args_of table l)) - 1 - List.length (args_of table l)) with 1 by lia. reflexivity.
Qed.
