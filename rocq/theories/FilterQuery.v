(** The query a listing sends, as the database reads it. *)

From Coq Require Import List Bool Arith ZArith Lia Ascii String.
From Verif Require Import BodyModel FilterSql FilterModel FilterSpec FilterLex FilterParse FilterGen FilterBuild.
Import ListNotations.
Local Open Scope nat_scope.
Local Open Scope string_scope.
Local Open Scope list_scope.

(** * Conditions joined *)

Definition flat (xs : list (cond * list cond)) : list cond := flat_map (fun y => fst y :: snd y) xs.

Lemma chain_app : forall cs c d ds, chain c (cs ++ d :: ds) = chain c cs ++ TAnd :: chain d ds.
Proof.
  induction cs as [|e cs IH]; intros c d ds; [reflexivity|].
  cbn [app chain]. rewrite IH, <- app_assoc. reflexivity.
Qed.

Lemma words_and : forall ts xs t x, reads t x -> Forall2 reads ts xs ->
  words (String.concat " AND " (t :: ts)) = Some (chain (fst x) (snd x ++ flat xs)).
Proof.
  induction ts as [|u ts IH]; intros xs t x R F; inversion F as [|? y ? ys Ru Fu]; subst.
  - cbn. rewrite app_nil_r. exact R.
  - change (String.concat " AND " (t :: u :: ts)) with (t ++ " AND " ++ String.concat " AND " (u :: ts))%string.
    cbn [flat flat_map app]. rewrite chain_app.
    exact (words_sep t _ " " _ _ R eq_refl (words_out " AND " [TAnd] _ _ eq_refl (IH _ _ _ Ru Fu))).
Qed.

Lemma words_wrapped : forall t x, reads t x ->
  words ("(" ++ t ++ ")")%string = Some (TOpen :: chain (fst x) (snd x) ++ [TClose]).
Proof.
  intros t x R. exact (words_out "(" [TOpen] _ _ eq_refl (words_sep t _ ")" "" [TClose] R eq_refl eq_refl)).
Qed.

Lemma words_or : forall ts xs t x, reads t x -> Forall2 reads ts xs ->
  words (String.concat " OR " (map (fun c => "(" ++ c ++ ")")%string (t :: ts))) = Some (choice x xs).
Proof.
  induction ts as [|u ts IH]; intros xs t x R F; inversion F as [|? y ? ys Ru Fu]; subst.
  - exact (words_wrapped _ _ R).
  - change (String.concat " OR " (map (fun c => "(" ++ c ++ ")")%string (t :: u :: ts)))
      with (("(" ++ t ++ ")") ++ " OR " ++ String.concat " OR " (map (fun c => "(" ++ c ++ ")")%string (u :: ts)))%string.
    pose proof (words_sep _ _ " " _ _ (words_wrapped _ _ R) eq_refl
                  (words_out " OR " [TOr] _ _ eq_refl (IH _ _ _ Ru Fu))) as W.
    cbn [choice]. cbn [app] in W. rewrite <- app_assoc in W. exact W.
Qed.

(** The whole condition. *)
Definition where_of (lop : string) (xs : list (cond * list cond)) : option cond :=
  match xs with
  | [] => None
  | x :: xs => Some (if lop =? "or" then disj x xs else joined (fst x) (snd x ++ flat xs))
  end.

Definition where_toks (lop : string) (xs : list (cond * list cond)) : list tok :=
  match xs with
  | [] => []
  | x :: xs => if lop =? "or" then choice x xs else chain (fst x) (snd x ++ flat xs)
  end.

Lemma words_expression : forall lop ts xs, Forall2 reads ts xs -> ts <> [] ->
  words (expression ts lop) = Some (where_toks lop xs).
Proof.
  intros lop ts xs F N. destruct F as [|t x ts xs R F]; [congruence|].
  unfold expression, where_toks. destruct (lop =? "or"); [now apply words_or|now apply words_and].
Qed.

Lemma read_where : forall lop x xs r n, Forall filled2 (x :: xs) -> no_or r -> no_and r ->
  List.length (where_toks lop (x :: xs)) + 2 < n ->
  exists c, where_of lop (x :: xs) = Some c /\ p_or n (where_toks lop (x :: xs) ++ r) = Some (c, r).
Proof.
  intros lop x xs r n F N M L. inversion F as [|? ? Fx Fs]; subst. eexists. split; [reflexivity|].
  unfold where_toks in *. destruct (lop =? "or").
  - now apply read_choice.
  - destruct n as [|n]; [lia|]. apply p_or_one; [|exact N]. apply read_chain; [exact (proj1 Fx)| |exact M|lia].
    apply Forall_app. split; [exact (proj2 Fx)|]. unfold flat. apply Forall_flat_map.
    eapply Forall_impl; [|exact Fs]. intros [c cs] [A B]. constructor; assumption.
Qed.

(** Every condition made is whole. *)
Lemma column_filled : forall c o v vs p, enough o vs -> filled2 (fst (column_made c o v vs p)).
Proof.
  intros c o v vs p E. destruct o; try (split; [exact I|constructor]).
  cbn [column_made]. destruct (all_strings vs); (split; [|constructor]); cbn; [exact I|].
  cbn [enough] in E. destruct vs; [congruence|discriminate].
Qed.

Lemma made_filled : forall table f p, valid_filter table f = true -> filled2 (fst (made_of table f p)).
Proof.
  intros table f p V. destruct (valid_op _ _ V) as [_ E]. unfold made_of.
  destruct (kind_of table f) as [k| | |].
  - unfold meta_made. destruct (o_of f); try (split; [cbn; auto|constructor]).
    + destruct (f_value f); split; cbn; repeat constructor.
    + cbn. cbn [enough] in E. destruct (f_values f); [congruence|discriminate].
  - pose proof (column_filled "source" (o_of f) (f_value f) (f_values f) p E) as [A _].
    pose proof (column_filled "destination" (o_of f) (f_value f) (f_values f) p E) as [B _].
    unfold sides_made. destruct (o_of f); (split; [split; assumption|constructor]).
  - split; [split; exact I|constructor].
  - unfold standard_made. pose proof (column_filled (f_field f) (o_of f) (f_value f) (f_values f) p E) as C.
    destruct (o_of f); try exact C. destruct (f_value f); try exact C.
    split; cbn; repeat constructor.
Qed.

Lemma sub_filled : forall table f p, valid_filter table f = true -> Forall filled (sub_of table f p).
Proof.
  intros table f p V. destruct (valid_op _ _ V) as [_ E]. unfold sub_of.
  destruct (kind_of table f); constructor; [|constructor].
  exact (proj1 (column_filled _ _ _ _ _ E)).
Qed.

Lemma placed_in : forall table fs p f q, In (f, q) (placed table fs p) -> In f fs.
Proof.
  intros table. induction fs as [|g fs IH]; intros p f q I; [destruct I|].
  destruct I as [E|I]; [injection E as <- _; now left|right; exact (IH _ _ _ I)].
Qed.

Lemma conds_filled : forall table fs p, Forall (fun f => valid_filter table f = true) fs ->
  Forall filled2 (conds_of table (placed table fs p)).
Proof.
  intros table fs p V. rewrite Forall_forall in V. apply Forall_forall. intros x I.
  apply in_map_iff in I as ([f q] & <- & I). apply made_filled. apply V. exact (placed_in _ _ _ _ _ I).
Qed.

Lemma subs_filled : forall table fs p, Forall (fun f => valid_filter table f = true) fs ->
  Forall filled (subs_in table (placed table fs p)).
Proof.
  intros table fs p V. rewrite Forall_forall in V. unfold subs_in. apply Forall_flat_map.
  apply Forall_forall. intros [f q] I. apply sub_filled. apply V. exact (placed_in _ _ _ _ _ I).
Qed.

(** * Named queries *)

Definition cte_toks (c : cond) : list tok :=
  TWord "_indicator_matches" :: TAs :: TOpen :: TSelect :: TWord "b.balance_id" :: TFrom
  :: TWord "blnk.balances" :: TWord "b" :: TWhere :: toks c ++ [TClose].

Fixpoint ctes_toks (c : cond) (cs : list cond) : list tok :=
  match cs with [] => cte_toks c | d :: cs => cte_toks c ++ TComma :: ctes_toks d cs end.

Lemma words_cte : forall t c, words t = Some (toks c) -> words (indicator_cte t) = Some (cte_toks c).
Proof.
  intros t c W. unfold indicator_cte.
  exact (words_out "_indicator_matches AS (SELECT b.balance_id FROM blnk.balances b WHERE "
           [TWord "_indicator_matches"; TAs; TOpen; TSelect; TWord "b.balance_id"; TFrom;
            TWord "blnk.balances"; TWord "b"; TWhere] _ _ eq_refl
           (words_sep t _ ")" "" [TClose] W eq_refl eq_refl)).
Qed.

Lemma words_ctes : forall ts cs t c, words t = Some (toks c) ->
  Forall2 (fun t c => words t = Some (toks c)) ts cs ->
  words (String.concat ", " (map indicator_cte (t :: ts))) = Some (ctes_toks c cs).
Proof.
  induction ts as [|u ts IH]; intros cs t c W F; inversion F as [|? d ? ds Wu Fu]; subst.
  - exact (words_cte _ _ W).
  - change (String.concat ", " (map indicator_cte (t :: u :: ts)))
      with (indicator_cte t ++ ", " ++ String.concat ", " (map indicator_cte (u :: ts)))%string.
    exact (words_sep _ _ "," _ _ (words_cte _ _ W) eq_refl
             (words_out ", " [TComma] _ _ eq_refl (IH _ _ _ Wu Fu))).
Qed.

Lemma read_ctes : forall cs c r n, filled c -> Forall filled cs -> List.length (ctes_toks c cs) + 2 < n ->
  match r with TComma :: _ => False | _ => True end ->
  p_subs n (ctes_toks c cs ++ r) = Some (map matches (c :: cs), r).
Proof.
  assert (R : forall c r n, filled c -> List.length (toks c) + 2 < n ->
    p_or n ((toks c ++ [TClose]) ++ r) = Some (c, TClose :: r)).
  { intros c r n F L. rewrite <- app_assoc. cbn [app].
    destruct n as [|n]; [lia|]. apply p_or_one; [|exact I]. 
    exact (read_chain [] c (TClose :: r) n F (Forall_nil _) I ltac:(cbn [chain]; lia)). }
  induction cs as [|d cs IH]; intros c r n F G L N; (destruct n as [|n]; [lia|]).
  - cbn [ctes_toks cte_toks List.length app] in *. rewrite app_length in L. cbn [List.length] in L.
    cbn [p_subs]. rewrite R by (assumption || lia). destruct r as [|[] r]; try reflexivity. destruct N.
  - cbn [ctes_toks cte_toks List.length app] in *. rewrite !app_length in L. cbn [List.length] in L.
    inversion G; subst. rewrite <- app_assoc. cbn [app p_subs]. rewrite R by (assumption || lia).
    rewrite IH by (assumption || lia). reflexivity.
Qed.

(** * The main query *)

Definition cols (table : string) (count : bool) : list tok :=
  match words (selected table ++ (if count then ", COUNT(*) OVER() AS total_count" else ""))%string with
  | Some l => l
  | None => []
  end.

Lemma in_tables : forall (P : string -> Prop) table, In table tables ->
  P "transactions" -> P "balances" -> P "ledgers" -> P "identity" -> P "accounts" -> P table.
Proof.
  intros P table I. unfold tables in I. intros.
  repeat (destruct I as [<- | I]; [assumption|]). destruct I.
Qed.

Lemma base_words : forall (count : bool) table, In table tables ->
  scanned Out (" SELECT " ++ (selected table ++ (if count then ", COUNT(*) OVER() AS total_count" else ""))
               ++ " FROM blnk." ++ table ++ " ")%string
  = Some (TSelect :: cols table count ++ [TFrom; TWord ("blnk." ++ table)%string], Out).
Proof.
  intros count table I. pattern table. apply in_tables; [exact I|..]; destruct count; vm_compute; reflexivity.
Qed.

Lemma p_cols_from : forall cs r, ~ In TFrom cs -> p_cols (cs ++ TFrom :: r) = Some (cs, r).
Proof.
  induction cs as [|c cs IH]; intros r N; [reflexivity|].
  cbn [app p_cols]. rewrite IH by (intros H; apply N; now right).
  destruct c; try reflexivity. exfalso. apply N. now left.
Qed.

Lemma cols_no_from : forall (count : bool) table, In table tables -> ~ In TFrom (cols table count).
Proof.
  intros count table I. pattern table.
  apply in_tables; [exact I|..]; destruct count; vm_compute; intuition discriminate.
Qed.

Definition the_query (table lop : string) (count : bool) (xs : list (cond * list cond)) (us : list cond)
           (order : string) (asc : bool) (n : nat) : query :=
  {| q_subs := map matches us; q_cols := cols table count; q_from := ("blnk." ++ table)%string;
     q_where := where_of lop xs; q_order := order; q_desc := negb asc; q_limit := n; q_offset := S n |}.

Definition end_toks (order : string) (asc : bool) (n : nat) : list tok :=
  [TOrder; TBy; TWord order; if asc then TAsc else TDesc; TLimit; TArg n; TOffset; TArg (S n)].

Lemma read_main : forall table lop count xs us order asc n m, In table tables -> Forall filled2 xs ->
  List.length (where_toks lop xs) + 2 < m ->
  p_main m us (TSelect :: cols table count ++ TFrom :: TWord ("blnk." ++ table)%string
               :: match xs with [] => [] | _ => TWhere :: where_toks lop xs end ++ end_toks order asc n)
  = Some {| q_subs := us; q_cols := cols table count; q_from := ("blnk." ++ table)%string;
            q_where := where_of lop xs; q_order := order; q_desc := negb asc; q_limit := n; q_offset := S n |}.
Proof.
  intros table lop count xs us order asc n m I F L. unfold p_main.
  rewrite p_cols_from by now apply cols_no_from.
  destruct xs as [|x xs].
  - cbn [app where_of]. destruct asc; reflexivity.
  - cbn [app]. destruct (read_where lop x xs (end_toks order asc n) m F Logic.I Logic.I L) as (c & W & R).
    rewrite R, W. destruct asc; reflexivity.
Qed.

Lemma words_end : forall order (asc : bool) n, name order ->
  words (" ORDER BY " ++ (order ++ (if asc then " ASC" else " DESC"))
         ++ " LIMIT $" ++ dec n ++ " OFFSET $" ++ dec (S n))%string = Some (end_toks order asc n).
Proof.
  intros order asc n N. rewrite !sapp_assoc.
  assert (T : words (" LIMIT $" ++ dec n ++ " OFFSET $" ++ dec (S n))%string
              = Some [TLimit; TArg n; TOffset; TArg (S n)]).
  { exact (words_arg_then " LIMIT $" [TLimit] n " " _ _ eq_refl eq_refl
             (words_arg " OFFSET $" [TOffset] (S n) eq_refl)). }
  refine (words_out " ORDER BY " [TOrder; TBy] _ _ eq_refl _).
  destruct asc.
  - refine (words_name_then order " " _ _ N eq_refl _).
    exact (words_sep " ASC" [TAsc] " " _ _ eq_refl eq_refl T).
  - refine (words_name_then order " " _ _ N eq_refl _).
    exact (words_sep " DESC" [TDesc] " " _ _ eq_refl eq_refl T).
Qed.

Lemma sort_named : forall table by_, name (sort_field table by_).
Proof.
  intros table by_. assert (C : name "created_at") by (apply namely_name; reflexivity).
  unfold sort_field, safe_column. destruct (by_ =? ""); [exact C|].
  destruct (mem by_ (valid_fields table)); [|exact C].
  destruct (mem by_ (columns table)) eqn:M; [|exact C].
  destruct (by_ =? ""); [exact C|]. apply (columns_names table). now apply mem_in.
Qed.

Lemma no_subs : forall table fs p, table <> "transactions" -> subs_in table (placed table fs p) = [].
Proof.
  intros table fs p T. revert p. induction fs as [|f fs IH]; intros p; [reflexivity|].
  cbn [placed subs_in flat_map fst snd]. unfold subs_in in IH. rewrite IH, app_nil_r.
  unfold sub_of, kind_of. destruct (after _ _); [reflexivity|].
  destruct (String.eqb_spec table "transactions"); [contradiction|reflexivity].
Qed.

Definition query_toks (table lop : string) (count : bool) (xs : list (cond * list cond))
           (order : string) (asc : bool) (n : nat) : list tok :=
  TSelect :: cols table count ++ TFrom :: TWord ("blnk." ++ table)%string
  :: match xs with [] => [] | _ => TWhere :: where_toks lop xs end ++ end_toks order asc n.

Lemma parse_query : forall table lop count xs us order asc n, In table tables -> Forall filled2 xs ->
  Forall filled us ->
  parse (match us with [] => [] | u :: us => TWith :: ctes_toks u us end
         ++ query_toks table lop count xs order asc n)
  = Some (the_query table lop count xs us order asc n).
Proof.
  intros table lop count xs us order asc n I F U. unfold parse.
  assert (W : List.length (where_toks lop xs) <= List.length (query_toks table lop count xs order asc n)).
  { unfold query_toks. cbn [List.length]. rewrite app_length. cbn [List.length].
    destruct xs; cbn [where_toks List.length]; [lia|]. rewrite app_length. cbn [List.length]. lia. }
  destruct us as [|u us].
  - cbn [app]. unfold query_toks at 1. cbv iota.
    apply read_main; [assumption|assumption|]. cbn [app] in *. lia.
  - inversion U as [|? ? Fu Fs]; subst. cbv beta iota zeta delta [app].
    fold (@app tok). cbv iota.
    match goal with |- context [p_subs ?m] => remember m as mm eqn:M end.
    cbn [List.length] in M. rewrite app_length in M.
    rewrite read_ctes; [|exact Fu|exact Fs|cbn [List.length]; lia|exact Logic.I].
    apply read_main; [assumption|assumption|]. cbn [List.length]. lia.
Qed.

(** A listing's text is read as the conditions of its filters. *)
Lemma listing_read : forall table lop fs o limit offset text args,
  In table tables -> Forall no_nan fs -> listing table lop fs o limit offset = Some (text, args) ->
  let l := placed table fs 1 in
  let n := 1 + List.length (args_of table l) in
  read text = Some (the_query table lop (o_count o) (conds_of table l) (subs_in table l)
                              (sort_field table (o_by o)) (o_asc o) n)
  /\ args = args_of table l ++ [VInt (capped table limit); VInt offset]
  /\ Forall (fun f => valid_filter table f = true) fs.
Proof.
  intros table lop fs o limit offset text args I N L l n. unfold listing in L.
  match type of L with (if ?b then _ else _) = _ => destruct b; [discriminate|] end.
  destruct (build table lop fs) as [b|] eqn:B; [|discriminate].
  destruct (build_full _ _ _ _ B N) as [(ts & cts & C & A & X & T & R & HS) V].
  cbn [b_next b_conds b_args b_ctes app] in *. fold l in A, X, R, HS. fold n in X.
  assert (VV : Forall (fun f => valid_filter table f = true) fs).
  { destruct fs as [|f fs]; [constructor|]. specialize (V ltac:(discriminate)).
    unfold validate in V. apply andb_true_iff in V as [_ V]. rewrite forallb_forall in V. now apply Forall_forall. }
  injection L as Lt La. refine (conj _ (conj _ VV)); [|rewrite <- La, A; reflexivity].
  unfold read. subst text. rewrite C, X, T.
  assert (TE : words (" ORDER BY " ++ order_by table (o_by o) (o_asc o) ++ " LIMIT $" ++ dec n
                      ++ " OFFSET $" ++ dec (1 + n))%string
               = Some (end_toks (sort_field table (o_by o)) (o_asc o) n)).
  { unfold order_by. apply words_end. apply sort_named. }
  set (tail := (" ORDER BY " ++ order_by table (o_by o) (o_asc o) ++ " LIMIT $" ++ dec n
                      ++ " OFFSET $" ++ dec (1 + n))%string) in *.
  change (" ORDER BY " ++ order_by table (o_by o) (o_asc o) ++ " LIMIT $" ++ dec n
                      ++ " OFFSET $" ++ dec (S n))%string with tail.
  pose proof (base_words (o_count o) table I) as BW.
  set (base := (" SELECT " ++ (selected table ++ (if o_count o then ", COUNT(*) OVER() AS total_count" else ""))
               ++ " FROM blnk." ++ table ++ " ")%string) in *.
  set (xs := conds_of table l) in *. set (us := subs_in table l) in *.
  assert (Q : forall mid, mid = (if (0 <? List.length ts)%nat then base ++ " WHERE " ++ expression ts lop else base)%string ->
    words (mid ++ tail) = Some (query_toks table lop (o_count o) xs (sort_field table (o_by o)) (o_asc o) n)).
  { intros mid ->. unfold query_toks. destruct ts as [|t ts].
    - inversion R as [E|]. cbn [List.length Nat.ltb Nat.leb app].
      pose proof (words_out base _ tail _ BW TE) as W. cbn [app] in W. rewrite <- app_assoc in W. exact W.
    - destruct xs as [|x xs'] eqn:EX; [inversion R|]. cbn [List.length Nat.ltb Nat.leb].
      rewrite !sapp_assoc.
      pose proof (words_expression lop (t :: ts) (x :: xs') R ltac:(discriminate)) as WE.
      assert (WT : words (expression (t :: ts) lop ++ tail)%string
                   = Some (where_toks lop (x :: xs') ++ end_toks (sort_field table (o_by o)) (o_asc o) n)).
      { exact (words_sep _ _ " " _ _ WE eq_refl TE). }
      pose proof (words_out base _ _ _ BW (words_out " WHERE " [TWhere] _ _ eq_refl WT)) as W.
      cbn [app] in W. rewrite <- app_assoc in W. exact W. }
  match type of Q with forall mid, mid = ?m -> _ => specialize (Q m eq_refl); set (mid := m) in * end.
  assert (PQ : parse (match us with [] => [] | u :: us => TWith :: ctes_toks u us end
         ++ query_toks table lop (o_count o) xs (sort_field table (o_by o)) (o_asc o) n)
     = Some (the_query table lop (o_count o) xs us (sort_field table (o_by o)) (o_asc o) n)).
  { apply parse_query; [exact I|now apply conds_filled|now apply subs_filled]. }
  assert (FIN : words ((if (table =? "transactions") && (0 <? List.length (map indicator_cte cts))%nat
       then "WITH " ++ String.concat ", " (map indicator_cte cts) ++ " " ++ mid else mid) ++ tail)%string
     = Some (match us with [] => [] | u :: us => TWith :: ctes_toks u us end
         ++ query_toks table lop (o_count o) xs (sort_field table (o_by o)) (o_asc o) n)).
  { destruct cts as [|t cts].
    - destruct us; [|inversion HS]. cbn [map List.length Nat.ltb Nat.leb]. rewrite andb_false_r. exact Q.
    - destruct (String.eqb_spec table "transactions") as [TT|TT].
      2: { assert (Z : us = []) by (apply no_subs; exact TT). rewrite Z in HS. inversion HS. }
      destruct us as [|u us'] eqn:EU; [inversion HS|]. inversion HS as [|? ? ? ? S1 S2]; subst.
      cbn [map List.length Nat.ltb Nat.leb andb]. rewrite !sapp_assoc.
      pose proof (words_ctes _ _ _ _ S1 S2) as WC.
      pose proof (words_out "WITH " [TWith] _ _ eq_refl
                   (words_sep _ _ " " _ _ WC eq_refl (words_out " " [] _ _ eq_refl Q))) as W.
      exact W. }
  exact (eq_trans (f_equal (fun w => match w with Some ts => parse ts | None => None end) FIN) PQ).
Qed.
