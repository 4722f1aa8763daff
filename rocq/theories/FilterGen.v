(** What each filter becomes: conditions, and the words the program writes for them. *)

From Coq Require Import List Bool Arith ZArith Lia Ascii String.
From Verif Require Import BodyModel FilterSql FilterModel FilterLex FilterParse.
Import ListNotations.
Local Open Scope nat_scope.
Local Open Scope string_scope.
Local Open Scope list_scope.

(** Conditions (a first and perhaps more, joined by AND) and their values. *)
Definition made : Type := (cond * list cond) * list value.

Definition single (c : cond) (a : list value) : made := ((c, []), a).

(** A plain column. *)
Definition column_made (c : string) (o : op) (v : value) (vs : list value) (p : nat) : made :=
  match o with
  | OEq => single (Cmp (Col c) Eq p) [extract v]
  | ONe => single (Cmp (Col c) Ne p) [extract v]
  | OGt => single (Cmp (Col c) Gt p) [extract v]
  | OGe => single (Cmp (Col c) Ge p) [extract v]
  | OLt => single (Cmp (Col c) Lt p) [extract v]
  | OLe => single (Cmp (Col c) Le p) [extract v]
  | OLike => single (Cmp (Col c) Like p) [extract v]
  | OILike => single (Cmp (Col c) ILike p) [extract v]
  | OIn => if all_strings vs then single (AnyOf (Col c) p) [VArr (to_strings vs)]
           else single (OneOf (Col c) (seq p (List.length vs))) (map extract vs)
  | OBetween => single (Between (Col c) p (S p)) (map extract vs)
  | ONull => single (IsNull (Col c)) []
  | ONotNull => single (NotNull (Col c)) []
  end.

Definition period_made (x : operand) (t : stamp) (p : nat) : made :=
  ((Cmp x Ge p, [Cmp x Lt (S p)]),
   [VMoment (fst (range t)) (t_zone t); VMoment (snd (range t)) (t_zone t)]).

Definition standard_made (c : string) (o : op) (f : filt) (p : nat) : made :=
  match o, f_value f with
  | OEq, VTime t => period_made (Col c) t p
  | _, v => column_made c o v (f_values f) p
  end.

Definition meta_made (k : string) (o : op) (f : filt) (p : nat) : made :=
  let c := "meta_data" in
  let v := extract (f_value f) in
  match o with
  | OEq => match f_value f with
           | VTime t => period_made (As c k "timestamp") t p
           | v => single (Covers c p) [VDoc k v]
           end
  | ONe => single (Cmp (Text c k) Ne p) [as_text (f_value f)]
  | OGt => single (Cmp (As c k "numeric") Gt p) [v]
  | OGe => single (Cmp (As c k "numeric") Ge p) [v]
  | OLt => single (Cmp (As c k "numeric") Lt p) [v]
  | OLe => single (Cmp (As c k "numeric") Le p) [v]
  | OLike => single (Cmp (Text c k) Like p) [v]
  | OILike => single (Cmp (Text c k) ILike p) [v]
  | OIn => single (OneOf (Text c k) (seq p (List.length (f_values f)))) (map as_text (f_values f))
  | OBetween => single (Between (As c k "numeric") p (S p)) (map extract (f_values f))
  | ONull => single (Or (IsNull (Text c k)) (HasKey c k false)) []
  | ONotNull => single (And (NotNull (Text c k)) (HasKey c k true)) []
  end.

Definition sides_made (o : op) (v : value) (vs : list value) (p : nat) : made :=
  let a := column_made "source" o v vs p in
  let b := column_made "destination" o v vs p in
  (match o with
   | ONe | ONull => (And (fst (fst a)) (fst (fst b)), [])
   | _ => (Or (fst (fst a)) (fst (fst b)), [])
   end, snd a).

Definition indicator_made (o : op) (f : filt) (p : nat) : made :=
  column_made "b.indicator" o (f_value f) (f_values f) p.

Definition sides : cond :=
  Or (Among (Col "source") "balance_id" "_indicator_matches")
     (Among (Col "destination") "balance_id" "_indicator_matches").

Definition matches (c : cond) : sub :=
  {| s_name := "_indicator_matches"; s_col := "b.balance_id"; s_from := "blnk.balances";
     s_alias := "b"; s_cond := c |}.

(** A list of values has the number its operator wants. *)
Definition enough (o : op) (vs : list value) : Prop :=
  match o with OIn => vs <> [] | OBetween => List.length vs = 2 | _ => True end.

(** The words of a piece are those of its conditions, its values theirs, and the next
    parameter is the one after them. *)
Definition writes (x : piece) (m : made) (p : nat) : Prop :=
  let '(text, args, n) := x in
  words text = Some (chain (fst (fst m)) (snd (fst m))) /\ args = snd m
  /\ n = p + List.length (snd m) /\ text <> "".

Lemma args_seq : forall n p, args_toks (seq p n) = arg_list p n.
Proof.
  induction n as [|n IH]; intros p; [reflexivity|].
  destruct n as [|n]; [reflexivity|].
  change (args_toks (seq p (S (S n)))) with (TArg p :: TComma :: args_toks (seq (S p) (S n))).
  rewrite IH. reflexivity.
Qed.

(** * Columns *)

Lemma col_arg : forall c lit tl p, name c -> scanned Out (String " " lit) = Some (tl, Num "") ->
  words (c ++ String " " lit ++ dec p)%string = Some (TWord c :: tl ++ [TArg p]).
Proof.
  intros c lit tl p N L. cbn [append].
  apply words_name_then; [exact N|reflexivity|]. exact (words_arg (String " " lit) tl p L).
Qed.

Lemma col_arg_then : forall c lit tl p d b tb,
  name c -> scanned Out (String " " lit) = Some (tl, Num "") -> digit d = false ->
  words (String d b) = Some tb ->
  words (c ++ String " " lit ++ dec p ++ String d b)%string = Some (TWord c :: tl ++ TArg p :: tb).
Proof.
  intros c lit tl p d b tb N L D B. cbn [append].
  apply words_name_then; [exact N|reflexivity|].
  exact (words_arg_then (String " " lit) tl p d b tb L D B).
Qed.

Lemma col_lit : forall c lit tl, name c -> words (String " " lit) = Some tl ->
  words (c ++ String " " lit)%string = Some (TWord c :: tl).
Proof. intros c lit tl N L. apply words_name_then; [exact N|reflexivity|exact L]. Qed.

Lemma col_places : forall c p n b tb, name c -> 0 < n -> words (")" ++ b)%string = Some tb ->
  words (c ++ " IN (" ++ String.concat ", " (places p n) ++ ")" ++ b)%string
  = Some (TWord c :: TIn :: TOpen :: arg_list p n ++ tb).
Proof.
  intros c p n b tb N Z B. cbn [append].
  apply words_name_then; [exact N|reflexivity|].
  apply (words_out " IN (" [TIn; TOpen] _ _ eq_refl).
  cbn [append]. apply words_places; [exact Z|reflexivity|exact B].
Qed.

Lemma not_empty : forall c x y, name c -> (c ++ String x y)%string <> "".
Proof. intros [|a c] x y N; cbn; discriminate. Qed.

(** The text of a column, and the text read from an [indicator] filter, are put together alike. *)
Definition column_text (c : string) (f : filt) (o : op) (p : nat) : piece :=
  let v := extract (f_value f) in
  match o with
  | OEq => one (c ++ " = $" ++ dec p) v p
  | ONe => one (c ++ " != $" ++ dec p) v p
  | OGt => one (c ++ " > $" ++ dec p) v p
  | OGe => one (c ++ " >= $" ++ dec p) v p
  | OLt => one (c ++ " < $" ++ dec p) v p
  | OLe => one (c ++ " <= $" ++ dec p) v p
  | OLike => one (c ++ " LIKE $" ++ dec p) v p
  | OILike => one (c ++ " ILIKE $" ++ dec p) v p
  | OIn =>
    if all_strings (f_values f) then
      one (c ++ " = ANY($" ++ dec p ++ ")") (VArr (to_strings (f_values f))) p
    else ((c ++ " IN (" ++ String.concat ", " (places p (List.length (f_values f))) ++ ")")%string,
          map extract (f_values f), p + List.length (f_values f))
  | OBetween => ((c ++ " BETWEEN $" ++ dec p ++ " AND $" ++ dec (S p))%string, map extract (f_values f), S (S p))
  | ONull => ((c ++ " IS NULL")%string, [], p)
  | ONotNull => ((c ++ " IS NOT NULL")%string, [], p)
  end.

Lemma column_writes : forall c f o p, name c -> enough o (f_values f) ->
  writes (column_text c f o p) (column_made c o (f_value f) (f_values f) p) p.
Proof.
  intros c f o p N E. unfold column_text, column_made, one.
  destruct o; cbn [enough] in E;
    try (cbn [writes single fst snd chain toks otoks ctok app]; refine (conj _ (conj eq_refl (conj _ _)));
         [first [etransitivity; [eapply (col_arg c _ _ p N); reflexivity|reflexivity]
                | exact (col_lit c _ _ N eq_refl)]
         |cbn [List.length]; lia|apply not_empty; exact N]; fail).
  - destruct (all_strings (f_values f)); cbn [writes single fst snd chain toks otoks ctok app];
      refine (conj _ (conj eq_refl (conj _ _))).
    + exact (col_arg_then c "= ANY($" [TEq; TAny; TOpen] p ")" "" [TClose] N eq_refl eq_refl eq_refl).
    + cbn [List.length]. lia.
    + apply not_empty; exact N.
    + rewrite args_seq.
      change (")" : string) with (")" ++ "")%string. apply col_places; [exact N| |reflexivity].
      destruct (f_values f); [congruence|cbn; lia].
    + now rewrite map_length.
    + apply not_empty; exact N.
  - cbn [writes single fst snd chain toks otoks ctok app]; refine (conj _ (conj eq_refl (conj _ _))).
    + refine (col_arg_then c "BETWEEN $" [TBetween] p " " _ [TAnd; TArg (S p)] N eq_refl eq_refl _).
      exact (words_arg " AND $" [TAnd] (S p) eq_refl).
    + rewrite map_length, E. lia.
    + apply not_empty; exact N.
  - refine (conj _ (conj eq_refl (conj _ (not_empty _ _ _ N)))); [exact (col_lit c "IS NULL" _ N eq_refl)|cbn; lia].
  - refine (conj _ (conj eq_refl (conj _ (not_empty _ _ _ N)))); [exact (col_lit c "IS NOT NULL" _ N eq_refl)|cbn; lia].
Qed.

Lemma op_of_none : forall s, op_of s = None -> op_of s <> None -> False.
Proof. congruence. Qed.

Lemma standard_writes : forall table f o p,
  op_of (f_op f) = Some o -> In (f_field f) (columns table) -> enough o (f_values f) ->
  writes (standard table f p) (standard_made (f_field f) o f p) p.
Proof.
  intros table f o p O I E. pose proof (columns_names _ _ I) as N.
  unfold standard, safe_column. rewrite (proj2 (mem_in _ _) I).
  assert (X : String.eqb (f_field f) "" = false).
  { apply String.eqb_neq. intros Q. rewrite Q in N. destruct N as [N _]. discriminate N. }
  rewrite X, O.
  assert (C : writes (column_text (f_field f) f o p) (column_made (f_field f) o (f_value f) (f_values f) p) p)
    by (apply column_writes; assumption).
  unfold standard_made. destruct o; try exact C.
  - unfold column_text in C. destruct (f_value f) eqn:V; try exact C.
    cbn [range period_made]. destruct (range t) as [a b] eqn:R.
    unfold writes, period_made. rewrite R. cbn [fst snd chain toks otoks ctok app List.length].
    refine (conj _ (conj eq_refl (conj _ (not_empty _ _ _ N)))); [|lia].
    refine (col_arg_then (f_field f) ">= $" [TGe] p " " _
              [TAnd; TWord (f_field f); TLt; TArg (S p)] N eq_refl eq_refl _).
    refine (words_out " AND " [TAnd] _ _ eq_refl _).
    exact (col_arg (f_field f) "< $" [TLt] (S p) N eq_refl).
  - unfold column_text in C. cbn [enough] in E.
    replace (0 <? List.length (f_values f))%nat with true; [exact C|].
    symmetry. apply Nat.ltb_lt. destruct (f_values f); [congruence|cbn; lia].
  - unfold column_text in C. cbn [enough] in E. destruct (f_values f) as [|a [|b [|]]]; try discriminate E.
    exact C.
Qed.

Lemma indicator_writes : forall f o p,
  op_of (f_op f) = Some o -> enough o (f_values f) ->
  writes (indicator_text f p) (indicator_made o f p) p.
Proof.
  intros f o p O E. assert (N : name "b.indicator") by (apply namely_name; reflexivity).
  pose proof (column_writes "b.indicator" f o p N E) as C. unfold indicator_made, indicator_text. rewrite O.
  destruct o; try exact C.
  - cbn [enough] in E. unfold column_text in C.
    replace (0 <? List.length (f_values f))%nat with true; [exact C|].
    symmetry. apply Nat.ltb_lt. destruct (f_values f); [congruence|cbn; lia].
  - unfold column_text in C. cbn [enough] in E. destruct (f_values f) as [|a [|b [|]]]; try discriminate E.
    exact C.
Qed.

(** * The two sides *)

Lemma sides_writes : forall f o p,
  op_of (f_op f) = Some o -> enough o (f_values f) -> In o [OEq; ONe; OIn; ONull; ONotNull] ->
  writes (balance_side f p) (sides_made o (f_value f) (f_values f) p) p.
Proof.
  intros f o p O E I. unfold balance_side. rewrite O.
  destruct o; cbn [In] in I; try (exfalso; intuition discriminate); clear I; cbn [enough] in E.
  - unfold one, writes, sides_made, column_made, single. cbn [fst snd chain toks otoks ctok app List.length].
    refine (conj _ (conj eq_refl (conj _ _))); [|lia|discriminate].
    refine (words_arg_then "(source = $" [TOpen; TWord "source"; TEq] p " " _
              [TOr; TWord "destination"; TEq; TArg p; TClose] eq_refl eq_refl _).
    exact (words_arg_then " OR destination = $" [TOr; TWord "destination"; TEq] p ")" "" [TClose]
             eq_refl eq_refl eq_refl).
  - unfold one, writes, sides_made, column_made, single. cbn [fst snd chain toks otoks ctok app List.length].
    refine (conj _ (conj eq_refl (conj _ _))); [|lia|discriminate].
    refine (words_arg_then "(source != $" [TOpen; TWord "source"; TNe] p " " _
              [TAnd; TWord "destination"; TNe; TArg p; TClose] eq_refl eq_refl _).
    exact (words_arg_then " AND destination != $" [TAnd; TWord "destination"; TNe] p ")" "" [TClose]
             eq_refl eq_refl eq_refl).
  - replace (0 <? List.length (f_values f))%nat with true
      by (symmetry; apply Nat.ltb_lt; destruct (f_values f); [congruence|cbn; lia]).
    unfold sides_made, column_made. destruct (all_strings (f_values f)).
    + unfold one, writes, single. cbn [fst snd chain toks otoks ctok app List.length].
      refine (conj _ (conj eq_refl (conj _ _))); [|lia|discriminate].
      refine (words_arg_then "(source = ANY($" [TOpen; TWord "source"; TEq; TAny; TOpen] p ")" _
                [TClose; TOr; TWord "destination"; TEq; TAny; TOpen; TArg p; TClose; TClose] eq_refl eq_refl _).
      exact (words_arg_then ") OR destination = ANY($" [TClose; TOr; TWord "destination"; TEq; TAny; TOpen] p
               ")" ")" [TClose; TClose] eq_refl eq_refl eq_refl).
    + unfold writes, single. cbn [fst snd chain toks otoks ctok app List.length].
      refine (conj _ (conj eq_refl (conj _ _))); [|now rewrite map_length|discriminate].
      rewrite args_seq.
      assert (Z : 0 < List.length (f_values f)) by (destruct (f_values f); [congruence|cbn; lia]).
      pose proof (words_out "(source IN (" [TOpen; TWord "source"; TIn; TOpen] _ _ eq_refl
        (words_places _ p ")" _ _ Z eq_refl
          (words_out ") OR destination IN (" [TClose; TOr; TWord "destination"; TIn; TOpen] _ _ eq_refl
            (words_places _ p ")" ")" [TClose; TClose] Z eq_refl eq_refl)))) as W.
      cbn [app append] in *. rewrite <- !app_assoc. cbn [app] in *.
      exact W.
  - refine (conj _ (conj eq_refl (conj _ _))); [reflexivity|cbn; lia|discriminate].
  - refine (conj _ (conj eq_refl (conj _ _))); [reflexivity|cbn; lia|discriminate].
Qed.

(** * Metadata *)

Definition m_text (k : string) : string := ("meta_data" ++ "->>'" ++ k ++ "'")%string.

Lemma text_arg : forall k lit tl p, unquoted k = true ->
  scanned Out (String " " lit) = Some (tl, Num "") ->
  words (m_text k ++ String " " lit ++ dec p)%string
  = Some (TWord "meta_data" :: TArrow :: TQuo k :: tl ++ [TArg p]).
Proof.
  intros k lit tl p U L. unfold m_text. rewrite !sapp_assoc.
  exact (words_quoted_then "meta_data->>'" [TWord "meta_data"; TArrow] k " " _ _ eq_refl U eq_refl
           (words_arg (String " " lit) tl p L)).
Qed.

Lemma cast_arg_then : forall k t lit tl p d b tb, unquoted k = true ->
  scanned Out (")::" ++ t ++ lit)%string = Some (tl, Num "") -> digit d = false ->
  words (String d b) = Some tb ->
  words (("(" ++ m_text k ++ ")::" ++ t) ++ lit ++ dec p ++ String d b)%string
  = Some (TOpen :: TWord "meta_data" :: TArrow :: TQuo k :: tl ++ TArg p :: tb).
Proof.
  intros k t lit tl p d b tb U L D B. unfold m_text. rewrite !sapp_assoc.
  assert (X : words (")::" ++ t ++ lit ++ dec p ++ String d b)%string = Some (tl ++ TArg p :: tb)).
  { pose proof (words_arg_then (")::" ++ t ++ lit)%string tl p d b tb L D B) as W.
    rewrite !sapp_assoc in W. exact W. }
  exact (words_quoted_then "(meta_data->>'" [TOpen; TWord "meta_data"; TArrow] k ")" _ _ eq_refl U eq_refl X).
Qed.

Lemma cast_arg : forall k t lit tl p, unquoted k = true ->
  scanned Out (")::" ++ t ++ lit)%string = Some (tl, Num "") ->
  words (("(" ++ m_text k ++ ")::" ++ t) ++ lit ++ dec p)%string
  = Some (TOpen :: TWord "meta_data" :: TArrow :: TQuo k :: tl ++ [TArg p]).
Proof.
  intros k t lit tl p U L. unfold m_text. rewrite !sapp_assoc.
  assert (X : words (")::" ++ t ++ lit ++ dec p)%string = Some (tl ++ [TArg p])).
  { pose proof (words_arg (")::" ++ t ++ lit)%string tl p L) as W. rewrite !sapp_assoc in W. exact W. }
  exact (words_quoted_then "(meta_data->>'" [TOpen; TWord "meta_data"; TArrow] k ")" _ _ eq_refl U eq_refl X).
Qed.

Lemma split_meta : forall k, split_dot ("meta_data." ++ k) = Some ("meta_data", k).
Proof. reflexivity. Qed.

Lemma meta_writes : forall f k o p,
  op_of (f_op f) = Some o -> enough o (f_values f) -> f_field f = ("meta_data." ++ k)%string ->
  good_key k = true -> (o = OEq -> forall s, f_value f <> VFloat s false) ->
  writes (json_path f p) (meta_made k o f p) p.
Proof.
  intros f k o p O E F G V. destruct (good_sanitize _ G) as (S1 & U & NE).
  unfold json_path. rewrite F, split_meta, S1, O.
  replace (k =? "") with false by (symmetry; now apply String.eqb_neq).
  change ("meta_data" =? "meta_data") with true. cbv iota. change ("meta_data" =? "") with false. cbn [orb].
  fold (m_text k).
  destruct o; unfold meta_made; cbn [enough] in E; cbv zeta.
  - specialize (V eq_refl).
    destruct (f_value f) as [| | |s fin| |t| | | |] eqn:Ev; cbn [containment].
    4: destruct fin; [|destruct (V s eq_refl)].
    6: { unfold period_made. destruct (range t) as [a b].
         unfold writes. cbn [fst snd chain toks otoks ctok app List.length].
         refine (conj _ (conj eq_refl (conj _ _))); [|lia|discriminate].
         refine (cast_arg_then k "timestamp" " >= $" [TClose; TCast; TWord "timestamp"; TGe] p " " _
           [TAnd; TOpen; TWord "meta_data"; TArrow; TQuo k; TClose; TCast; TWord "timestamp"; TLt; TArg (S p)]
           U eq_refl eq_refl _).
         refine (words_out " AND " [TAnd] _ _ eq_refl _).
         exact (cast_arg k "timestamp" " < $" [TClose; TCast; TWord "timestamp"; TLt] (S p) U eq_refl). }
    all: unfold one, writes, single; cbn [fst snd chain toks otoks ctok app List.length];
      refine (conj _ (conj eq_refl (conj _ _))); [|lia|discriminate];
      exact (words_arg_then "meta_data @> $" [TWord "meta_data"; TContains] p ":" ":jsonb"
               [TCast; TWord "jsonb"] eq_refl eq_refl eq_refl).
  - refine (conj _ (conj eq_refl (conj _ _))); [|cbn; lia|discriminate].
    exact (text_arg k "!= $" [TNe] p U eq_refl).
  - refine (conj _ (conj eq_refl (conj _ _))); [|cbn; lia|discriminate].
    exact (cast_arg k "numeric" " > $" [TClose; TCast; TWord "numeric"; TGt] p U eq_refl).
  - refine (conj _ (conj eq_refl (conj _ _))); [|cbn; lia|discriminate].
    exact (cast_arg k "numeric" " >= $" [TClose; TCast; TWord "numeric"; TGe] p U eq_refl).
  - refine (conj _ (conj eq_refl (conj _ _))); [|cbn; lia|discriminate].
    exact (cast_arg k "numeric" " < $" [TClose; TCast; TWord "numeric"; TLt] p U eq_refl).
  - refine (conj _ (conj eq_refl (conj _ _))); [|cbn; lia|discriminate].
    exact (cast_arg k "numeric" " <= $" [TClose; TCast; TWord "numeric"; TLe] p U eq_refl).
  - assert (Z : 0 < List.length (f_values f)) by (destruct (f_values f); [congruence|cbn; lia]).
    rewrite (proj2 (Nat.ltb_lt _ _) Z).
    refine (conj _ (conj eq_refl (conj _ _))); [|cbn [single snd]; now rewrite map_length|discriminate].
    cbn [single fst snd chain toks otoks app]. rewrite args_seq. unfold m_text. rewrite !sapp_assoc.
    refine (words_quoted_then "meta_data->>'" [TWord "meta_data"; TArrow] k " " _
              (TIn :: TOpen :: _) eq_refl U eq_refl _).
    refine (words_out " IN (" [TIn; TOpen] _ _ eq_refl _).
    exact (words_places _ p ")" "" [TClose] Z eq_refl eq_refl).
  - destruct (f_values f) as [|a [|b [|]]]; try discriminate E.
    refine (conj _ (conj eq_refl (conj _ _))); [|cbn; lia|discriminate].
    refine (cast_arg_then k "numeric" " BETWEEN $" [TClose; TCast; TWord "numeric"; TBetween] p " " _
              [TAnd; TArg (S p)] U eq_refl eq_refl _).
    exact (words_arg " AND $" [TAnd] (S p) eq_refl).
  - refine (conj _ (conj eq_refl (conj _ _))); [|cbn; lia|discriminate].
    exact (text_arg k "LIKE $" [TLike] p U eq_refl).
  - refine (conj _ (conj eq_refl (conj _ _))); [|cbn; lia|discriminate].
    exact (text_arg k "ILIKE $" [TILike] p U eq_refl).
  - refine (conj _ (conj eq_refl (conj _ _))); [|cbn; lia|discriminate].
    unfold m_text. rewrite !sapp_assoc.
    refine (words_quoted_then "(meta_data->>'" [TOpen; TWord "meta_data"; TArrow] k " " _
              [TIs; TNull; TOr; TWord "meta_data"; TAsk; TQuo k; TEq; TFalse; TClose] eq_refl U eq_refl _).
    exact (words_quoted_then " IS NULL OR meta_data ? '" [TIs; TNull; TOr; TWord "meta_data"; TAsk] k " "
             "= false)" [TEq; TFalse; TClose] eq_refl U eq_refl eq_refl).
  - refine (conj _ (conj eq_refl (conj _ _))); [|cbn; lia|discriminate].
    unfold m_text. rewrite !sapp_assoc.
    refine (words_quoted_then "(meta_data->>'" [TOpen; TWord "meta_data"; TArrow] k " " _
              [TIs; TNot; TNull; TAnd; TWord "meta_data"; TAsk; TQuo k; TEq; TTrue; TClose] eq_refl U eq_refl _).
    exact (words_quoted_then " IS NOT NULL AND meta_data ? '" [TIs; TNot; TNull; TAnd; TWord "meta_data"; TAsk] k " "
             "= true)" [TEq; TTrue; TClose] eq_refl U eq_refl eq_refl).
Qed.
