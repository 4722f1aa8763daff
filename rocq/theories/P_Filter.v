(** C39: filtered listings return what the filters ask for. *)

From Coq Require Import List Bool Arith ZArith Lia Ascii String Sorted Permutation DecimalString.
From Verif Require Import BodyModel FilterSql FilterModel FilterSpec FilterThms FilterFacts FilterUrl FilterWhole FilterDemo.
Import ListNotations.
Local Open Scope nat_scope.
Local Open Scope string_scope.
Local Open Scope list_scope.

(** The query sent is taken by the database, and brings back the page asked for of the rows
    all (or any) of the filters ask for, in the order asked for, whatever the tables hold and
    however values compare; and the number of all of them where it is asked for. *)
Theorem C39_listing : forall w table r, sane w -> In table tables -> In (r_lop r) [""; "and"; "or"] ->
  Forall (taken table) (r_filters r) -> covered table r ->
  exists text args, filtered table r = Some (text, args)
    /\ (exists out n, served w text args out n)
    /\ (forall out n, served w text args out n <-> answer w table r out n)
    /\ (r_count r = true -> exists q, read text = Some q /\ counted q).
Proof. exact listing_answers. Qed.
Print Assumptions C39_listing.
Example C39_listing_case : Forall (taken "transactions") (r_filters ask) /\ covered "transactions" ask
  /\ answer (shop book) "transactions" ask [t2; t1] 2.
Proof. exact (conj ask_taken (conj ask_covered ask_answer)). Qed.

(** Nothing is sent exactly when the operator joining the filters is neither and nor or, or a
    filter is not one of those taken: a field of the table or a plain metadata key, an
    operator of the list, as many values as it wants. *)
Theorem C39_refused : forall table r, In table tables ->
  (filtered table r = None <-> ~ (In (r_lop r) [""; "and"; "or"] /\ Forall (taken table) (r_filters r))).
Proof. exact filtered_none. Qed.
Print Assumptions C39_refused.
Example C39_refused_case : filtered "ledgers" {| r_filters :=
    [{| f_field := "name = '' OR 1"; f_op := "eq"; f_value := VInt 1; f_values := [] |}]; r_lop := "and"; r_limit := 0;
    r_offset := 0; r_by := ""; r_order := ""; r_count := false |} = None.
Proof. reflexivity. Qed.

(** The text of the query does not depend on the values compared with. *)
Theorem C39_values_apart : forall table r s, Forall2 same_shape (r_filters r) (r_filters s) ->
  r_lop r = r_lop s -> r_by r = r_by s -> r_order r = r_order s -> r_count r = r_count s ->
  option_map fst (filtered table r) = option_map fst (filtered table s).
Proof. exact values_apart. Qed.
Print Assumptions C39_values_apart.
Example C39_values_apart_case : Forall2 same_shape
  [about "@cash"] [about "'; DROP TABLE blnk.balances; --"].
Proof. exact about_same. Qed.

(** The order of the filters does not matter to what comes back. *)
Theorem C39_filters_any_order : forall w table r gs text args, sane w -> In table tables -> covered table r ->
  Permutation (r_filters r) gs -> filtered table r = Some (text, args) ->
  exists text' args', filtered table (with_filters r gs) = Some (text', args')
    /\ forall out n, served w text args out n <-> served w text' args' out n.
Proof. exact served_any_order. Qed.
Print Assumptions C39_filters_any_order.
Example C39_filters_any_order_case : covered "transactions" ask /\ exists f g l, r_filters ask = f :: g :: l
  /\ Permutation (r_filters ask) (g :: f :: l).
Proof. split; [exact ask_covered|]. do 3 eexists. split; [reflexivity|apply perm_swap]. Qed.

(** A query parameter field_operator=values is that filter, each value read on its own. *)
Theorem C39_query_string : forall float moment field name o vs text,
  In (name, o) op_names -> spells o vs text -> String.length text <= 1000 ->
  read_param float moment (field ++ "_" ++ name) text
  = Read (stated field name o (map (parse_value float moment) vs)).
Proof. exact query_reads. Qed.
Print Assumptions C39_query_string.
Example C39_query_string_case : spells OBetween ["2024-01-01"; "2024-12-31"] "2024-01-01|2024-12-31".
Proof. exact between_spelled. Qed.

(** A value that is no number, truth value or moment is taken as it is. *)
Theorem C39_query_text : forall float moment s,
  plain_text float moment s -> parse_value float moment s = VStr s.
Proof. exact plain_text_kept. Qed.
Print Assumptions C39_query_text.
Example C39_query_text_case : plain_text (fun _ => None) (fun _ => None) "APPLIED".
Proof. repeat split; discriminate. Qed.

(** A number is taken as that number. *)
Theorem C39_query_number : forall float moment z, (- 2 ^ 63 <= z < 2 ^ 63)%Z ->
  parse_value float moment (NilZero.string_of_int (Z.to_int z)) = VInt z.
Proof. exact number_read. Qed.
Print Assumptions C39_query_number.
Example C39_query_number_case : NilZero.string_of_int (Z.to_int (-1250)) = "-1250".
Proof. reflexivity. Qed.

(** A query string whose parameters are filters, with operators by any of their names in small
    letters or capitals, or none, is these filters, if they are at most twenty; more are
    refused. *)
Theorem C39_query_whole : forall float moment ps fs, asks_all float moment ps fs ->
  from_query float moment ps = if (List.length fs <=? 20)%nat then Some fs else None.
Proof. exact query_whole. Qed.
Print Assumptions C39_query_whole.
Example C39_query_whole_case : asks_all (fun _ => None) (fun _ => None)
  [("limit", "10"); ("amount_GTEQ", "-5"); ("currency_in", "USD,EUR")]
  [{| f_field := "amount"; f_op := "gte"; f_value := VInt (-5); f_values := [] |};
   {| f_field := "currency"; f_op := "in"; f_value := VNull; f_values := [VStr "USD"; VStr "EUR"] |}].
Proof. exact whole_case. Qed.

(** One parameter that cannot be the filter it is meant to be refuses them all: more than a
    thousand characters, more than a hundred values, a range without two ends. *)
Theorem C39_query_wrong : forall float moment ps p, In p ps -> cannot_be p -> from_query float moment ps = None.
Proof. exact query_wrong. Qed.
Print Assumptions C39_query_wrong.
Example C39_query_wrong_case : cannot_be ("created_at_between", "2024-01-01").
Proof. exact wrong_case. Qed.

(** Two filters on the indicator are never answered: the database refuses the query. *)
Theorem C39_two_indicators_never_served : forall w r text args out n,
  Forall (fun f => ~ not_a_number f) (r_filters r) -> 1 < List.length (filter about_indicator (r_filters r)) ->
  filtered "transactions" r = Some (text, args) -> ~ served w text args out n.
Proof. exact two_indicators. Qed.
Print Assumptions C39_two_indicators_never_served.
Example C39_two_indicators_never_served_case : Forall (taken "transactions") (r_filters ask_two)
  /\ Forall (fun f => ~ not_a_number f) (r_filters ask_two)
  /\ 1 < List.length (filter about_indicator (r_filters ask_two))
  /\ filtered "transactions" ask_two <> None.
Proof. exact two_taken. Qed.

(** Transactions sorted by balance or by indicator are never answered either. *)
Theorem C39_sort_by_side_never_served : forall w r text args out n,
  Forall (fun f => ~ not_a_number f) (r_filters r) -> In (r_by r) ["balance_id"; "indicator"] ->
  filtered "transactions" r = Some (text, args) -> ~ served w text args out n.
Proof. exact sort_refused. Qed.
Print Assumptions C39_sort_by_side_never_served.
Example C39_sort_by_side_never_served_case :
  In (r_by ask_sort) (filterable "transactions") /\ filtered "transactions" ask_sort <> None.
Proof. exact sort_sent. Qed.

(** A filter for a metadata key equal to NaN or an infinity is dropped: the listing is the one
    without it. *)
Theorem C39_nan_vanishes : forall table r f fs, In table tables -> taken table f -> not_a_number f ->
  In (r_lop r) [""; "and"; "or"] ->
  filtered table (with_filters r (f :: fs)) = filtered table (with_filters r fs).
Proof. exact nan_vanishes. Qed.
Print Assumptions C39_nan_vanishes.
Example C39_nan_vanishes_case : taken "balances" nan /\ not_a_number nan.
Proof. exact nan_taken. Qed.

(** Following pages need not be apart: rows created at the same moment may come in any order
    each time. *)
Theorem C39_pages_apart_refuted : ~ (forall w table r s text args text' args' out n out' n',
  sane w -> In table tables -> covered table r -> covered table s ->
  NoDup (rows_of w ("blnk." ++ table)) ->
  s = {| r_filters := r_filters r; r_lop := r_lop r; r_limit := r_limit r; r_offset := (r_offset r + r_limit r)%Z;
         r_by := r_by r; r_order := r_order r; r_count := r_count r |} ->
  (0 < r_limit r <= 100)%Z -> (0 <= r_offset r)%Z ->
  filtered table r = Some (text, args) -> filtered table s = Some (text', args') ->
  served w text args out n -> served w text' args' out' n' ->
  forall x, In x out -> ~ In x out').
Proof. exact pages_overlap. Qed.
Print Assumptions C39_pages_apart_refuted.

(** In the query string two different texts can be the same filter: 007 is 7. *)
Theorem C39_query_text_kept_refuted : ~ (forall float moment field name o s t, In (name, o) op_names ->
  spells o [s] s -> spells o [t] t -> s <> t ->
  read_param float moment (field ++ "_" ++ name) s <> read_param float moment (field ++ "_" ++ name) t).
Proof. exact number_lost. Qed.
Print Assumptions C39_query_text_kept_refuted.

(** A misspelt operator in the query string is not refused: the parameter is passed over. *)
Theorem C39_misspelt_operator_refuted : ~ (forall float moment table field o text,
  In field (filterable table) -> op_of o = None -> o <> "" -> ~ In "_"%char (list_ascii_of_string o) ->
  from_query float moment [((field ++ "_" ++ o)%string, text)] = None).
Proof. exact misspelt_ignored. Qed.
Print Assumptions C39_misspelt_operator_refuted.
