(** What a filtered listing should return. *)

From Coq Require Import List Bool Arith ZArith Lia Ascii String Sorted Permutation.
From Verif Require Import BodyModel FilterSql FilterModel.
Import ListNotations.
Local Open Scope nat_scope.
Local Open Scope string_scope.
Local Open Scope list_scope.

(** * The database *)

(** A state of the database, and how it compares. Nothing is assumed about comparisons:
    [true_] says whether comparing the operand with the value comes out true (not false and
    not unknown). [asks]: whether a JSON column has a key, [None] when unknown. [covers]: the
    JSON column contains the document. [same]: two columns of two rows are equal. [upto]: the
    order of rows by a column. *)
Record pg := {
  row : Type;
  rows_of : string -> list row;
  true_ : row -> operand -> cmp -> value -> bool;
  null : row -> operand -> bool;
  asks : row -> string -> string -> option bool;
  covers : row -> string -> value -> bool;
  same : row -> string -> row -> string -> bool;
  upto : string -> row -> row -> bool }.

(** A key with a value is there; columns order rows. *)
Definition sane (w : pg) : Prop :=
  (forall r c k, null w r (Text c k) = false -> asks w r c k = Some true)
  /\ (forall c a b, upto w c a b = true \/ upto w c b a = true)
  /\ (forall c x y z, upto w c x y = true -> upto w c y z = true -> upto w c x z = true).

(** The columns of the tables (sql/1708676327.sql and the migrations after it). *)
Definition schema (table : string) : list string :=
  if String.eqb table "blnk.transactions" then
    ["id"; "transaction_id"; "source"; "destination"; "description"; "reference"; "amount";
     "currency"; "status"; "hash"; "created_at"; "scheduled_for"; "meta_data"; "precise_amount";
     "precision"; "parent_transaction"; "effective_date"; "chain_seq"; "chain_prev_hash"; "chain_hash"]
  else if String.eqb table "blnk.balances" then
    ["id"; "balance_id"; "indicator"; "balance"; "credit_balance"; "debit_balance"; "currency";
     "ledger_id"; "identity_id"; "created_at"; "meta_data"; "version"; "inflight_balance";
     "inflight_credit_balance"; "inflight_debit_balance"; "track_fund_lineage"; "allocation_strategy"]
  else if String.eqb table "blnk.ledgers" then ["id"; "name"; "ledger_id"; "created_at"; "meta_data"]
  else if String.eqb table "blnk.identity" then
    ["id"; "identity_id"; "first_name"; "last_name"; "other_names"; "gender"; "dob"; "email_address";
     "phone_number"; "nationality"; "street"; "country"; "state"; "organization_name"; "category";
     "identity_type"; "post_code"; "city"; "created_at"; "meta_data"]
  else if String.eqb table "blnk.accounts" then
    ["id"; "account_id"; "name"; "number"; "bank_name"; "currency"; "created_at"; "ledger_id";
     "identity_id"; "balance_id"; "meta_data"]
  else [].

(** A column named with or without the table's alias. *)
Definition column (alias c : string) : string :=
  if String.eqb alias "" then c
  else match after (alias ++ ".") c with Some x => x | None => c end.

Definition here (alias : string) (o : operand) : operand :=
  match o with
  | Col c => Col (column alias c)
  | Text c k => Text (column alias c) k
  | As c k t => As (column alias c) k t
  end.

Definition value_at (args : list value) (n : nat) : value := nth (n - 1) args VNull.

(** A condition comes out true of a row. [subs]: the rows and the column of each named query. *)
Fixpoint holds (w : pg) (subs : string -> list (row w) * string) (alias : string)
         (args : list value) (r : row w) (c : cond) : bool :=
  match c with
  | And a b => holds w subs alias args r a && holds w subs alias args r b
  | Or a b => holds w subs alias args r a || holds w subs alias args r b
  | Cmp o c n => true_ w r (here alias o) c (value_at args n)
  | AnyOf o n => match value_at args n with
                 | VArr l => existsb (fun s => true_ w r (here alias o) Eq (VStr s)) l
                 | _ => false
                 end
  | OneOf o ns => existsb (fun n => true_ w r (here alias o) Eq (value_at args n)) ns
  | Among o _ q => match here alias o with
                   | Col c => existsb (fun b => same w r c b (snd (subs q))) (fst (subs q))
                   | _ => false
                   end
  | Between o a b => true_ w r (here alias o) Ge (value_at args a)
                     && true_ w r (here alias o) Le (value_at args b)
  | IsNull o => null w r (here alias o)
  | NotNull o => negb (null w r (here alias o))
  | HasKey c k b => match asks w r (column alias c) k with Some x => Bool.eqb x b | None => false end
  | Covers c n => covers w r (column alias c) (value_at args n)
  end.

(** ** Queries that are refused *)

Definition operand_column (o : operand) : string :=
  match o with Col c | Text c _ | As c _ _ => c end.

Fixpoint columns_in (c : cond) : list string :=
  match c with
  | And a b | Or a b => columns_in a ++ columns_in b
  | Cmp o _ _ | AnyOf o _ | OneOf o _ | Among o _ _ | Between o _ _ | IsNull o | NotNull o =>
      [operand_column o]
  | HasKey c _ _ | Covers c _ => [c]
  end.

Fixpoint params_in (c : cond) : list nat :=
  match c with
  | And a b | Or a b => params_in a ++ params_in b
  | Cmp _ _ n | AnyOf _ n | Covers _ n => [n]
  | OneOf _ ns => ns
  | Between _ a b => [a; b]
  | Among _ _ _ | IsNull _ | NotNull _ | HasKey _ _ _ => []
  end.

(** The named queries a condition uses, with the column it takes from each. *)
Fixpoint uses (c : cond) : list (string * string) :=
  match c with
  | And a b | Or a b => uses a ++ uses b
  | Among _ c q => [(q, c)]
  | _ => []
  end.

Definition where_ {A} (f : cond -> list A) (q : query) : list A :=
  match q_where q with Some c => f c | None => [] end.

Definition params (q : query) : list nat :=
  flat_map (fun s => params_in (s_cond s)) (q_subs q) ++ where_ params_in q ++ [q_limit q; q_offset q].

(** Values the driver can send. *)
Definition sendable (v : value) : Prop :=
  match v with VOther _ | VTime _ => False | _ => True end.

(** The database takes the query with these values: the parameters are 1 to their number,
    each used; the columns are there; the named queries have names of their own, and only
    those are used; the page is two numbers, not negative. *)
Record accepted (q : query) (args : list value) (limit offset : nat) : Prop := {
  a_sent : Forall sendable args;
  a_bound : forall n, In n (params q) <-> 1 <= n <= List.length args;
  a_columns : Forall (fun c => In c (schema (q_from q))) (where_ columns_in q);
  a_order : In (q_order q) (schema (q_from q));
  a_selected : forall c, In (TWord c) (q_cols q) ->
                 In c (schema (q_from q)) \/ In c ["COALESCE"; "COUNT"; "OVER"; "total_count"];
  a_names : NoDup (map s_name (q_subs q));
  a_subs : Forall (fun s => Forall (fun c => In (column (s_alias s) c) (schema (s_from s)))
                              (s_col s :: columns_in (s_cond s))
                            /\ uses (s_cond s) = []) (q_subs q);
  a_used : Forall (fun u => exists s, In s (q_subs q) /\ s_name s = fst u
                              /\ column (s_alias s) (s_col s) = snd u) (where_ uses q);
  a_limit : value_at args (q_limit q) = VInt (Z.of_nat limit);
  a_offset : value_at args (q_offset q) = VInt (Z.of_nat offset) }.

(** ** Queries that are answered *)

Definition sub_rows (w : pg) (args : list value) (s : sub) : list (row w) :=
  filter (fun r => holds w (fun _ => ([], "")) (s_alias s) args r (s_cond s)) (rows_of w (s_from s)).

Definition subs_of (w : pg) (args : list value) (l : list sub) (q : string)
  : list (row w) * string :=
  match find (fun s => String.eqb (s_name s) q) l with
  | Some s => (sub_rows w args s, column (s_alias s) (s_col s))
  | None => ([], "")
  end.

Definition kept (w : pg) (q : query) (args : list value) (r : row w) : bool :=
  match q_where q with
  | Some c => holds w (subs_of w args (q_subs q)) "" args r c
  | None => true
  end.

Definition ordered (w : pg) (c : string) (desc : bool) (a b : row w) : Prop :=
  (if desc then upto w c b a else upto w c a b) = true.

(** The rows asked for, in an order asked for: the database is free among ties. *)
Definition page {A} (offset limit : nat) (l : list A) : list A := firstn limit (skipn offset l).

(** The last column selected is the number of all matching rows. *)
Definition counted (q : query) : Prop :=
  exists l, q_cols q = l ++ [TComma; TWord "COUNT"; TOpen; TStar; TClose; TWord "OVER"; TOpen; TClose;
                             TAs; TWord "total_count"].

(** The text and the values get these rows; [n]: the number of all matching rows. *)
Definition served (w : pg) (text : string) (args : list value) (out : list (row w)) (n : nat) : Prop :=
  exists q limit offset l,
    read text = Some q /\ accepted q args limit offset
    /\ Permutation l (filter (kept w q args) (rows_of w (q_from q)))
    /\ StronglySorted (ordered w (q_order q) (q_desc q)) l
    /\ out = page offset limit l /\ n = List.length l.

(** * The filters *)

Definition op_names : list (string * op) :=
  [("eq", OEq); ("ne", ONe); ("gt", OGt); ("gte", OGe); ("lt", OLt); ("lte", OLe); ("in", OIn);
   ("between", OBetween); ("like", OLike); ("ilike", OILike); ("isnull", ONull); ("isnotnull", ONotNull)].

(** A moment written to a precision stands for a period: the microsecond, ... , or the day it
    falls in, days counted in the moment's own zone. *)
Definition unit_of (p : string) : Z :=
  if String.eqb p "microseconds" then 1000
  else if String.eqb p "milliseconds" then 1000000
  else if String.eqb p "minute" then 60000000000
  else if String.eqb p "hour" then 3600000000000
  else if String.eqb p "day" then 86400000000000
  else 1000000000.

Definition since (t : stamp) : Z :=
  let shift := (if String.eqb (t_prec t) "day" then t_zone t * 1000000000 else 0)%Z in
  (t_ns t - (t_ns t + shift) mod unit_of (t_prec t))%Z.

Definition first (t : stamp) : value := VMoment (since t) (t_zone t).
Definition next (t : stamp) : value := VMoment (since t + unit_of (t_prec t)) (t_zone t).

(** Outside a plain equality, a moment is that moment. *)
Definition exact (v : value) : value :=
  match v with VTime t => VMoment (t_ns t) (t_zone t) | _ => v end.

(** A truth value compared with a text is the word. *)
Definition worded (v : value) : value :=
  match v with VBool true => VStr "true" | VBool false => VStr "false" | _ => exact v end.

(** One operator. [test]: how the thing compares with a value; [nul]: it has no value. *)
Definition meets (test : cmp -> value -> bool) (nul : bool) (o : op) (v : value) (vs : list value) : bool :=
  match o with
  | OEq => test Eq v
  | ONe => test Ne v
  | OGt => test Gt v
  | OGe => test Ge v
  | OLt => test Lt v
  | OLe => test Le v
  | OIn => existsb (test Eq) vs
  | OBetween => match vs with [a; b] => test Ge a && test Le b | _ => false end
  | OLike => test Like v
  | OILike => test ILike v
  | ONull => nul
  | ONotNull => negb nul
  end.

(** A column; equality with a moment is being in its period. *)
Definition meets_column (w : pg) (r : row w) (c : string) (o : op) (f : filt) : bool :=
  match o, f_value f with
  | OEq, VTime t => true_ w r (Col c) Ge (first t) && true_ w r (Col c) Lt (next t)
  | _, _ => meets (true_ w r (Col c)) (null w r (Col c)) o (exact (f_value f)) (map exact (f_values f))
  end.

(** A key of the metadata: equality is having the key with that value; order is between
    numbers; the rest is about the text under the key. *)
Definition meets_meta (w : pg) (r : row w) (k : string) (o : op) (f : filt) : bool :=
  let text := Text "meta_data" k in
  let number := As "meta_data" k "numeric" in
  let time := As "meta_data" k "timestamp" in
  match o with
  | OEq => match f_value f with
           | VTime t => true_ w r time Ge (first t) && true_ w r time Lt (next t)
           | v => covers w r "meta_data" (VDoc k v)
           end
  | OGt | OGe | OLt | OLe | OBetween =>
      meets (true_ w r number) (null w r text) o (exact (f_value f)) (map exact (f_values f))
  | OLike | OILike => meets (true_ w r text) (null w r text) o (exact (f_value f)) []
  | ONe | OIn | ONull | ONotNull =>
      meets (true_ w r text) (null w r text) o (worded (f_value f)) (map worded (f_values f))
  end.

(** The two sides of a transaction: it has the balance on a side, or on neither. *)
Definition meets_sides (w : pg) (r : row w) (o : op) (f : filt) : bool :=
  let src := meets (true_ w r (Col "source")) (null w r (Col "source")) o
                   (exact (f_value f)) (map exact (f_values f)) in
  let dst := meets (true_ w r (Col "destination")) (null w r (Col "destination")) o
                   (exact (f_value f)) (map exact (f_values f)) in
  match o with ONe | ONull => src && dst | _ => src || dst end.

(** A balance on a side of the transaction has such an indicator. *)
Definition meets_indicator (w : pg) (r : row w) (o : op) (f : filt) : bool :=
  existsb (fun b => (same w r "source" b "balance_id" || same w r "destination" b "balance_id")
                    && meets (true_ w b (Col "indicator")) (null w b (Col "indicator")) o
                             (exact (f_value f)) (map exact (f_values f)))
          (rows_of w "blnk.balances").

(** The row is one the filter asks for. *)
Definition fits (w : pg) (table : string) (r : row w) (f : filt) : bool :=
  match find (fun x => String.eqb (fst x) (f_op f)) op_names with
  | None => false
  | Some (_, o) =>
    match after "meta_data." (f_field f) with
    | Some k => meets_meta w r k o f
    | None =>
      if String.eqb table "transactions" && String.eqb (f_field f) "balance_id" then meets_sides w r o f
      else if String.eqb table "transactions" && String.eqb (f_field f) "indicator"
      then meets_indicator w r o f
      else meets_column w r (f_field f) o f
    end
  end.

(** All the filters, or any of them. No filters: every row. *)
Definition wanted (w : pg) (table : string) (any : bool) (fs : list filt) (r : row w) : bool :=
  match fs with
  | [] => true
  | _ => if any then existsb (fits w table r) fs else forallb (fits w table r) fs
  end.

(** ** Filters that are taken *)

Definition tables : list string := ["transactions"; "balances"; "ledgers"; "identity"; "accounts"].

(** Every column of the table but a few, and for transactions the balance on either side and
    its indicator. *)
Definition filterable (table : string) : list string :=
  filter (fun c => negb (mem c ["id"; "hash"; "scheduled_for"; "precise_amount"; "chain_seq"; "chain_prev_hash";
                                "chain_hash"; "version"; "track_fund_lineage"; "allocation_strategy"]))
         (schema ("blnk." ++ table))
  ++ (if String.eqb table "transactions" then ["balance_id"; "indicator"] else []).

Definition letters : string := "abcdefghijklmnopqrstuvwxyzABCDEFGHIJKLMNOPQRSTUVWXYZ".

Definition plain_key (k : string) : Prop :=
  exists c s, k = String c s /\ In c (list_ascii_of_string letters)
    /\ Forall (fun x => In x (list_ascii_of_string (letters ++ "0123456789_"))) (list_ascii_of_string s).

Record taken (table : string) (f : filt) : Prop := {
  k_op : exists o, In (f_op f, o) op_names
      /\ (o = OIn -> f_values f <> [])
      /\ (o = OBetween -> List.length (f_values f) = 2)
      /\ (table = "transactions" -> f_field f = "balance_id" -> In o [OEq; ONe; OIn; ONull; ONotNull]);
  k_field : In (f_field f) (filterable table)
            \/ exists k, f_field f = ("meta_data." ++ k)%string /\ plain_key k }.

(** ** Filters outside the claim *)

Definition simple (v : value) : Prop :=
  match v with VNull | VBool _ | VInt _ | VFloat _ _ | VStr _ | VTime _ => True | _ => False end.

(** Equality with NaN or an infinity under a metadata key. *)
Definition not_a_number (f : filt) : Prop :=
  f_op f = "eq" /\ (exists k, f_field f = ("meta_data." ++ k)%string)
  /\ exists s, f_value f = VFloat s false.

Definition about_indicator (f : filt) : bool := String.eqb (f_field f) "indicator".

(** A request inside the claim: plain values (an object or a list only where it is looked for
    in the metadata), no [not_a_number], for transactions at most one filter on the indicator
    and no sorting by a field that is not a column. *)
Record covered (table : string) (r : request) : Prop := {
  c_values : Forall (fun f => (simple (f_value f)
                               \/ f_op f = "eq" /\ exists k s, f_field f = ("meta_data." ++ k)%string
                                                            /\ f_value f = VOther s)
                              /\ Forall simple (f_values f)) (r_filters r);
  c_numbers : Forall (fun f => ~ not_a_number f) (r_filters r);
  c_indicator : table = "transactions" -> List.length (filter about_indicator (r_filters r)) <= 1;
  c_sort : In (r_by r) (filterable table) -> In (r_by r) (schema ("blnk." ++ table)) }.

(** ** The answer *)

Definition sorted_by (table : string) (r : request) : string :=
  if mem (r_by r) (filterable table) then r_by r else "created_at".

Definition page_size (r : request) : nat :=
  if (0 <? r_limit r)%Z && (r_limit r <=? 100)%Z then Z.to_nat (r_limit r) else 20.

(** These rows: the page asked for of all the rows wanted, in an order asked for. *)
Definition answer (w : pg) (table : string) (r : request) (out : list (row w)) (n : nat) : Prop :=
  exists l,
    Permutation l (filter (wanted w table (String.eqb (r_lop r) "or") (r_filters r))
                          (rows_of w ("blnk." ++ table)))
    /\ StronglySorted (ordered w (sorted_by table r) (negb (String.eqb (r_order r) "asc"))) l
    /\ out = page (Z.to_nat (r_offset r)) (page_size r) l /\ n = List.length l.

(** Two filters that differ in nothing but the values compared with. *)
Definition alike_values (a b : value) : Prop :=
  match a, b with
  | VTime _, VTime _ => True
  | VTime _, _ | _, VTime _ => False
  | VFloat _ x, VFloat _ y => x = y
  | VFloat _ x, _ => x = true
  | _, VFloat _ y => y = true
  | _, _ => True
  end.

Definition is_text (v : value) : Prop := match v with VStr _ => True | _ => False end.

Definition same_shape (f g : filt) : Prop :=
  f_field f = f_field g /\ f_op f = f_op g /\ alike_values (f_value f) (f_value g)
  /\ List.length (f_values f) = List.length (f_values g)
  /\ (Forall is_text (f_values f) <-> Forall is_text (f_values g)).
