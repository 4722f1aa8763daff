(** Filtered listings: from the filters a caller sends to the text and the parameters handed
    to the database. *)

From Coq Require Import List Bool Arith ZArith Lia Ascii String DecimalString.
From Verif Require Import BodyModel.
Import ListNotations.
Local Open Scope nat_scope.
Local Open Scope string_scope.

(** * Values *)

(** A moment, and how finely it was written. internal/filter/types.go:24-28. Simplified: the
    moment is nanoseconds since the start of year 1, Go's zero time, and the zone is a fixed
    number of seconds east of UTC. *)
Record stamp := { t_ns : Z; t_zone : Z; t_prec : string }.

(** An [interface{}] holding what a JSON body or a query string can put in it:
    internal/filter/types.go:33-34, internal/filter/values.go:7-32. Simplified: a float is the
    text the driver sends for it and whether it is a finite number. [VDoc k v]: the JSON text
    of an object with the one entry [k], [v] (internal/filter/helpers.go:32-35). [VArr]: a
    PostgreSQL array of texts. *)
Inductive value :=
  | VNull | VBool (b : bool) | VInt (z : Z) | VFloat (s : string) (finite : bool)
  | VStr (s : string) | VTime (t : stamp) | VMoment (ns zone : Z)
  | VOther (s : string) | VDoc (k : string) (v : value) | VArr (l : list string).

(** internal/filter/types.go:30-35. *)
Record filt := { f_field : string; f_op : string; f_value : value; f_values : list value }.

(** internal/filter/types.go:8-21, operators.go:52-63 (IsValidOperator). *)
Inductive op := OEq | ONe | OGt | OGe | OLt | OLe | OIn | OBetween | OLike | OILike | ONull | ONotNull.

Definition op_of (s : string) : option op :=
  if s =? "eq" then Some OEq else if s =? "ne" then Some ONe
  else if s =? "gt" then Some OGt else if s =? "gte" then Some OGe
  else if s =? "lt" then Some OLt else if s =? "lte" then Some OLe
  else if s =? "in" then Some OIn else if s =? "between" then Some OBetween
  else if s =? "like" then Some OLike else if s =? "ilike" then Some OILike
  else if s =? "isnull" then Some ONull else if s =? "isnotnull" then Some ONotNull
  else None.

(** internal/filter/helpers.go:8-15 (isStringArray). *)
Definition all_strings (l : list value) : bool :=
  forallb (fun v => match v with VStr _ => true | _ => false end) l.

(** internal/filter/helpers.go:17-23 (convertToStringArray), used on strings only. *)
Definition to_strings (l : list value) : list string :=
  map (fun v => match v with VStr s => s | _ => "" end) l.

(** internal/filter/helpers.go:25-30 (extractValueForSQL). *)
Definition extract (v : value) : value :=
  match v with VTime t => VMoment (t_ns t) (t_zone t) | _ => v end.

(** internal/filter/helpers.go:32-35 (buildContainmentJSON): encoding/json refuses NaN and
    the infinities. Simplified: nothing else it is given here can fail. *)
Definition containment (k : string) (v : value) : option value :=
  match v with VFloat _ false => None | _ => Some (VDoc k v) end.

(** * Moments *)

Definition second : Z := 1000000000.

(** time.Time.Truncate, on time since the zero time. *)
Definition truncate (t d : Z) : Z := (t - t mod d)%Z.

(** internal/filter/datetime.go:93-122 (computeTimestampRange). *)
Definition range (t : stamp) : Z * Z :=
  let by_ d := (truncate (t_ns t) d, truncate (t_ns t) d + d)%Z in
  let p := t_prec t in
  if p =? "microseconds" then by_ 1000%Z
  else if p =? "milliseconds" then by_ 1000000%Z
  else if p =? "second" then by_ second
  else if p =? "minute" then by_ (60 * second)%Z
  else if p =? "hour" then by_ (3600 * second)%Z
  else if p =? "day" then
    let local := (t_ns t + t_zone t * second)%Z in
    let floor := (truncate local (86400 * second) - t_zone t * second)%Z in
    (floor, floor + 86400 * second)%Z
  else by_ second.

(** * Names *)

Fixpoint mem (s : string) (l : list string) : bool :=
  match l with [] => false | x :: l => (s =? x) || mem s l end.

(** internal/filter/validation.go:70-174 (GetValidFieldsForTable). Simplified: the five
    tables the API lists with filters. *)
Definition valid_fields (table : string) : list string :=
  if table =? "transactions" then
    ["transaction_id"; "parent_transaction"; "amount"; "currency"; "source"; "destination";
     "balance_id"; "reference"; "status"; "created_at"; "effective_date"; "indicator";
     "description"; "precision"; "meta_data"]
  else if table =? "balances" then
    ["balance_id"; "ledger_id"; "identity_id"; "indicator"; "currency"; "balance";
     "credit_balance"; "debit_balance"; "inflight_balance"; "inflight_credit_balance";
     "inflight_debit_balance"; "created_at"; "meta_data"]
  else if table =? "ledgers" then ["ledger_id"; "name"; "created_at"; "meta_data"]
  else if table =? "identity" then
    ["identity_id"; "first_name"; "last_name"; "other_names"; "gender"; "dob"; "email_address";
     "phone_number"; "nationality"; "street"; "country"; "state"; "organization_name";
     "category"; "identity_type"; "post_code"; "city"; "created_at"; "meta_data"]
  else if table =? "accounts" then
    ["account_id"; "name"; "number"; "bank_name"; "currency"; "ledger_id"; "identity_id";
     "balance_id"; "created_at"; "meta_data"]
  else [].

(** internal/filter/sql_builder.go:257-448 (safeColumnForTableAndField): a list of its own. *)
Definition columns (table : string) : list string :=
  if table =? "transactions" then
    ["transaction_id"; "parent_transaction"; "amount"; "currency"; "source"; "destination";
     "balance_id"; "reference"; "status"; "created_at"; "effective_date"; "indicator";
     "description"; "precision"; "meta_data"]
  else if table =? "balances" then
    ["balance_id"; "ledger_id"; "identity_id"; "indicator"; "currency"; "balance";
     "credit_balance"; "debit_balance"; "inflight_balance"; "inflight_credit_balance";
     "inflight_debit_balance"; "created_at"; "meta_data"]
  else if table =? "ledgers" then ["ledger_id"; "name"; "created_at"; "meta_data"]
  else if table =? "identity" then
    ["identity_id"; "first_name"; "last_name"; "other_names"; "gender"; "dob"; "email_address";
     "phone_number"; "nationality"; "street"; "country"; "state"; "organization_name";
     "category"; "identity_type"; "post_code"; "city"; "created_at"; "meta_data"]
  else if table =? "accounts" then
    ["account_id"; "name"; "number"; "bank_name"; "currency"; "ledger_id"; "identity_id";
     "balance_id"; "created_at"; "meta_data"]
  else [].

Definition safe_column (table field : string) : string :=
  if mem field (columns table) then field else "".

(** strings.HasPrefix, and what follows the prefix (strings.TrimPrefix). *)
Fixpoint after (p s : string) : option string :=
  match p, s with
  | EmptyString, _ => Some s
  | String a p, String b s => if Ascii.eqb a b then after p s else None
  | String _ _, EmptyString => None
  end.

(** strings.SplitN(s, ".", 2). *)
Fixpoint split_dot (s : string) : option (string * string) :=
  match s with
  | EmptyString => None
  | String c s =>
    if Ascii.eqb c "."%char then Some ("", s)
    else match split_dot s with Some (a, b) => Some (String c a, b) | None => None end
  end.

(** internal/filter/sql_json.go:179-185 (isLetter, isDigit). *)
Definition is_letter (c : ascii) : bool :=
  let n := nat_of_ascii c in
  ((97 <=? n) && (n <=? 122) || (65 <=? n) && (n <=? 90))%nat.
Definition is_digit (c : ascii) : bool :=
  let n := nat_of_ascii c in ((48 <=? n) && (n <=? 57))%nat.

Definition key_char (c : ascii) : bool := is_letter c || is_digit c || Ascii.eqb c "_"%char.

(** internal/filter/validation.go:9 (jsonKeyRegex): ^[a-zA-Z][a-zA-Z0-9_]*$. *)
Definition good_key (k : string) : bool :=
  match k with
  | EmptyString => false
  | String c s => is_letter c && forallb key_char (list_ascii_of_string s)
  end.

(** internal/filter/sql_json.go:154-177 (sanitizeJSONKey). *)
Definition sanitize (k : string) : string :=
  match k with
  | EmptyString => ""
  | String c _ => if is_letter c && forallb key_char (list_ascii_of_string k) then k else ""
  end.

(** * Checks *)

(** internal/filter/validation.go:27-62: one filter. *)
Definition valid_filter (table : string) (f : filt) : bool :=
  match op_of (f_op f) with
  | None => false
  | Some o =>
    (match o with
     | OIn => negb (List.length (f_values f) =? 0)%nat
     | OBetween => (List.length (f_values f) =? 2)%nat
     | _ => true
     end)
    && (if (table =? "transactions") && (f_field f =? "balance_id") then
          match o with OEq | ONe | OIn | ONull | ONotNull => true | _ => false end
        else true)
    && (match after "meta_data." (f_field f) with
        | Some k => if mem "meta_data" (valid_fields table) then good_key k
                    else mem (f_field f) (valid_fields table)
        | None => mem (f_field f) (valid_fields table)
        end)
  end.

(** internal/filter/validation.go:11-68 (Validate), operators.go:47-49. *)
Definition validate (table lop : string) (fs : list filt) : bool :=
  ((lop =? "") || (lop =? "and") || (lop =? "or"))
  && negb (List.length (valid_fields table) =? 0)%nat
  && forallb (valid_filter table) fs.

(** * Text *)

(** The decimal digits of a number ([%d]). *)
Definition dec (n : nat) : string := NilEmpty.string_of_uint (Nat.to_uint n).

(** "$p, $p+1, ..." for [n] values: internal/filter/sql_builder.go:185-190. *)
Fixpoint places (p n : nat) : list string :=
  match n with 0 => [] | S n => ("$" ++ dec p) :: places (S p) n end.

Definition piece : Type := string * list value * nat.

(** A condition on one value: the text, the value, the next parameter. *)
Definition one (text : string) (v : value) (p : nat) : piece := (text, [v], S p).

(** internal/filter/sql_builder.go:106-218 (buildStandardCondition). Simplified, here and
    below: the table has no alias (every caller passes ""); a value is never a bare time.Time,
    which neither a JSON body nor a query string yields. *)
Definition standard (table : string) (f : filt) (p : nat) : piece :=
  let c := safe_column table (f_field f) in
  if c =? "" then ("", [], p)
  else
    let v := extract (f_value f) in
    match op_of (f_op f) with
    | Some OEq =>
      match f_value f with
      | VTime t =>
        let (a, b) := range t in
        (c ++ " >= $" ++ dec p ++ " AND " ++ c ++ " < $" ++ dec (S p),
         [VMoment a (t_zone t); VMoment b (t_zone t)], S (S p))
      | _ => one (c ++ " = $" ++ dec p) v p
      end
    | Some ONe => one (c ++ " != $" ++ dec p) v p
    | Some OGt => one (c ++ " > $" ++ dec p) v p
    | Some OGe => one (c ++ " >= $" ++ dec p) v p
    | Some OLt => one (c ++ " < $" ++ dec p) v p
    | Some OLe => one (c ++ " <= $" ++ dec p) v p
    | Some OLike => one (c ++ " LIKE $" ++ dec p) v p
    | Some OILike => one (c ++ " ILIKE $" ++ dec p) v p
    | Some OIn =>
      if (0 <? List.length (f_values f))%nat then
        if all_strings (f_values f) then
          one (c ++ " = ANY($" ++ dec p ++ ")") (VArr (to_strings (f_values f))) p
        else (c ++ " IN (" ++ String.concat ", " (places p (List.length (f_values f))) ++ ")",
              map extract (f_values f), p + List.length (f_values f))
      else ("", [], 0)
    | Some OBetween =>
      match f_values f with
      | [a; b] => (c ++ " BETWEEN $" ++ dec p ++ " AND $" ++ dec (S p),
                   [extract a; extract b], S (S p))
      | _ => ("", [], 0)
      end
    | Some ONull => (c ++ " IS NULL", [], p)
    | Some ONotNull => (c ++ " IS NOT NULL", [], p)
    | None => ("", [], p)
    end.

(** fmt.Sprintf("%t") of a boolean, any other value as it goes to the database:
    internal/filter/sql_json.go:63-70, 107-111. *)
Definition as_text (v : value) : value :=
  match v with VBool b => VStr (if b then "true" else "false") | _ => extract v end.

(** internal/filter/sql_json.go:9-139 (buildJSONPathCondition, resolveJSONColumn). *)
Definition json_path (f : filt) (p : nat) : piece :=
  match split_dot (f_field f) with
  | None => ("", [], p)
  | Some (col, rest) =>
    let c := if col =? "meta_data" then "meta_data" else "" in
    let k := sanitize rest in
    if (c =? "") || (k =? "") then ("", [], p)
    else
      let text := c ++ "->>'" ++ k ++ "'" in
      let num := "(" ++ text ++ ")::numeric" in
      let time := "(" ++ text ++ ")::timestamp" in
      let v := extract (f_value f) in
      match op_of (f_op f) with
      | Some OEq =>
        match f_value f with
        | VTime t =>
          let (a, b) := range t in
          (time ++ " >= $" ++ dec p ++ " AND " ++ time ++ " < $" ++ dec (S p),
           [VMoment a (t_zone t); VMoment b (t_zone t)], S (S p))
        | _ => match containment k (f_value f) with
               | Some d => one (c ++ " @> $" ++ dec p ++ "::jsonb") d p
               | None => ("", [], p)
               end
        end
      | Some ONe => one (text ++ " != $" ++ dec p) (as_text (f_value f)) p
      | Some OGt => one (num ++ " > $" ++ dec p) v p
      | Some OGe => one (num ++ " >= $" ++ dec p) v p
      | Some OLt => one (num ++ " < $" ++ dec p) v p
      | Some OLe => one (num ++ " <= $" ++ dec p) v p
      | Some OLike => one (text ++ " LIKE $" ++ dec p) v p
      | Some OILike => one (text ++ " ILIKE $" ++ dec p) v p
      | Some OIn =>
        if (0 <? List.length (f_values f))%nat then
          (text ++ " IN (" ++ String.concat ", " (places p (List.length (f_values f))) ++ ")",
           map as_text (f_values f), p + List.length (f_values f))
        else ("", [], 0)
      | Some OBetween =>
        match f_values f with
        | [a; b] => (num ++ " BETWEEN $" ++ dec p ++ " AND $" ++ dec (S p),
                     [extract a; extract b], S (S p))
        | _ => ("", [], 0)
        end
      | Some ONull =>
        ("(" ++ text ++ " IS NULL OR " ++ c ++ " ? '" ++ k ++ "' = false)", [], p)
      | Some ONotNull =>
        ("(" ++ text ++ " IS NOT NULL AND " ++ c ++ " ? '" ++ k ++ "' = true)", [], p)
      | None => ("", [], p)
      end
  end.

(** internal/filter/sql_special.go:10-63 (buildBalanceIdCondition). *)
Definition balance_side (f : filt) (p : nat) : piece :=
  let v := extract (f_value f) in
  match op_of (f_op f) with
  | Some OEq => one ("(source = $" ++ dec p ++ " OR destination = $" ++ dec p ++ ")") v p
  | Some ONe => one ("(source != $" ++ dec p ++ " AND destination != $" ++ dec p ++ ")") v p
  | Some OIn =>
    if (0 <? List.length (f_values f))%nat then
      if all_strings (f_values f) then
        one ("(source = ANY($" ++ dec p ++ ") OR destination = ANY($" ++ dec p ++ "))")
            (VArr (to_strings (f_values f))) p
      else
        let ph := String.concat ", " (places p (List.length (f_values f))) in
        ("(source IN (" ++ ph ++ ") OR destination IN (" ++ ph ++ "))",
         map extract (f_values f), p + List.length (f_values f))
    else ("", [], 0)
  | Some ONull => ("(source IS NULL AND destination IS NULL)", [], p)
  | Some ONotNull => ("(source IS NOT NULL OR destination IS NOT NULL)", [], p)
  | _ => ("", [], p)
  end.

(** internal/filter/sql_special.go:65-148: the condition on the balance's indicator. *)
Definition indicator_text (f : filt) (p : nat) : piece :=
  let v := extract (f_value f) in
  let c := "b.indicator" in
  match op_of (f_op f) with
  | Some OEq => one (c ++ " = $" ++ dec p) v p
  | Some ONe => one (c ++ " != $" ++ dec p) v p
  | Some OGt => one (c ++ " > $" ++ dec p) v p
  | Some OGe => one (c ++ " >= $" ++ dec p) v p
  | Some OLt => one (c ++ " < $" ++ dec p) v p
  | Some OLe => one (c ++ " <= $" ++ dec p) v p
  | Some OLike => one (c ++ " LIKE $" ++ dec p) v p
  | Some OILike => one (c ++ " ILIKE $" ++ dec p) v p
  | Some OIn =>
    if (0 <? List.length (f_values f))%nat then
      if all_strings (f_values f) then
        one (c ++ " = ANY($" ++ dec p ++ ")") (VArr (to_strings (f_values f))) p
      else (c ++ " IN (" ++ String.concat ", " (places p (List.length (f_values f))) ++ ")",
            map extract (f_values f), p + List.length (f_values f))
    else ("", [], p)
  | Some OBetween =>
    match f_values f with
    | [a; b] => (c ++ " BETWEEN $" ++ dec p ++ " AND $" ++ dec (S p), [extract a; extract b], S (S p))
    | _ => ("", [], p)
    end
  | Some ONull => (c ++ " IS NULL", [], p)
  | Some ONotNull => (c ++ " IS NOT NULL", [], p)
  | None => ("", [], p)
  end.

(** internal/filter/sql_special.go:150-168 (the end of buildIndicatorCondition): the named
    query, and the condition on the transaction's two sides. *)
Definition indicator_cte (text : string) : string :=
  "_indicator_matches AS (SELECT b.balance_id FROM blnk.balances b WHERE " ++ text ++ ")".

Definition indicator_sides : string :=
  "(source IN (SELECT balance_id FROM _indicator_matches) OR destination IN (SELECT balance_id FROM _indicator_matches))".

(** internal/filter/types.go:72-78 (BuildResult). *)
Record built := { b_ctes : list string; b_conds : list string; b_args : list value; b_next : nat }.

(** internal/filter/sql_builder.go:36-83: one turn of the loop in Build. A condition that
    comes out empty is left out. *)
Definition add (table : string) (b : built) (f : filt) : built :=
  let p := b_next b in
  let keep (x : piece) (ctes : list string) :=
    let '(c, a, n) := x in
    if c =? "" then b
    else {| b_ctes := b_ctes b ++ ctes; b_conds := b_conds b ++ [c]; b_args := b_args b ++ a; b_next := n |}%list in
  if (match split_dot (f_field f) with Some _ => true | None => false end)
     && (match after "meta_data" (f_field f) with Some _ => true | None => false end)
  then keep (json_path f p) []
  else if (f_field f =? "balance_id") && (table =? "transactions")
  then keep (balance_side f p) []
  else if (f_field f =? "indicator") && (table =? "transactions")
  then let '(c, a, n) := indicator_text f p in
       if c =? "" then b else keep (indicator_sides, a, n) [indicator_cte c]
  else keep (standard table f p) [].

(** internal/filter/sql_builder.go:11-87 (Build), from parameter 1. *)
Definition build (table lop : string) (fs : list filt) : option built :=
  let b := {| b_ctes := []; b_conds := []; b_args := []; b_next := 1 |} in
  match fs with
  | [] => Some b
  | _ => if validate table lop fs then Some (fold_left (add table) fs b) else None
  end.

(** internal/filter/sql_builder.go:91-104 (BuildConditionExpression). *)
Definition expression (conds : list string) (lop : string) : string :=
  if lop =? "or" then String.concat " OR " (map (fun c => "(" ++ c ++ ")") conds)
  else String.concat " AND " conds.

(** internal/filter/sql_builder.go:244-253, 451-473 (ResolveSortField, safeColumnForSort,
    BuildOrderBy), validation.go:204-206. *)
Definition sort_field (table by_ : string) : string :=
  if by_ =? "" then "created_at"
  else if mem by_ (valid_fields table) then
    (if safe_column table by_ =? "" then "created_at" else safe_column table by_)
  else "created_at".

Definition order_by (table by_ : string) (asc : bool) : string :=
  sort_field table by_ ++ (if asc then " ASC" else " DESC").

(** * Listings *)

(** What is selected, for the five tables: database/transaction_filters.go:73,
    balance.go:1765, ledger.go:260, identity.go:435, account.go:448. *)
Definition selected (table : string) : string :=
  if table =? "transactions" then
    "transaction_id, source, reference, amount, precise_amount, precision, currency, destination, description, status, hash, created_at, effective_date, meta_data, COALESCE(parent_transaction, '') AS parent_transaction"
  else if table =? "balances" then
    "balance_id, indicator, balance, credit_balance, debit_balance, inflight_balance, inflight_credit_balance, inflight_debit_balance, currency, ledger_id, COALESCE(identity_id, '') as identity_id, created_at, meta_data"
  else if table =? "ledgers" then "ledger_id, name, created_at, meta_data"
  else if table =? "identity" then
    "identity_id, identity_type, first_name, last_name, other_names, gender, dob, email_address, phone_number, nationality, organization_name, category, street, country, state, post_code, city, created_at, meta_data"
  else "account_id, name, number, bank_name, currency, ledger_id, identity_id, balance_id, created_at, meta_data".

(** The listing's own bound on the page: database/transaction_filters.go:56-58,
    balance.go:1748-1750, ledger.go:243-245, identity.go:418-420, account.go:431-433. *)
Definition capped (table : string) (limit : Z) : Z :=
  if (table =? "transactions") || (table =? "balances") then
    (if (limit <=? 0) || (1000 <? limit) then 1000 else limit)%Z
  else (if (limit <=? 0) || (100 <? limit) then 20 else limit)%Z.

(** How the rows are wanted: internal/filter/types.go:58-70 (QueryOptions). [o_by] is in
    lower case without blanks around. *)
Record options := { o_by : string; o_asc : bool; o_count : bool }.

(** GetAll...WithFilterAndOptions, up to the call to the database:
    database/transaction_filters.go:52-108, balance.go:1747-1797, ledger.go:242-291,
    identity.go:417-466, account.go:430-479. Only transactions put the named queries in
    front. Simplified: line breaks and tabs between words are single blanks. *)
Definition listing (table lop : string) (fs : list filt) (o : options) (limit offset : Z)
  : option (string * list value) :=
  if negb (o_by o =? "") && negb (mem (o_by o) (valid_fields table)) then None
  else
    match build table lop fs with
    | None => None
    | Some b =>
      let sel := selected table ++ (if o_count o then ", COUNT(*) OVER() AS total_count" else "") in
      let base := " SELECT " ++ sel ++ " FROM blnk." ++ table ++ " " in
      let base := if (0 <? List.length (b_conds b))%nat
                  then base ++ " WHERE " ++ expression (b_conds b) lop else base in
      let base := if (table =? "transactions") && (0 <? List.length (b_ctes b))%nat
                  then "WITH " ++ String.concat ", " (b_ctes b) ++ " " ++ base else base in
      Some (base ++ " ORDER BY " ++ order_by table (o_by o) (o_asc o)
            ++ " LIMIT $" ++ dec (b_next b) ++ " OFFSET $" ++ dec (S (b_next b)),
            app (b_args b) [VInt (capped table limit); VInt offset])
    end.

(** * Requests *)

(** The JSON body of the filter routes: api/filter_helper.go:66-74. [r_by], [r_order] and
    [r_lop] in lower case without blanks around. *)
Record request := {
  r_filters : list filt; r_lop : string; r_limit : Z; r_offset : Z;
  r_by : string; r_order : string; r_count : bool }.

(** internal/filter/operators.go:36-45 (ResolveLogicalOperator). *)
Definition resolve (s : string) : option string :=
  if (s =? "") || (s =? "and") then Some "and" else if s =? "or" then Some "or" else None.

(** api/filter_helper.go:85-138 (ParseFiltersFromBody), then the listing: api/transactions.go:
    435-446, balance.go:175-186, ledger.go:172-183, identity.go:224-235, accounts.go:163-174. *)
Definition filtered (table : string) (r : request) : option (string * list value) :=
  match resolve (r_lop r) with
  | None => None
  | Some lop =>
    let limit := (if (r_limit r <=? 0) || (100 <? r_limit r) then 20 else r_limit r)%Z in
    let offset := (if r_offset r <? 0 then 0 else r_offset r)%Z in
    let by_ := if mem (r_by r) (valid_fields table) then r_by r else "" in
    listing table lop (r_filters r)
            {| o_by := by_; o_asc := r_order r =? "asc"; o_count := r_count r |} limit offset
  end.
