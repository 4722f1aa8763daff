(** A small database, and listings of it. *)

From Coq Require Import List Bool Arith ZArith Lia Ascii String Sorted Permutation.
From Verif Require Import BodyModel FilterSql FilterModel FilterSpec FilterLex FilterQuery FilterTake FilterThms FilterFacts FilterUrl.
Import ListNotations.
Local Open Scope nat_scope.
Local Open Scope string_scope.
Local Open Scope list_scope.

(** * The database *)

Definition record_ : Type := list (string * value).

Definition cell (r : record_) (c : string) : option value :=
  option_map snd (find (fun x => fst x =? c) r).

Definition name_of (o : operand) : string :=
  match o with Col c => c | Text c k | As c k _ => (c ++ "." ++ k)%string end.

Definition number (v : option value) : Z :=
  match v with Some (VInt z) => z | Some (VMoment z _) => z | _ => 0 end.

Definition eqv (a b : value) : bool :=
  match a, b with
  | VStr x, VStr y => x =? y
  | VInt x, VInt y => (x =? y)%Z
  | VMoment x _, VMoment y _ => (x =? y)%Z
  | _, _ => false
  end.

Definition compares (r : record_) (o : operand) (c : cmp) (v : value) : bool :=
  match cell r (name_of o) with
  | None => false
  | Some x =>
    let a := number (Some x) in let b := number (Some v) in
    match c with
    | Eq => eqv x v
    | Ne => negb (eqv x v)
    | Gt => (b <? a)%Z
    | Ge => (b <=? a)%Z
    | Lt => (a <? b)%Z
    | Le => (a <=? b)%Z
    | Like | ILike => false
    end
  end.

Definition absent (r : record_) (o : operand) : bool :=
  match cell r (name_of o) with None => true | Some _ => false end.

Definition shop (rows : string -> list record_) : pg := {|
  row := record_;
  rows_of := rows;
  true_ := compares;
  null := absent;
  asks r c k := Some (negb (absent r (Text c k)));
  covers r c v := match v with
                  | VDoc k x => match cell r (c ++ "." ++ k)%string with Some y => eqv x y | None => false end
                  | _ => false
                  end;
  same a c b d := match cell a c, cell b d with Some x, Some y => eqv x y | _, _ => false end;
  upto c a b := (number (cell a c) <=? number (cell b c))%Z |}.

Lemma shop_sane : forall rows, sane (shop rows).
Proof.
  intros rows. split; [|split]; cbn.
  - intros r c k ->. reflexivity.
  - intros c a b. destruct (Z.leb_spec (number (cell a c)) (number (cell b c))); [now left|].
    right. apply Z.leb_le. lia.
  - intros c x y z A B. apply Z.leb_le in A. apply Z.leb_le in B. apply Z.leb_le. lia.
Qed.

(** Days, in nanoseconds. *)
Definition day (n : Z) : Z := (n * 86400000000000)%Z.

Definition txn (name src dst status : string) (at_ amount : Z) : record_ :=
  [("transaction_id", VStr name); ("source", VStr src); ("destination", VStr dst);
   ("status", VStr status); ("created_at", VMoment at_ 0); ("amount", VInt amount);
   ("meta_data.kind", VStr "sale")].

Definition t1 := txn "t1" "b1" "b2" "APPLIED" (day 3 + 5)%Z 100.
Definition t2 := txn "t2" "b3" "b1" "APPLIED" (day 3 + 9)%Z 250.
Definition t3 := txn "t3" "b2" "b3" "VOID" (day 3 + 7)%Z 400.
Definition t4 := txn "t4" "b1" "b3" "APPLIED" (day 4) 900.

Definition book (table : string) : list record_ :=
  if table =? "blnk.transactions" then [t1; t2; t3; t4]
  else if table =? "blnk.balances" then
    [[("balance_id", VStr "b1"); ("indicator", VStr "@cash")]; [("balance_id", VStr "b2")];
     [("balance_id", VStr "b3")]]
  else [].

(** * A listing *)

(** The third day, of a balance with the indicator @cash, not void, amount 100 or more, sold. *)
Definition ask : request := {|
  r_filters :=
    [{| f_field := "created_at"; f_op := "eq"; f_values := [];
        f_value := VTime {| t_ns := (day 3 + 1000)%Z; t_zone := 0; t_prec := "day" |} |};
     {| f_field := "indicator"; f_op := "eq"; f_value := VStr "@cash"; f_values := [] |};
     {| f_field := "status"; f_op := "in"; f_value := VNull; f_values := [VStr "APPLIED"; VStr "QUEUED"] |};
     {| f_field := "amount"; f_op := "between"; f_value := VNull; f_values := [VInt 100; VInt 500] |};
     {| f_field := "meta_data.kind"; f_op := "eq"; f_value := VStr "sale"; f_values := [] |}];
  r_lop := ""; r_limit := 10; r_offset := 0; r_by := "amount"; r_order := "desc"; r_count := true |}.

Lemma all_taken : forall table fs, In table tables -> forallb (valid_filter table) fs = true ->
  Forall (taken table) fs.
Proof.
  intros table fs T V. rewrite forallb_forall in V. apply Forall_forall. intros f I.
  apply valid_taken; auto.
Qed.

Lemma ask_taken : Forall (taken "transactions") (r_filters ask).
Proof. apply all_taken; [now left|reflexivity]. Qed.

Lemma ask_covered : covered "transactions" ask.
Proof.
  constructor.
  - repeat (constructor; [split; [left; exact I|repeat constructor]|]). constructor.
  - repeat (constructor; [intros (_ & _ & s & E); discriminate E|]). constructor.
  - intros _. cbn. lia.
  - intros _. vm_compute. tauto.
Qed.

Example ask_sent : filtered "transactions" ask
  = Some ("WITH _indicator_matches AS (SELECT b.balance_id FROM blnk.balances b WHERE b.indicator = $3)  SELECT transaction_id, source, reference, amount, precise_amount, precision, currency, destination, description, status, hash, created_at, effective_date, meta_data, COALESCE(parent_transaction, '') AS parent_transaction, COUNT(*) OVER() AS total_count FROM blnk.transactions  WHERE created_at >= $1 AND created_at < $2 AND (source IN (SELECT balance_id FROM _indicator_matches) OR destination IN (SELECT balance_id FROM _indicator_matches)) AND status = ANY($4) AND amount BETWEEN $5 AND $6 AND meta_data @> $7::jsonb ORDER BY amount DESC LIMIT $8 OFFSET $9",
          [VMoment (day 3) 0; VMoment (day 4) 0; VStr "@cash"; VArr ["APPLIED"; "QUEUED"]; VInt 100; VInt 500;
           VDoc "kind" (VStr "sale"); VInt 10; VInt 0]).
Proof. vm_compute. reflexivity. Qed.

(** Two transactions come back, the larger first. *)
Example ask_answer : answer (shop book) "transactions" ask [t2; t1] 2.
Proof.
  exists [t2; t1]. split; [|split; [|split; reflexivity]].
  - vm_compute. apply perm_swap.
  - repeat constructor.
Qed.

(** * Filters on two indicators, and sorting by one *)

Definition about (s : string) : filt :=
  {| f_field := "indicator"; f_op := "eq"; f_value := VStr s; f_values := [] |}.

Definition ask_two : request := {|
  r_filters := [about "@cash"; about "@fees"]; r_lop := "or"; r_limit := 10; r_offset := 0;
  r_by := ""; r_order := ""; r_count := false |}.

Example two_taken : Forall (taken "transactions") (r_filters ask_two)
  /\ Forall (fun f => ~ not_a_number f) (r_filters ask_two)
  /\ 1 < List.length (filter about_indicator (r_filters ask_two))
  /\ filtered "transactions" ask_two <> None.
Proof.
  split; [|split; [|split]].
  - apply all_taken; [now left|reflexivity].
  - repeat (constructor; [intros (_ & _ & s & E); discriminate E|]). constructor.
  - cbn. lia.
  - vm_compute. discriminate.
Qed.

Definition ask_sort : request := {|
  r_filters := []; r_lop := ""; r_limit := 10; r_offset := 0; r_by := "indicator"; r_order := "asc"; r_count := false |}.

Example sort_sent : In (r_by ask_sort) (filterable "transactions") /\ filtered "transactions" ask_sort <> None.
Proof. split; [vm_compute; tauto|vm_compute; discriminate]. Qed.

(** * Not a number *)

Definition nan : filt := {| f_field := "meta_data.k"; f_op := "eq"; f_value := VFloat "NaN" false; f_values := [] |}.

Example nan_taken : taken "balances" nan /\ not_a_number nan.
Proof.
  split; [apply valid_taken; [right; now left|reflexivity]|].
  split; [reflexivity|]. split; [now exists "k"|now exists "NaN"].
Qed.

(** * Pages *)

Definition ties (table : string) : list record_ :=
  if table =? "blnk.ledgers" then [[("ledger_id", VStr "l1")]; [("ledger_id", VStr "l2")]] else [].

Definition page_of (offset : Z) : request := {|
  r_filters := []; r_lop := ""; r_limit := 1; r_offset := offset; r_by := ""; r_order := ""; r_count := false |}.

Lemma pages_covered : forall o, covered "ledgers" (page_of o).
Proof. intros o. constructor; cbn; try constructor; try discriminate; intros; vm_compute; tauto. Qed.

(** The first page and the second, each of one ledger out of two: the same ledger. *)
Lemma pages_same :
  answer (shop ties) "ledgers" (page_of 0) [[("ledger_id", VStr "l1")]] 2
  /\ answer (shop ties) "ledgers" (page_of 1) [[("ledger_id", VStr "l1")]] 2.
Proof.
  split.
  - exists [[("ledger_id", VStr "l1")]; [("ledger_id", VStr "l2")]]. split; [vm_compute; reflexivity|].
    split; [|split; reflexivity]. repeat constructor.
  - exists [[("ledger_id", VStr "l2")]; [("ledger_id", VStr "l1")]]. split; [vm_compute; apply perm_swap|].
    split; [|split; reflexivity]. repeat constructor.
Qed.

Lemma pages_overlap : ~ (forall w table r s text args text' args' out n out' n',
  sane w -> In table tables -> covered table r -> covered table s ->
  NoDup (rows_of w ("blnk." ++ table)) ->
  s = {| r_filters := r_filters r; r_lop := r_lop r; r_limit := r_limit r; r_offset := (r_offset r + r_limit r)%Z;
         r_by := r_by r; r_order := r_order r; r_count := r_count r |} ->
  (0 < r_limit r <= 100)%Z -> (0 <= r_offset r)%Z ->
  filtered table r = Some (text, args) -> filtered table s = Some (text', args') ->
  served w text args out n -> served w text' args' out' n' ->
  forall x, In x out -> ~ In x out').
Proof.
  intros H. assert (T : In "ledgers" tables) by (right; right; now left).
  destruct (filtered "ledgers" (page_of 0)) as [[text args]|] eqn:E; [|vm_compute in E; discriminate E].
  destruct (filtered "ledgers" (page_of 1)) as [[text' args']|] eqn:E'; [|vm_compute in E'; discriminate E'].
  refine (H (shop ties) "ledgers" (page_of 0) (page_of 1) text args text' args' _ _ _ _
            (shop_sane ties) T (pages_covered 0) (pages_covered 1) _ eq_refl _ _ E E' _ _ [("ledger_id", VStr "l1")] _ _).
  - cbn. constructor; [intros [X|[]]; discriminate X|]. constructor; [intros []|constructor].
  - cbn. lia.
  - cbn. lia.
  - apply (served_answer _ _ _ _ _ (shop_sane ties) T (pages_covered 0) E). exact (proj1 pages_same).
  - apply (served_answer _ _ _ _ _ (shop_sane ties) T (pages_covered 1) E'). exact (proj2 pages_same).
  - now left.
  - now left.
Qed.

(** * Query strings *)

Example query_example : forall float moment, float "USD" = None -> moment "USD" = None -> float "EUR" = None ->
  moment "EUR" = None ->
  read_param float moment "currency_in" "USD,EUR"
  = Read {| f_field := "currency"; f_op := "in"; f_value := VNull; f_values := [VStr "USD"; VStr "EUR"] |}
  /\ read_param float moment "created_at_isnull" "x"
     = Read {| f_field := "created_at"; f_op := "isnull"; f_value := VNull; f_values := [] |}.
Proof.
  intros float moment A B C D. split; [|reflexivity].
  refine (eq_trans (query_reads float moment "currency" "in" OIn ["USD"; "EUR"] "USD,EUR" _ _ _) _).
  - vm_compute. tauto.
  - split; [discriminate|]. split; [cbn; lia|]. split; [reflexivity|].
    repeat (constructor; [split; [intros X; cbn in X; intuition discriminate|reflexivity]|]). constructor.
  - cbn. lia.
  - cbn [map]. unfold parse_value. rewrite A, B, C, D. reflexivity.
Qed.

Lemma number_lost : ~ (forall float moment field name o s t, In (name, o) op_names ->
  spells o [s] s -> spells o [t] t -> s <> t ->
  read_param float moment (field ++ "_" ++ name) s <> read_param float moment (field ++ "_" ++ name) t).
Proof.
  intros H. refine (H (fun _ => None) (fun _ => None) "reference" "eq" OEq "007" "7" _ _ _ _ _); try reflexivity.
  - now left.
  - discriminate.
Qed.

Lemma misspelt_ignored : ~ (forall float moment table field o text, In field (filterable table) ->
  op_of o = None -> o <> "" -> ~ In "_"%char (list_ascii_of_string o) ->
  from_query float moment [((field ++ "_" ++ o)%string, text)] = None).
Proof.
  intros H. assert (X := H (fun _ => None) (fun _ => None) "transactions" "amount" "gtt" "5").
  assert (D : from_query (fun _ => None) (fun _ => None) [("amount_gtt", "5")] = Some []) by reflexivity.
  cbn [append] in X. rewrite X in D; [discriminate D|vm_compute; tauto|reflexivity|discriminate|].
  cbn. intuition discriminate.
Qed.

Lemma about_same : Forall2 same_shape [about "@cash"] [about "'; DROP TABLE blnk.balances; --"].
Proof. repeat constructor. Qed.

Lemma between_spelled : spells OBetween ["2024-01-01"; "2024-12-31"] "2024-01-01|2024-12-31".
Proof.
  exists "2024-01-01", "2024-12-31". split; [reflexivity|]. split; [reflexivity|].
  split; intros X; cbn in X; intuition discriminate.
Qed.
