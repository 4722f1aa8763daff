(** Balance monitors: api/model/model.go:221-244, api/balance.go:206-355,
    balance.go:79-137,361-500, database/balance.go:1118-1375, model/model.go:73-90,500-516.
    Floats are exact rationals. *)
From Coq Require Import ZArith QArith List String Bool.
From Verif Require Import Base SplitModel BalanceModel.
Import ListNotations.
Local Open Scope string_scope.
Open Scope Z_scope.

(** AlertCondition as the client states it, model/balance.go:84-90. *)
Record condition := { q_field : string; q_op : string; q_value : Q; q_prec : Q }.

(** A row of blnk.balance_monitors. *)
Record monitor := { m_id : string; m_bal : string; m_cond : condition; m_precise : Z }.

(** compare, model/model.go:73-90. *)
Definition compare_op (value : Z) (op : string) (to : Z) : bool :=
  if String.eqb op ">" then to <? value
  else if String.eqb op "<" then value <? to
  else if String.eqb op ">=" then to <=? value
  else if String.eqb op "<=" then value <=? to
  else if String.eqb op "!=" then negb (value =? to)
  else if String.eqb op "==" then value =? to
  else false.

(** CheckCondition, model/model.go:500-516. *)
Definition check_condition (m : monitor) (b : balance) : bool :=
  let f := q_field (m_cond m) in
  let cmp v := compare_op v (q_op (m_cond m)) (m_precise m) in
  if String.eqb f "debit_balance" then cmp (b_db b)
  else if String.eqb f "credit_balance" then cmp (b_cr b)
  else if String.eqb f "balance" then cmp (b_bal b)
  else if String.eqb f "inflight_debit_balance" then cmp (b_idb b)
  else if String.eqb f "inflight_credit_balance" then cmp (b_icr b)
  else if String.eqb f "inflight_balance" then cmp (b_ibal b)
  else false.

(** ValidateMonitorCondition, api/model/model.go:237-244 (ozzo's Required rejects zero values). *)
Definition monitor_fields : list string :=
  ["debit_balance"; "credit_balance"; "balance"; "inflight_debit_balance"; "inflight_credit_balance"; "inflight_balance"].
Definition valid_condition (q : condition) : bool :=
  existsb (String.eqb (q_field q)) monitor_fields && negb (String.eqb (q_op q) "")
  && qlt 0 (q_prec q) && negb (Qeq_bool (q_value q) 0).

(** The CHECK constraints of sql/1713790634.sql:16-19. *)
Definition monitor_ops : list string := [">"; "<"; ">="; "<="; "="; "!="].
Definition db_accepts (q : condition) : bool :=
  existsb (String.eqb (q_field q)) monitor_fields && existsb (String.eqb (q_op q)) monitor_ops
  (* value is BIGINT, sql/1708676327.sql:93: a fraction or an out-of-range number is a syntax error *)
  && Qeq_bool (q_value q) (q_of_Z (trunc_q (q_value q)))
  && (-9223372036854775808 <=? trunc_q (q_value q)) && (trunc_q (q_value q) <? 9223372036854775808).

(** int64(float64) on amd64: truncation, out of range gives the smallest integer. *)
Definition to_int64 (q : Q) : Z :=
  let n := trunc_q q in
  if (-9223372036854775808 <=? n) && (n <? 9223372036854775808) then n else -9223372036854775808.

(** The precise threshold, balance.go:365-367. *)
Definition precise_value (q : condition) : Z := to_int64 (Qmult (q_value q) (q_prec q)).

(** The table, the cache of balance.go:119-137 and the lookups that have read the
    table but not yet filled the cache. *)
Record msys := {
  y_table : list monitor;
  y_cache : string -> option (list monitor);
  y_fills : list (string * list monitor) }.

Definition cache_set (k : string) (v : option (list monitor)) (c : string -> option (list monitor)) :=
  fun k' => if String.eqb k' k then v else c k'.

(** GetBalanceMonitors, database/balance.go:1258-1299. *)
Definition monitors_of (b : string) (t : list monitor) : list monitor :=
  filter (fun m => String.eqb (m_bal m) b) t.

Inductive mevent :=
| MCreate (id bal : string) (q : condition)
| MUpdate (id bal : string) (q : condition)
| MDelete (id : string)
| MEvict (bal : string)               (* the cache entry expires or is evicted *)
| MCheck (b : balance)                (* a posting updated balance b *)
| MFill (n : nat).                    (* the cache write of an earlier lookup *)

Fixpoint drop_nth {A} (n : nat) (l : list A) : list A :=
  match l, n with [], _ => [] | _ :: r, O => r | x :: r, S m => x :: drop_nth m r end.

(** One request. The second component: the monitors that fired. *)
Definition mstep (y : msys) (e : mevent) : option (msys * list monitor) :=
  match e with
  | MCreate id bal q =>                                (* api/balance.go:206-226, balance.go:361-378 *)
    if valid_condition q && db_accepts q && negb (existsb (fun m => String.eqb (m_id m) id) (y_table y)) then
      Some ({| y_table := y_table y ++ [{| m_id := id; m_bal := bal; m_cond := q; m_precise := precise_value q |}];
               y_cache := cache_set bal None (y_cache y); y_fills := y_fills y |}, [])
    else None
  | MUpdate id bal q =>                                (* api/balance.go:311-333, balance.go:457-471, database/balance.go:1313-1339 *)
    if db_accepts q && existsb (fun m => String.eqb (m_id m) id) (y_table y) then
      Some ({| y_table := map (fun m => if String.eqb (m_id m) id
                                        then {| m_id := id; m_bal := bal;
                                                m_cond := {| q_field := q_field q; q_op := q_op q; q_value := q_value q; q_prec := q_prec (m_cond m) |};
                                                m_precise := m_precise m |}
                                        else m) (y_table y);
               y_cache := cache_set bal None (y_cache y); y_fills := y_fills y |}, [])
    else None
  | MDelete id =>                                      (* balance.go:482-500 *)
    match find (fun m => String.eqb (m_id m) id) (y_table y) with
    | Some m => Some ({| y_table := filter (fun m => negb (String.eqb (m_id m) id)) (y_table y);
                         y_cache := cache_set (m_bal m) None (y_cache y); y_fills := y_fills y |}, [])
    | None => None
    end
  | MEvict bal => Some ({| y_table := y_table y; y_cache := cache_set bal None (y_cache y); y_fills := y_fills y |}, [])
  | MCheck b =>                                        (* balance.go:79-106,119-137 *)
    match y_cache y (b_id b) with
    | Some l => Some (y, filter (fun m => check_condition m b) l)
    | None => let l := monitors_of (b_id b) (y_table y) in
              Some ({| y_table := y_table y; y_cache := y_cache y; y_fills := y_fills y ++ [(b_id b, l)] |},
                    filter (fun m => check_condition m b) l)
    end
  | MFill n => match nth_error (y_fills y) n with
               | Some (k, l) => Some ({| y_table := y_table y; y_cache := cache_set k (Some l) (y_cache y);
                                         y_fills := drop_nth n (y_fills y) |}, [])
               | None => None
               end
  end.

Definition monitors_init : msys := {| y_table := []; y_cache := fun _ => None; y_fills := [] |}.
