(** Reconciliation: matching rules, the three strategies, the worker pools and what they
    record. *)
From Coq Require Import ZArith QArith Qabs List String Ascii Bool.
From Verif Require Import Base.
Import ListNotations.
Local Open Scope string_scope.
Open Scope Z_scope.

(** A transaction as reconciliation reads it (model/model.go:518-529, and the columns
    selected in database/transaction_grouping.go and database/reconciliation.go): an
    internal one, or an uploaded one converted by ToInternalTransaction. Simplified:
    amounts are exact rationals instead of float64; the date is in nanoseconds; the other
    columns that can be grouped by, and the text of amount and date, are given by [n_col]. *)
Record entry := { n_id : string; n_amount : Q; n_date : Z; n_desc : string; n_ref : string; n_cur : string;
                  n_col : string -> string }.

(** MatchingCriteria and MatchingRule, model/reconciliation_model.go:64-80 (value and
    pattern are never read). *)
Record criterion := { k_field : string; k_op : string; k_drift : Q }.
Definition rule := list criterion.

(** ** Rules *)

(** strings.ToLower, of ASCII letters. *)
Definition lower_char (c : ascii) : ascii :=
  let n := nat_of_ascii c in
  if (65 <=? n)%nat && (n <=? 90)%nat then ascii_of_nat (n + 32) else c.
Fixpoint lower (s : string) : string :=
  match s with EmptyString => EmptyString | String c r => String (lower_char c) (lower r) end.

(** strings.EqualFold, of ASCII letters. *)
Definition equal_fold (a b : string) : bool := String.eqb (lower a) (lower b).

(** strings.Contains. *)
Fixpoint has_part (p s : string) : bool :=
  prefix p s || match s with EmptyString => false | String _ r => has_part p r end.

(** strings.Split(s, " | "). [acc]: the part read so far. *)
Fixpoint split_bar (acc s : string) : list string :=
  match s with
  | String " " (String "|" (String " " r)) => acc :: split_bar "" r
  | String c r => split_bar (acc ++ String c "") r
  | EmptyString => [acc]
  end.

(** levenshtein.DistanceForStrings with DefaultOptionsWithSub: insertions, deletions and
    substitutions cost 1. Over bytes instead of runes. *)
Fixpoint distance (a b : string) : Z :=
  match a with
  | EmptyString => Z.of_nat (String.length b)
  | String x a' =>
    (fix go (b : string) : Z :=
       match b with
       | EmptyString => Z.of_nat (String.length a)
       | String y b' =>
         let sub := distance a' b' + (if Ascii.eqb x y then 0 else 1) in
         Z.min sub (Z.min (distance a' b + 1) (go b' + 1))
       end) b
  end.

(** partialMatch, reconciliation.go:1405-1423. *)
Definition partial_match (a b : string) (drift : Q) : bool :=
  let a := lower a in
  let b := lower b in
  if has_part b a || has_part a b then true
  else
    let longest := Z.max (Z.of_nat (String.length a)) (Z.of_nat (String.length b)) in
    distance a b <=? trunc_q (inject_Z longest * (drift / (100 # 1)))%Q.

(** matchesString, reconciliation.go:1378-1397. *)
Definition matches_string (ext int : string) (c : criterion) : bool :=
  if String.eqb (k_op c) "equals" then existsb (fun p => equal_fold ext p) (split_bar "" int)
  else if String.eqb (k_op c) "contains" then existsb (fun p => partial_match ext p (k_drift c)) (split_bar "" int)
  else false.

(** matchesCurrency, reconciliation.go:1431-1437. *)
Definition matches_currency (ext int : string) (c : criterion) : bool :=
  if String.eqb int "MIXED" then true else matches_string ext int c.

(** matchesGroupAmount, reconciliation.go:1445-1456. *)
Definition matches_amount (ext int : Q) (c : criterion) : bool :=
  if String.eqb (k_op c) "equals" then Qle_bool (Qabs (ext - int)) (Qabs int * k_drift c)
  else if String.eqb (k_op c) "greater_than" then negb (Qle_bool ext int)
  else if String.eqb (k_op c) "less_than" then negb (Qle_bool int ext)
  else false.

Definition second : Z := 1000000000.

(** matchesGroupDate, reconciliation.go:1464-1475. *)
Definition matches_date (ext int : Z) (c : criterion) : bool :=
  let op := k_op c in
  if String.eqb op "equals" then Qle_bool (inject_Z (Z.abs (ext - int))) (k_drift c * inject_Z second)
  else if String.eqb op "after" || String.eqb op "greater_than" then int <? ext
  else if String.eqb op "before" || String.eqb op "less_than" then ext <? int
  else false.

(** One criterion, reconciliation.go:280-300. *)
Definition criterion_met (e t : entry) (c : criterion) : bool :=
  let f := k_field c in
  if String.eqb f "amount" then matches_amount (n_amount e) (n_amount t) c
  else if String.eqb f "date" then matches_date (n_date e) (n_date t) c
  else if String.eqb f "description" then matches_string (n_desc e) (n_desc t) c
  else if String.eqb f "reference" then matches_string (n_ref e) (n_ref t) c
  else if String.eqb f "currency" then matches_currency (n_cur e) (n_cur t) c
  else false.

(** matchesRules, reconciliation.go:275-313. *)
Definition matches_rules (e t : entry) (rules : list rule) : bool :=
  existsb (fun r => forallb (criterion_met e t) r) rules.

(** validateRule and its helpers, reconciliation.go:1256-1352. *)
Definition valid_criterion (c : criterion) : bool :=
  negb (String.eqb (k_field c) "") && negb (String.eqb (k_op c) "")
  && existsb (String.eqb (k_op c)) ["equals"; "greater_than"; "less_than"; "contains"]
  && existsb (String.eqb (k_field c)) ["amount"; "date"; "description"; "reference"; "currency"]
  && (if String.eqb (k_op c) "equals"
      then if String.eqb (k_field c) "amount" then Qle_bool 0%Q (k_drift c) && Qle_bool (k_drift c) 1%Q
           else if String.eqb (k_field c) "date" then Qle_bool 0%Q (k_drift c) else true
      else true).
Definition valid_rule (name : string) (r : rule) : bool :=
  negb (String.eqb name "") && match r with [] => false | _ => forallb valid_criterion r end.

(** The virtual transaction of a group, matchesGroup and dominantCurrency,
    reconciliation.go:1118-1162. Simplified: an empty group, which does not occur, gets
    the date 0. *)
Fixpoint join_bar (l : list string) : string :=
  match l with [] => "" | [s] => s | s :: r => s ++ " | " ++ join_bar r end.
Definition earliest (l : list entry) : Z :=
  match l with [] => 0 | e :: r => fold_left (fun d t => if n_date t <? d then n_date t else d) r (n_date e) end.
Definition common_currency (l : list entry) : string :=
  match nodup string_dec (map n_cur l) with [c] => c | _ => "MIXED" end.
Definition group_entry (l : list entry) : entry :=
  {| n_id := ""; n_amount := fold_left (fun q e => q + n_amount e)%Q l 0%Q; n_date := earliest l;
     n_desc := join_bar (map n_desc l); n_ref := join_bar (map n_ref l); n_cur := common_currency l;
     n_col := fun _ => "" |}.
Definition matches_group (e : entry) (l : list entry) (rules : list rule) : bool :=
  matches_rules e (group_entry l) rules.

(** calculateMatchingBounds, reconciliation.go:1479-1551: the query is narrowed to the
    hull of the ranges of all amount (date) criteria with "equals". *)
Definition widen (b : option (Q * Q)) (lo hi : Q) : option (Q * Q) :=
  match b with
  | None => Some (lo, hi)
  | Some (l, h) => Some (if Qle_bool l lo then l else lo, if Qle_bool hi h then h else hi)
  end.
Definition is_equals (f : string) (c : criterion) : bool := String.eqb (k_field c) f && String.eqb (k_op c) "equals".
Definition amount_range (e : entry) (rules : list rule) : option (Q * Q) :=
  fold_left (fun b c => if is_equals "amount" c
                        then let d := (Qabs (n_amount e) * k_drift c)%Q in widen b (n_amount e - d) (n_amount e + d)
                        else b) (List.concat rules) None.
Definition widen_date (b : option (Z * Z)) (lo hi : Z) : option (Z * Z) :=
  match b with None => Some (lo, hi) | Some (l, h) => Some (Z.min l lo, Z.max h hi) end.
Definition date_range (e : entry) (rules : list rule) : option (Z * Z) :=
  fold_left (fun b c => if is_equals "date" c
                        then let d := trunc_q (k_drift c) * second in widen_date b (n_date e - d) (n_date e + d)
                        else b) (List.concat rules) None.

(** The WHERE clause of GetTransactionsByCriteria, database/transaction_criteria.go:37-76. *)
Definition in_range (e : entry) (rules : list rule) (t : entry) : bool :=
  match amount_range e rules with None => true | Some (l, h) => Qle_bool l (n_amount t) && Qle_bool (n_amount t) h end
  && (String.eqb (n_cur e) "" || String.eqb (n_cur t) (n_cur e))
  && match date_range e rules with None => true | Some (l, h) => (l <=? n_date t) && (n_date t <=? h) end.

(** ** What is stored *)

(** A row of blnk.matches; [m_recon] is the number of the reconciliation. Amount and date
    are left out. *)
Record match_row := { m_recon : nat; m_ext : string; m_int : string }.

(** Reconciliation.Status and the two counters; "started" and "in progress" are not told
    apart. *)
Inductive rstatus := RRunning | RCompleted (matched unmatched : nat) | RFailed.

(** Cache keys: transactions:external:paginated (database/reconciliation.go:617),
    transactions:paginated (transaction_grouping.go:38), transactions:grouped (151),
    external_transactions:grouped (reconciliation.go:745). The batch size, part of each
    key, is a constant of the configuration. *)
Inductive key := KExt (off : nat) | KInt (off : nat) | KGroupInt (crit : string) (off : nat)
               | KGroupExt (upload crit : string) (off : nat).
Definition key_eqb (a b : key) : bool :=
  match a, b with
  | KExt n, KExt m | KInt n, KInt m => Nat.eqb n m
  | KGroupInt c n, KGroupInt d m => String.eqb c d && Nat.eqb n m
  | KGroupExt u c n, KGroupExt v d m => String.eqb u v && String.eqb c d && Nat.eqb n m
  | _, _ => false
  end.

(** Tables and cache. Rows are kept in the order in which the queries by date return them;
    that this order is the same for every page is an assumption (rows of equal date).
    [d_marks]: (reconciliation, transaction) of the metadata updates. *)
Record store := {
  d_int : list entry;
  d_ext : list (string * entry);
  d_cache : key -> option (list entry);
  d_match : list match_row;
  d_unm : list (nat * string);
  d_marks : list (nat * string);
  d_recon : list rstatus }.

Definition with_cache c s := {| d_int := d_int s; d_ext := d_ext s; d_cache := c; d_match := d_match s;
  d_unm := d_unm s; d_marks := d_marks s; d_recon := d_recon s |}.
Definition with_matches l s := {| d_int := d_int s; d_ext := d_ext s; d_cache := d_cache s; d_match := l;
  d_unm := d_unm s; d_marks := d_marks s; d_recon := d_recon s |}.
Definition with_unm l s := {| d_int := d_int s; d_ext := d_ext s; d_cache := d_cache s; d_match := d_match s;
  d_unm := l; d_marks := d_marks s; d_recon := d_recon s |}.
Definition with_marks l s := {| d_int := d_int s; d_ext := d_ext s; d_cache := d_cache s; d_match := d_match s;
  d_unm := d_unm s; d_marks := l; d_recon := d_recon s |}.
Definition with_recon l s := {| d_int := d_int s; d_ext := d_ext s; d_cache := d_cache s; d_match := d_match s;
  d_unm := d_unm s; d_marks := d_marks s; d_recon := l |}.

Definition put_key (f : key -> option (list entry)) (k : key) (l : option (list entry)) : key -> option (list entry) :=
  fun x => if key_eqb x k then l else f x.

(** The cached reads: database/reconciliation.go:621-664, 747-795;
    transaction_grouping.go:42-123, 154-230. [rows]: the answer of the query without
    LIMIT and OFFSET. A failed write to the cache is an expiry right after it. *)
Definition read_page (batch off : nat) (k : key) (rows : list entry) (s : store) : store * list entry :=
  match d_cache s k with
  | Some (e :: l) => (s, e :: l)
  | _ =>
    match firstn batch (skipn off rows) with
    | [] => (s, [])
    | l => (with_cache (put_key (d_cache s) k (Some l)) s, l)
    end
  end.

(** The rows of an upload, database/reconciliation.go:627-633. *)
Definition upload_rows (u : string) (s : store) : list entry :=
  map snd (filter (fun x => String.eqb (fst x) u) (d_ext s)).

(** The columns to group by, groupedTransactionsQuery (transaction_grouping.go:238-327)
    and groupedExternalTransactionsQuery (reconciliation.go:802-863). *)
Definition group_columns (ext : bool) : list string :=
  if ext then ["id"; "amount"; "reference"; "currency"; "description"; "date"; "source"]
  else ["transaction_id"; "parent_transaction"; "source"; "reference"; "currency"; "destination"; "status"; "created_at"].
Definition column (crit : string) (e : entry) : string :=
  if String.eqb crit "id" || String.eqb crit "transaction_id" then n_id e
  else if String.eqb crit "reference" then n_ref e
  else if String.eqb crit "currency" then n_cur e
  else if String.eqb crit "description" then n_desc e
  else n_col e crit.

(** ORDER BY the grouping column; bytewise instead of by collation. *)
Fixpoint string_leb (a b : string) : bool :=
  match a, b with
  | EmptyString, _ => true
  | _, EmptyString => false
  | String x a, String y b =>
    let n := nat_of_ascii x in let m := nat_of_ascii y in
    (n <? m)%nat || ((n =? m)%nat && string_leb a b)
  end.
Fixpoint insert_by (f : entry -> string) (e : entry) (l : list entry) : list entry :=
  match l with [] => [e] | t :: r => if string_leb (f e) (f t) then e :: l else t :: insert_by f e r end.
Definition sort_by (f : entry -> string) (l : list entry) : list entry := fold_right (insert_by f) [] l.
Definition group_rows (crit : string) (l : list entry) : list entry :=
  sort_by (column crit) (filter (fun e => negb (String.eqb (column crit e) "")) l).

(** ** A run *)

(** What StartReconciliation is given, reconciliation.go:145; the rules are those read by
    getMatchingRules (1360-1370). *)
Record job := { j_upload : string; j_strategy : string; j_group : string; j_rules : list rule; j_dry : bool }.

(** fetchTransactions, transaction_batch_processing.go:173-222: about to read, putting the
    rows of a page on the channel ([off]: the next offset), returned with the channel
    closed. Simplified: the channel has no capacity (a full one delays the fetcher). *)
Inductive fetcher := FRead (off : nat) | FPut (l : list entry) (off : nat) | FGone.
Definition fetched (l : list entry) (off : nat) : fetcher :=
  match l with [] => FGone | _ => FPut l (off + List.length l) end.
Definition after_put (l : list entry) (off : nat) : fetcher := match l with [] => FRead off | _ => FPut l off end.
Definition fetcher_gone (f : fetcher) : bool := match f with FGone => true | _ => false end.

Fixpoint set_at {A} (n : nat) (a : A) (l : list A) : list A :=
  match l, n with [], _ => [] | _ :: r, O => a :: r | x :: r, S n => x :: set_at n a r end.

(** A goroutine of findMatchingInternalTransaction's pool, reconciliation.go:1038-1058. *)
Inductive sworker := SIdle | SSend (t : entry) | SGone.
Definition sgone (w : sworker) : bool := match w with SGone => true | _ => false end.

(** One call of findMatchingInternalTransaction, reconciliation.go:1016-1073. [q_end]:
    None while ProcessTransactionInBatches runs; Some l after the call has returned, with
    the ids sent to the channel of unmatched transactions (651, 1066). *)
Record search := { q_fetch : fetcher; q_jobs : list entry; q_work : list sworker; q_err : bool; q_found : bool;
                   q_ms : list (string * string); q_end : option (list string) }.

Definition new_search (workers : nat) : search :=
  {| q_fetch := FRead 0; q_jobs := []; q_work := repeat SIdle workers; q_err := false; q_found := false; q_ms := [];
     q_end := None |}.

(** A goroutine of processGroupedTransactions, reconciliation.go:866-879: comparing the
    groups of a page, about to report its transaction as unmatched, returned with so many
    groups left in the map. *)
Inductive go := GLook (p : list entry) | GLost (p : list entry) | GDone (left : nat).
Definition gdone (g : go) : bool := match g with GDone _ => true | _ => false end.

(** The loop of oneToMany and manyToOne, reconciliation.go:956-982, 796-825: about to read
    a page, about to look whether the map of goroutine [i] is empty, left. *)
Inductive gloop := LRead (off : nat) | LCheck (off i : nat) | LEnd.

(** One call of oneToManyReconciliation or manyToOneReconciliation for one transaction,
    reconciliation.go:689-763. [g_buf]: the ids in the channel of unmatched transactions,
    whose capacity is 1 (700, 741) and which is emptied only after every goroutine has
    returned (710-722, 752-760). *)
Record gsearch := { g_loop : gloop; g_any : bool; g_go : list go; g_ms : list (string * string); g_buf : nat }.
Definition new_gsearch : gsearch := {| g_loop := LRead 0; g_any := false; g_go := []; g_ms := []; g_buf := 0 |}.

(** createReconciler, reconciliation.go:406-424. *)
Inductive inner := IOne (q : search) | IMany (ext_grouped : bool) (g : gsearch) | INone.

Record rconfig := { c_workers : nat; c_batch : nat }.   (* max_workers, batch_size *)

Definition many_to_one (j : job) : bool := String.eqb (j_strategy j) "many_to_one".
Definition new_inner (cfg : rconfig) (j : job) : inner :=
  if String.eqb (j_strategy j) "one_to_one" then IOne (new_search (c_workers cfg))
  else if String.eqb (j_strategy j) "one_to_many" then IMany false new_gsearch
  else if many_to_one j then IMany true new_gsearch
  else INone.

(** A goroutine of processTransactions' pool, reconciliation.go:567-581: idle, in the
    reconciler, recording matches, recording unmatched ids, returned. *)
Definition answer := (list (string * string) * list string)%type.
Inductive worker := OIdle | OBusy (e : entry) (a : inner) | OMatched (e : entry) (a : answer)
                  | OUnmatched (e : entry) (a : answer) | OGone.
Definition ogone (w : worker) : bool := match w with OGone => true | _ => false end.

(** One reconciliation. [r_base]: how many transactions the ledger held when it started.
    [r_done]: the transactions processed and their answers, whose length is
    progress.ProcessedCount and whose last element LastProcessedExternalTxnID (482-486).
    [r_err]: an error waits in errChan; [r_errs]: allErrors is not empty. [r_marks]: the
    metadata updates still to be made. [r_orphans]: the searches whose call returned while
    goroutines of theirs may still run. [r_end]: processReconciliation has returned.
    [r_dead]: the process has stopped. *)
Record run := { r_job : job; r_base : nat; r_fetch : fetcher; r_jobs : list entry; r_work : list worker;
                r_err : bool; r_errs : bool; r_matched : nat; r_unmatched : nat; r_done : list (entry * answer);
                r_marks : list string; r_orphans : list (entry * search); r_end : bool; r_dead : bool }.

Definition new_run (cfg : rconfig) (j : job) (base : nat) : run :=
  {| r_job := j; r_base := base; r_fetch := FRead 0; r_jobs := []; r_work := repeat OIdle (c_workers cfg);
     r_err := false; r_errs := false; r_matched := 0; r_unmatched := 0; r_done := []; r_marks := [];
     r_orphans := []; r_end := false; r_dead := false |}.
(** A run whose status, rules or progress could not be read or written at the start,
    reconciliation.go:336-352 and 171-180. *)
Definition failed_run (j : job) (base : nat) : run :=
  {| r_job := j; r_base := base; r_fetch := FGone; r_jobs := []; r_work := [];
     r_err := false; r_errs := false; r_matched := 0; r_unmatched := 0; r_done := []; r_marks := [];
     r_orphans := []; r_end := true; r_dead := false |}.

Definition with_fetch f r := {| r_job := r_job r; r_base := r_base r; r_fetch := f; r_jobs := r_jobs r;
  r_work := r_work r; r_err := r_err r; r_errs := r_errs r; r_matched := r_matched r; r_unmatched := r_unmatched r;
  r_done := r_done r; r_marks := r_marks r; r_orphans := r_orphans r; r_end := r_end r; r_dead := r_dead r |}.
Definition with_jobs l r := {| r_job := r_job r; r_base := r_base r; r_fetch := r_fetch r; r_jobs := l;
  r_work := r_work r; r_err := r_err r; r_errs := r_errs r; r_matched := r_matched r; r_unmatched := r_unmatched r;
  r_done := r_done r; r_marks := r_marks r; r_orphans := r_orphans r; r_end := r_end r; r_dead := r_dead r |}.
Definition with_work l r := {| r_job := r_job r; r_base := r_base r; r_fetch := r_fetch r; r_jobs := r_jobs r;
  r_work := l; r_err := r_err r; r_errs := r_errs r; r_matched := r_matched r; r_unmatched := r_unmatched r;
  r_done := r_done r; r_marks := r_marks r; r_orphans := r_orphans r; r_end := r_end r; r_dead := r_dead r |}.
Definition with_err r := {| r_job := r_job r; r_base := r_base r; r_fetch := r_fetch r; r_jobs := r_jobs r;
  r_work := r_work r; r_err := true; r_errs := r_errs r; r_matched := r_matched r; r_unmatched := r_unmatched r;
  r_done := r_done r; r_marks := r_marks r; r_orphans := r_orphans r; r_end := r_end r; r_dead := r_dead r |}.
Definition with_errs r := {| r_job := r_job r; r_base := r_base r; r_fetch := r_fetch r; r_jobs := r_jobs r;
  r_work := r_work r; r_err := r_err r; r_errs := true; r_matched := r_matched r; r_unmatched := r_unmatched r;
  r_done := r_done r; r_marks := r_marks r; r_orphans := r_orphans r; r_end := r_end r; r_dead := r_dead r |}.
Definition with_counts m u r := {| r_job := r_job r; r_base := r_base r; r_fetch := r_fetch r; r_jobs := r_jobs r;
  r_work := r_work r; r_err := r_err r; r_errs := r_errs r; r_matched := m; r_unmatched := u;
  r_done := r_done r; r_marks := r_marks r; r_orphans := r_orphans r; r_end := r_end r; r_dead := r_dead r |}.
Definition with_done l r := {| r_job := r_job r; r_base := r_base r; r_fetch := r_fetch r; r_jobs := r_jobs r;
  r_work := r_work r; r_err := r_err r; r_errs := r_errs r; r_matched := r_matched r; r_unmatched := r_unmatched r;
  r_done := l; r_marks := r_marks r; r_orphans := r_orphans r; r_end := r_end r; r_dead := r_dead r |}.
Definition with_rmarks l r := {| r_job := r_job r; r_base := r_base r; r_fetch := r_fetch r; r_jobs := r_jobs r;
  r_work := r_work r; r_err := r_err r; r_errs := r_errs r; r_matched := r_matched r; r_unmatched := r_unmatched r;
  r_done := r_done r; r_marks := l; r_orphans := r_orphans r; r_end := r_end r; r_dead := r_dead r |}.
Definition with_orphans l r := {| r_job := r_job r; r_base := r_base r; r_fetch := r_fetch r; r_jobs := r_jobs r;
  r_work := r_work r; r_err := r_err r; r_errs := r_errs r; r_matched := r_matched r; r_unmatched := r_unmatched r;
  r_done := r_done r; r_marks := r_marks r; r_orphans := l; r_end := r_end r; r_dead := r_dead r |}.
Definition with_end r := {| r_job := r_job r; r_base := r_base r; r_fetch := r_fetch r; r_jobs := r_jobs r;
  r_work := r_work r; r_err := r_err r; r_errs := r_errs r; r_matched := r_matched r; r_unmatched := r_unmatched r;
  r_done := r_done r; r_marks := r_marks r; r_orphans := r_orphans r; r_end := true; r_dead := r_dead r |}.
Definition with_dead r := {| r_job := r_job r; r_base := r_base r; r_fetch := r_fetch r; r_jobs := r_jobs r;
  r_work := r_work r; r_err := r_err r; r_errs := r_errs r; r_matched := r_matched r; r_unmatched := r_unmatched r;
  r_done := r_done r; r_marks := r_marks r; r_orphans := r_orphans r; r_end := r_end r; r_dead := true |}.

(** ** Moves *)

(** Moves inside the reconciler. [SMain err]: ProcessTransactionInBatches returns, through
    errChan or through done; the select takes either when both are ready
    (transaction_batch_processing.go:97-102). [GGo v k]: goroutine [v] moves; [k] is the
    group it finds, maps being traversed in any order. *)
Inductive imove := SFetch (ok : bool) | SPut | SWork (v : nat) | SMain (err : bool)
                 | GRead (ok : bool) | GCheck | GGo (v : nat) (k : string).

(** findMatchingInternalTransaction, reconciliation.go:1016-1073, over
    ProcessTransactionInBatches, transaction_batch_processing.go:59-116. *)
Definition smove (cfg : rconfig) (rules : list rule) (e : entry) (m : imove) (s : store) (q : search) : search :=
  match m with
  | SFetch ok =>
    match q_fetch q with
    | FRead off =>
      if ok then
        {| q_fetch := fetched (firstn (c_batch cfg) (skipn off (filter (in_range e rules) (d_int s)))) off;
           q_jobs := q_jobs q; q_work := q_work q; q_err := q_err q; q_found := q_found q; q_ms := q_ms q; q_end := q_end q |}
      else {| q_fetch := FGone; q_jobs := q_jobs q; q_work := q_work q; q_err := true; q_found := q_found q;
              q_ms := q_ms q; q_end := q_end q |}
    | _ => q
    end
  | SPut =>
    match q_fetch q with
    | FPut (t :: l) off =>
      {| q_fetch := after_put l off; q_jobs := q_jobs q ++ [t]; q_work := q_work q; q_err := q_err q;
         q_found := q_found q; q_ms := q_ms q; q_end := q_end q |}
    | _ => q
    end
  | SWork v =>
    match nth_error (q_work q) v with
    | Some SIdle =>
      match q_jobs q with
      | t :: r =>
        {| q_fetch := q_fetch q; q_jobs := r;
           q_work := set_at v (if matches_rules e t rules then SSend t else SIdle) (q_work q);
           q_err := q_err q; q_found := q_found q; q_ms := q_ms q; q_end := q_end q |}
      | [] =>
        if fetcher_gone (q_fetch q) then
          {| q_fetch := q_fetch q; q_jobs := []; q_work := set_at v SGone (q_work q);
             q_err := q_err q; q_found := q_found q; q_ms := q_ms q; q_end := q_end q |}
        else q
      end
    | Some (SSend t) =>
      {| q_fetch := q_fetch q; q_jobs := q_jobs q; q_work := set_at v SGone (q_work q);
         q_err := q_err q; q_found := true; q_ms := q_ms q ++ [(n_id e, n_id t)]; q_end := q_end q |}
    | _ => q
    end
  | SMain err =>
    match q_end q with
    | Some _ => q
    | None =>
      if err then
        if q_err q then
          {| q_fetch := q_fetch q; q_jobs := q_jobs q; q_work := q_work q; q_err := q_err q; q_found := q_found q;
             q_ms := q_ms q; q_end := Some [n_id e] |}
        else q
      else if forallb sgone (q_work q) then
        {| q_fetch := q_fetch q; q_jobs := q_jobs q; q_work := q_work q; q_err := q_err q; q_found := q_found q;
           q_ms := q_ms q; q_end := Some (if q_found q then [] else [n_id e]) |}
      else q
    end
  | _ => q
  end.

Definition page_keys (crit : string) (p : list entry) : list string := nodup string_dec (map (column crit) p).
Definition members (crit k : string) (p : list entry) : list entry := filter (fun t => String.eqb (column crit t) k) p.

(** oneToMany (940-983), manyToOne (780-827), processGroupedTransactions (853-884) and
    matchSingleTransaction (892-935) of reconciliation.go, for one transaction. The matches
    of a group are sent in one step: the channel is drained until it is closed. *)
Definition gmove (cfg : rconfig) (j : job) (ext : bool) (e : entry) (m : imove) (s : store) (g : gsearch) : store * gsearch :=
  let crit := j_group j in
  match m with
  | GRead ok =>
    match g_loop g with
    | LRead off =>
      let leave s := (s, {| g_loop := LEnd; g_any := g_any g; g_go := g_go g; g_ms := g_ms g;
                            g_buf := if g_any g then g_buf g else S (g_buf g) |}) in
      if ok && existsb (String.eqb crit) (group_columns ext) then
        let rows := group_rows crit (if ext then upload_rows (j_upload j) s else d_int s) in
        let '(s', p) := read_page (c_batch cfg) off (if ext then KGroupExt (j_upload j) crit off else KGroupInt crit off) rows s in
        match p with
        | [] => leave s'
        | _ => (s', {| g_loop := LCheck off (List.length (g_go g)); g_any := true; g_go := g_go g ++ [GLook p];
                       g_ms := g_ms g; g_buf := g_buf g |})
        end
      else leave s
    | _ => (s, g)
    end
  | GCheck =>
    match g_loop g with
    | LCheck off i =>
      (s, {| g_loop := match nth_error (g_go g) i with Some (GDone O) => LEnd | _ => LRead (off + c_batch cfg) end;
             g_any := g_any g; g_go := g_go g; g_ms := g_ms g; g_buf := g_buf g |})
    | _ => (s, g)
    end
  | GGo v k =>
    match nth_error (g_go g) v with
    | Some (GLook p) =>
      let fits k := matches_group e (members crit k p) (j_rules j) in
      if existsb (String.eqb k) (page_keys crit p) && fits k then
        (s, {| g_loop := g_loop g; g_any := g_any g; g_go := set_at v (GDone (List.length (page_keys crit p) - 1)) (g_go g);
               g_ms := g_ms g ++ map (fun t => if ext then (n_id t, n_id e) else (n_id e, n_id t)) (members crit k p);
               g_buf := g_buf g |})
      else if existsb fits (page_keys crit p) then (s, g)
      else (s, {| g_loop := g_loop g; g_any := g_any g; g_go := set_at v (GLost p) (g_go g); g_ms := g_ms g; g_buf := g_buf g |})
    | Some (GLost p) =>
      if (g_buf g <? 1)%nat then
        (s, {| g_loop := g_loop g; g_any := g_any g; g_go := set_at v (GDone (List.length (page_keys crit p))) (g_go g);
               g_ms := g_ms g; g_buf := S (g_buf g) |})
      else (s, g)
    | _ => (s, g)
    end
  | _ => (s, g)
  end.

Definition inner_move (cfg : rconfig) (j : job) (e : entry) (m : imove) (s : store) (a : inner) : store * inner :=
  match a with
  | IOne q => (s, IOne (smove cfg (j_rules j) e m s q))
  | IMany ext g => let '(s', g') := gmove cfg j ext e m s g in (s', IMany ext g')
  | INone => (s, INone)
  end.

(** What the reconciler returns, when it can: oneToOneReconciliation (630-679) once its
    goroutine has returned and the channels are closed; oneToManyReconciliation and
    manyToOneReconciliation once every goroutine has returned. *)
Definition answer_of (e : entry) (a : inner) : option answer :=
  match a with
  | IOne q => match q_end q with Some l => Some (q_ms q, l) | None => None end
  | IMany _ g => match g_loop g with
                 | LEnd => if forallb gdone (g_go g) then Some (g_ms g, repeat (n_id e) (g_buf g)) else None
                 | _ => None
                 end
  | INone => Some ([], [])
  end.

(** Moves of a run. *)
Inductive move := MFetch (ok : bool) | MPut | MTake (w : nat) | MInner (w : nat) (m : imove) | MAnswer (w : nat)
                | MMatches (w : nat) (ok : bool) | MUnmatched (w : nat) (ok : bool) | MMark
                | MOrphan (k v : nat) | MMain (err ok : bool).

(** A worker has processed a transaction: process, reconciliation.go:481-497. *)
Definition processed (w : nat) (e : entry) (a : answer) (r : run) : run :=
  with_done (r_done r ++ [(e, a)])%list (with_work (set_at w OIdle (r_work r)) r).
(** process failed: the worker reports the error and returns, reconciliation.go:570-574. *)
Definition stopped (w : nat) (r : run) : run := with_errs (with_work (set_at w OGone (r_work r)) r).

Definition rows_to_process (j : job) (s : store) : list entry :=
  if many_to_one j then d_int s else upload_rows (j_upload j) s.
Definition key_to_process (j : job) (off : nat) : key := if many_to_one j then KInt off else KExt off.

(** processTransactions (544-585), process (454-500), finalizeReconciliation (594-619) and
    the end of StartReconciliation's goroutine (171-180), for run number [i]. *)
Definition run_move (cfg : rconfig) (i : nat) (m : move) (s : store) (r : run) : store * run :=
  let j := r_job r in
  match m with
  | MFetch ok =>
    match r_fetch r with
    | FRead off =>
      if ok then let '(s', p) := read_page (c_batch cfg) off (key_to_process j off) (rows_to_process j s) s in
                 (s', with_fetch (fetched p off) r)
      else (s, with_err (with_fetch FGone r))
    | _ => (s, r)
    end
  | MPut =>
    match r_fetch r with
    | FPut (e :: l) off => (s, with_jobs (r_jobs r ++ [e]) (with_fetch (after_put l off) r))
    | _ => (s, r)
    end
  | MTake w =>
    match nth_error (r_work r) w with
    | Some OIdle =>
      match r_jobs r with
      | e :: l => (s, with_work (set_at w (OBusy e (new_inner cfg j)) (r_work r)) (with_jobs l r))
      | [] => if fetcher_gone (r_fetch r) then (s, with_work (set_at w OGone (r_work r)) r) else (s, r)
      end
    | _ => (s, r)
    end
  | MInner w im =>
    match nth_error (r_work r) w with
    | Some (OBusy e a) => let '(s', a') := inner_move cfg j e im s a in (s', with_work (set_at w (OBusy e a') (r_work r)) r)
    | _ => (s, r)
    end
  | MAnswer w =>
    match nth_error (r_work r) w with
    | Some (OBusy e a) =>
      match answer_of e a with
      | Some (ms, us) =>
        let r := with_counts (r_matched r + List.length ms) (r_unmatched r + List.length us) r in
        let r := match a with IOne q => with_orphans (r_orphans r ++ [(e, q)]) r | _ => r end in
        if j_dry j then (s, processed w e (ms, us) r)
        else (s, with_work (set_at w (OMatched e (ms, us)) (r_work r)) r)
      | None => (s, r)
      end
    | _ => (s, r)
    end
  | MMatches w ok =>
    match nth_error (r_work r) w with
    | Some (OMatched e (ms, us)) =>
      match ms with
      | [] => (s, with_work (set_at w (OUnmatched e (ms, us)) (r_work r)) r)
      | _ =>
        if ok then (with_matches (d_match s ++ map (fun x => {| m_recon := i; m_ext := fst x; m_int := snd x |}) ms) s,
                    with_rmarks (r_marks r ++ map snd ms) (with_work (set_at w (OUnmatched e (ms, us)) (r_work r)) r))
        else (s, stopped w r)
      end
    | _ => (s, r)
    end
  | MUnmatched w ok =>
    match nth_error (r_work r) w with
    | Some (OUnmatched e (ms, us)) =>
      match us with
      | [] => (s, processed w e (ms, us) r)
      | _ => if ok then (with_unm (d_unm s ++ map (fun x => (i, x)) us) s, processed w e (ms, us) r)
             else (s, stopped w r)
      end
    | _ => (s, r)
    end
  | MMark =>
    match r_marks r with
    | t :: l => (with_marks (d_marks s ++ [(i, t)]) s, with_rmarks l r)
    | [] => (s, r)
    end
  | MOrphan k v =>
    match nth_error (r_orphans r) k with
    | Some (e, q) => (s, with_orphans (set_at k (e, smove cfg (j_rules j) e (SWork v) s q) (r_orphans r)) r)
    | None => (s, r)
    end
  | MMain err ok =>
    if r_end r then (s, r)
    else
      let fail := if ok then with_recon (set_at i RFailed (d_recon s)) s else s in
      if err then if r_err r then (fail, with_end r) else (s, r)
      else if forallb ogone (r_work r) then
        if r_errs r then (fail, with_end r)
        else (with_recon (set_at i (if ok then RCompleted (r_matched r) (r_unmatched r) else RFailed) (d_recon s)) s, with_end r)
      else (s, r)
  end.

(** A send on a closed channel: an abandoned goroutine of a search has found a match after
    the channels were closed (reconciliation.go:1047 after 661-665). *)
Definition panics (m : move) (r : run) : bool :=
  match m with
  | MOrphan k v => match nth_error (r_orphans r) k with
                   | Some (_, q) => match nth_error (q_work q) v with Some (SSend _) => true | _ => false end
                   | None => false
                   end
  | _ => false
  end.

(** ** The system *)

Record system := { y_store : store; y_runs : list run; y_panics : nat }.
Definition nothing : system :=
  {| y_store := {| d_int := []; d_ext := []; d_cache := fun _ => None; d_match := []; d_unm := []; d_marks := []; d_recon := [] |};
     y_runs := []; y_panics := 0 |}.

(** What can happen. Transactions are posted with the current time, so they come last;
    uploaded ones are stored one by one, refused when the id is taken (the primary key,
    sql/1721922047.sql:50); a cached page expires; the process stops and is started again
    (nothing takes up the runs); a reconciliation is started ([ok]: its first steps
    succeed); a goroutine of run [i] moves. *)
Inductive event := EPost (t : entry) | EUpload (u : string) (e : entry) | EExpire (k : key) | ERestart
                 | EStart (j : job) (ok : bool) | ERun (i : nat) (m : move).

Definition with_int l s := {| d_int := l; d_ext := d_ext s; d_cache := d_cache s; d_match := d_match s;
  d_unm := d_unm s; d_marks := d_marks s; d_recon := d_recon s |}.
Definition with_ext l s := {| d_int := d_int s; d_ext := l; d_cache := d_cache s; d_match := d_match s;
  d_unm := d_unm s; d_marks := d_marks s; d_recon := d_recon s |}.

Definition happen (cfg : rconfig) (e : event) (y : system) : system :=
  let s := y_store y in
  match e with
  | EPost t => {| y_store := with_int (d_int s ++ [t]) s; y_runs := y_runs y; y_panics := y_panics y |}
  | EUpload u x =>
    if existsb (fun z => String.eqb (n_id (snd z)) (n_id x)) (d_ext s) then y
    else {| y_store := with_ext (d_ext s ++ [(u, x)]) s; y_runs := y_runs y; y_panics := y_panics y |}
  | EExpire k => {| y_store := with_cache (put_key (d_cache s) k None) s; y_runs := y_runs y; y_panics := y_panics y |}
  | ERestart => {| y_store := s; y_runs := map with_dead (y_runs y); y_panics := y_panics y |}
  | EStart j ok =>
    let n := List.length (d_int s) in
    {| y_store := with_recon (d_recon s ++ [if ok then RRunning else RFailed]) s;
       y_runs := y_runs y ++ [if ok then new_run cfg j n else failed_run j n]; y_panics := y_panics y |}
  | ERun i m =>
    match nth_error (y_runs y) i with
    | Some r =>
      if r_dead r then y
      else if panics m r then {| y_store := s; y_runs := map with_dead (y_runs y); y_panics := S (y_panics y) |}
      else let '(s', r') := run_move cfg i m s r in
           {| y_store := s'; y_runs := set_at i r' (y_runs y); y_panics := y_panics y |}
    | None => y
    end
  end.

Fixpoint play (cfg : rconfig) (es : list event) (y : system) : system :=
  match es with [] => y | e :: r => play cfg r (happen cfg e y) end.
