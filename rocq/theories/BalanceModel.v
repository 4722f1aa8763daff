(** Transactions, balances and the pure balance arithmetic of model/model.go. *)
From Coq Require Import ZArith QArith List String Bool.
From Verif Require Import Base MoneyModel SplitModel.
Import ListNotations.
Open Scope Z_scope.

(** The metadata keys the ledger itself reads or writes. The API lets the client
    supply any of them in meta_data. *)
Record meta := {
  m_inflight : bool;      (* MetaData["inflight"] == true        transaction_queue.go:358 *)
  m_atomic : bool;        (* MetaData["atomic"] == true          transaction_queue.go:361 *)
  m_allow : bool;         (* MetaData["allow_overdraft"] == true transaction_queue.go:364 *)
  m_qparent : string;     (* MetaData["QUEUED_PARENT_TRANSACTION"], "" = absent *)
  m_provider : string }.  (* MetaData["BLNK_LINEAGE_PROVIDER"], "" = absent, lineage.go *)

Definition meta0 : meta :=
  {| m_inflight := false; m_atomic := false; m_allow := false; m_qparent := ""; m_provider := "" |}.

(** model.Transaction, model/transaction.go:56-86 (fields that influence money
    or identity; dates, hash and description are left out of the ledger model,
    [t_sched] says whether scheduled_for is set). *)
Record txn := {
  t_id : string; t_parent : string; t_src : string; t_dst : string; t_ref : string;
  t_cur : string; t_status : status; t_precise : Z; t_amount : Q; t_prec : Z;
  t_inflight : bool; t_allow : bool; t_limit : Q; t_skipq : bool; t_atomic : bool;
  t_sched : bool; t_meta : meta;
  t_sources : list distribution; t_dests : list distribution }.

(** model.Balance, model/balance.go:24-47. [b_queued] is QueuedDebitBalance
    (nil unless enable_queued_checks). [b_recon] says whether the stored
    meta_data has BLNK_RUN_RECONCILIATION = SOURCE (sql/1742101752.sql:28-31). *)
Record balance := {
  b_id : string; b_ind : string; b_cur : string;
  b_bal : Z; b_cr : Z; b_db : Z; b_ibal : Z; b_icr : Z; b_idb : Z;
  b_queued : option Z; b_ver : Z; b_recon : bool; b_track : bool }.

(** record updates *)
Definition with_money (t : txn) (p : Z) (a : Q) (prec : Z) : txn :=
  {| t_id := t_id t; t_parent := t_parent t; t_src := t_src t; t_dst := t_dst t; t_ref := t_ref t;
     t_cur := t_cur t; t_status := t_status t; t_precise := p; t_amount := a; t_prec := prec;
     t_inflight := t_inflight t; t_allow := t_allow t; t_limit := t_limit t; t_skipq := t_skipq t;
     t_atomic := t_atomic t; t_sched := t_sched t; t_meta := t_meta t;
     t_sources := t_sources t; t_dests := t_dests t |}.
Definition with_status (t : txn) (s : status) : txn :=
  {| t_id := t_id t; t_parent := t_parent t; t_src := t_src t; t_dst := t_dst t; t_ref := t_ref t;
     t_cur := t_cur t; t_status := s; t_precise := t_precise t; t_amount := t_amount t; t_prec := t_prec t;
     t_inflight := t_inflight t; t_allow := t_allow t; t_limit := t_limit t; t_skipq := t_skipq t;
     t_atomic := t_atomic t; t_sched := t_sched t; t_meta := t_meta t;
     t_sources := t_sources t; t_dests := t_dests t |}.
Definition with_ends (t : txn) (s d : string) : txn :=
  {| t_id := t_id t; t_parent := t_parent t; t_src := s; t_dst := d; t_ref := t_ref t;
     t_cur := t_cur t; t_status := t_status t; t_precise := t_precise t; t_amount := t_amount t; t_prec := t_prec t;
     t_inflight := t_inflight t; t_allow := t_allow t; t_limit := t_limit t; t_skipq := t_skipq t;
     t_atomic := t_atomic t; t_sched := t_sched t; t_meta := t_meta t;
     t_sources := t_sources t; t_dests := t_dests t |}.
Definition with_keys (t : txn) (id parent ref : string) : txn :=
  {| t_id := id; t_parent := parent; t_src := t_src t; t_dst := t_dst t; t_ref := ref;
     t_cur := t_cur t; t_status := t_status t; t_precise := t_precise t; t_amount := t_amount t; t_prec := t_prec t;
     t_inflight := t_inflight t; t_allow := t_allow t; t_limit := t_limit t; t_skipq := t_skipq t;
     t_atomic := t_atomic t; t_sched := t_sched t; t_meta := t_meta t;
     t_sources := t_sources t; t_dests := t_dests t |}.
Definition with_flags (t : txn) (infl allow skipq atomic : bool) (m : meta) : txn :=
  {| t_id := t_id t; t_parent := t_parent t; t_src := t_src t; t_dst := t_dst t; t_ref := t_ref t;
     t_cur := t_cur t; t_status := t_status t; t_precise := t_precise t; t_amount := t_amount t; t_prec := t_prec t;
     t_inflight := infl; t_allow := allow; t_limit := t_limit t; t_skipq := skipq;
     t_atomic := atomic; t_sched := t_sched t; t_meta := m;
     t_sources := t_sources t; t_dests := t_dests t |}.
Definition with_splits (t : txn) (ss ds : list distribution) : txn :=
  {| t_id := t_id t; t_parent := t_parent t; t_src := t_src t; t_dst := t_dst t; t_ref := t_ref t;
     t_cur := t_cur t; t_status := t_status t; t_precise := t_precise t; t_amount := t_amount t; t_prec := t_prec t;
     t_inflight := t_inflight t; t_allow := t_allow t; t_limit := t_limit t; t_skipq := t_skipq t;
     t_atomic := t_atomic t; t_sched := t_sched t; t_meta := t_meta t;
     t_sources := ss; t_dests := ds |}.

Definition with_counters (b : balance) (bal cr db ibal icr idb : Z) : balance :=
  {| b_id := b_id b; b_ind := b_ind b; b_cur := b_cur b;
     b_bal := bal; b_cr := cr; b_db := db; b_ibal := ibal; b_icr := icr; b_idb := idb;
     b_queued := b_queued b; b_ver := b_ver b; b_recon := b_recon b; b_track := b_track b |}.

(** ApplyPrecision on a transaction, model/model.go:285-308. *)
Definition apply_precision_txn (t : txn) : txn :=
  let '(p, a, prec) := apply_precision (t_precise t) (t_amount t) (t_prec t) in
  with_money t p a prec.

(** addCredit, model/model.go:117-125. *)
Definition add_credit (b : balance) (a : Z) (infl : bool) : balance :=
  if infl then with_counters b (b_bal b) (b_cr b) (b_db b) (b_ibal b) (b_icr b + a) (b_idb b)
  else with_counters b (b_bal b) (b_cr b + a) (b_db b) (b_ibal b) (b_icr b) (b_idb b).

(** addDebit, model/model.go:129-136. *)
Definition add_debit (b : balance) (a : Z) (infl : bool) : balance :=
  if infl then with_counters b (b_bal b) (b_cr b) (b_db b) (b_ibal b) (b_icr b) (b_idb b + a)
  else with_counters b (b_bal b) (b_cr b) (b_db b + a) (b_ibal b) (b_icr b) (b_idb b).

(** computeBalance, model/model.go:140-147. *)
Definition compute_balance (b : balance) (infl : bool) : balance :=
  if infl then with_counters b (b_bal b) (b_cr b) (b_db b) (b_icr b - b_idb b) (b_icr b) (b_idb b)
  else with_counters b (b_cr b - b_db b) (b_cr b) (b_db b) (b_ibal b) (b_icr b) (b_idb b).

(** canProcessTransaction, model/model.go:153-205. *)
Definition can_process (t : txn) (b : balance) : res unit :=
  if t_allow t && Qeq_bool (t_limit t) 0 then Ok tt
  else
    let avail0 := b_bal b - b_idb b in
    let avail := match b_queued b with Some q => avail0 - q | None => avail0 end in
    if t_precise t <=? avail then Ok tt
    else if qlt 0 (t_limit t) then
      if - overdraft_limit_precise (t_limit t) (t_prec t) <=? avail - t_precise t
      then Ok tt else Err EOverdraftLimit
    else Err EInsufficient.

(** validate, model/model.go:449-463. *)
Definition validate_txn (t : txn) : res unit :=
  if qlt (t_amount t) 0 then Err ENegAmount
  else if t_precise t <=? 0 then Err ENonPosPrecise
  else Ok tt.

(** UpdateBalances, model/model.go:467-496. Returns the transaction (ApplyPrecision
    mutates it) and the two updated balances. *)
Definition update_balances (t : txn) (src dst : balance) : res (txn * balance * balance) :=
  let t := apply_precision_txn t in
  match validate_txn t with
  | Err e => Err e
  | Ok _ =>
    match can_process t src with
    | Err e => Err e
    | Ok _ =>
      Ok (t, compute_balance (add_debit src (t_precise t) (t_inflight t)) (t_inflight t),
             compute_balance (add_credit dst (t_precise t) (t_inflight t)) (t_inflight t))
    end
  end.

(** CommitInflightDebit, model/model.go:228-241 (after ApplyPrecision). *)
Definition commit_inflight_debit (b : balance) (a : Z) : res balance :=
  if b_idb b <? a then Err EInflightDebit
  else Ok (compute_balance (compute_balance
        (with_counters b (b_bal b) (b_cr b) (b_db b + a) (b_ibal b) (b_icr b) (b_idb b - a)) true) false).

(** CommitInflightCredit, model/model.go:244-257. *)
Definition commit_inflight_credit (b : balance) (a : Z) : res balance :=
  if b_icr b <? a then Err EInflightCredit
  else Ok (compute_balance (compute_balance
        (with_counters b (b_bal b) (b_cr b + a) (b_db b) (b_ibal b) (b_icr b - a) (b_idb b)) true) false).

(** RollbackInflightCredit, model/model.go:260-268. *)
Definition rollback_inflight_credit (b : balance) (a : Z) : res balance :=
  if b_icr b <? a then Err EInflightCredit
  else Ok (compute_balance
        (with_counters b (b_bal b) (b_cr b) (b_db b) (b_ibal b) (b_icr b - a) (b_idb b)) true).

(** RollbackInflightDebit, model/model.go:271-279. *)
Definition rollback_inflight_debit (b : balance) (a : Z) : res balance :=
  if b_idb b <? a then Err EInflightDebit
  else Ok (compute_balance
        (with_counters b (b_bal b) (b_cr b) (b_db b) (b_ibal b) (b_icr b) (b_idb b - a)) true).

(** applyTransactionToBalances, transaction_execution.go:320-365. The two balances
    are separate objects (single path). Returns the possibly modified transaction. *)
Definition apply_to_balances (t : txn) (src dst : balance) : res (txn * balance * balance) :=
  match t_status t with
  | SCommit =>
    let t := apply_precision_txn t in
    match commit_inflight_debit src (t_precise t) with
    | Err e => Err e
    | Ok src' =>
      match commit_inflight_credit dst (t_precise t) with
      | Err e => Err e
      | Ok dst' => Ok (t, src', dst')
      end
    end
  | SVoid =>
    match rollback_inflight_debit src (t_precise t) with
    | Err e => Err e
    | Ok src' =>
      match rollback_inflight_credit dst (t_precise t) with
      | Err e => Err e
      | Ok dst' => Ok (t, src', dst')
      end
    end
  | _ => update_balances t src dst
  end.

(** updateTransactionDetails, transaction_execution.go:189-213 (status part). *)
Definition final_status (t : txn) : status :=
  if t_inflight t then SInflight
  else match t_status t with
       | SQueued | SApplied | SScheduled | SCommit => SApplied
       | SVoid => SVoid
       | _ => SNone
       end.

(** clearTerminalInflightMetadata, transaction_inflight.go:86-95. *)
Definition clear_meta_inflight (m : meta) : meta :=
  {| m_inflight := false; m_atomic := m_atomic m; m_allow := m_allow m;
     m_qparent := m_qparent m; m_provider := m_provider m |}.
Definition clear_terminal (t : txn) : txn :=
  match t_status t with
  | SInflight => t
  | _ => with_flags t false (t_allow t) (t_skipq t) (t_atomic t) (clear_meta_inflight (t_meta t))
  end.
