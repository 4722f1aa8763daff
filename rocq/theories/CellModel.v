(** The arithmetic of balances on shared integers. In Go the counters of a balance and the amount of a transaction are
    pointers to integers that Add and Sub change in place. Here they are pointers into a memory. *)
From Coq Require Import ZArith QArith List String Bool Arith.
From Verif Require Import Base MoneyModel SplitModel BalanceModel.
Import ListNotations.
Local Open Scope Z_scope.
Local Open Scope list_scope.

(** The *big.Int fields of model.Balance, model/balance.go:26-34. *)
Inductive field := FBal | FIBal | FCr | FICr | FDb | FIDb | FQDb | FQCr.
Definition field_eqb (f g : field) : bool :=
  match f, g with
  | FBal, FBal | FIBal, FIBal | FCr, FCr | FICr, FICr | FDb, FDb | FIDb, FIDb | FQDb, FQDb | FQCr, FQCr => true
  | _, _ => false
  end.
(** A transaction: the pointer PreciseAmount, and the other fields ([t_precise] of these is not used). *)
Record object := { o_amt : option nat; o_rest : txn }.
(** Integers, balances and transactions by number, and how many there are; results of applications, and figures shown. *)
Record mem := { m_int : nat -> Z; m_next : nat; m_bal : nat -> field -> option nat; m_nb : nat; m_txn : nat -> object; m_nt : nat;
  m_res : list (option err); m_out : list (list Z) }.

Definition set {A} (f : nat -> A) (i : nat) (v : A) : nat -> A := fun j => if Nat.eqb i j then v else f j.
Definition put_int (m : mem) (p : nat) (z : Z) : mem :=
  {| m_int := set (m_int m) p z; m_next := m_next m; m_bal := m_bal m; m_nb := m_nb m; m_txn := m_txn m; m_nt := m_nt m; m_res := m_res m; m_out := m_out m |}.
Definition new_int (m : mem) (z : Z) : nat * mem :=
  (m_next m, {| m_int := set (m_int m) (m_next m) z; m_next := S (m_next m); m_bal := m_bal m; m_nb := m_nb m; m_txn := m_txn m; m_nt := m_nt m; m_res := m_res m; m_out := m_out m |}).
Definition put_field (m : mem) (b : nat) (f : field) (p : option nat) : mem :=
  {| m_int := m_int m; m_next := m_next m; m_bal := set (m_bal m) b (fun g => if field_eqb f g then p else m_bal m b g); m_nb := m_nb m;
     m_txn := m_txn m; m_nt := m_nt m; m_res := m_res m; m_out := m_out m |}.
Definition put_txn (m : mem) (x : nat) (o : object) : mem :=
  {| m_int := m_int m; m_next := m_next m; m_bal := m_bal m; m_nb := m_nb m; m_txn := set (m_txn m) x o; m_nt := m_nt m; m_res := m_res m; m_out := m_out m |}.
Definition new_bal (m : mem) (c : field -> option nat) : mem :=
  {| m_int := m_int m; m_next := m_next m; m_bal := set (m_bal m) (m_nb m) c; m_nb := S (m_nb m); m_txn := m_txn m; m_nt := m_nt m; m_res := m_res m; m_out := m_out m |}.
Definition new_txn (m : mem) (o : object) : mem :=
  {| m_int := m_int m; m_next := m_next m; m_bal := m_bal m; m_nb := m_nb m; m_txn := set (m_txn m) (m_nt m) o; m_nt := S (m_nt m); m_res := m_res m; m_out := m_out m |}.
Definition add_res (m : mem) (r : option err) : mem :=
  {| m_int := m_int m; m_next := m_next m; m_bal := m_bal m; m_nb := m_nb m; m_txn := m_txn m; m_nt := m_nt m; m_res := m_res m ++ [r]; m_out := m_out m |}.
Definition add_out (m : mem) (l : list Z) : mem :=
  {| m_int := m_int m; m_next := m_next m; m_bal := m_bal m; m_nb := m_nb m; m_txn := m_txn m; m_nt := m_nt m; m_res := m_res m; m_out := m_out m ++ [l] |}.

(** What is read through a pointer; the transaction as it is read. *)
Definition at_ (m : mem) (p : option nat) : Z := match p with Some p => m_int m p | None => 0 end.
Definition read_txn (m : mem) (x : nat) : txn :=
  let o := m_txn m x in with_money (o_rest o) (at_ m (o_amt o)) (t_amount (o_rest o)) (t_prec (o_rest o)).
Definition read_bal (m : mem) (b : nat) : balance :=
  {| b_id := ""; b_ind := ""; b_cur := ""; b_bal := at_ m (m_bal m b FBal); b_cr := at_ m (m_bal m b FCr); b_db := at_ m (m_bal m b FDb);
     b_ibal := at_ m (m_bal m b FIBal); b_icr := at_ m (m_bal m b FICr); b_idb := at_ m (m_bal m b FIDb);
     b_queued := option_map (m_int m) (m_bal m b FQDb); b_ver := 0; b_recon := false; b_track := false |}.

(** InitializeBalanceFields, model/model.go:94-113. *)
Definition init1 (b : nat) (m : mem) (f : field) : mem :=
  match m_bal m b f with Some _ => m | None => let (p, m) := new_int m 0 in put_field m b f (Some p) end.
Definition init (m : mem) (b : nat) : mem := fold_left (init1 b) [FIDb; FICr; FIBal; FDb; FCr; FBal] m.

(** z.Add(x, y) and z.Sub(x, y); None: a nil pointer is followed, which is a panic. *)
Definition ints (op : Z -> Z -> Z) (m : mem) (z x y : option nat) : option mem :=
  match z, x, y with Some z, Some x, Some y => Some (put_int m z (op (m_int m x) (m_int m y))) | _, _, _ => None end.
Definition bind {A B} (x : option A) (f : A -> option B) : option B := match x with Some a => f a | None => None end.

(** addCredit and addDebit, model/model.go:117-136. *)
Definition h_credit (m : mem) (b : nat) (a : option nat) (infl : bool) : option mem :=
  let m := init m b in let f := if infl then FICr else FCr in ints Z.add m (m_bal m b f) (m_bal m b f) a.
Definition h_debit (m : mem) (b : nat) (a : option nat) (infl : bool) : option mem :=
  let m := init m b in let f := if infl then FIDb else FDb in ints Z.add m (m_bal m b f) (m_bal m b f) a.
(** computeBalance, model/model.go:140-147. *)
Definition h_compute (m : mem) (b : nat) (infl : bool) : option mem :=
  let m := init m b in
  if infl then ints Z.sub m (m_bal m b FIBal) (m_bal m b FICr) (m_bal m b FIDb)
  else ints Z.sub m (m_bal m b FBal) (m_bal m b FCr) (m_bal m b FDb).
(** ApplyPrecision, model/model.go:285-308: a positive PreciseAmount is kept as the pointer it is; else a new integer is made.
    The arithmetic is that of [apply_precision]. *)
Definition h_precision (m : mem) (x : nat) : mem :=
  let t := read_txn m x in let t' := apply_precision_txn t in
  if 0 <? t_precise t then put_txn m x {| o_amt := o_amt (m_txn m x); o_rest := t' |}
  else let (p, m) := new_int m (t_precise t') in put_txn m x {| o_amt := Some p; o_rest := t' |}.
(** canProcessTransaction, model/model.go:153-205; the integers it makes are its own and are left out. *)
Definition h_can (m : mem) (x s : nat) : mem * res unit :=
  let t := read_txn m x in
  if t_allow t && Qeq_bool (t_limit t) 0 then (m, Ok tt) else let m := init m s in (m, can_process t (read_bal m s)).
(** UpdateBalances, model/model.go:467-496. *)
Definition h_update (m : mem) (x s d : nat) : option (mem * option err) :=
  let m := h_precision m x in
  match validate_txn (read_txn m x) with
  | Err e => Some (m, Some e)
  | Ok _ =>
    match h_can m x s with
    | (m, Err e) => Some (m, Some e)
    | (m, Ok _) =>
      let m := init (init m s) d in
      let a := o_amt (m_txn m x) in let i := t_inflight (read_txn m x) in
      bind (h_debit m s a i) (fun m => bind (h_compute m s i) (fun m => bind (h_credit m d a i) (fun m => bind (h_compute m d i) (fun m => Some (m, None)))))
    end
  end.
(** checkSufficientInflightDebit and -Credit, model/model.go:209-224: None is a panic. *)
Definition h_check (m : mem) (have need : option nat) (e : err) : option (option err) :=
  match have, need with Some p, Some q => Some (if m_int m p <? m_int m q then Some e else None) | _, _ => None end.
(** CommitInflightDebit and CommitInflightCredit, model/model.go:228-257. *)
Definition h_commit (m : mem) (b x : nat) (f g : field) (e : err) : option (mem * option err) :=
  let m := init m b in
  let m := h_precision m x in
  let a := o_amt (m_txn m x) in
  bind (h_check m (m_bal m b f) a e) (fun r => match r with
  | Some e => Some (m, Some e)
  | None =>
    bind (ints Z.sub m (m_bal m b f) (m_bal m b f) a) (fun m => bind (ints Z.add m (m_bal m b g) (m_bal m b g) a) (fun m =>
    bind (h_compute m b true) (fun m => bind (h_compute m b false) (fun m => Some (m, None)))))
  end).
(** RollbackInflightCredit and RollbackInflightDebit, model/model.go:260-279. *)
Definition h_rollback (m : mem) (b : nat) (a : option nat) (f : field) (e : err) : option (mem * option err) :=
  let m := init m b in
  bind (h_check m (m_bal m b f) a e) (fun r => match r with
  | Some e => Some (m, Some e)
  | None => bind (ints Z.sub m (m_bal m b f) (m_bal m b f) a) (fun m => bind (h_compute m b true) (fun m => Some (m, None)))
  end).
(** applyTransactionToBalances, transaction_execution.go:320-365. *)
Definition h_apply (m : mem) (x s d : nat) : option (mem * option err) :=
  match t_status (read_txn m x) with
  | SCommit => bind (h_commit m s x FIDb FDb EInflightDebit) (fun y => match y with
      | (m, Some e) => Some (m, Some e) | (m, None) => h_commit m d x FICr FCr EInflightCredit end)
  | SVoid => let a := o_amt (m_txn m x) in
      bind (h_rollback m s a FIDb EInflightDebit) (fun y => match y with
      | (m, Some e) => Some (m, Some e) | (m, None) => h_rollback m d a FICr EInflightCredit end)
  | _ => h_update m x s d
  end.

(** cloneBigInt, model/clone.go:25-30, and Clone of a balance, 44-69, and of a transaction, 79-118: the integers only; the
    other fields are values or, as maps and lists are, copied. *)
Definition clone_int (m : mem) (p : option nat) : option nat * mem :=
  match p with None => (None, m) | Some p => let (q, m) := new_int m (m_int m p) in (Some q, m) end.
Definition clone1 (b : nat) (y : mem * (field -> option nat)) (f : field) : mem * (field -> option nat) :=
  let (q, m) := clone_int (fst y) (m_bal (fst y) b f) in (m, fun g => if field_eqb f g then q else snd y g).
Definition clone_bal (m : mem) (b : nat) : mem :=
  let (m, c) := fold_left (clone1 b) [FBal; FIBal; FCr; FICr; FDb; FIDb; FQDb; FQCr] (m, m_bal m b) in new_bal m c.
Definition clone_txn (m : mem) (x : nat) : mem :=
  let (q, m) := clone_int m (o_amt (m_txn m x)) in new_txn m {| o_amt := q; o_rest := o_rest (m_txn m x) |}.

(** A row read from the database, or a balance made up: integers of its own (parseBigInt, database/balance.go). *)
Definition load1 (c : field -> option Z) (y : mem * (field -> option nat)) (f : field) : mem * (field -> option nat) :=
  match c f with
  | None => (fst y, fun g => if field_eqb f g then None else snd y g)
  | Some z => let (q, m) := new_int (fst y) z in (m, fun g => if field_eqb f g then Some q else snd y g)
  end.
Definition load (m : mem) (c : field -> option Z) : mem :=
  let (m, c) := fold_left (load1 c) [FBal; FIBal; FCr; FICr; FDb; FIDb; FQDb; FQCr] (m, fun _ => None) in new_bal m c.
Definition decode (m : mem) (t : txn) (a : option Z) : mem :=
  match a with None => new_txn m {| o_amt := None; o_rest := t |} | Some z => let (q, m) := new_int m z in new_txn m {| o_amt := Some q; o_rest := t |} end.

(** availableBalance, transaction_dryrun.go:674-680, and the figures of balanceProjection, 645-670: of two copies made for it. *)
Definition h_figures (m : mem) (b : nat) : list Z :=
  let v := read_bal m b in
  let a := b_bal v - b_idb v in
  [b_bal v; match b_queued v with Some q => a - q | None => a end; b_cr v; b_db v; b_idb v; b_icr v].
Definition project (m : mem) (before after : nat) : mem :=
  let m := clone_bal m before in let i := (m_nb m - 1)%nat in
  let m := clone_bal m after in let j := (m_nb m - 1)%nat in
  let m := init (init m i) j in
  add_out m (h_figures m i ++ h_figures m j).

(** What the code does with balances and transactions in memory, in any order. [OShare]: a transaction made from another one
    that has the same pointer as amount, as two legs of a split to one balance have (model/transaction.go, the map of
    CalculateDistributionsPrecise), or a copy of the struct. [OPrec]: PreciseAmount is set to ApplyPrecision. *)
Inductive op := OLoad (c : field -> option Z) | ODecode (t : txn) (a : option Z) | OCopy (b : nat) | OCopyTxn (x : nat) | OShare (x : nat) (t : txn)
  | OPrec (x : nat) | OApply (x s d : nat) | OProject (before after : nat).
Definition act (m : mem) (o : op) : option mem :=
  match o with
  | OLoad c => Some (load m c)
  | ODecode t a => Some (decode m t a)
  | OCopy b => if Nat.ltb b (m_nb m) then Some (clone_bal m b) else Some m
  | OCopyTxn x => if Nat.ltb x (m_nt m) then Some (clone_txn m x) else Some m
  | OShare x t => if Nat.ltb x (m_nt m) then Some (new_txn m {| o_amt := o_amt (m_txn m x); o_rest := t |}) else Some m
  | OPrec x => if Nat.ltb x (m_nt m) then Some (h_precision m x) else Some m
  | OApply x s d =>
    if Nat.ltb x (m_nt m) && Nat.ltb s (m_nb m) && Nat.ltb d (m_nb m)
    then bind (h_apply m x s d) (fun y => Some (add_res (fst y) (snd y))) else Some m
  | OProject i j => if Nat.ltb i (m_nb m) && Nat.ltb j (m_nb m) then Some (project m i j) else Some m
  end.
Definition no_txn : txn :=
  {| t_id := ""; t_parent := ""; t_src := ""; t_dst := ""; t_ref := ""; t_cur := ""; t_status := SNone; t_precise := 0; t_amount := 0; t_prec := 0;
     t_inflight := false; t_allow := false; t_limit := 0; t_skipq := false; t_atomic := false; t_sched := false; t_meta := meta0; t_sources := []; t_dests := [] |}.
Definition empty : mem :=
  {| m_int := fun _ => 0; m_next := 0; m_bal := fun _ _ => None; m_nb := 0;
     m_txn := fun _ => {| o_amt := None; o_rest := no_txn |}; m_nt := 0; m_res := []; m_out := [] |}.
Definition run (os : list op) (m : mem) : option mem := fold_left (fun m o => bind m (fun m => act m o)) os (Some m).
