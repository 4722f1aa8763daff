(** The same operations on plain numbers: nothing is shared, an assignment copies. *)
From Coq Require Import ZArith QArith List String Bool Arith.
From Verif Require Import Base MoneyModel SplitModel BalanceModel CellModel.
Import ListNotations.
Local Open Scope Z_scope.
Local Open Scope list_scope.

(** Balances (and their queued credits) and transactions by number. *)
Record plain := { p_bal : list (balance * option Z); p_txn : list txn; p_res : list (option err); p_out : list (list Z) }.
Definition nothing : plain := {| p_bal := []; p_txn := []; p_res := []; p_out := [] |}.
Definition or0 (z : option Z) : Z := match z with Some z => z | None => 0 end.
Definition row (c : field -> option Z) : balance * option Z :=
  ({| b_id := ""; b_ind := ""; b_cur := ""; b_bal := or0 (c FBal); b_cr := or0 (c FCr); b_db := or0 (c FDb); b_ibal := or0 (c FIBal);
      b_icr := or0 (c FICr); b_idb := or0 (c FIDb); b_queued := c FQDb; b_ver := 0; b_recon := false; b_track := false |}, c FQCr).
Definition no_row : balance * option Z := row (fun _ => None).
Definition priced (t : txn) (z : Z) : txn := with_money t z (t_amount t) (t_prec t).
Fixpoint replace {A} (l : list A) (i : nat) (v : A) : list A :=
  match l, i with [], _ => [] | _ :: r, O => v :: r | x :: r, S i => x :: replace r i v end.
Definition bal (w : plain) (b : nat) : balance := fst (nth b (p_bal w) no_row).
Definition with_bal (w : plain) (b : nat) (v : balance) : plain :=
  {| p_bal := replace (p_bal w) b (v, snd (nth b (p_bal w) no_row)); p_txn := p_txn w; p_res := p_res w; p_out := p_out w |}.
Definition with_txn (w : plain) (x : nat) (t : txn) : plain :=
  {| p_bal := p_bal w; p_txn := replace (p_txn w) x t; p_res := p_res w; p_out := p_out w |}.
Definition more_bal (w : plain) (v : balance * option Z) : plain := {| p_bal := p_bal w ++ [v]; p_txn := p_txn w; p_res := p_res w; p_out := p_out w |}.
Definition more_txn (w : plain) (t : txn) : plain := {| p_bal := p_bal w; p_txn := p_txn w ++ [t]; p_res := p_res w; p_out := p_out w |}.
Definition more_res (w : plain) (r : option err) : plain := {| p_bal := p_bal w; p_txn := p_txn w; p_res := p_res w ++ [r]; p_out := p_out w |}.
Definition more_out (w : plain) (l : list Z) : plain := {| p_bal := p_bal w; p_txn := p_txn w; p_res := p_res w; p_out := p_out w ++ [l] |}.

(** One balance after the other; the source and the destination may be the same. *)
Definition one (w : plain) (b : nat) (r : res balance) (k : plain -> plain * option err) : plain * option err :=
  match r with Err e => (w, Some e) | Ok v => k (with_bal w b v) end.
Definition apply (w : plain) (x s d : nat) : plain * option err :=
  let t := nth x (p_txn w) no_txn in
  let t' := apply_precision_txn t in
  match t_status t with
  | SCommit =>
    (* the precision is applied with the debit, and again with the credit *)
    one (with_txn w x t') s (commit_inflight_debit (bal w s) (t_precise t')) (fun w =>
    one (with_txn w x (apply_precision_txn t')) d (commit_inflight_credit (bal w d) (t_precise t')) (fun w => (w, None)))
  | SVoid =>
    one w s (rollback_inflight_debit (bal w s) (t_precise t)) (fun w =>
    one w d (rollback_inflight_credit (bal w d) (t_precise t)) (fun w => (w, None)))
  | _ =>
    let w := with_txn w x t' in
    match validate_txn t' with
    | Err e => (w, Some e)
    | Ok _ =>
      match can_process t' (bal w s) with
      | Err e => (w, Some e)
      | Ok _ =>
        let w := with_bal w s (compute_balance (add_debit (bal w s) (t_precise t') (t_inflight t')) (t_inflight t')) in
        let w := with_bal w d (compute_balance (add_credit (bal w d) (t_precise t') (t_inflight t')) (t_inflight t')) in
        (w, None)
      end
    end
  end.
Definition figures (v : balance) : list Z :=
  [b_bal v; b_bal v - b_idb v - or0 (b_queued v); b_cr v; b_db v; b_idb v; b_icr v].
Definition step (w : plain) (o : op) : plain :=
  match o with
  | OLoad c => more_bal w (row c)
  | ODecode t a => more_txn w (priced t (or0 a))
  | OCopy b => if Nat.ltb b (List.length (p_bal w)) then more_bal w (nth b (p_bal w) no_row) else w
  | OCopyTxn x => if Nat.ltb x (List.length (p_txn w)) then more_txn w (nth x (p_txn w) no_txn) else w
  | OShare x t => if Nat.ltb x (List.length (p_txn w)) then more_txn w (priced t (t_precise (nth x (p_txn w) no_txn))) else w
  | OPrec x => if Nat.ltb x (List.length (p_txn w)) then with_txn w x (apply_precision_txn (nth x (p_txn w) no_txn)) else w
  | OApply x s d =>
    if Nat.ltb x (List.length (p_txn w)) && Nat.ltb s (List.length (p_bal w)) && Nat.ltb d (List.length (p_bal w))
    then let (w, r) := apply w x s d in more_res w r else w
  | OProject i j =>
    if Nat.ltb i (List.length (p_bal w)) && Nat.ltb j (List.length (p_bal w))
    then (* two copies are made *)
      more_out (more_bal (more_bal w (nth i (p_bal w) no_row)) (nth j (p_bal w) no_row)) (figures (bal w i) ++ figures (bal w j))
    else w
  end.
Definition steps (os : list op) (w : plain) : plain := fold_left step os w.

(** What the memory shows. *)
Definition seen (m : mem) : plain :=
  {| p_bal := map (fun b => (read_bal m b, option_map (m_int m) (m_bal m b FQCr))) (seq 0 (m_nb m));
     p_txn := map (read_txn m) (seq 0 (m_nt m)); p_res := m_res m; p_out := m_out m |}.
(** A void is given an amount: a transaction without one, or made from one without, is none. *)
Definition voids_priced (os : list op) : Prop :=
  forall o, In o os -> match o with ODecode t None | OShare _ t => t_status t <> SVoid | _ => True end.

(** ** What is asked for *)

(** No later application is to this balance; no later step is about this transaction. *)
Definition not_applied (i : nat) (os : list op) : Prop := forall x s d, In (OApply x s d) os -> s <> i /\ d <> i.
Definition not_used (i : nat) (os : list op) : Prop := (forall s d, ~ In (OApply i s d) os) /\ ~ In (OPrec i) os.
(** What is shown of balance i and of transaction i. *)
Definition shown (m : mem) (i : nat) : option (balance * option Z) := nth_error (p_bal (seen m)) i.
Definition shown_txn (m : mem) (i : nat) : option txn := nth_error (p_txn (seen m)) i.

(** A dry run of one transfer, transaction_dryrun.go:47-60 and 236-294: rows, the caller's transaction, its copy, the copies
    of the balances, the application, and the projections: of the balances applied to if it succeeds, of the copies if not. *)
Definition dry_run (c1 c2 : field -> option Z) (t : txn) (a : option Z) (applied : bool) : list op :=
  [ODecode t a; OCopyTxn 0; OPrec 1; OLoad c1; OLoad c2; OCopy 0; OCopy 1; OApply 1 0 1] ++
  (if applied then [OProject 2 0; OProject 3 1] else [OProject 2 2; OProject 3 3]).
