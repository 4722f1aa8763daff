(** Model of the transaction hash chain and of the immutability trigger:
    model/chain.go, database/chain.go, chain_worker.go, sql/1781162328.sql.
    SHA-256 with hex output is a parameter [hash] (nothing is assumed about it
    here). A NULL column is an empty string, as the COALESCEs of the code make it. *)
From Coq Require Import ZArith List String Bool Decimal DecimalString DecimalZ.
From Verif Require Import Base.
Import ListNotations.
Local Open Scope string_scope.
Open Scope Z_scope.

(** The protected columns of blnk.transactions (sql/1781162328.sql:63-75). NUMERIC
    columns are their text; created_at is in microseconds; NULL is [None] where the
    trigger has to tell it from a value. *)
Record facts := {
  f_txid : string; f_src : option string; f_dst : option string; f_desc : option string;
  f_ref : option string; f_amount : option string; f_precise : option string; f_precision : option string;
  f_cur : option string; f_status : option string; f_hash : option string; f_created : Z;
  f_sched : option Z }.

(** The other columns: chain_seq, chain_prev_hash, chain_hash (always written together,
    database/chain.go:109) and the unprotected ones (parent_transaction,
    effective_date, meta_data). *)
Record seal := { sl_seq : Z; sl_prev : string; sl_hash : string }.
Record extra := { x_parent : string; x_effective : option Z; x_meta : string }.
Record crow := { k_pk : Z; k_facts : facts; k_extra : extra; k_seal : option seal }.

Definition opt_eqb {A} (f : A -> A -> bool) (a b : option A) : bool :=
  match a, b with Some x, Some y => f x y | None, None => true | _, _ => false end.

(** prevent_transaction_update, sql/1781162328.sql:57-81: true = the update is let
    through. Each line is one IS DISTINCT FROM test. *)
Definition update_allowed (old new : facts) : bool :=
  String.eqb (f_txid new) (f_txid old)
  && opt_eqb String.eqb (f_src new) (f_src old)
  && opt_eqb String.eqb (f_dst new) (f_dst old)
  && opt_eqb String.eqb (f_desc new) (f_desc old)
  && opt_eqb String.eqb (f_ref new) (f_ref old)
  && opt_eqb String.eqb (f_amount new) (f_amount old)
  && opt_eqb String.eqb (f_precise new) (f_precise old)
  && opt_eqb String.eqb (f_precision new) (f_precision old)
  && opt_eqb String.eqb (f_cur new) (f_cur old)
  && opt_eqb String.eqb (f_status new) (f_status old)
  && opt_eqb String.eqb (f_hash new) (f_hash old)
  && Z.eqb (f_created new) (f_created old)
  && opt_eqb Z.eqb (f_sched new) (f_sched old).

Definition text (o : option string) : string := match o with Some s => s | None => "" end.

(** CreatedAt.UTC().Format(time.RFC3339Nano), model/chain.go:64. Simplified to the
    decimal number of microseconds: like the code's rendering it is different for
    different times and contains no '|'. *)
Definition time_text (t : Z) : string := NilZero.string_of_int (Z.to_int t).

(** ComputeChainHash, model/chain.go:53-68: the string that is hashed, and its hash. *)
Definition canonical (prev : string) (f : facts) : string :=
  String.concat "|" [prev; f_txid f; text (f_src f); text (f_dst f); text (f_amount f); text (f_precise f);
    text (f_cur f); text (f_status f); text (f_ref f); time_text (f_created f)].
Definition chain_hash (hash : string -> string) (prev : string) (f : facts) : string := hash (canonical prev f).

(** The transactions table with blnk.chain_state (sql/1781162328.sql:19-38). *)
Record db := { d_rows : list crow; d_last : Z; d_head : string; d_genesis : string }.

(** ORDER BY key ASC. *)
Fixpoint insert_by {A} (key : A -> Z) (x : A) (l : list A) : list A :=
  match l with [] => [x] | y :: r => if key x <=? key y then x :: l else y :: insert_by key x r end.
Fixpoint sort_by {A} (key : A -> Z) (l : list A) : list A :=
  match l with [] => [] | x :: r => insert_by key x (sort_by key r) end.

Definition is_sealed (r : crow) : bool := match k_seal r with Some _ => true | None => false end.

(** The scan of database/chain.go:59-67. *)
Definition scan (cutoff : Z) (limit : nat) (d : db) : list crow :=
  firstn limit (sort_by k_pk (filter (fun r => negb (is_sealed r) && (f_created (k_facts r) <? cutoff)) (d_rows d))).

(** The loop of database/chain.go:79-92. *)
Record link := { l_pk : Z; l_seal : seal }.
Fixpoint make_links (hash : string -> string) (last : Z) (head : string) (rows : list crow) : list link * Z * string :=
  match rows with
  | [] => ([], last, head)
  | r :: rest =>
    let h := chain_hash hash head (k_facts r) in
    let l := {| l_pk := k_pk r; l_seal := {| sl_seq := last + 1; sl_prev := head; sl_hash := h |} |} in
    let '(ls, last', head') := make_links hash (last + 1) h rest in
    (l :: ls, last', head')
  end.

(** UPDATE ... SET chain_seq, chain_prev_hash, chain_hash WHERE id, database/chain.go:109-118. *)
Definition write_link (rows : list crow) (l : link) : list crow :=
  map (fun r => if k_pk r =? l_pk l
                then {| k_pk := k_pk r; k_facts := k_facts r; k_extra := k_extra r; k_seal := Some (l_seal l) |}
                else r) rows.

(** One ChainPendingTransactions in progress, database/chain.go:40-133. It holds the
    FOR UPDATE lock of the chain_state row; its writes are not visible until it commits. *)
Inductive work :=
| Locked (last : Z) (head : string)                                          (* after line 57 *)
| Writing (todo done : list link) (last : Z) (head : string).               (* lines 90-118 *)

(** The database and the chainer that holds the lock, if any. Any number of workers
    run; those that do not hold the lock have done nothing yet. *)
Record csys := { c_db : db; c_work : option work }.

Inductive cevent :=
| ELock                                   (* some worker gets the lock, lines 50-57 *)
| EScan (cutoff : Z) (limit : nat)        (* lines 59-98, READ COMMITTED: sees committed rows *)
| EWrite                                  (* one UPDATE, lines 114-118 *)
| ECommit                                 (* lines 100-129 *)
| EAbort                                  (* an error, or the worker dies: rollback *)
| EInsert (pk : Z) (f : facts) (x : extra) (* a transaction is recorded (ids are unique, commit order is arbitrary) *)
| EUpdate (pk : Z) (f : facts) (x : extra) (* any UPDATE of other columns; the trigger decides *).

Definition cstep (hash : string -> string) (y : csys) (e : cevent) : option csys :=
  let d := c_db y in
  match e, c_work y with
  | ELock, None => Some {| c_db := d; c_work := Some (Locked (d_last d) (d_head d)) |}
  | EScan cutoff limit, Some (Locked last head) =>
    let '(ls, last', head') := make_links hash last head (scan cutoff limit d) in
    Some {| c_db := d; c_work := Some (Writing ls [] last' head') |}
  | EWrite, Some (Writing (l :: todo) done last head) =>
    Some {| c_db := d; c_work := Some (Writing todo (done ++ [l]) last head) |}
  | ECommit, Some (Writing [] done last head) =>
    Some {| c_db := match done with
                    | [] => d
                    | _ => {| d_rows := fold_left write_link done (d_rows d);
                              d_last := last; d_head := head; d_genesis := d_genesis d |}
                    end; c_work := None |}
  | EAbort, Some _ => Some {| c_db := d; c_work := None |}
  | EInsert pk f x, w =>
    if existsb (fun r => k_pk r =? pk) (d_rows d) then None
    else Some {| c_db := {| d_rows := {| k_pk := pk; k_facts := f; k_extra := x; k_seal := None |} :: d_rows d;
                            d_last := d_last d; d_head := d_head d; d_genesis := d_genesis d |}; c_work := w |}
  | EUpdate pk f x, w =>
    if forallb (fun r => negb (k_pk r =? pk) || update_allowed (k_facts r) f) (d_rows d) then
      Some {| c_db := {| d_rows := map (fun r => if k_pk r =? pk
                                                 then {| k_pk := pk; k_facts := f; k_extra := x; k_seal := k_seal r |}
                                                 else r) (d_rows d);
                         d_last := d_last d; d_head := d_head d; d_genesis := d_genesis d |}; c_work := w |}
    else None
  | _, _ => None
  end.

(** sql/1781162328.sql:36-38; model.ChainGenesisHash, model/chain.go:28. *)
Definition genesis : string := "0000000000000000000000000000000000000000000000000000000000000000".
Definition chain_init : csys :=
  {| c_db := {| d_rows := []; d_last := 0; d_head := genesis; d_genesis := genesis |}; c_work := None |}.

(** GetChainedTransactionsAfter, database/chain.go:150-181. *)
Definition seq_of (r : crow) : Z := match k_seal r with Some s => sl_seq s | None => 0 end.
Definition chained_after (after : Z) (limit : nat) (d : db) : list crow :=
  firstn limit (sort_by seq_of (filter (fun r => is_sealed r && (after <? seq_of r)) (d_rows d))).

(** ChainVerifyResult, chain_worker.go:157-164. *)
Inductive verdict := Verified (last : Z) (head : string) | BrokenAt (seq : Z) (txid : string).

(** One page of VerifyChain, chain_worker.go:190-209. [expected] is expectedSeq. *)
Fixpoint verify_page (hash : string -> string) (rows : list crow) (head : string) (last expected : Z)
  : verdict + (string * Z * Z) :=
  match rows with
  | [] => inr (head, last, expected)
  | r :: rest =>
    match k_seal r with
    | None => inr (head, last, expected) (* not selected by the query *)
    | Some s =>
      if negb (sl_seq s =? expected) then inl (BrokenAt (sl_seq s) (f_txid (k_facts r)))
      else if negb (String.eqb (sl_prev s) head) then inl (BrokenAt (sl_seq s) (f_txid (k_facts r)))
      else if negb (String.eqb (chain_hash hash head (k_facts r)) (sl_hash s)) then inl (BrokenAt (sl_seq s) (f_txid (k_facts r)))
      else verify_page hash rest (sl_hash s) (sl_seq s) (expected + 1)
    end
  end.

(** The loop of VerifyChain, chain_worker.go:182-217. The k-th query sees database
    [dbs k]; [fuel] bounds the number of queries ([None]: not finished). *)
Fixpoint verify_loop (hash : string -> string) (page : nat) (dbs : nat -> db) (fuel k : nat)
    (st_last : Z) (st_head head : string) (last expected : Z) : option verdict :=
  match fuel with
  | O => None
  | S fuel' =>
    match chained_after last page (dbs k) with
    | [] => Some (if (last =? st_last) && negb (String.eqb head st_head) then BrokenAt last "" else Verified last head)
    | rows =>
      match verify_page hash rows head last expected with
      | inl v => Some v
      | inr (head', last', expected') => verify_loop hash page dbs fuel' (S k) st_last st_head head' last' expected'
      end
    end
  end.

(** VerifyChain, chain_worker.go:171-218: [dbs 0] is what GetChainState sees, [dbs k]
    what the k-th page sees. The code's page is 1000. *)
Definition verify (hash : string -> string) (page : nat) (dbs : nat -> db) (fuel : nat) : option verdict :=
  let d := dbs O in
  verify_loop hash page dbs fuel 1 (d_last d) (d_head d) (d_genesis d) 0 1.
