(** Updating the metadata of ledgers, balances, identities and transactions. *)
From Coq Require Import List String Bool Arith.
From Verif Require Import BodyModel.
From Verif Require TokenModel.
Import ListNotations.
Local Open Scope string_scope.

Definition fields := list (string * json).
(** metadata.go:189-199 (mergeMetadata). *)
Definition merge : fields -> fields -> fields := TokenModel.merge.

Inductive kind := KLedger | KBalance | KIdentity.
Definition kind_eqb (a b : kind) : bool :=
  match a, b with KLedger, KLedger | KBalance, KBalance | KIdentity, KIdentity => true | _, _ => false end.
Inductive target := TTransactions | TOne (k : kind).

(** metadata.go:25-40 (getEntityTypeFromID). *)
Definition target_of (id : string) : option target :=
  if prefix "txn_" id then Some TTransactions
  else if prefix "bulk_" id then Some TTransactions
  else if prefix "ldg_" id then Some (TOne KLedger)
  else if prefix "bln_" id then Some (TOne KBalance)
  else if prefix "idt_" id then Some (TOne KIdentity)
  else None.

(** * Tables *)

(** A row of blnk.transactions: its id, its parent ("" for none), its metadata as stored. *)
Record trow := { t_id : string; t_parent : string; t_meta : json }.
(** The rows of blnk.ledgers, blnk.balances and blnk.identity, by id, and those of blnk.transactions. *)
Record tables := { b_one : kind -> string -> option json; b_txns : list trow }.

Definition set_one (k : kind) (id : string) (m : option json) (b : tables) : tables :=
  {| b_one := fun k' id' => if kind_eqb k' k && String.eqb id' id then m else b_one b k' id'; b_txns := b_txns b |}.
(** WHERE transaction_id = $2 OR parent_transaction = $2. *)
Definition concerns (id : string) (t : trow) : bool := String.eqb (t_id t) id || String.eqb (t_parent t) id.
(** database/metadata.go:54-58: what is not an object counts as an empty one; jsonb || jsonb of two objects. *)
Definition concat (old : json) (m : fields) : json :=
  JObj (merge (match old with JObj l => l | _ => [] end) m).
Definition merge_all (id : string) (m : fields) (b : tables) : tables :=
  {| b_one := b_one b;
     b_txns := map (fun t => if concerns id t then {| t_id := t_id t; t_parent := t_parent t; t_meta := concat (t_meta t) m |} else t) (b_txns b) |}.

(** * The request *)

Inductive answer := MErr | MMissing | MOk (m : fields).
Inductive seen := Failed | Absent | Got (m : json).
Inductive prog :=
| Done (a : answer)
| Load (k : kind) (id : string) (c : seen -> prog)
| Store (k : kind) (id : string) (m : json) (c : bool -> prog)
| Exists (id : string) (c : option bool -> prog)
| MergeAll (id : string) (m : fields) (c : bool -> prog).

(** metadata.go:54-187 (UpdateMetadata), database/metadata.go:17-107,
    database/transaction_queue.go:87-105. [m]: what the handler has read, api/metadata.go:27-51: an object, not null.
    Simplified: the search index is left out; an entity whose metadata cannot be read is not found. *)
Definition update (id : string) (m : fields) : prog :=
  match target_of id with
  | None => Done MErr
  | Some TTransactions =>
    Exists id (fun x => match x with
                        | None => Done MErr
                        | Some false => Done MMissing
                        | Some true => MergeAll id m (fun ok => Done (if ok then MOk m else MErr))
                        end)
  | Some (TOne k) =>
    Load k id (fun x => match x with
                        | Got (JObj old) => let new := merge old m in Store k id (JObj new) (fun ok => Done (if ok then MOk new else MErr))
                        | Got JNull => let new := merge [] m in Store k id (JObj new) (fun ok => Done (if ok then MOk new else MErr))
                        | _ => Done MMissing
                        end)
  end.

(** * The system *)

(** What becomes of a call: done; not done and an error; done, but an error is reported. *)
Inductive outcome := Fine | Lost | Unsure.
Definition took (o : outcome) : bool := match o with Lost => false | _ => true end.
Definition told (o : outcome) : bool := match o with Fine => true | _ => false end.

Definition call (o : outcome) (p : prog) (b : tables) : tables * prog :=
  match p with
  | Done a => (b, Done a)
  | Load k id c => (b, c (match o with Fine => match b_one b k id with Some m => Got m | None => Absent end | _ => Failed end))
  | Store k id m c =>    (* an update of no row is no error *)
    (match b_one b k id with Some _ => if took o then set_one k id (Some m) b else b | None => b end, c (told o))
  | Exists id c => (b, c (match o with Fine => Some (existsb (concerns id) (b_txns b)) | _ => None end))
  | MergeAll id m c => (if took o then merge_all id m b else b, c (told o))
  end.

(** What other requests write, each in one statement: database/ledger.go:37-77, balance.go (CreateBalance), identity.go:53-101
    (created with metadata, or with null), identity.go:211-301 (a PUT that gives metadata), identity.go:311-337 (deleted),
    transaction.go:52-160 (recorded). *)
Inductive write :=
| WCreate (k : kind) (id : string) (m : option fields)
| WReplace (id : string) (m : fields)
| WRemove (id : string)
| WRecord (id parent : string) (m : option fields).
Definition column (m : option fields) : json := match m with Some l => JObj l | None => JNull end.
Definition do_write (w : write) (b : tables) : tables :=
  match w with
  | WCreate k id m => match b_one b k id with Some _ => b | None => set_one k id (Some (column m)) b end
  | WReplace id m => match b_one b KIdentity id with Some _ => set_one KIdentity id (Some (JObj m)) b | None => b end
  | WRemove id => set_one KIdentity id None b
  | WRecord id parent m =>
    if existsb (fun t => String.eqb (t_id t) id) (b_txns b) then b
    else {| b_one := b_one b; b_txns := b_txns b ++ [{| t_id := id; t_parent := parent; t_meta := column m |}] |}
  end.

Record job := { j_id : string; j_sent : fields; j_prog : prog }.
Record system := { y_tables : tables; y_jobs : list job }.
Definition nothing : system := {| y_tables := {| b_one := fun _ _ => None; b_txns := [] |}; y_jobs := [] |}.

Inductive event := EStart (id : string) (m : fields) | EStep (i : nat) (o : outcome) | EWrite (w : write).
Fixpoint set_nth {A} (i : nat) (x : A) (l : list A) : list A :=
  match l, i with [], _ => [] | _ :: r, 0 => x :: r | y :: r, S i => y :: set_nth i x r end.

Definition happen (e : event) (y : system) : system :=
  match e with
  | EStart id m => {| y_tables := y_tables y; y_jobs := y_jobs y ++ [{| j_id := id; j_sent := m; j_prog := update id m |}] |}
  | EWrite w => {| y_tables := do_write w (y_tables y); y_jobs := y_jobs y |}
  | EStep i o =>
    match nth_error (y_jobs y) i with
    | None => y
    | Some j => let (b, p) := call o (j_prog j) (y_tables y) in
                {| y_tables := b; y_jobs := set_nth i {| j_id := j_id j; j_sent := j_sent j; j_prog := p |} (y_jobs y) |}
    end
  end.
Fixpoint play (es : list event) (y : system) : system := match es with [] => y | e :: r => play r (happen e y) end.
