(** The search index: the tasks that index what is written, and the rebuilding of the index
    from the database. *)
From Coq Require Import List String Bool Arith ZArith.
Import ListNotations.
Local Open Scope string_scope.
Local Open Scope nat_scope.
Local Open Scope list_scope.

(** The collections, internal/search/search.go:32-38; the same names for the tables they show. *)
Inductive coll := Ledgers | Identities | Balances | Transactions | Reconciliations.
Definition coll_eqb (a b : coll) : bool :=
  match a, b with
  | Ledgers, Ledgers | Identities, Identities | Balances, Balances | Transactions, Transactions
  | Reconciliations, Reconciliations => true
  | _, _ => false
  end.

(** A row of a table as its document shows it: the id, when it was created, the documents its
    document has to refer to (internal/search/search.go:560-561: of a balance the ledger and
    the identity, if any; 589-590: of a transaction source and destination), and all the rest
    as a text. How amounts are shown is in SearchAmount. *)
Record row := { r_id : string; r_created : Z; r_refs : list (coll * string); r_data : string }.

(** ** The index *)

(** Documents by id; no list: no such collection. *)
Definition docs := list (string * string).
Definition index := coll -> option docs.
Definition set {A : Type} (c : coll) (v : A) (f : coll -> A) : coll -> A := fun c' => if coll_eqb c' c then v else f c'.
Definition doc_of (id : string) (l : docs) : option string := option_map snd (find (fun x => String.eqb (fst x) id) l).
Definition look (ix : index) (c : coll) (id : string) : option string := match ix c with None => None | Some l => doc_of id l end.
Definition put (id d : string) (l : docs) : docs := (id, d) :: filter (fun x => negb (String.eqb (fst x) id)) l.

(** What the search server answers: it takes the write (if it can), it has no memory left
    (internal/search/errors.go:30-39), or it fails or cannot be reached. *)
Inductive reply := Fine | Full | Fails.

(** upsertDocument, internal/search/search.go:414-436, and what the search server does with it:
    a document goes into a collection there is, and its references must be there. *)
Definition has (ix : index) (r : coll * string) : bool := match look ix (fst r) (snd r) with Some _ => true | None => false end.
Definition upsert (c : coll) (id : string) (refs : list (coll * string)) (d : string) (ix : index) : option index :=
  match ix c with
  | None => None
  | Some l => if forallb (has ix) refs then Some (set c (Some (put id d l)) ix) else None
  end.
(** HandleNotification, internal/search/search.go:231-247. That every field is in shape is part
    of [Fine]. *)
Definition show (c : coll) (r : row) (ix : index) : option index := upsert c (r_id r) (r_refs r) (r_data r) ix.
(** ensureDefaultGeneralLedger, internal/search/search.go:190-199. *)
Definition general_id : string := "general_ledger_id".
Definition general_doc : string := "the general ledger, created now".
Definition show_general (ix : index) : option index := upsert Ledgers general_id [] general_doc ix.
(** CreateCollection, internal/search/search.go:203-212. *)
Definition create (c : coll) (ix : index) : index := match ix c with Some _ => ix | None => set c (Some []) ix end.
(** DropCollection, internal/search/reindex.go:510-519. *)
Definition drop (c : coll) (ix : index) : index := set c None ix.
(** EnsureCollectionsExist goes through a map, in any order, internal/search/search.go:176. *)
Definition every : list coll := [Ledgers; Identities; Balances; Transactions; Reconciliations].
Definition covers (l : list coll) : bool := forallb (fun c => existsb (coll_eqb c) l) every.

(** ** Pages of a table *)

(** ORDER BY created_at DESC: rows created at one time come in any order, [tie]. *)
Definition before (tie : string -> nat) (a b : row) : bool :=
  (r_created b <? r_created a)%Z || ((r_created a =? r_created b)%Z && (tie (r_id a) <=? tie (r_id b))).
Fixpoint insert (tie : string -> nat) (r : row) (l : list row) : list row :=
  match l with [] => [r] | x :: k => if before tie r x then r :: l else x :: insert tie r k end.
Definition sort (tie : string -> nat) (l : list row) : list row := fold_right (insert tie) [] l.
(** GetAllLedgers, database/ledger.go:85-95, and GetAllIdentitiesPaginated,
    database/identity.go:340-349, take no limit above 100; GetAllBalances,
    database/balance.go:644-649, and GetAllTransactions, database/transaction_queries.go:276-281,
    take any. *)
Definition limit (c : coll) (n : nat) : nat :=
  match c with Ledgers | Identities => if (n =? 0) || (100 <? n) then 20 else n | _ => n end.
Definition page (c : coll) (tie : string -> nat) (n off : nat) (t : list row) : list row :=
  firstn (limit c n) (skipn off (sort tie t)).

(** ** Rebuilding *)

(** The status, internal/search/reindex.go:36, 76. *)
Inductive status := Pending | InProgress | Completed | Failed.
(** Where StartReindex is, internal/search/reindex.go:119-172. *)
Inductive stage :=
| SStart                                                  (* 120 *)
| SDrop (cs : list coll)                                  (* 531: these are still to drop *)
| SCreate (done : list coll)                              (* search.go:176: these have been created *)
| SGeneral                                                (* search.go:182 *)
| SPage (c : coll) (off count : nat)                      (* 295, 348, 404, 460: about to read a page *)
| SDoc (c : coll) (off n count : nat) (rest : list row)   (* 305, 358, 414, 470: in a page of n rows *)
| SEnd.
(** ReindexProgress, internal/search/reindex.go:35-46, without phase, pauses and times. An error
    is noted with the kind and the id of what could not be indexed. *)
Record run := { u_batch : nat; u_stage : stage; u_status : status; u_processed : nat; u_total : nat; u_errors : list (coll * string) }.
Definition at_stage (u : run) (st : stage) : run :=
  {| u_batch := u_batch u; u_stage := st; u_status := u_status u; u_processed := u_processed u; u_total := u_total u; u_errors := u_errors u |}.
Definition over (u : run) (s : status) : run :=
  {| u_batch := u_batch u; u_stage := SEnd; u_status := s; u_processed := u_processed u; u_total := u_total u; u_errors := u_errors u |}.
Definition counted (u : run) (st : stage) (processed : nat) : run :=
  {| u_batch := u_batch u; u_stage := st; u_status := u_status u; u_processed := processed; u_total := processed; u_errors := u_errors u |}.
Definition noted (u : run) (st : stage) (c : coll) (id : string) : run :=
  {| u_batch := u_batch u; u_stage := st; u_status := u_status u; u_processed := u_processed u; u_total := u_total u;
     u_errors := u_errors u ++ [(c, id)] |}.

(** The order of the phases, internal/search/reindex.go:138-152. *)
Definition after (c : coll) : option coll :=
  match c with Ledgers => Some Identities | Identities => Some Balances | Balances => Some Transactions | _ => None end.
(** The count of what was indexed, after a batch: internal/search/reindex.go:322, and 376, 432, 488. *)
Definition add_up (c : coll) (processed count : nat) : nat := match c with Ledgers => count | _ => processed + count end.

(** One step. [o] is what the server that is asked answers, the database for [SPage], the
    search server otherwise; [pick] is the collection created next, [tie] the order of rows
    created at one time. *)
Definition step (o : reply) (pick : coll) (tie : string -> nat) (tab : coll -> list row) (u : run) (ix : index) : run * index :=
  match u_stage u with
  | SStart => ({| u_batch := u_batch u; u_stage := SDrop every; u_status := InProgress; u_processed := 0; u_total := 0; u_errors := [] |}, ix)
  | SDrop [] => (at_stage u (SCreate []), ix)
  | SDrop (c :: cs) => match o with Fine => (at_stage u (SDrop cs), drop c ix) | _ => (over u Failed, ix) end
  | SCreate done =>
    if covers done then (at_stage u SGeneral, ix)
    else match o with
         | Fine => (at_stage u (SCreate (pick :: done)), create pick ix)
         | Full => (at_stage u (SCreate []), ix)                               (* 224-240 *)
         | Fails => (over u Failed, ix)
         end
  | SGeneral =>
    match o with
    | Fine => match show_general ix with
              | Some ix' => (counted u (SPage Ledgers 0 0) 0, ix')             (* 287 *)
              | None => (over u Failed, ix)
              end
    | Full => (at_stage u (SCreate []), ix)
    | Fails => (over u Failed, ix)
    end
  | SPage c off count =>
    match o with
    | Fine => match page c tie (u_batch u) off (tab c) with
              | [] => match after c with
                      | Some c' => (at_stage u (SPage c' 0 0), ix)
                      | None => (over u Completed, ix)
                      end
              | l => (at_stage u (SDoc c off (List.length l) count l), ix)
              end
    | _ => (over u Failed, ix)
    end
  | SDoc c off n count [] => (counted u (SPage c (off + n) count) (add_up c (u_processed u) count), ix)
  | SDoc c off n count (r :: rest) =>
    match o with
    | Full => (u, ix)
    | Fails => (noted u (SDoc c off n count rest) c (r_id r), ix)
    | Fine => match show c r ix with
              | Some ix' => (at_stage u (SDoc c off n (S count) rest), ix')
              | None => (noted u (SDoc c off n count rest) c (r_id r), ix)
              end
    end
  | SEnd => (u, ix)
  end.

(** ** Tasks *)

(** A task of the index queue, queue.go:169-188 and 199-223: the items to show in their order,
    dependencies first. Where its worker is: cmd/workers.go:210-249 and 254-290. [k_left]: the
    failures it may still have. *)
Inductive wstage := WCreate (done : list coll) | WGeneral | WItems (rest : list (coll * row)).
Record task := { k_items : list (coll * row); k_at : wstage; k_left : nat }.
(** Deduplicate, internal/search/search.go:146-158: later dependencies of the same kind and id
    go; the item a task is about is none of its dependencies. *)
Definition same_item (a b : coll * row) : bool := coll_eqb (fst a) (fst b) && String.eqb (r_id (snd a)) (r_id (snd b)).
Fixpoint deduplicate (seen l : list (coll * row)) : list (coll * row) :=
  match l with [] => [] | x :: r => if existsb (same_item x) seen then deduplicate seen r else x :: deduplicate (x :: seen) r end.
(** A queue's task may fail 25 times: asynq's default. *)
Definition retries : nat := 25.
Definition at_work (t : task) (w : wstage) : task := {| k_items := k_items t; k_at := w; k_left := k_left t |}.
(** Without memory the task is tried again, which counts for nothing (cmd/workers.go:193-195). *)
Definition again (t : task) : task := at_work t (WCreate []).
Definition failed (t : task) : option task :=
  match k_left t with 0 => None | S m => Some {| k_items := k_items t; k_at := WCreate []; k_left := m |} end.
(** One step of its worker; no task: it is gone, done or given up. *)
Definition work (o : reply) (pick : coll) (t : task) (ix : index) : option task * index :=
  match k_at t with
  | WCreate done =>
    if covers done then (Some (at_work t WGeneral), ix)
    else match o with
         | Fine => (Some (at_work t (WCreate (pick :: done))), create pick ix)
         | Full => (Some (again t), ix)
         | Fails => (failed t, ix)
         end
  | WGeneral =>
    match o with
    | Fine => match show_general ix with Some ix' => (Some (at_work t (WItems (k_items t))), ix') | None => (failed t, ix) end
    | Full => (Some (again t), ix)
    | Fails => (failed t, ix)
    end
  | WItems [] => (None, ix)
  | WItems ((c, r) :: rest) =>
    match o with
    | Fine => match show c r ix with Some ix' => (Some (at_work t (WItems rest)), ix') | None => (failed t, ix) end
    | Full => (Some (again t), ix)
    | Fails => (failed t, ix)
    end
  end.

(** ** The world *)

(** [w_last] is the run the server's manager knows, api/reindex.go:34-39. *)
Record world := { w_tab : coll -> list row; w_ix : index; w_tasks : list task; w_runs : list run; w_last : option nat }.

(** [EInsert]: a row is stored under a new id. [EUpdate]: a row changes, keeping its id and when
    it was created. [EDelete]: an identity is deleted, database/identity.go:305-330; no other of
    these rows is ever. [ENote]: a task is queued that shows these rows as they are now, the
    last being the one it is about: after a creation (ledger.go:36, identity.go:36,
    balance.go:222, reconciliation.go:125), after a transaction with its balances
    (transaction_execution.go:229-243), after a change of metadata (metadata.go:79, 111, 138,
    165); an update or a deletion of an identity queues none (identity.go:127-140).
    [EWork k]: the worker of task k moves. [EBegin]: POST /search/reindex, api/reindex.go:50-96,
    which is refused while the last run is in progress. [EAuto]: the server starts,
    internal/search/reindex.go:599-620. [EStep i]: run i moves. [EStop i]: the time of run i,
    an automatic one, is up (609), or its process is gone. *)
Inductive event :=
| EInsert (c : coll) (r : row)
| EUpdate (c : coll) (id : string) (refs : list (coll * string)) (data : string)
| EDelete (id : string)
| ENote (items : list (coll * string))
| EWork (k : nat) (o : reply) (pick : coll)
| EBegin (batch : Z)
| EAuto
| EStep (i : nat) (o : reply) (pick : coll) (tie : string -> nat)
| EStop (i : nat).

Definition row_of (id : string) (l : list row) : option row := find (fun r => String.eqb (r_id r) id) l.
Definition items_of (w : world) (l : list (coll * string)) : list (coll * row) :=
  flat_map (fun x => match row_of (snd x) (w_tab w (fst x)) with Some r => [(fst x, r)] | None => [] end) l.
Fixpoint set_nth {A : Type} (i : nat) (x : A) (l : list A) : list A :=
  match l, i with [], _ => [] | _ :: r, 0 => x :: r | y :: r, S j => y :: set_nth j x r end.
Fixpoint del_nth {A : Type} (i : nat) (l : list A) : list A :=
  match l, i with [], _ => [] | _ :: r, 0 => r | y :: r, S j => y :: del_nth j r end.

Definition with_tab (w : world) (t : coll -> list row) : world :=
  {| w_tab := t; w_ix := w_ix w; w_tasks := w_tasks w; w_runs := w_runs w; w_last := w_last w |}.
Definition with_tasks (w : world) (l : list task) (ix : index) : world :=
  {| w_tab := w_tab w; w_ix := ix; w_tasks := l; w_runs := w_runs w; w_last := w_last w |}.
Definition with_runs (w : world) (l : list run) (ix : index) : world :=
  {| w_tab := w_tab w; w_ix := ix; w_tasks := w_tasks w; w_runs := l; w_last := w_last w |}.

(** NewReindexService, internal/search/reindex.go:64-79; api/reindex.go:56-58. *)
Definition fresh (batch : Z) : run :=
  {| u_batch := if (batch <=? 0)%Z then 1000 else Z.to_nat batch; u_stage := SStart; u_status := Pending; u_processed := 0; u_total := 0; u_errors := [] |}.
Definition in_progress (w : world) : bool :=
  match w_last w with
  | None => false
  | Some i => match nth_error (w_runs w) i with Some u => match u_status u with InProgress => true | _ => false end | None => false end
  end.
(** dbHasData, internal/search/reindex.go:541-575. *)
Definition has_data (w : world) : bool :=
  (1 <? List.length (w_tab w Ledgers)) || (0 <? List.length (w_tab w Transactions))
  || (0 <? List.length (w_tab w Balances)) || (0 <? List.length (w_tab w Identities)).
(** typesenseHasData, 577-587: without the collection it says yes. *)
Definition index_empty (w : world) : bool := match w_ix w Transactions with Some [] => true | _ => false end.

Definition change (refs : list (coll * string)) (data : string) (r : row) : row :=
  {| r_id := r_id r; r_created := r_created r; r_refs := refs; r_data := data |}.
Definition happen (e : event) (w : world) : world :=
  match e with
  | EInsert c r => match row_of (r_id r) (w_tab w c) with
                   | Some _ => w
                   | None => with_tab w (set c (r :: w_tab w c) (w_tab w))
                   end
  | EUpdate c id refs data =>
    with_tab w (set c (map (fun r => if String.eqb (r_id r) id then change refs data r else r) (w_tab w c)) (w_tab w))
  | EDelete id => with_tab w (set Identities (filter (fun r => negb (String.eqb (r_id r) id)) (w_tab w Identities)) (w_tab w))
  | ENote l => with_tasks w (w_tasks w ++ [{| k_items := deduplicate [] (items_of w l); k_at := WCreate []; k_left := retries |}]) (w_ix w)
  | EWork k o pick =>
    match nth_error (w_tasks w) k with
    | None => w
    | Some t => match work o pick t (w_ix w) with
                | (Some t', ix) => with_tasks w (set_nth k t' (w_tasks w)) ix
                | (None, ix) => with_tasks w (del_nth k (w_tasks w)) ix
                end
    end
  | EBegin n => if in_progress w then w
                else {| w_tab := w_tab w; w_ix := w_ix w; w_tasks := w_tasks w; w_runs := w_runs w ++ [fresh n]; w_last := Some (List.length (w_runs w)) |}
  | EAuto => if has_data w && index_empty w then with_runs w (w_runs w ++ [fresh 1000]) (w_ix w) else w
  | EStep i o pick tie =>
    match nth_error (w_runs w) i with
    | None => w
    | Some u => let (u', ix) := step o pick tie (w_tab w) u (w_ix w) in with_runs w (set_nth i u' (w_runs w)) ix
    end
  | EStop i => match nth_error (w_runs w) i with
               | None => w
               | Some u => match u_stage u with SEnd => w | _ => with_runs w (set_nth i (over u Failed) (w_runs w)) (w_ix w) end
               end
  end.
Definition play (es : list event) (w : world) : world := fold_left (fun w e => happen e w) es w.
