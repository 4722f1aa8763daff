(** Uploads of external transactions: reading the file, the worker pool of CSV uploads, its
    channels, and the stream of JSON uploads. *)
From Coq Require Import QArith ZArith List String Bool Arith.
From Verif Require Import Base ReconModel QueueModel.
Import ListNotations.
Local Open Scope string_scope.
Local Open Scope nat_scope.
Local Open Scope list_scope.

(** ** Rows *)

(** ExternalTransaction, model/reconciliation_model.go. Simplified: the amount is an exact
    rational instead of a float64, the date a number of nanoseconds. *)
Record ext := { x_id : string; x_amount : Q; x_cur : string; x_ref : string; x_desc : string; x_date : Z; x_source : string }.

(** strconv.ParseFloat and time.Parse(time.RFC3339, _), internal/files/files.go:499-515:
    any functions that may fail. *)
Record readers := { read_number : string -> option Q; read_time : string -> option Z }.

(** parseFloat, internal/files/files.go:499-505. *)
Definition parse_float (p : readers) (s : string) : Q := match read_number p s with Some q => q | None => 0 end.
(** The zero time.Time: the year 1, in nanoseconds since 1970. *)
Definition zero_time : Z := (-62135596800000000000)%Z.
(** parseTime, internal/files/files.go:507-515. *)
Definition parse_time (p : readers) (s : string) : Z := match read_time p s with Some t => t | None => zero_time end.

(** strings.ToLower(strings.TrimSpace(header)), internal/files/files.go:370-371 (ASCII). *)
Definition normal (h : string) : string := lower (trim h).

(** createColumnMap, internal/files/files.go:365-383: the position of the last header of that
    name. *)
Fixpoint position (hs : list string) (name : string) : option nat :=
  match hs with
  | [] => None
  | h :: r => match position r name with
              | Some i => Some (S i)
              | None => if String.eqb (normal h) name then Some 0 else None
              end
  end.
(** The number of entries of that map. *)
Definition columns (hs : list string) : nat := List.length (nodup string_dec (map normal hs)).
(** Its check for required columns, internal/files/files.go:374-380. *)
Definition header_ok (hs : list string) : bool :=
  forallb (fun c => match position hs c with Some _ => true | None => false end) ["id"; "amount"; "date"].

(** getRequiredField, internal/files/files.go:435-444. *)
Definition required (hs rec : list string) (name : string) : option string :=
  match position hs name with
  | None => None
  | Some i => match nth_error rec i with
              | None => None
              | Some v => if String.eqb (trim v) "" then None else Some (trim v)
              end
  end.

(** parseExternalTransaction, internal/files/files.go:385-433. *)
Definition parse_row (p : readers) (hs : list string) (source : string) (rec : list string) : option ext :=
  if negb (List.length rec =? columns hs) then None else
  match required hs rec "id", required hs rec "amount", required hs rec "currency", required hs rec "reference",
        required hs rec "description", required hs rec "date" with
  | Some i, Some a, Some c, Some r, Some d, Some t =>
    Some {| x_id := i; x_amount := parse_float p a; x_cur := c; x_ref := r; x_desc := d; x_date := parse_time p t; x_source := source |}
  | _, _, _, _, _, _ => None
  end.

(** A line of the file as encoding/csv sees it: split into fields, or not CSV (a stray
    quote). The splitting of bytes into lines and fields is not modelled. *)
Inductive line := Fields (fs : list string) | Broken.

(** csv.Reader.Read with FieldsPerRecord = 0: a record must have as many fields as the first
    one, the header, internal/files/files.go:218-222. *)
Definition read_line (hs : list string) (l : line) : option (list string) :=
  match l with Fields fs => if List.length fs =? List.length hs then Some fs else None | Broken => None end.

(** ** The worker pool *)

(** What the pool works with: DefaultWorkerCount at most as many workers as there are
    processors, DefaultChannelSize, DefaultBatchSize, ContextCheckInterval,
    internal/files/files.go:45-51, 240-247; the request. *)
Record pool := { p_workers : nat; p_room : nat; p_batch : nat; p_check : nat;
                 p_readers : readers; p_header : list string; p_source : string; p_id : string }.
Definition parse (c : pool) (rec : list string) : option ext := parse_row (p_readers c) (p_header c) (p_source c) rec.

(** The goroutine that reads the file, internal/files/files.go:258-285. *)
Inductive reader :=
| RRead                          (* at csvReader.Read() *)
| RErr                           (* at errChan <- error *)
| RRow (rec : list string)       (* at the select *)
| REnd.                          (* returned; rowChan is closed *)

(** processWorker, internal/files/files.go:305-354. [n] is processCount. *)
Inductive worker :=
| WIdle (n : nat) (b : list ext)                      (* at range rowChan, batch b *)
| WGot (n : nat) (b : list ext) (rec : list string)   (* has received a row *)
| WFail (n : nat) (b : list ext)                      (* at errChan <- err in the loop, for a row *)
| WFailBatch (n : nat)                                (* at errChan <- err in the loop, for a batch *)
| WStore (n : nat) (b rest : list ext)                (* in storeBatch within the loop, rest still to store *)
| WLast (b rest : list ext)                           (* in storeBatch after the loop *)
| WFailLast                                           (* at errChan <- err after the loop *)
| WDone.

(** The tables' rows: upload id and external transaction. *)
Definition table := list (string * ext).

Record upl := { u_lines : list line; u_reader : reader;
                u_rows : list (list string); u_open : bool;      (* rowChan: buffered rows, not closed *)
                u_errs : nat; u_shut : bool;                      (* errChan: buffered errors, closed *)
                u_workers : list worker; u_total : nat;
                u_table : table;                                  (* external_transactions *)
                u_off : bool;                                     (* the request's context is done *)
                u_missed : nat;                                   (* rows the database refused so far *)
                u_crashed : bool;                                 (* a send on a closed channel *)
                u_answer : option (option nat) }.                 (* None: error; Some n: 200 and record_count *)

Definition id_taken (i : string) (t : table) : bool := existsb (fun r => String.eqb (x_id (snd r)) i) t.

(** RecordExternalTransaction, database/reconciliation.go:349-364, with the primary key on id
    (sql/1721922047.sql:49-50); [fine]: the database answers. A statement under a context that
    is done is refused. *)
Definition store (c : pool) (fine : bool) (x : ext) (s : upl) : option table :=
  if fine && negb (u_off s) && negb (id_taken (x_id x) (u_table s)) then Some ((p_id c, x) :: u_table s) else None.

Definition with_reader (s : upl) (ls : list line) (r : reader) (rows : list (list string)) (open : bool) (errs : nat) : upl :=
  {| u_lines := ls; u_reader := r; u_rows := rows; u_open := open; u_errs := errs; u_shut := u_shut s; u_workers := u_workers s;
     u_total := u_total s; u_table := u_table s; u_off := u_off s; u_missed := u_missed s; u_crashed := u_crashed s; u_answer := u_answer s |}.
Definition crash (s : upl) : upl :=
  {| u_lines := u_lines s; u_reader := u_reader s; u_rows := u_rows s; u_open := u_open s; u_errs := u_errs s; u_shut := u_shut s;
     u_workers := u_workers s; u_total := u_total s; u_table := u_table s; u_off := u_off s; u_missed := u_missed s; u_crashed := true; u_answer := u_answer s |}.
Fixpoint put (i : nat) (w : worker) (ws : list worker) : list worker :=
  match ws, i with [], _ => [] | _ :: r, 0 => w :: r | x :: r, S j => x :: put j w r end.
(** Worker [i] goes on as [w]. *)
Definition with_worker (s : upl) (i : nat) (w : worker) (rows : list (list string)) (errs total missed : nat) (t : table) : upl :=
  {| u_lines := u_lines s; u_reader := u_reader s; u_rows := rows; u_open := u_open s; u_errs := errs; u_shut := u_shut s;
     u_workers := put i w (u_workers s); u_total := total; u_table := t; u_off := u_off s; u_missed := missed;
     u_crashed := u_crashed s; u_answer := u_answer s |}.

(** The reading goroutine's next step, internal/files/files.go:258-285; none while it has to
    wait. errChan has room for as many errors as there are workers (246). *)
Definition reader_step (c : pool) (s : upl) : option upl :=
  match u_reader s with
  | REnd => None
  | RRead =>
    match u_lines s with
    | [] => Some (with_reader s [] REnd (u_rows s) false (u_errs s))
    | l :: r => match read_line (p_header c) l with
                | None => Some (with_reader s r RErr (u_rows s) (u_open s) (u_errs s))
                | Some rec => Some (with_reader s r (RRow rec) (u_rows s) (u_open s) (u_errs s))
                end
    end
  | RErr => if u_shut s then Some (crash s)
            else if u_errs s <? p_workers c then Some (with_reader s (u_lines s) RRead (u_rows s) (u_open s) (S (u_errs s)))
            else None
  | RRow rec => if List.length (u_rows s) <? p_room c
                then Some (with_reader s (u_lines s) RRead (u_rows s ++ [rec]) (u_open s) (u_errs s))
                else None
  end.
(** The other case of its select, internal/files/files.go:276-279. *)
Definition reader_quit (s : upl) : option upl :=
  match u_reader s with
  | RRow _ => if u_off s then Some (with_reader s (u_lines s) REnd (u_rows s) false (u_errs s)) else None
  | _ => None
  end.

(** processCount++ and the check of the context, internal/files/files.go:334-342. *)
Definition counted (c : pool) (s : upl) (n : nat) (b : list ext) : worker :=
  if (S n mod p_check c =? 0) && u_off s then WDone else WIdle (S n) b.

(** Worker [i]'s next step, internal/files/files.go:305-363; none while it has to wait. A send
    on errChan cannot find it closed: it is closed when every worker has returned. *)
Definition worker_step (c : pool) (i : nat) (fine : bool) (s : upl) : option upl :=
  let go w rows errs total missed t := Some (with_worker s i w rows errs total missed t) in
  let stay w := go w (u_rows s) (u_errs s) (u_total s) (u_missed s) (u_table s) in
  match nth_error (u_workers s) i with
  | None | Some WDone => None
  | Some (WIdle n b) =>
    match u_rows s with
    | rec :: r => go (WGot n b rec) r (u_errs s) (u_total s) (u_missed s) (u_table s)
    | [] => if u_open s then None else stay (match b with [] => WDone | _ => WLast b b end)
    end
  | Some (WGot n b rec) =>
    if u_off s then stay WDone else
    match parse c rec with
    | None => stay (WFail n b)
    | Some x => let b' := b ++ [x] in
                if p_batch c <=? List.length b' then stay (WStore n b' b') else stay (counted c s n b')
    end
  | Some (WFail n b) => if u_errs s <? p_workers c then go (WIdle n b) (u_rows s) (S (u_errs s)) (u_total s) (u_missed s) (u_table s) else None
  | Some (WFailBatch n) => if u_errs s <? p_workers c then go (counted c s n []) (u_rows s) (S (u_errs s)) (u_total s) (u_missed s) (u_table s) else None
  | Some (WStore n b rest) =>
    match rest with
    | [] => go (counted c s n []) (u_rows s) (u_errs s) (u_total s + List.length b) (u_missed s) (u_table s)
    | x :: r => match store c fine x s with
                | Some t => go (WStore n b r) (u_rows s) (u_errs s) (u_total s) (u_missed s) t
                | None => go (WFailBatch n) (u_rows s) (u_errs s) (u_total s) (S (u_missed s)) (u_table s)
                end
    end
  | Some (WLast b rest) =>
    match rest with
    | [] => go WDone (u_rows s) (u_errs s) (u_total s + List.length b) (u_missed s) (u_table s)
    | x :: r => match store c fine x s with
                | Some t => go (WLast b r) (u_rows s) (u_errs s) (u_total s) (u_missed s) t
                | None => go WFailLast (u_rows s) (u_errs s) (u_total s) (S (u_missed s)) (u_table s)
                end
    end
  | Some WFailLast => if u_errs s <? p_workers c then go WDone (u_rows s) (S (u_errs s)) (u_total s) (u_missed s) (u_table s) else None
  end.

Definition is_done (w : worker) : bool := match w with WDone => true | _ => false end.
(** wg.Wait, close(errChan) and the answer, internal/files/files.go:287-302. *)
Definition main_step (s : upl) : option upl :=
  match u_answer s with
  | Some _ => None
  | None => if forallb is_done (u_workers s) then
      Some {| u_lines := u_lines s; u_reader := u_reader s; u_rows := u_rows s; u_open := u_open s; u_errs := u_errs s; u_shut := true;
              u_workers := u_workers s; u_total := u_total s; u_table := u_table s; u_off := u_off s; u_missed := u_missed s;
              u_crashed := u_crashed s; u_answer := Some (if u_errs s =? 0 then Some (u_total s) else None) |}
    else None
  end.

(** What can happen: a goroutine moves, the context is done (the client has gone, or an upload
    by URL has used up its time: api/reconciliation_api.go:63, 164-165, 212), another upload
    stores a row. *)
Inductive uevent := Reader | Quit | Worker (i : nat) (fine : bool) | Main | CutOff | Other (u : string) (x : ext).
Definition ustep (c : pool) (e : uevent) (s : upl) : option upl :=
  if u_crashed s then None else
  match e with
  | Reader => reader_step c s
  | Quit => reader_quit s
  | Worker i fine => worker_step c i fine s
  | Main => main_step s
  | CutOff => Some {| u_lines := u_lines s; u_reader := u_reader s; u_rows := u_rows s; u_open := u_open s; u_errs := u_errs s; u_shut := u_shut s;
                      u_workers := u_workers s; u_total := u_total s; u_table := u_table s; u_off := true; u_missed := u_missed s;
                      u_crashed := u_crashed s; u_answer := u_answer s |}
  | Other u x => if String.eqb u (p_id c) || id_taken (x_id x) (u_table s) then None
                 else Some {| u_lines := u_lines s; u_reader := u_reader s; u_rows := u_rows s; u_open := u_open s; u_errs := u_errs s; u_shut := u_shut s;
                              u_workers := u_workers s; u_total := u_total s; u_table := (u, x) :: u_table s; u_off := u_off s; u_missed := u_missed s;
                              u_crashed := u_crashed s; u_answer := u_answer s |}
  end.
Fixpoint uruns (c : pool) (es : list uevent) (s : upl) : option upl :=
  match es with [] => Some s | e :: r => match ustep c e s with Some s' => uruns c r s' | None => None end end.

(** processCSVRowsParallel at its start, internal/files/files.go:240-256. *)
Definition ustart (c : pool) (t : table) (ls : list line) : upl :=
  {| u_lines := ls; u_reader := RRead; u_rows := []; u_open := true; u_errs := 0; u_shut := false;
     u_workers := repeat (WIdle 0 []) (p_workers c); u_total := 0; u_table := t; u_off := false; u_missed := 0;
     u_crashed := false; u_answer := None |}.

(** ProcessCSV, internal/files/files.go:214-237: nothing starts with a header that lacks a
    required column. [answered c t ls n s]: the upload of the file with lines [ls] has been
    answered with [n] and left [s]. *)
Definition answered (c : pool) (t : table) (ls : list line) (es : list uevent) (n : option nat) (s : upl) : Prop :=
  header_ok (p_header c) = true /\ uruns c es (ustart c t ls) = Some s /\ u_answer s = Some n.

(** ** JSON *)

(** A JSON upload as its decoder sees it, internal/files/files.go:450-497: whether it opens an
    array, the elements, of which some cannot be decoded, and how it ends: with the array
    closed, with nothing at all after an element, or with something else (which fails as an
    element). *)
Inductive ending := Closed | CutShort | Garbage.
Record jfile := { j_array : bool; j_items : list (option ext); j_end : ending }.

(** decoder.More answers false at the end of the input, and at any closing bracket,
    internal/files/files.go:467. [off]: whether the context is done at the check after each
    [k]-th row; [fine]: whether the database takes the row. *)
Fixpoint json_rows (id source : string) (k : nat) (off : nat -> bool) (fine : nat -> bool) (items : list (option ext)) (e : ending) (total : nat) (t : table)
  : option nat * table :=
  match items with
  | [] => (match e with Closed | CutShort => Some total | Garbage => None end, t)
  | None :: _ => (None, t)
  | Some x :: r =>
    let x := {| x_id := x_id x; x_amount := x_amount x; x_cur := x_cur x; x_ref := x_ref x; x_desc := x_desc x; x_date := x_date x; x_source := source |} in
    if fine total && negb (id_taken (x_id x) t) then
      let t := (id, x) :: t in
      if (S total mod k =? 0) && off (S total) then (None, t) else json_rows id source k off fine r e (S total) t
    else (None, t)
  end.
Definition json_upload (id source : string) (k : nat) (off fine : nat -> bool) (f : jfile) (t : table) : option nat * table :=
  if j_array f then json_rows id source k off fine (j_items f) (j_end f) 0 t else (None, t).
