(** What an upload of external transactions is supposed to do. *)
From Coq Require Import QArith ZArith List String Bool Arith.
From Verif Require Import QueueModel UploadModel.
Import ListNotations.
Local Open Scope string_scope.
Local Open Scope nat_scope.
Local Open Scope list_scope.

(** In the one column headed [name], up to case and surrounding blanks, the row has [v],
    which is not blank. *)
Definition says (hs rec : list string) (name v : string) : Prop :=
  v <> "" /\ exists k h f, nth_error hs k = Some h /\ normal h = name
    /\ (forall k' h', nth_error hs k' = Some h' -> normal h' = name -> k' = k)
    /\ nth_error rec k = Some f /\ trim f = v.

(** The external transaction [x] is what the row says; amount and date as far as they can be
    read. *)
Definition stands_for (c : pool) (rec : list string) (x : ext) : Prop :=
  says (p_header c) rec "id" (x_id x) /\ says (p_header c) rec "currency" (x_cur x)
  /\ says (p_header c) rec "reference" (x_ref x) /\ says (p_header c) rec "description" (x_desc x)
  /\ x_source x = p_source c
  /\ (exists a, says (p_header c) rec "amount" a /\ forall q, read_number (p_readers c) a = Some q -> x_amount x = q)
  /\ (exists d, says (p_header c) rec "date" d /\ forall t, read_time (p_readers c) d = Some t -> x_date x = t).

(** What is stored under the upload's id. *)
Definition stored (id : string) (t : table) : list ext := map snd (filter (fun r => String.eqb (fst r) id) t).

(** The request runs to its end: its client waits, its time does not run out. *)
Definition uncut (es : list uevent) : Prop := ~ In CutOff es.

(** A line that cannot be stored as it is: not CSV, too many or too few fields, a value
    missing, or a header with two columns of one name. *)
Definition faulty (c : pool) (l : line) : bool :=
  match read_line (p_header c) l with
  | None => true
  | Some rec => match parse c rec with None => true | Some _ => false end
  end.
Definition faults (c : pool) (ls : list line) : nat := List.length (filter (faulty c) ls).

(** The steps of the upload itself. *)
Definition own (e : uevent) : bool := match e with CutOff | Other _ _ => false | _ => true end.

(** The same external transaction, from [source]. *)
Definition as_from (source : string) (x : ext) : ext :=
  {| x_id := x_id x; x_amount := x_amount x; x_cur := x_cur x; x_ref := x_ref x; x_desc := x_desc x; x_date := x_date x; x_source := source |}.

(** A line that can be stored: it has as many fields as the header, the names of whose columns
    are different, and a value in each of these columns. *)
Definition sound_line (c : pool) (l : line) : Prop :=
  exists rec, l = Fields rec /\ List.length rec = List.length (p_header c) /\ NoDup (map normal (p_header c))
    /\ forall name, In name ["id"; "amount"; "currency"; "reference"; "description"; "date"] -> exists v, says (p_header c) rec name v.

(** The ids of the rows of the file, and of the rows other uploads store meanwhile. *)
Definition row_of (c : pool) (l : line) : option ext := match read_line (p_header c) l with None => None | Some rec => parse c rec end.
Definition file_ids (c : pool) (ls : list line) : list string := flat_map (fun l => match row_of c l with Some x => [x_id x] | None => [] end) ls.
Definition other_ids (es : list uevent) : list string := flat_map (fun e => match e with Other _ x => [x_id x] | _ => [] end) es.
