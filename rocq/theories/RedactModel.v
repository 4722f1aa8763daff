(** Log entries on their way to remote monitoring: what is taken out of them, and the queue they wait in. *)
From Coq Require Import List String Ascii Bool Arith.
Import ListNotations.
Local Open Scope string_scope.
Local Open Scope nat_scope.
Local Open Scope list_scope.

(** ** Texts *)

(** Go strings are bytes. Simplified: the classes below are over ASCII, bytes above 127 are in none of them, as
    for the code points they belong to (RE2 \s, \b and the ranges are ASCII; b, e, a and r fold to no other letter). *)
Definition bytes := list ascii.
Definition b (s : string) : bytes := list_ascii_of_string s.
Definition among (lo hi : nat) (c : ascii) : bool := (lo <=? nat_of_ascii c) && (nat_of_ascii c <=? hi).
Definition alnum (c : ascii) : bool := among 48 57 c || among 65 90 c || among 97 122 c.
Definition one_of (s : string) (c : ascii) : bool := existsb (Ascii.eqb c) (b s).
(** \s *)
Definition space (c : ascii) : bool := existsb (Nat.eqb (nat_of_ascii c)) [9; 10; 12; 13; 32].
(** the word characters of \b *)
Definition word (c : ascii) : bool := alnum c || Ascii.eqb c "_".
(** [A-Za-z0-9._~+/=-] *)
Definition token (c : ascii) : bool := alnum c || one_of "._~+/=-" c.
Definition low (c : ascii) : ascii := if among 65 90 c then ascii_of_nat (nat_of_ascii c + 32) else c.

Fixpoint span (f : ascii -> bool) (s : bytes) : bytes * bytes :=
  match s with [] => ([], []) | c :: r => if f c then let (x, y) := span f r in (c :: x, y) else ([], s) end.
Fixpoint starts (p s : bytes) : bool :=
  match p, s with [], _ => true | _, [] => false | x :: p, y :: s => Ascii.eqb x y && starts p s end.
Fixpoint has (p s : bytes) : bool := starts p s || match s with [] => false | _ :: r => has p r end.

(** Regexp.ReplaceAll: [len] is the length of the match that starts here, 0 if there is none, given whether the
    character before is a word character; the leftmost match is taken. None of the expressions below matches the
    empty text, and each has one way to match only, as the classes that follow each other are disjoint. *)
Fixpoint replace (len : bool -> bytes -> nat) (by_ : bytes -> bytes) (skip : nat) (prev : bool) (s : bytes) : bytes :=
  match s with
  | [] => []
  | c :: r =>
    match skip with
    | S k => replace len by_ k (word c) r
    | O => match len prev s with
           | O => c :: replace len by_ O (word c) r
           | S k => by_ (firstn (S k) s) ++ replace len by_ k (word c) r
           end
    end
  end.

(** internal/monitoringexporter/redact.go:13. *)
Definition redacted : bytes := b "[REDACTED]".
(** bearerPattern, redact.go:35: (?i)\bBearer\s+[A-Za-z0-9._~+/=-]+ *)
Definition bearer_len (prev : bool) (s : bytes) : nat :=
  if prev then 0
  else if starts (b "bearer") (map low s) then
    let (w, r) := span space (skipn 6 s) in
    let (t, _) := span token r in
    match w, t with [], _ | _, [] => 0 | _, _ => 6 + List.length w + List.length t end
  else 0.
(** absoluteURLPattern, 33: http:// or https://, then one or more characters but spaces, quotes and angle brackets. *)
Definition in_url (c : ascii) : bool := negb (space c || Ascii.eqb c """" || one_of "'<>" c).
Definition url_len (prev : bool) (s : bytes) : nat :=
  let n := if starts (b "http://") s then 7 else if starts (b "https://") s then 8 else 0 in
  if n =? 0 then 0 else match fst (span in_url (skipn n s)) with [] => 0 | x => n + List.length x end.
(** queryValuePattern, 34: the name is [?&][^=\s&]+, the value [^&\s]+ *)
Definition in_name (c : ascii) : bool := negb (Ascii.eqb c "=" || space c || Ascii.eqb c "&").
Definition in_value (c : ascii) : bool := negb (Ascii.eqb c "&" || space c).
Definition query_parts (s : bytes) : option (bytes * bytes) :=
  match s with
  | c :: r =>
    if one_of "?&" c then
      match span in_name r with
      | (x :: n, e :: v) => if Ascii.eqb e "=" then match fst (span in_value v) with [] => None | v => Some (c :: x :: n, v) end else None
      | _ => None
      end
    else None
  | [] => None
  end.
Definition query_len (prev : bool) (s : bytes) : nat :=
  match query_parts s with Some (n, v) => List.length n + 1 + List.length v | None => 0 end.
Definition query_by (m : bytes) : bytes := match query_parts m with Some (n, _) => n ++ redacted | None => m end.

(** RedactString, 103-111. The net/url package is behind redactURL, 113-129: any function. *)
Definition redact_string (u : bytes -> bytes) (s : bytes) : bytes :=
  let s := replace bearer_len (fun _ => b "Bearer " ++ redacted) 0 false s in
  let s := replace url_len u 0 false s in
  let s := replace query_len query_by 0 false s in
  if List.length s <=? 512 then s else firstn 512 s ++ b "...[truncated]".

(** ** Fields *)

(** sensitiveKeyParts, 15-30. *)
Definition parts : list string :=
  ["authorization"; "token"; "secret"; "password"; "api_key"; "apikey"; "credential"; "dsn"; "url"; "uri"; "endpoint"; "callback"; "metadata"; "webhook"].
(** strings.TrimSpace; over ASCII it also trims \v. *)
Definition blank (c : ascii) : bool := space c || (nat_of_ascii c =? 11).
Fixpoint trim_left (s : bytes) : bytes := match s with c :: r => if blank c then trim_left r else s | [] => [] end.
Definition trim (s : bytes) : bytes := rev (trim_left (rev (trim_left s))).
(** IsSensitiveKey, 131-139. Simplified: keys are ASCII. *)
Definition norm (c : ascii) : ascii := low (if Ascii.eqb c "-" then "_"%char else c).
Definition sensitive (k : bytes) : bool := let n := map norm (trim k) in existsb (fun p => has (b p) n) parts.

(** A value of a field. VText: an error, a text or a Stringer, given by its text; VMap and VList: whatever maps with
    keys of kind string and slices and arrays there are, by type or by reflection; VOther: everything else, such as numbers,
    structs and pointers to them, and maps with other keys. A map is given by its entries. *)
Inductive value := VNil | VText (s : bytes) | VMap (l : list (bytes * value)) | VList (l : list value) | VOther (what : bytes).
(** RedactValue, 54-101, and redactReflectValue, 141-167. *)
Fixpoint redact_value (u : bytes -> bytes) (v : value) : value :=
  match v with
  | VNil => VNil
  | VText s => VText (redact_string u s)
  | VMap l => VMap (map (fun x => (fst x, if sensitive (fst x) then VText redacted else redact_value u (snd x))) l)
  | VList l => VList (map (redact_value u) l)
  | VOther w => VOther w
  end.
(** RedactFields, 38-52. *)
Definition redact_fields (u : bytes -> bytes) (l : list (bytes * value)) : list (bytes * value) :=
  map (fun x => (fst x, if sensitive (fst x) then VText redacted else redact_value u (snd x))) l.
(** An entry and its payload, logs.go:66-79; time, level and trace ids are left out. *)
Record entry := { e_message : bytes; e_fields : list (bytes * value) }.
Definition payload_of (u : bytes -> bytes) (e : entry) : entry := {| e_message := redact_string u (e_message e); e_fields := redact_fields u (e_fields e) |}.

(** ** The queue *)

(** logQueueSize, logs.go:16. *)
Definition size : nat := 1024.
(** w_closed is the flag, w_shut the state of the channel; w_passed: calls of Fire that have looked at the flag and have yet
    to send; w_sent: what the worker has taken off the channel; w_dead: a send on a closed channel has ended the process. *)
Record world := { w_closed : bool; w_shut : bool; w_passed : list entry; w_queue : list entry; w_sent : list entry;
  w_dropped : list entry; w_late : list entry; w_dead : bool }.
Definition start : world := {| w_closed := false; w_shut := false; w_passed := []; w_queue := []; w_sent := []; w_dropped := []; w_late := []; w_dead := false |}.
Inductive event := ECall (e : entry) | EPut (i : nat) | EClose | EShut | ETake.
Definition remove_at {A} (i : nat) (l : list A) : list A := firstn i l ++ skipn (S i) l.
(** Fire, logs.go:61-86: ECall up to the flag, EPut the send; Shutdown, 88-92: EClose, EShut; run, 108-113: ETake. Whether
    the request then succeeds is not known to anyone (115-138). *)
Definition step (u : bytes -> bytes) (ev : event) (w : world) : world :=
  if w_dead w then w else
  match ev with
  | ECall e =>
    if w_closed w then {| w_closed := w_closed w; w_shut := w_shut w; w_passed := w_passed w; w_queue := w_queue w; w_sent := w_sent w;
                          w_dropped := w_dropped w; w_late := w_late w ++ [e]; w_dead := false |}
    else {| w_closed := w_closed w; w_shut := w_shut w; w_passed := w_passed w ++ [e]; w_queue := w_queue w; w_sent := w_sent w;
            w_dropped := w_dropped w; w_late := w_late w; w_dead := false |}
  | EPut i =>
    match nth_error (w_passed w) i with
    | None => w
    | Some e =>
      if w_shut w then {| w_closed := w_closed w; w_shut := w_shut w; w_passed := w_passed w; w_queue := w_queue w; w_sent := w_sent w;
                          w_dropped := w_dropped w; w_late := w_late w; w_dead := true |}
      else if List.length (w_queue w) <? size
      then {| w_closed := w_closed w; w_shut := w_shut w; w_passed := remove_at i (w_passed w); w_queue := w_queue w ++ [payload_of u e]; w_sent := w_sent w;
              w_dropped := w_dropped w; w_late := w_late w; w_dead := false |}
      else {| w_closed := w_closed w; w_shut := w_shut w; w_passed := remove_at i (w_passed w); w_queue := w_queue w; w_sent := w_sent w;
              w_dropped := w_dropped w ++ [e]; w_late := w_late w; w_dead := false |}
    end
  | EClose => {| w_closed := true; w_shut := w_shut w; w_passed := w_passed w; w_queue := w_queue w; w_sent := w_sent w;
                 w_dropped := w_dropped w; w_late := w_late w; w_dead := false |}
  | EShut => {| w_closed := w_closed w; w_shut := w_closed w; w_passed := w_passed w; w_queue := w_queue w; w_sent := w_sent w;
                w_dropped := w_dropped w; w_late := w_late w; w_dead := false |}
  | ETake => match w_queue w with
             | [] => w
             | e :: q => {| w_closed := w_closed w; w_shut := w_shut w; w_passed := w_passed w; w_queue := q; w_sent := w_sent w ++ [e];
                            w_dropped := w_dropped w; w_late := w_late w; w_dead := false |}
             end
  end.
Definition play (u : bytes -> bytes) (es : list event) (w : world) : world := fold_left (fun w e => step u e w) es w.
