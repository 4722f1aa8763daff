(** What must not leave in a log entry, and what becomes of entries. *)
From Coq Require Import List String Ascii Bool Arith.
From Verif Require Import RedactModel.
Import ListNotations.
Local Open Scope string_scope.
Local Open Scope nat_scope.
Local Open Scope list_scope.

(** Kinds of characters, and small letters. *)
Definition between (lo hi : nat) (c : ascii) : bool := (lo <=? nat_of_ascii c) && (nat_of_ascii c <=? hi).
Definition letter (c : ascii) : bool := between 48 57 c || between 65 90 c || between 97 122 c.
Definition in_list (s : string) (c : ascii) : bool := existsb (Ascii.eqb c) (list_ascii_of_string s).
Definition spacing (c : ascii) : bool := existsb (Nat.eqb (nat_of_ascii c)) [9; 10; 12; 13; 32].
Definition wordly (c : ascii) : bool := letter c || Ascii.eqb c "_".
Definition of_token (c : ascii) : bool := letter c || in_list "._~+/=-" c.
Definition of_name (c : ascii) : bool := negb (Ascii.eqb c "=" || spacing c || Ascii.eqb c "&").
Definition of_value (c : ascii) : bool := negb (Ascii.eqb c "&" || spacing c).
Definition of_url (c : ascii) : bool := negb (spacing c || Ascii.eqb c """" || in_list "'<>" c).
Definition small (c : ascii) : ascii := if between 65 90 c then ascii_of_nat (nat_of_ascii c + 32) else c.

Definition without (p s : bytes) : Prop := forall x y, s <> x ++ p ++ y.
Definition opens_not (f : ascii -> bool) (s : bytes) : Prop := match s with [] => True | c :: _ => f c = false end.
Definition closes_not (f : ascii -> bool) (s : bytes) : Prop := exists x c, s = x ++ [c] /\ f c = false.
Definition all (f : ascii -> bool) (s : bytes) : Prop := s <> [] /\ Forall (fun c => f c = true) s.

(** Two texts that differ in tokens behind the word bearer only. Each such word stands at the very front or behind a
    character that is not part of a word, and between the end of one token and the next bearer no other stands. *)
Inductive same_but_tokens : bool -> bytes -> bytes -> Prop :=
| sbt_rest front x : front = true \/ opens_not of_token x -> same_but_tokens front x x
| sbt_token front pre w gap t t' x x' : without (b "bearer") (map small pre) ->
    (front = true /\ pre = []) \/ closes_not wordly pre -> front = true \/ opens_not of_token pre ->
    map small w = b "bearer" -> all spacing gap -> all of_token t -> all of_token t' ->
    opens_not of_token x -> opens_not of_token x' -> same_but_tokens false x x' ->
    same_but_tokens front (pre ++ w ++ gap ++ t ++ x) (pre ++ w ++ gap ++ t' ++ x').

(** Two texts that differ in values of query parameters only: ?name=value or &name=value. *)
Inductive same_but_values : bytes -> bytes -> Prop :=
| sbv_rest x : same_but_values x x
| sbv_value pre c name v v' x x' : In c (b "?&") -> all of_name name -> all of_value v -> all of_value v' ->
    opens_not of_value x -> opens_not of_value x' -> same_but_values x x' ->
    same_but_values (pre ++ c :: name ++ "="%char :: v ++ x) (pre ++ c :: name ++ "="%char :: v' ++ x').

(** Two texts that differ in web addresses only, which [u] takes to the same. *)
Inductive same_but_urls (u : bytes -> bytes) : bytes -> bytes -> Prop :=
| sbu_rest x : same_but_urls u x x
| sbu_url pre h h' a a' x x' : without (b "http") pre -> In h [b "http://"; b "https://"] -> In h' [b "http://"; b "https://"] -> all of_url a -> all of_url a' ->
    u (h ++ a) = u (h' ++ a') -> opens_not of_url x -> opens_not of_url x' -> same_but_urls u x x' ->
    same_but_urls u (pre ++ h ++ a ++ x) (pre ++ h' ++ a' ++ x').

Definition same_text (u : bytes -> bytes) (s s' : bytes) : Prop :=
  s = s' \/ same_but_tokens true s s'
  \/ (same_but_urls u s s' /\ without (b "bearer") (map small s) /\ without (b "bearer") (map small s'))
  \/ (same_but_values s s' /\ without (b "bearer") (map small s) /\ without (b "bearer") (map small s') /\ without (b "http") s /\ without (b "http") s').

(** A key that has one of the words in it, in any case, with - for _ if one likes. *)
Definition reads (c d : ascii) : Prop := small c = d \/ (c = "-"%char /\ d = "_"%char).
Definition confidential (k : bytes) : Prop :=
  exists x w y p, k = x ++ w ++ y /\ Forall2 reads w (b p) /\
  In p ["authorization"; "token"; "secret"; "password"; "api_key"; "apikey"; "credential"; "dsn"; "url"; "uri"; "endpoint"; "callback"; "metadata"; "webhook"].

(** Two values that differ in what is confidential only. *)
Inductive alike (u : bytes -> bytes) : value -> value -> Prop :=
| al_nil : alike u VNil VNil
| al_text s s' : same_text u s s' -> alike u (VText s) (VText s')
| al_other w : alike u (VOther w) (VOther w)
| al_map l l' : alike_entries u l l' -> alike u (VMap l) (VMap l')
| al_list l l' : alike_all u l l' -> alike u (VList l) (VList l')
with alike_entries (u : bytes -> bytes) : list (bytes * value) -> list (bytes * value) -> Prop :=
| ae_nil : alike_entries u [] []
| ae_hidden k v v' l l' : confidential k -> alike_entries u l l' -> alike_entries u ((k, v) :: l) ((k, v') :: l')
| ae_shown k v v' l l' : alike u v v' -> alike_entries u l l' -> alike_entries u ((k, v) :: l) ((k, v') :: l')
with alike_all (u : bytes -> bytes) : list value -> list value -> Prop :=
| aa_nil : alike_all u [] []
| aa_cons v v' l l' : alike u v v' -> alike_all u l l' -> alike_all u (v :: l) (v' :: l').

(** A text that is shown as it is: no token stands behind a word bearer, no address behind http:// or https://, no value behind ?name= or
    &name=. *)
Definition harmless (s : bytes) : Prop :=
  (forall x w gap c y, s = x ++ w ++ gap ++ c :: y -> x = [] \/ closes_not wordly x -> map small w = b "bearer" -> all spacing gap -> of_token c = false) /\
  (forall x h c y, s = x ++ h ++ c :: y -> In h [b "http://"; b "https://"] -> of_url c = false) /\
  (forall x q name c y, s = x ++ q :: name ++ "="%char :: c :: y -> In q (b "?&") -> all of_name name -> of_value c = false) /\
  List.length s <= 512.

(** The entries logged in a history. *)
Definition logged (es : list event) : list entry := flat_map (fun e => match e with ECall x => [x] | _ => [] end) es.
(** No call is between looking at the flag and sending when the channel is closed. *)
Definition apart (u : bytes -> bytes) (es : list event) : Prop :=
  forall x y, es = x ++ EShut :: y -> w_closed (play u x start) = true -> w_passed (play u x start) = [].
(** Two entries, and two histories event by event, that differ in what is confidential only. *)
Definition alike_entry (u : bytes -> bytes) (e e' : entry) : Prop := same_text u (e_message e) (e_message e') /\ alike_entries u (e_fields e) (e_fields e').
Inductive alike_event (u : bytes -> bytes) : event -> event -> Prop :=
| av_call e e' : alike_entry u e e' -> alike_event u (ECall e) (ECall e')
| av_put i : alike_event u (EPut i) (EPut i)
| av_close : alike_event u EClose EClose
| av_shut : alike_event u EShut EShut
| av_take : alike_event u ETake ETake.
