(** How the address of redis in the configuration becomes connections.
    internal/redis-db/redisdb.go:45-193, blnk.go:64-87, queue.go:116-131, cmd/workers.go:396-460, 623-635. *)
From Coq Require Import List String Ascii Bool Arith.
Import ListNotations.
Local Open Scope string_scope.
Local Open Scope nat_scope.
Local Open Scope list_scope.

(** strings.Count for one byte, strings.Contains, strings.TrimPrefix, strings.Split for one byte. *)
Fixpoint count (c : ascii) (t : string) : nat :=
  match t with EmptyString => 0 | String a r => (if Ascii.eqb a c then 1 else 0) + count c r end.
Fixpoint contains (p t : string) : bool :=
  String.prefix p t || match t with EmptyString => false | String _ r => contains p r end.
Fixpoint drop (n : nat) (t : string) : string :=
  match n, t with S n, String _ r => drop n r | _, _ => t end.
Definition trim_prefix (p t : string) : string := if String.prefix p t then drop (String.length p) t else t.
Fixpoint split (c : ascii) (t : string) : list string :=
  match t with
  | EmptyString => [""]
  | String a r => if Ascii.eqb a c then "" :: split c r else match split c r with [] => [String a ""] | x :: l => String a x :: l end
  end.

(** redis.Options as far as set: address, user, password, database and the TLS configuration,
    which is none, one that checks the certificate, or one that does not. *)
Inductive tls := Plain | Checked | Unchecked.
Record options := { addr : string; user : string; password : string; db : nat; secure : tls }.

(** The rewriting of a password without colon, redisdb.go:54-63. *)
Definition rewritten (raw : string) : string :=
  if String.prefix "redis://" raw && (0 <? count "@"%char raw) then
    match split "@"%char (trim_prefix "redis://" raw) with
    | [a; h] => match split ":"%char a with [_] => ("redis://:" ++ a ++ "@" ++ h)%string | _ => raw end
    | _ => raw
    end
  else raw.

(** The manual parsing after a failure, redisdb.go:66-93. *)
Definition by_hand (raw : string) : options :=
  let hp := if 0 <? count "@"%char raw then match split "@"%char raw with [a; h] => (h, trim_prefix "redis://" a) | _ => (raw, "") end else (raw, "") in
  {| addr := fst hp; user := ""; password := snd hp; db := 0; secure := if contains "redis.cache.windows.net" (fst hp) then Checked else Plain |}.

(** redisdb.go:96-100. *)
Definition relax (skip : bool) (o : options) : options :=
  match secure o with
  | Plain => o
  | _ => if skip then {| addr := addr o; user := user o; password := password o; db := db o; secure := Unchecked |} else o
  end.

(** ParseRedisURL, redisdb.go:45-103; [parse] is redis.ParseURL. *)
Definition parse_redis (parse : string -> option options) (raw : string) (skip : bool) : options :=
  if (count ":"%char raw =? 1) && (count "@"%char raw =? 0) && negb (contains "//" raw) then
    {| addr := raw; user := ""; password := ""; db := 0; secure := Plain |}
  else
    let raw := rewritten raw in
    relax skip (match parse raw with Some o => o | None => by_hand raw end).

(** The client of the server, blnk.go:65-71 and redisdb.go:136-145, without pool sizes. *)
Definition main_client (parse : string -> option options) (raw : string) (skip : bool) : options := parse_redis parse raw skip.
(** The client of the queue, its inspector, the three worker servers and the monitor, blnk.go:78-84, queue.go:122,
    cmd/workers.go:403-409, 427-433, 449-455, 627-633: four of the five fields are copied. *)
Definition queue_client (parse : string -> option options) (raw : string) (skip : bool) : options :=
  let o := parse_redis parse raw skip in
  {| addr := addr o; user := ""; password := password o; db := db o; secure := secure o |}.

(** NewRedisClient with several addresses, redisdb.go:146-183. *)
Record cluster := { nodes : list string; c_user : string; c_password : string; c_secure : tls }.
Fixpoint first_password (l : list options) : string :=
  match l with [] => "" | o :: r => if String.eqb (password o) "" then first_password r else password o end.
Definition uses_tls (o : options) : bool := match secure o with Plain => false | _ => true end.
Definition cluster_client (parse : string -> option options) (raws : list string) (skip : bool) : cluster :=
  let l := map (fun r => parse_redis parse r skip) raws in
  {| nodes := map addr l; c_user := ""; c_password := first_password l;
     c_secure := if existsb uses_tls l then (if skip then Unchecked else Checked) else Plain |}.
