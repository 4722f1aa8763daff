(** C55: the connections to redis are those the address says. *)
From Coq Require Import List String Ascii Bool.
From Verif Require Import RedisModel RedisSpec RedisProof RedisDemo.
Import ListNotations.
Local Open Scope string_scope.
Local Open Scope list_scope.

(** A host and port is connected to as it stands. *)
Theorem C55_host_and_port : forall parse raw skip, host_and_port raw -> parse_redis parse raw skip = {| addr := raw; user := ""; password := ""; db := 0; secure := Plain |}.
Proof. exact plain_address. Qed.
Print Assumptions C55_host_and_port.

(** An address that redis.ParseURL understands means what it says. *)
Theorem C55_url : forall parse raw skip o, ~ host_and_port raw -> (forall p h, ~ bare_password raw p h) -> parse raw = Some o -> as_said skip (parse_redis parse raw skip) o.
Proof. exact accepted_url. Qed.
Print Assumptions C55_url.

(** A single word before the host is the password. *)
Theorem C55_bare_password : forall parse raw skip p h o, bare_password raw p h -> parse ("redis://:" ++ p ++ "@" ++ h)%string = Some o -> as_said skip (parse_redis parse raw skip) o.
Proof. exact bare_url. Qed.
Print Assumptions C55_bare_password.

(** Without a scheme, what comes before the host is the password; Azure's hosts get TLS. *)
Theorem C55_no_scheme : forall parse p h skip s, (within "redis.cache.windows.net" h /\ s = Checked \/ ~ within "redis.cache.windows.net" h /\ s = Plain) -> without "@"%char p -> without "@"%char h -> ~ (exists q, p = ("redis://" ++ q)%string) -> parse (p ++ "@" ++ h)%string = None ->
  as_said skip (parse_redis parse (p ++ "@" ++ h)%string skip)
    {| addr := h; user := ""; password := p; db := 0; secure := s |}.
Proof. exact schemeless. Qed.
Print Assumptions C55_no_scheme.

(** The certificate goes unchecked only if the configuration or the address says so. *)
Theorem C55_checked : forall parse raw skip, secure (parse_redis parse raw skip) = Unchecked -> skip = true \/
  exists o, (parse raw = Some o \/ exists p h, bare_password raw p h /\ parse ("redis://:" ++ p ++ "@" ++ h)%string = Some o) /\ secure o = Unchecked.
Proof. exact never_weaker. Qed.
Print Assumptions C55_checked.

(** The queue, its workers and the monitor use the server's address, password, database and TLS. *)
Theorem C55_queue : forall parse raw skip,
  addr (queue_client parse raw skip) = addr (main_client parse raw skip) /\ password (queue_client parse raw skip) = password (main_client parse raw skip) /\
  db (queue_client parse raw skip) = db (main_client parse raw skip) /\ secure (queue_client parse raw skip) = secure (main_client parse raw skip).
Proof. exact clients_agree. Qed.
Print Assumptions C55_queue.

(** With several addresses: every node, TLS as soon as one asks for it, and the first password given. *)
Theorem C55_cluster : forall parse raws skip, let c := cluster_client parse raws skip in let each r := parse_redis parse r skip in
  nodes c = map (fun r => addr (each r)) raws /\
  (c_secure c = Plain <-> forall r, In r raws -> secure (each r) = Plain) /\ (c_secure c = Unchecked -> skip = true) /\
  ((c_password c = "" /\ forall r, In r raws -> password (each r) = "") \/
   exists a r b, raws = a ++ r :: b /\ (forall x, In x a -> password (each x) = "") /\ password (each r) <> "" /\ c_password c = password (each r)).
Proof. exact clustered. Qed.
Print Assumptions C55_cluster.

(** Not so: the queue logs in as the user of the address. *)
Theorem C55_user_refuted : (exists parse raw, user (main_client parse raw false) = "app" /\ user (queue_client parse raw false) = "") /\
  forall parse raw skip o, ~ host_and_port raw -> (forall p h, ~ bare_password raw p h) -> parse raw = Some o ->
    user (main_client parse raw skip) = user o /\ user (queue_client parse raw skip) = "".
Proof. exact (conj (ex_intro _ some_parse (ex_intro _ "rediss://app:pw@r.example:6380/2" user_lost_here)) user_lost). Qed.
Print Assumptions C55_user_refuted.

(** Not so: rediss:// always means TLS. If redis.ParseURL fails, the connection is plain and the password is wrong. *)
Theorem C55_secure_refuted : forall parse p h skip, without "@"%char p -> without "@"%char h -> ~ within "redis.cache.windows.net" h -> parse ("rediss://" ++ p ++ "@" ++ h)%string = None ->
  parse_redis parse ("rediss://" ++ p ++ "@" ++ h)%string skip = {| addr := h; user := ""; password := ("rediss://" ++ p)%string; db := 0; secure := Plain |}.
Proof. exact secure_lost. Qed.
Print Assumptions C55_secure_refuted.

(** Not so: the word before the host is the password also if redis.ParseURL fails. *)
Theorem C55_password_refuted : forall parse p h skip raw, bare_password raw p h -> parse ("redis://:" ++ p ++ "@" ++ h)%string = None ->
  password (parse_redis parse raw skip) = (":" ++ p)%string.
Proof. exact password_wrong. Qed.
Print Assumptions C55_password_refuted.

(** The hypotheses are met. *)
Example C55_example_forms : host_and_port "redis:6379" /\ (~ host_and_port "rediss://app:pw@r.example:6380/2" /\ (forall p h, ~ bare_password "rediss://app:pw@r.example:6380/2" p h)) /\
  bare_password "redis://secret@r.example:6379" "secret" "r.example:6379".
Proof. exact (conj docker_form (conj url_forms bare_form)). Qed.
Example C55_example : 
  main_client some_parse "redis:6379" true = {| addr := "redis:6379"; user := ""; password := ""; db := 0; secure := Plain |} /\
  main_client some_parse "rediss://app:pw@r.example:6380/2" false = {| addr := "r.example:6380"; user := "app"; password := "pw"; db := 2; secure := Checked |} /\
  queue_client some_parse "rediss://app:pw@r.example:6380/2" true = {| addr := "r.example:6380"; user := ""; password := "pw"; db := 2; secure := Unchecked |} /\
  main_client some_parse "redis://secret@r.example:6379" false = {| addr := "r.example:6379"; user := ""; password := "secret"; db := 0; secure := Plain |} /\
  main_client some_parse "key=@a.redis.cache.windows.net:6380" false = {| addr := "a.redis.cache.windows.net:6380"; user := ""; password := "key="; db := 0; secure := Checked |}.
Proof. exact connections. Qed.
Example C55_example_cluster : cluster_client some_parse ["redis:6379"; "redis://secret@r.example:6379"; "rediss://app:pw@r.example:6380/2"] false =
  {| nodes := ["redis:6379"; "r.example:6379"; "r.example:6380"]; c_user := ""; c_password := "secret"; c_secure := Checked |}.
Proof. exact some_cluster. Qed.
Example C55_example_odd : bare_password "redis://100%sure@r.example:6379" "100%sure" "r.example:6379" /\ some_parse "redis://:100%sure@r.example:6379" = None /\
  some_parse "rediss://:100%sure@r.example:6380" = None /\ ~ within "redis.cache.windows.net" "r.example:6380".
Proof. exact odd_forms. Qed.
