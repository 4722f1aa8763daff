(** C48: what the exported logs tell, and which entries are exported. *)
From Coq Require Import List String Ascii Bool Arith Permutation.
From Verif Require Import RedactModel RedactSpec RedactProof RedactDemo.
Import ListNotations.
Local Open Scope string_scope.
Local Open Scope nat_scope.
Local Open Scope list_scope.

(** Over whole histories, what is exported does not depend on anything confidential. *)
Theorem C48_history : forall u es es', Forall2 (alike_event u) es es' -> w_sent (play u es start) = w_sent (play u es' start).
Proof. exact history_gone. Qed.
Example C48_history_met : Forall2 (alike_event nobody)
  [ECall {| e_message := b "GET /a?x=1&y=two HTTP"; e_fields := [(b "token", VText (b "a"))] |}; EPut 0; ETake]
  [ECall {| e_message := b "GET /a?x=345&y=z HTTP"; e_fields := [(b "token", VNil)] |}; EPut 0; ETake].
Proof. exact history_ex. Qed.
Print Assumptions C48_history.

(** Fields: nothing of a value under a confidential key, at any depth, *)
Theorem C48_fields : forall u l l', alike_entries u l l' -> redact_fields u l = redact_fields u l'.
Proof. exact fields_gone. Qed.
Example C48_fields_met : alike_entries nobody
  [(b "amount", VOther (b "5")); (b "ctx", VMap [(b "Dsn", VText (b "a")); (b "list", VList [VText (b "GET /a?x=1&y=two HTTP"); VNil])])]
  [(b "amount", VOther (b "5")); (b "ctx", VMap [(b "Dsn", VList []); (b "list", VList [VText (b "GET /a?x=345&y=z HTTP"); VNil])])].
Proof. exact entries_ex. Qed.
Print Assumptions C48_fields.
(** but the mark that stands for it, *)
Theorem C48_marked : forall u l k v, In (k, v) l -> confidential k ->
  In (k, VText (b "[REDACTED]")) (redact_fields u l) /\ forall v', In (k, v') (redact_fields u l) -> v' = VText (b "[REDACTED]").
Proof. exact fields_hidden. Qed.
Print Assumptions C48_marked.
(** where a key is confidential that has one of the words in it, and no other, *)
Theorem C48_keys : forall k, sensitive k = true <-> confidential k.
Proof. exact keys. Qed.
Example C48_keys_met : confidential (b " X-Api-Key ") /\ ~ confidential (b "amount").
Proof. exact key_ex. Qed.
Print Assumptions C48_keys.
(** while what is harmless is told as it is. *)
Theorem C48_kept : forall u l k s, In (k, VText s) l -> ~ confidential k -> harmless s -> In (k, VText s) (redact_fields u l).
Proof. exact fields_kept. Qed.
Example C48_kept_met : harmless (b "applied 3 transactions of the forbearer Bearer, see https:// and /a?b=&c").
Proof. exact harmless_ex. Qed.
Print Assumptions C48_kept.

(** Texts: nothing of bearer tokens, of values of a query, and of addresses but what [u] tells of them, *)
Theorem C48_text : forall u s s', same_text u s s' -> redact_string u s = redact_string u s'.
Proof. exact text_gone. Qed.
Example C48_text_met : same_text nobody (b "GET /a?x=1&y=two HTTP") (b "GET /a?x=345&y=z HTTP")
  /\ same_text nobody (b "dial https://u:p@h/?k=1 failed") (b "dial http://v:q@i/ failed")
  /\ same_text nobody (b "call with bEARER  abc.1, then with Bearer def!") (b "call with bEARER  x, then with Bearer yz/=!").
Proof. exact text_ex. Qed.
Print Assumptions C48_text.
(** and no more than 526 bytes of anything. *)
Theorem C48_short : forall u s, List.length (redact_string u s) <= 526.
Proof. exact text_short. Qed.
Print Assumptions C48_short.

(** But a token behind two such words is told, *)
Theorem C48_second_refuted : forall u, redact_string u (b "Bearer Bearer abc") = b "Bearer [REDACTED] abc".
Proof. exact second_refuted. Qed.
Print Assumptions C48_second_refuted.
(** so are passwords and keys in a message, *)
Theorem C48_plain_refuted : forall u s, In s ["login with password=abc"; "Authorization: Basic dXNlcjphYmM="; "dial postgres://user:abc@db/blnk"; "X-Blnk-Key abc"] ->
  redact_string u (b s) = b s.
Proof. exact plain_refuted. Qed.
Print Assumptions C48_plain_refuted.
(** a token in the fragment of an address, *)
Theorem C48_fragment_refuted : forall u, u (b "https://app/#access_token=abc") = b "https://app/#access_token=abc" ->
  redact_string u (b "see https://app/#access_token=abc now") = b "see https://app/#access_token=abc now".
Proof. exact fragment_refuted. Qed.
Print Assumptions C48_fragment_refuted.
(** and all that is in a struct. *)
Theorem C48_struct_refuted : forall u k w, ~ confidential k -> redact_fields u [(k, VOther w)] = [(k, VOther w)].
Proof. exact struct_refuted. Qed.
Print Assumptions C48_struct_refuted.
(** The sign between name and value goes with the value. *)
Theorem C48_equals_refuted : forall u, redact_string u (b "GET /a?x=1") = b "GET /a?x[REDACTED]".
Proof. exact equals_refuted. Qed.
Print Assumptions C48_equals_refuted.

(** Every entry logged is in one place: on its way or taken, with what it tells hidden; dropped; or late. *)
Theorem C48_accounted : forall u es, w_dead (play u es start) = false ->
  exists taken, w_sent (play u es start) ++ w_queue (play u es start) = map (payload_of u) taken /\
    Permutation (logged es) (taken ++ w_passed (play u es start) ++ w_dropped (play u es start) ++ w_late (play u es start)).
Proof. exact accounted. Qed.
Print Assumptions C48_accounted.
(** What is taken in is sent in that order, nothing between, *)
Theorem C48_order : forall u es fs, exists more, w_sent (play u (es ++ fs) start) ++ w_queue (play u (es ++ fs) start)
  = (w_sent (play u es start) ++ w_queue (play u es start)) ++ more.
Proof. exact in_order. Qed.
Print Assumptions C48_order.
(** all of it if the worker goes on, closed or not; *)
Theorem C48_emptied : forall u w, w_dead w = false -> w_sent (play u (repeat ETake (List.length (w_queue w))) w) = w_sent w ++ w_queue w.
Proof. exact emptied. Qed.
Print Assumptions C48_emptied.
(** and nothing is dropped unless 1024 entries wait. *)
Theorem C48_dropped : forall u es ev, w_dropped (play u (es ++ [ev]) start) <> w_dropped (play u es start) -> List.length (w_queue (play u es start)) = 1024.
Proof. exact dropped_full. Qed.
Example C48_dropped_met : exists es, w_closed (play nobody es start) = false /\ w_dropped (play nobody es start) = [plain "last"].
Proof. exact full_refuted. Qed.
Print Assumptions C48_dropped.
(** The process goes on if no entry is being logged when the exporter shuts down, *)
Theorem C48_alive : forall u es, apart u es -> w_dead (play u es start) = false.
Proof. exact alive. Qed.
Example C48_alive_met : apart nobody day /\ w_dead (play nobody day start) = false
  /\ w_sent (play nobody day start) = [plain "two"; plain "one"] /\ w_late (play nobody day start) = [plain "three"].
Proof. exact day_ex. Qed.
Print Assumptions C48_alive.
(** but not else, and what waited is lost then. *)
Theorem C48_closed_refuted : exists es, w_dead (play nobody es start) = true /\ w_queue (play nobody es start) = [plain "one"] /\
  forall more, w_sent (play nobody (es ++ more) start) = [].
Proof. exact closed_refuted. Qed.
Print Assumptions C48_closed_refuted.
