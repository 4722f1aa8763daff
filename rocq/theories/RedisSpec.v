(** What a connection to redis should be. *)
From Coq Require Import List String Ascii Bool.
From Verif Require Import RedisModel.
Import ListNotations.
Local Open Scope string_scope.
Local Open Scope list_scope.

(** A text without a character, and a text within a text. *)
Definition without (c : ascii) (t : string) : Prop := ~ In c (list_ascii_of_string t).
Definition within (p t : string) : Prop := exists u v, t = (u ++ p ++ v)%string.

(** The two special forms: host and port, and a password without colon before a host. *)
Definition host_and_port (raw : string) : Prop :=
  exists h p, raw = (h ++ ":" ++ p)%string /\ without ":"%char h /\ without ":"%char p /\ without "@"%char raw /\ ~ within "//" raw.
Definition bare_password (raw p h : string) : Prop :=
  raw = ("redis://" ++ p ++ "@" ++ h)%string /\ without ":"%char p /\ without "@"%char p /\ without "@"%char h.

(** Connection [o] is what address [o'] says, except that the certificate is not checked if so configured. *)
Definition as_said (skip : bool) (o o' : options) : Prop :=
  addr o = addr o' /\ user o = user o' /\ password o = password o' /\ db o = db o' /\
  (secure o = Plain <-> secure o' = Plain) /\ (skip = false -> secure o = secure o') /\ (skip = true -> secure o <> Checked).
