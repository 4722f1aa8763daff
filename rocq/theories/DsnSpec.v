(** What a monitoring DSN, https://<write key>@<host>/<project>, should mean. *)
From Coq Require Import List String Ascii Bool.
From Verif Require QueueModel.
From Verif Require Import DsnModel.
Import ListNotations.
Local Open Scope string_scope.
Local Open Scope list_scope.

(** [c] is [t] without the characters of [p] at its two ends. *)
Definition all (p : ascii -> bool) (t : string) : Prop := Forall (fun c => p c = true) (list_ascii_of_string t).
Definition starts (p : ascii -> bool) (t : string) : Prop := exists a r, t = String a r /\ p a = true.
Definition ends (p : ascii -> bool) (t : string) : Prop := exists r a, t = (r ++ String a "")%string /\ p a = true.
Definition stripped (p : ascii -> bool) (t c : string) : Prop :=
  exists u v, t = (u ++ c ++ v)%string /\ all p u /\ all p v /\ ~ starts p c /\ ~ ends p c.

(** The path names one project. *)
Definition names_project (path project : string) : Prop :=
  exists q, stripped QueueModel.space path q /\ stripped slash q project /\ project <> "" /\ ~ In "/"%char (list_ascii_of_string project).

(** The text, without blanks around, is a proper DSN for that host, key and project. *)
Definition proper (parse : string -> option url) (dsn h k project : string) : Prop :=
  exists raw u pw, stripped QueueModel.space dsn raw /\ raw <> "" /\ parse raw = Some u /\
    scheme u = "https" /\ host u = h /\ h <> "" /\ userinfo u = Some (k, pw) /\ k <> "" /\ names_project (path u) project.

(** Where the three signals go. *)
Definition place (s : signal) : string :=
  match s with
  | Traces => "/monitoring/ingest/v1/otlp/traces"
  | Metrics => "/monitoring/ingest/v1/otlp/metrics"
  | Logs => "/monitoring/ingest/v1/logs"
  end.

(** What is asked of net/url: a host is written as a text that is not empty and does not end with a slash. *)
Definition writes_hosts (parse : string -> option url) (shown : string -> string) : Prop :=
  forall raw u, parse raw = Some u -> host u <> "" -> shown (host u) <> "" /\ ~ ends slash (shown (host u)).
