(** C57. Telemetry goes to the host of the monitoring DSN, over https, or nowhere. *)
From Coq Require Import List String Ascii Bool.
From Verif Require Import DsnModel DsnSpec DsnProof DsnDemo.
Import ListNotations.
Local Open Scope string_scope.

(** Requests are made if and only if observability is on and the DSN is a proper one. *)
Theorem C57_when : forall parse shown obs dsn s,
  (exists r, sent parse shown obs dsn s = Some r) <-> obs = true /\ exists h k project, proper parse dsn h k project.
Proof. exact sent_when. Qed.
Print Assumptions C57_when.

(** They go over https to the host named, with the write key as bearer token and not in the address. *)
Theorem C57_where : forall parse shown obs dsn s r, writes_hosts parse shown -> sent parse shown obs dsn s = Some r ->
  exists h k project, proper parse dsn h k project /\ address r = ("https://" ++ shown h ++ place s)%string /\
    authorization r = Some ("Bearer " ++ k)%string.
Proof. exact sent_where. Qed.
Print Assumptions C57_where.

(** A DSN is proper for one host, key and project only. *)
Theorem C57_unique : forall parse dsn h k project h' k' project', proper parse dsn h k project -> proper parse dsn h' k' project' ->
  h = h' /\ k = k' /\ project = project'.
Proof. exact proper_unique. Qed.
Print Assumptions C57_unique.

Theorem C57_example :
  writes_hosts demo_parse as_is /\
  proper demo_parse " https://wk_1:pw@mon.example.com:8443/acme/ " "mon.example.com:8443" "wk_1" "acme" /\
  proper demo_parse "https://wk_1:pw@mon.example.com:8443/other" "mon.example.com:8443" "wk_1" "other" /\
  sent demo_parse as_is true " https://wk_1:pw@mon.example.com:8443/acme/ " Logs =
    Some {| address := "https://mon.example.com:8443/monitoring/ingest/v1/logs"; authorization := Some "Bearer wk_1" |} /\
  sent demo_parse as_is true "https://wk_1:pw@mon.example.com:8443/a/b" Logs = None /\
  sent demo_parse as_is true "http://wk_1:pw@mon.example.com:8443/acme" Logs = None.
Proof. exact dsn_example. Qed.
Print Assumptions C57_example.

(** Refuted: that the monitoring service is told the project. DSNs that differ in it make the same requests. *)
Theorem C57_project_refuted : forall parse shown obs dsn dsn' h k project project' s,
  proper parse dsn h k project -> proper parse dsn' h k project' -> sent parse shown obs dsn s = sent parse shown obs dsn' s.
Proof. exact project_untold. Qed.
Print Assumptions C57_project_refuted.
