(** Where telemetry goes: the monitoring DSN of the configuration and the requests made from it.
    internal/monitoringexporter/config.go:37-112, exporters.go:14-37, logs.go:115-138,
    internal/traces/otel.go:83, 116-120, 141-168, 199-206, 258-265, config/config.go:263-268, cmd/server.go:328-333. *)
From Coq Require Import List String Ascii Bool.
From Verif Require QueueModel.
From Verif Require Import RedisModel.
Import ListNotations.
Local Open Scope string_scope.
Local Open Scope list_scope.

(** strings.TrimLeft, strings.TrimRight and strings.Trim for a set of bytes. strings.TrimSpace is [strip] of
    QueueModel.space; the Unicode spaces outside ASCII are left out. *)
Definition slash (c : ascii) : bool := Ascii.eqb c "/"%char.
Fixpoint strip_left (p : ascii -> bool) (t : string) : string :=
  match t with String c r => if p c then strip_left p r else t | EmptyString => "" end.
Fixpoint strip_right (p : ascii -> bool) (t : string) : string :=
  match t with
  | EmptyString => ""
  | String c r => match strip_right p r with EmptyString => if p c then "" else String c "" | r' => String c r' end
  end.
Definition strip (p : ascii -> bool) (t : string) : string := strip_right p (strip_left p t).

(** url.URL as far as it is looked at; the user is none or a name and a password. *)
Record url := { scheme : string; host : string; userinfo : option (string * string); path : string }.
(** Config, internal/monitoringexporter/config.go:19-25, without the timeout, which is always five seconds. *)
Record config := { c_dsn : string; c_key : string; c_project : string; c_endpoint : string }.

Definition empty (t : string) : bool := String.eqb t "".

(** ParseDSN, config.go:54-94. [parse] is url.Parse, [shown] what url.URL.String makes of a host. *)
Definition parse_dsn (parse : string -> option url) (shown : string -> string) (raw : string) : option config :=
  let raw := strip QueueModel.space raw in
  if empty raw then None else
  match parse raw with
  | None => None
  | Some u =>
    if negb (String.eqb (scheme u) "https") then None
    else if empty (host u) then None
    else match userinfo u with
    | None => None
    | Some (k, _) =>
      if empty k then None else
      let project := strip slash (strip QueueModel.space (path u)) in
      if empty project then None
      else if contains "/" project then None
      else Some {| c_dsn := raw; c_key := k; c_project := project; c_endpoint := (scheme u ++ "://" ++ shown (host u))%string |}
    end
  end.

(** FromDSN, config.go:37-50, and monitoringExporterConfigFromDSN, otel.go:258-265: an error is a
    warning, and the exporter is off. *)
Definition from_dsn (parse : string -> option url) (shown : string -> string) (dsn : string) : option config :=
  let dsn := strip QueueModel.space dsn in
  if empty dsn then None else parse_dsn parse shown dsn.

(** RemoteMonitoringDSN, config/config.go:263-268. *)
Definition remote_dsn (dsn : string) : string := if negb (empty (strip QueueModel.space dsn)) then dsn else "".

(** Headers, SignalURL and OTLPSignalURL, config.go:96-112. *)
Definition headers (c : config) : option string := if negb (empty (c_key c)) then Some ("Bearer " ++ c_key c)%string else None.
Definition signal_url (c : config) (s : string) : string :=
  (strip_right slash (c_endpoint c) ++ "/monitoring/ingest/v1/" ++ strip_left slash s)%string.
Definition otlp_signal_url (c : config) (s : string) : string :=
  (strip_right slash (c_endpoint c) ++ "/monitoring/ingest/v1/otlp/" ++ strip_left slash s)%string.

(** A request to the monitoring service: its address and the Authorization header. What it carries is
    C48 for logs and left out for traces and metrics. *)
Inductive signal := Traces | Metrics | Logs.
Record request := { address : string; authorization : option string }.
(** NewTraceExporter, NewMetricReader, exporters.go:14-37; send, logs.go:115-138. *)
Definition request_for (c : config) (s : signal) : request :=
  {| address := match s with Traces => otlp_signal_url c "traces" | Metrics => otlp_signal_url c "metrics" | Logs => signal_url c "logs" end;
     authorization := headers c |}.

(** initializeTelemetryAndObservability, cmd/server.go:328-333, and SetupOTelSDK, otel.go:83, 116-120, 152-160, 199-206:
    the requests for a signal, if any are made. Simplified: an exporter that cannot be built, which is a warning, is
    left out, and so are exporters configured by the OTEL variables, which are not given the key. *)
Definition sent (parse : string -> option url) (shown : string -> string) (observability : bool) (dsn : string) (s : signal) : option request :=
  if observability then match from_dsn parse shown (remote_dsn dsn) with Some c => Some (request_for c s) | None => None end else None.
