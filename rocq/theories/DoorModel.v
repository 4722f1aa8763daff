(** What stands between a request and its handler: the limit on the size of bodies, the
    rate limiter, the security headers, the check of keys, the rewriting of bodies and the
    check of the metrics endpoints. *)
From Coq Require Import ZArith List String Ascii Bool.
From Verif Require Import Base AuthModel BodyModel.
Import ListNotations.
Local Open Scope string_scope.
Local Open Scope Z_scope.
Local Open Scope list_scope.

(** A request as it arrives. [w_req] has its method, path and X-Blnk-Key; the others are
    the headers Authorization, Content-Type and X-Forwarded-Proto, whether it came over
    TLS, and the body. *)
Record wire := { w_req : request; w_bearer : string; w_type : string; w_proto : string; w_tls : bool; w_body : string }.

(** The settings server.secure and server.secret_key, server.metrics_bearer_token and
    server.max_request_body_size_mb. *)
Record settings := { d_auth : aconfig; d_token : string; d_mb : Z }.

(** What others decide: whether the rate limiter (tollbooth) finds one request too many and
    with which status, which key the secret belongs to (AuthModel has the lookup), the
    time, and whether a route is registered for the method and path. *)
Record outside := { o_limited : option Z; o_key : option akey; o_now : Z; o_routed : bool }.

(** ** Bodies *)

Fixpoint upto (n : Z) (s : string) : string :=
  match s with
  | EmptyString => ""
  | String c r => if n <=? 0 then "" else String c (upto (n - 1) r)
  end.
Definition size (s : string) : Z := Z.of_nat (String.length s).

(** int64. *)
Definition wrap64 (n : Z) : Z := (n + 2 ^ 63) mod 2 ^ 64 - 2 ^ 63.
(** setDefaults, config/config.go:368-370, and the argument made of it, api/api.go:171. *)
Definition max_bytes (cfg : settings) : Z := wrap64 ((if d_mb cfg <=? 0 then 5 else d_mb cfg) * 1024 * 1024).

(** A body to be read: as it came, up to a number of bytes (http.MaxBytesReader) or to its
    end; one of which too much was read, so that every further read fails; what
    json.Marshal wrote for a value. *)
Inductive stream := Raw (text : string) (limit : option Z) | Spent | Made (v : json).

(** RequestSizeLimit, api/middleware/middleware.go:212-225. *)
Definition size_limit (cfg : settings) (w : wire) : stream :=
  if max_bytes cfg <=? 0 then Raw (w_body w) None
  else if String.prefix "multipart/form-data" (w_type w) then Raw (w_body w) None
  else Raw (w_body w) (Some (max_bytes cfg)).

(** io.ReadAll: the text, or an error; and the number of bytes held in memory by then. *)
Definition read_all (s : stream) : option string * Z :=
  match s with
  | Raw t None => (Some t, size t)
  | Raw t (Some n) => if size t <=? n then (Some t, size t) else (None, size (upto n t))
  | _ => (None, 0)
  end.

(** encoding/json: a reader takes the first value of a text, if it is complete, and leaves
    the rest. *)
Definition reader := string -> option (json * string).
Fixpoint blank (s : string) : bool :=
  match s with
  | EmptyString => true
  | String c r => existsb (Ascii.eqb c) [" "%char; "009"%char; "010"%char; "013"%char] && blank r
  end.
(** json.Unmarshal: one value and nothing after it. *)
Definition unmarshal (read : reader) (t : string) : option json :=
  match read t with Some (v, rest) => if blank rest then Some v else None | None => None end.

(** What ShouldBindJSON and BindJSON (gin: a json.Decoder) make of a body: the value
    decoded into the struct, io.EOF, or another error. A Decoder stops after the first
    value. *)
Inductive bound := Value (v : json) | Nothing | Bad.
Definition decode (read : reader) (t : string) (more : bool) : bound :=
  match read t with Some (v, _) => Value v | None => if blank t && negb more then Nothing else Bad end.
Definition bind (read : reader) (s : stream) : bound :=
  match s with
  | Raw t None => decode read t false
  | Raw t (Some n) => if size t <=? n then decode read t false else decode read (upto n t) true
  | Spent => Bad
  | Made v => Value v
  end.

(** injectAPIKeyToMetadata, api/middleware/auth.go:128-179, on the body as it is read; what
    it does with a value is [inject] of BodyModel. None: it panics. *)
Definition rewrite (read : reader) (id : string) (s : stream) : option stream :=
  match fst (read_all s) with
  | None => Some Spent
  | Some t =>
    match unmarshal read t with
    | None => Some (Raw t None)
    | Some v => match inject id v with Rewritten v' => Some (Made v') | Untouched _ => Some (Raw t None) | Panics => None end
    end
  end.

(** ** Headers *)

(** SecurityHeaders, middleware.go:186-206. *)
Definition security_headers (w : wire) : list (string * string) :=
  [("X-Content-Type-Options", "nosniff"); ("X-Frame-Options", "DENY");
   ("Referrer-Policy", "strict-origin-when-cross-origin");
   ("Content-Security-Policy", "default-src 'none'; frame-ancestors 'none'"); ("Cache-Control", "no-store")]
  ++ (if w_tls w || String.eqb (lower (w_proto w)) "https"
      then [("Strict-Transport-Security", "max-age=31536000; includeSubDomains")] else []).

(** ** Metrics *)

(** auth[len(prefix):]. *)
Fixpoint after (n : nat) (s : string) : string :=
  match n, s with O, _ => s | S n', String _ r => after n' r | S _, EmptyString => "" end.

(** MetricsAuth, middleware.go:90-122: the code of the refusal, or None: let in. *)
Definition metrics_auth (cfg : settings) (w : wire) : option string :=
  if c_secure (d_auth cfg) && String.eqb (d_token cfg) "" then Some "AUTH_METRICS_DISABLED"
  else if String.eqb (d_token cfg) "" then None
  else if String.eqb (w_bearer w) "" then Some "AUTH_METRICS_TOKEN_REQUIRED"
  else if negb (String.prefix "Bearer " (w_bearer w)) then Some "AUTH_METRICS_TOKEN_REQUIRED"
  else if negb (String.eqb (after 7 (w_bearer w)) (d_token cfg)) then Some "AUTH_INVALID_BEARER_TOKEN"
  else None.
(** MetricsAuthHandler, middleware.go:128-160: chosen when the worker starts, then run for
    each request. *)
Definition metrics_auth_handler (cfg : settings) : wire -> option string :=
  if c_secure (d_auth cfg) && String.eqb (d_token cfg) "" then fun _ => Some "AUTH_METRICS_DISABLED"
  else if String.eqb (d_token cfg) "" then fun _ => None
  else fun w =>
    let auth := w_bearer w in
    if String.eqb auth "" then Some "AUTH_METRICS_TOKEN_REQUIRED"
    else if negb (String.prefix "Bearer " auth) then Some "AUTH_METRICS_TOKEN_REQUIRED"
    else if String.eqb (after 7 auth) (d_token cfg) then None else Some "AUTH_INVALID_BEARER_TOKEN".

(** ** The chain *)

(** How it ends: refused with a status (no code: by the rate limiter, or 404) or a code,
    a panic (answered with 500 by logrusRecovery, api/api.go:211-221), the handler of the
    route run for a caller with a body, or one of the three open endpoints run. *)
Inductive finish :=
| Status (n : Z)
| Code (c : string)
| Crashed
| Handler (p : principal) (s : stream)
| Root | Health | Metrics.

(** [v_headers]: the security headers on the answer; [v_held]: how many bytes of the body
    were in memory before the handler; [v_asked]: the check of keys was run. *)
Record visit := { v_end : finish; v_headers : list (string * string); v_held : Z; v_asked : bool }.

(** Authenticate, auth.go:191-286: [arrival] and [judge] of AuthModel, with the lookup
    between them. *)
Definition authenticate (cfg : settings) (o : outside) (q : request) : phase :=
  match arrival (d_auth cfg) q with
  | PLocal => match o_key o with None => PEnd (Denied "AUTH_INVALID_API_KEY") | Some k => judge (o_now o) q k end
  | p => p
  end.

(** The order of the middleware: NewAPI (api/api.go:168-185), Router (45-49),
    initializeRouter (cmd/server.go:202-216). Left out: logging and tracing, the redirects
    gin makes for a trailing slash, which come before all middleware. The route of the
    root is made before the check of keys is added; what has no route goes through all
    middleware and ends in 404. /metrics has a route only if metrics are collected, which
    [o_routed] tells. *)
Definition pass (cfg : settings) (read : reader) (o : outside) (w : wire) : visit :=
  let q := w_req w in
  let body := size_limit cfg w in
  match o_limited o with
  | Some n => {| v_end := Status n; v_headers := []; v_held := 0; v_asked := false |}
  | None =>
    let hs := security_headers w in
    let at_end e held := {| v_end := e; v_headers := hs; v_held := held; v_asked := true |} in
    if String.eqb (q_path q) "/" && String.eqb (q_method q) "GET"
    then {| v_end := Root; v_headers := hs; v_held := 0; v_asked := false |}
    else match authenticate cfg o q with
    | PEnd (Denied c) => at_end (Code c) 0
    | PServe p =>
      let '(s, held) :=
        match p with
        | Holder k => if String.eqb (q_method q) "POST" then (rewrite read (k_id k) body, snd (read_all body)) else (Some body, 0)
        | _ => (Some body, 0)
        end in
      match s with
      | None => at_end Crashed held
      | Some s =>
        if negb (o_routed o) then at_end (Status 404) held
        else if String.eqb (q_path q) "/health" && String.eqb (q_method q) "GET" then at_end Health held
        else if String.eqb (q_path q) "/metrics" && String.eqb (q_method q) "GET" then
          match metrics_auth cfg w with Some c => at_end (Code c) held | None => at_end Metrics held end
        else at_end (Handler p s) held
      end
    | _ => at_end Crashed 0
    end
  end.

(** The server of a worker, cmd/workers.go:638-647: /health open, /monitoring/ and /metrics
    behind MetricsAuthHandler. None: let in. *)
Definition worker_pass (cfg : settings) (w : wire) : option string :=
  if String.eqb (q_path (w_req w)) "/health" then None else metrics_auth_handler cfg w.
