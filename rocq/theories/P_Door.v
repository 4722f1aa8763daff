(** C50: what stands between a request and its handler. *)
From Coq Require Import ZArith List String Bool.
From Verif Require Import DoorProof DoorDemo.
From Verif Require Import Base AuthModel AuthSpec BodyModel BodySpec DoorModel DoorSpec.
Import ListNotations.
Local Open Scope string_scope.
Local Open Scope list_scope.
Local Open Scope Z_scope.

(** A handler is run only for a caller who may: [keys] are the keys there are, and the
    lookup finds the one whose secret was sent. *)
Theorem C50_entitled : forall cfg read o w p s keys, v_end (pass cfg read o w) = Handler p s ->
  (forall k, o_key o = Some k -> In k keys /\ k_secret k = q_key (w_req w)) ->
  entitled (d_auth cfg) keys {| g_req := w_req w; g_who := p; g_at := o_now o |}.
Proof. exact let_in. Qed.
Print Assumptions C50_entitled.

(** A request the rate limiter stops gets to nothing: no key is looked at, no body read, no
    handler run. *)
Theorem C50_limited : forall cfg read o w n, o_limited o = Some n ->
  pass cfg read o w = {| v_end := Status n; v_headers := []; v_held := 0; v_asked := false |}.
Proof. exact limited_stops. Qed.
Print Assumptions C50_limited.

(** Metrics are shown exactly to those who may read them; the same holds of the metrics and
    the dashboard of a worker, and both refuse with the same code. *)
Theorem C50_metrics : forall cfg read o w, v_end (pass cfg read o w) = Metrics <->
  o_limited o = None /\ q_method (w_req w) = "GET" /\ q_path (w_req w) = "/metrics" /\ o_routed o = true
  /\ may_scrape (c_secure (d_auth cfg)) (d_token cfg) (w_bearer w).
Proof. exact scraped. Qed.
Print Assumptions C50_metrics.
Theorem C50_worker : forall cfg w, worker_pass cfg w = None <->
  q_path (w_req w) = "/health" \/ may_scrape (c_secure (d_auth cfg)) (d_token cfg) (w_bearer w).
Proof. exact worker_scraped. Qed.
Print Assumptions C50_worker.
Theorem C50_same_refusal : forall cfg read o w, o_limited o = None -> o_routed o = true ->
  q_method (w_req w) = "GET" -> q_path (w_req w) = "/metrics" ->
  v_end (pass cfg read o w) = match worker_pass cfg w with Some c => Code c | None => Metrics end.
Proof. exact same_refusal. Qed.
Print Assumptions C50_same_refusal.
Example C50_metrics_example : v_end (pass server json_reader calm_day (scrape "Bearer scrape")) = Metrics
  /\ v_end (pass server json_reader calm_day (scrape "Bearer scrap")) = Code "AUTH_INVALID_BEARER_TOKEN"
  /\ v_end (pass server json_reader calm_day (scrape "bearer scrape")) = Code "AUTH_METRICS_TOKEN_REQUIRED"
  /\ v_end (pass server json_reader calm_day (post "" "" "")) = Code "AUTH_MISSING_API_KEY".
Proof. exact scraped_well. Qed.

(** Every answer but those of the rate limiter, refusals and panics included, has the
    security headers, and asks for TLS exactly if the request came over it. *)
Theorem C50_headers : forall cfg read o w, o_limited o = None ->
  forall h, In h (v_headers (pass cfg read o w)) <-> In h always \/ (h = over_tls /\ (w_tls w = true \/ lower (w_proto w) = "https")).
Proof. exact headers_there. Qed.
Print Assumptions C50_headers.
Theorem C50_headers_refuted : ~ (forall cfg read o w h, In h always -> In h (v_headers (pass cfg read o w))).
Proof. exact bare_answer. Qed.
Print Assumptions C50_headers_refuted.

(** Of a body that does not say it brings files, at most the limit is held in memory, and
    what comes of the request does not depend on anything behind the limit. *)
Theorem C50_held : forall cfg read o w, sane (d_mb cfg) -> ~ labelled w -> v_held (pass cfg read o w) <= allowed (d_mb cfg).
Proof. exact held_small. Qed.
Print Assumptions C50_held.
Theorem C50_tail : forall cfg read o w b b', sane (d_mb cfg) -> ~ labelled w ->
  allowed (d_mb cfg) < size b -> allowed (d_mb cfg) < size b' -> upto (allowed (d_mb cfg)) b = upto (allowed (d_mb cfg)) b' ->
  comes_of read (pass cfg read o (with_body b w)) = comes_of read (pass cfg read o (with_body b' w)).
Proof. exact tail_unseen. Qed.
Print Assumptions C50_tail.
(** A POST with a key and a body over the limit is refused. *)
Theorem C50_too_large : forall cfg read o w k s, sane (d_mb cfg) -> ~ labelled w -> allowed (d_mb cfg) < size (w_body w) ->
  v_end (pass cfg read o w) = Handler (Holder k) s -> q_method (w_req w) = "POST" -> bind read s = Bad.
Proof. exact too_large_key. Qed.
Print Assumptions C50_too_large.
(** A body within the limit is decoded as if there were none. *)
Theorem C50_within : forall cfg read o w p s, sane (d_mb cfg) -> ~ labelled w -> size (w_body w) <= allowed (d_mb cfg) ->
  v_end (pass cfg read o w) = Handler p s -> (forall k, ~ posted_by k w p) -> bind read s = bind read (Raw (w_body w) None).
Proof. exact small_whole. Qed.
Print Assumptions C50_within.
(** But a request need only say that it brings files, to any endpoint, for its body to be
    held in memory whole and decoded beyond the limit; *)
Theorem C50_held_refuted : ~ (forall cfg read o w, sane (d_mb cfg) -> v_held (pass cfg read o w) <= allowed (d_mb cfg)).
Proof. exact held_large. Qed.
Print Assumptions C50_held_refuted.
Theorem C50_tail_refuted : ~ (forall cfg read o w b b', sane (d_mb cfg) -> allowed (d_mb cfg) < size b -> allowed (d_mb cfg) < size b' ->
  upto (allowed (d_mb cfg)) b = upto (allowed (d_mb cfg)) b' ->
  comes_of read (pass cfg read o (with_body b w)) = comes_of read (pass cfg read o (with_body b' w))).
Proof. exact read_large. Qed.
Print Assumptions C50_tail_refuted.
(** and with the master key a body over the limit is served if its first value is within. *)
Theorem C50_too_large_refuted : ~ (forall cfg read o w p s, sane (d_mb cfg) -> ~ labelled w -> allowed (d_mb cfg) < size (w_body w) ->
  v_end (pass cfg read o w) = Handler p s -> bind read s = Bad).
Proof. exact large_served. Qed.
Print Assumptions C50_too_large_refuted.

(** A POST with a key whose body is one object (numbers in digits, at most 2^53) is decoded
    to name the key in its metadata, and every other field reads as sent. *)
Theorem C50_named : forall cfg read o w k s l rest, v_end (pass cfg read o w) = Handler (Holder k) s -> q_method (w_req w) = "POST" ->
  whole cfg w -> read (w_body w) = Some (JObj l, rest) -> blank rest = true -> small (JObj l) -> names (k_id k) (bind read s).
Proof. exact named. Qed.
Print Assumptions C50_named.
Theorem C50_key_reads : forall cfg read o w k s l rest, v_end (pass cfg read o w) = Handler (Holder k) s -> q_method (w_req w) = "POST" ->
  whole cfg w -> read (w_body w) = Some (JObj l, rest) -> blank rest = true -> tidy (JObj l) -> small (JObj l) ->
  exists l', bind read s = Value (JObj l') /\ forall f, lower f <> "meta_data" -> orel (alike exactly) (field f l) (field f l').
Proof. exact key_reads. Qed.
Print Assumptions C50_key_reads.
Example C50_example : let w := post "s1" "application/json" (paying ++ "  ")%string in
  (exists s, v_end (pass server json_reader calm_day w) = Handler (Holder key1) s
     /\ bind json_reader s = Value (JObj [("meta_data", JObj [("BLNK_GENERATED_BY", JText "key1")]); ("precise_amount", JNum true 500); ("reference", JText "r1")]))
  /\ whole server w /\ json_reader (w_body w) = Some (JObj payment_of_shop, "  ") /\ tidy (JObj payment_of_shop) /\ small (JObj payment_of_shop)
  /\ sane (d_mb server) /\ ~ labelled w.
Proof. exact (conj paid (conj paid_whole (conj paying_reads (conj (proj1 paying_tidy) (conj (proj2 paying_tidy) (conj sane_server (json_unlabelled _ _))))))). Qed.

(** Anything at all behind the object keeps it from being rewritten, while the handler
    still decodes it: the metadata name whom the sender likes. *)
Theorem C50_trailing : forall cfg read o w k s v rest, v_end (pass cfg read o w) = Handler (Holder k) s -> q_method (w_req w) = "POST" ->
  whole cfg w -> read (w_body w) = Some (v, rest) -> blank rest = false -> bind read s = Value v.
Proof. exact trailing. Qed.
Print Assumptions C50_trailing.
Theorem C50_named_refuted : ~ (forall cfg read o w k s l meta, v_end (pass cfg read o w) = Handler (Holder k) s -> q_method (w_req w) = "POST" ->
  bind read s = Value (JObj l) -> map_field "meta_data" l [] = Some meta -> get "BLNK_GENERATED_BY" meta = Some (JText (k_id k))).
Proof. exact trailing_spoof. Qed.
Print Assumptions C50_named_refuted.

(** The way to the handler panics only for a POST with a key that says null. *)
Theorem C50_crash : forall cfg read o w, v_end (pass cfg read o w) = Crashed ->
  exists k, authenticate cfg o (w_req w) = PServe (Holder k) /\ q_method (w_req w) = "POST" /\ unmarshal read (w_body w) = Some JNull.
Proof. exact crash_only. Qed.
Print Assumptions C50_crash.
Example C50_crash_example : v_end (pass server json_reader calm_day (post "s1" "application/json" "null")) = Crashed.
Proof. exact null_crashes. Qed.
