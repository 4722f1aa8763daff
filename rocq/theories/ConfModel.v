(** The configuration: what is read from file and environment, what is checked, and the defaults
    put in. config/config.go. *)
From Coq Require Import ZArith QArith List String Ascii Bool.
From Verif Require QueueModel DoorModel.
Import ListNotations.
Local Open Scope string_scope.
Local Open Scope Z_scope.
Local Open Scope list_scope.

(** The value of a setting: a text, a number or duration (in nanoseconds), a flag, a fraction, or
    a pointer that points nowhere. Simplified: floats are rational numbers. *)
Inductive val := Text (s : string) | Num (z : Z) | Flag (b : bool) | Real (q : Q) | Unset.

(** A configuration, by the path of the setting in the JSON file; config/config.go:110-261. Left
    out: webhook headers and the account number service, that are only passed on. *)
Definition conf := string -> val.
Definition put (k : string) (v : val) (c : conf) : conf := fun j => if String.eqb j k then v else c j.

Definition texts : list string :=
  ["project_name"; "backup_dir"; "aws_access_key_id"; "s3_endpoint"; "aws_secret_access_key"; "s3_bucket_name"; "s3_region";
   "type_sense_key"; "tokenization_secret"; "monitoring_dsn";
   "server.cert_storage_path"; "server.secret_key"; "server.domain"; "server.ssl_email"; "server.port";
   "server.metrics_bearer_token"; "server.upload_whitelist";
   "data_source.dns"; "redis.dns"; "typesense.dns"; "notification.slack.webhook_url"; "notification.webhook.url";
   "transaction.index_queue_prefix"; "reconciliation.default_strategy";
   "queue.transaction_queue"; "queue.webhook_queue"; "queue.index_queue"; "queue.inflight_expiry_queue";
   "queue.inflight_commit_queue"; "queue.hot_queue_name"; "queue.monitoring_port"].
Definition flags : list string :=
  ["server.ssl"; "server.secure"; "redis.skip_tls_verify"; "enable_telemetry"; "enable_observability";
   "transaction.enable_coalescing"; "transaction.enable_queued_checks"; "transaction.disable_batch_reference_check";
   "transaction.hash_chain.enabled"; "queue.enable_hot_lane"; "queue.reject_lock_contention_immediately";
   "queue.insufficient_fund_retries"; "queue.enable_backpressure"].
Definition pointers : list string := ["rate_limit.requests_per_second"; "rate_limit.burst"; "rate_limit.cleanup_interval_sec"].
Definition member (k : string) (l : list string) : bool := existsb (String.eqb k) l.

(** The zero value of Go; all other settings are numbers. *)
Definition zero (k : string) : val :=
  if member k texts then Text "" else if member k flags then Flag false else if member k pointers then Unset
  else if String.eqb k "queue.backpressure_memory_percent" then Real 0 else Num 0.

(** What the file says, by the JSON decoder, and the environment, by envconfig: None where a
    setting is not mentioned (or null). A text that cannot be read as what the setting takes is
    an error of the decoder and ends the start; that is left out. *)
Definition source := string -> option val.
(** loadConfigFromFile, config/config.go:270-300. *)
Definition mentioned (file env : source) : conf :=
  fun k => match env k with Some v => v | None => match file k with Some v => v | None => zero k end end.

Definition second : Z := 1000000000.
Definition millisecond : Z := 1000000.
Definition minute : Z := 60 * second.

(** The three kinds of tests before a default is put in. *)
Definition if_empty (d : string) (v : val) : val := match v with Text EmptyString => Text d | _ => v end.
Definition if_zero (d : Z) (v : val) : val := match v with Num z => if z =? 0 then Num d else v | _ => v end.
Definition if_low (d : Z) (v : val) : val := match v with Num z => if z <=? 0 then Num d else v | _ => v end.

(** One assignment: the setting and what becomes of its value. *)
Definition step : Type := string * (val -> val).
Definition run (l : list step) (c : conf) : conf := fold_left (fun c s => put (fst s) (snd s (c (fst s))) c) l c.

(** setRedisDefaults, setDatabaseDefaults, config/config.go:517-539. *)
Definition redis_defaults : list step := [("redis.pool_size", if_zero 100); ("redis.min_idle_conns", if_zero 20)].
Definition database_defaults : list step :=
  [("data_source.max_open_conns", if_zero 50); ("data_source.max_idle_conns", if_zero 25);
   ("data_source.conn_max_lifetime", if_zero (30 * minute)); ("data_source.conn_max_idle_time", if_zero (5 * minute))].

(** setTransactionDefaults, config/config.go:415-441. int64 arithmetic. *)
Definition seconds (z : Z) : Z := DoorModel.wrap64 (z * second).
Definition lock_time (d : Z) (v : val) : val :=
  match v with Num z => if z =? 0 then Num d else if (0 <? z) && (z <? second) then Num (seconds z) else v | _ => v end.
Definition coalescing (v : val) : val := match v with Flag b => if negb b then Flag true else v | _ => v end.
Definition transaction_defaults : list step :=
  [("transaction.batch_size", if_zero 1000); ("transaction.max_queue_size", if_zero 1000); ("transaction.max_workers", if_zero 10);
   ("transaction.lock_duration", lock_time (5 * minute)); ("transaction.lock_wait_timeout", lock_time (3 * second));
   ("transaction.enable_coalescing", coalescing); ("transaction.index_queue_prefix", if_empty "transactions")].

(** setReconciliationDefaults, config/config.go:443-456; setTypeSenseDefaults, 458-462. *)
Definition reconciliation_defaults : list step :=
  [("reconciliation.default_strategy", if_empty "one_to_one"); ("reconciliation.progress_interval", if_zero 100);
   ("reconciliation.max_retries", if_zero 3); ("reconciliation.retry_delay", if_zero (5 * second))].
Definition typesense_defaults : list step := [("typesense.backpressure_retry_interval", if_low (5 * second))].

(** setQueueDefaults, config/config.go:464-515. *)
Definition ttl (v : val) : val := match v with Num z => if z =? 0 then Num (5 * minute) else Num (seconds z) | _ => v end.
Definition percent (v : val) : val := match v with Real q => if Qeq_bool q 0 then Real 85 else v | _ => v end.
Definition queue_defaults : list step :=
  [("queue.transaction_queue", if_empty "new:transaction"); ("queue.webhook_queue", if_empty "new:webhook");
   ("queue.index_queue", if_empty "new:index"); ("queue.inflight_expiry_queue", if_empty "new:inflight-expiry");
   ("queue.inflight_commit_queue", if_empty "new:inflight-commit"); ("queue.number_of_queues", if_zero 20);
   ("queue.hot_queue_name", if_empty "hot_transactions"); ("queue.hot_queue_concurrency", if_zero 1);
   ("queue.hot_pair_ttl", ttl); ("queue.hot_pair_lock_contention_threshold", if_zero 3);
   ("queue.max_retry_attempts", if_zero 5); ("queue.monitoring_port", if_empty "5004");
   ("queue.webhook_concurrency", if_zero 20); ("queue.transaction_worker_concurrency", if_zero 4);
   ("queue.backpressure_memory_percent", percent); ("queue.backpressure_check_interval", if_zero (500 * millisecond))].

(** setHashChainDefaults, config/config.go:402-413. *)
Definition hash_chain_defaults : list step :=
  [("transaction.hash_chain.poll_interval", if_low (5 * second)); ("transaction.hash_chain.batch_size", if_low 1000);
   ("transaction.hash_chain.trailing_delay", if_low (30 * second))].

(** setDefaultValues, config/config.go:351-400. *)
Definition defaults : list step :=
  [("project_name", if_empty "Blnk Server"); ("server.port", if_empty "5001"); ("server.max_upload_size_mb", if_low 256);
   ("server.max_request_body_size_mb", if_low 5); ("server.upload_url_timeout_sec", if_low 30); ("type_sense_key", if_empty "blnk-api-key")]
  ++ redis_defaults ++ database_defaults ++ transaction_defaults ++ reconciliation_defaults ++ typesense_defaults
  ++ queue_defaults ++ hash_chain_defaults.

(** trimWhitespace, config/config.go:541-546. *)
Definition trimmed (v : val) : val := match v with Text s => Text (QueueModel.trim s) | _ => v end.
Definition trims : list step :=
  [("project_name", trimmed); ("server.port", trimmed); ("data_source.dns", trimmed); ("redis.dns", trimmed)].

(** setupRateLimiting, config/config.go:589-620. Simplified: 2 * int(rps) does not overflow. *)
Definition rps : string := "rate_limit.requests_per_second".
Definition burst : string := "rate_limit.burst".
Definition cleanup : string := "rate_limit.cleanup_interval_sec".
Definition whole (q : Q) : Z := Z.quot (Qnum q) (Zpos (Qden q)).
Definition rate_limiting (c : conf) : conf :=
  let c := match c rps, c burst with
           | Unset, Unset => put burst (Num 10000000) (put rps (Real 5000000) c)
           | _, _ => c
           end in
  let c := match c rps, c burst with Real q, Unset => put burst (Num (2 * whole q)) c | _, _ => c end in
  let c := match c rps, c burst with Unset, Num b => put rps (Real (b # 2)) c | _, _ => c end in
  match c cleanup with Unset => put cleanup (Num 10800) c | _ => c end.

(** validateAndAddDefaults, validateRequiredFields, config/config.go:316-349. *)
Inductive loaded := NoDatabase | NoRedis | InForce (c : conf).
Definition is_empty (v : val) : bool := match v with Text EmptyString => true | _ => false end.
Definition load (file env : source) : loaded :=
  let c := mentioned file env in
  if is_empty (c "data_source.dns") then NoDatabase
  else if is_empty (c "redis.dns") then NoRedis
  else InForce (rate_limiting (run trims (run defaults c))).

(** InitConfig and Fetch, config/config.go:302-314: the configuration in force, None before the
    first, after starting with [file] and [env]. *)
Definition init (store : option conf) (file env : source) : option conf :=
  match load file env with InForce c => Some c | _ => store end.
