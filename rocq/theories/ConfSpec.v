(** What a configuration should come to: the settings there are, the default declared for each,
    and what it means that a setting is given or left out. *)
From Coq Require Import ZArith QArith List String Ascii Bool.
From Verif Require Import ConfModel.
Import ListNotations.
Local Open Scope string_scope.
Local Open Scope Z_scope.
Local Open Scope list_scope.

(** Setting [k] has the value [v]: the environment says so, or the file and the environment
    nothing. *)
Definition given (file env : source) (k : string) (v : val) : Prop := env k = Some v \/ env k = None /\ file k = Some v.
Definition left_out (file env : source) (k : string) : Prop := env k = None /\ file k = None.

(** The defaults declared in config/config.go:34-105, 381-393 and 402-413. Durations in
    nanoseconds. *)
Definition declared : list (string * val) :=
  [("project_name", Text "Blnk Server"); ("server.port", Text "5001"); ("type_sense_key", Text "blnk-api-key");
   ("server.max_upload_size_mb", Num 256); ("server.max_request_body_size_mb", Num 5); ("server.upload_url_timeout_sec", Num 30);
   ("transaction.batch_size", Num 1000); ("transaction.max_queue_size", Num 1000); ("transaction.max_workers", Num 10);
   ("transaction.lock_duration", Num 300000000000); ("transaction.lock_wait_timeout", Num 3000000000);
   ("transaction.index_queue_prefix", Text "transactions"); ("transaction.enable_coalescing", Flag true);
   ("transaction.enable_queued_checks", Flag false); ("transaction.disable_batch_reference_check", Flag false);
   ("transaction.hash_chain.enabled", Flag false); ("transaction.hash_chain.poll_interval", Num 5000000000);
   ("transaction.hash_chain.batch_size", Num 1000); ("transaction.hash_chain.trailing_delay", Num 30000000000);
   ("reconciliation.default_strategy", Text "one_to_one"); ("reconciliation.progress_interval", Num 100);
   ("reconciliation.max_retries", Num 3); ("reconciliation.retry_delay", Num 5000000000);
   ("typesense.backpressure_retry_interval", Num 5000000000);
   ("queue.transaction_queue", Text "new:transaction"); ("queue.webhook_queue", Text "new:webhook"); ("queue.index_queue", Text "new:index");
   ("queue.inflight_expiry_queue", Text "new:inflight-expiry"); ("queue.inflight_commit_queue", Text "new:inflight-commit");
   ("queue.number_of_queues", Num 20); ("queue.enable_hot_lane", Flag false); ("queue.hot_queue_name", Text "hot_transactions");
   ("queue.hot_queue_concurrency", Num 1); ("queue.hot_pair_ttl", Num 300000000000); ("queue.hot_pair_lock_contention_threshold", Num 3);
   ("queue.reject_lock_contention_immediately", Flag false); ("queue.max_retry_attempts", Num 5); ("queue.monitoring_port", Text "5004");
   ("queue.webhook_concurrency", Num 20); ("queue.transaction_worker_concurrency", Num 4);
   ("queue.backpressure_memory_percent", Real 85); ("queue.backpressure_check_interval", Num 500000000);
   ("redis.pool_size", Num 100); ("redis.min_idle_conns", Num 20);
   ("data_source.max_open_conns", Num 50); ("data_source.max_idle_conns", Num 25);
   ("data_source.conn_max_lifetime", Num 1800000000000); ("data_source.conn_max_idle_time", Num 300000000000);
   ("rate_limit.requests_per_second", Real 5000000); ("rate_limit.burst", Num 10000000); ("rate_limit.cleanup_interval_sec", Num 10800)].

(** Settings for which nothing is declared: off, empty or zero when left out. *)
Definition plain : list (string * val) :=
  [("backup_dir", Text ""); ("aws_access_key_id", Text ""); ("s3_endpoint", Text ""); ("aws_secret_access_key", Text "");
   ("s3_bucket_name", Text ""); ("s3_region", Text ""); ("tokenization_secret", Text ""); ("monitoring_dsn", Text "");
   ("server.cert_storage_path", Text ""); ("server.secret_key", Text ""); ("server.domain", Text ""); ("server.ssl_email", Text "");
   ("server.metrics_bearer_token", Text ""); ("server.upload_whitelist", Text ""); ("typesense.dns", Text "");
   ("notification.slack.webhook_url", Text ""); ("notification.webhook.url", Text "");
   ("server.ssl", Flag false); ("server.secure", Flag false); ("redis.skip_tls_verify", Flag false); ("enable_telemetry", Flag false);
   ("enable_observability", Flag false); ("queue.insufficient_fund_retries", Flag false); ("queue.backpressure_max_pending_tasks", Num 0)].

(** The settings whose blanks around do not count, those that must be positive, and the two lock
    times and the lifetime of a hot pair. *)
Definition names : list string := ["project_name"; "server.port"; "data_source.dns"; "redis.dns"].
Definition positives : list string :=
  ["server.max_upload_size_mb"; "server.max_request_body_size_mb"; "server.upload_url_timeout_sec"; "typesense.backpressure_retry_interval";
   "transaction.hash_chain.poll_interval"; "transaction.hash_chain.batch_size"; "transaction.hash_chain.trailing_delay"].
Definition lock_times : list string := ["transaction.lock_duration"; "transaction.lock_wait_timeout"].

(** Go's zero values: nothing tells them from a setting left out. *)
Definition nothing (v : val) : Prop :=
  match v with Text s => s = "" | Num z => z = 0 | Flag b => b = false | Real q => (q == 0)%Q | Unset => True end.
