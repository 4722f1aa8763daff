(** C53. The configuration in force is the one written down, with the declared defaults. *)
From Coq Require Import ZArith QArith List String Ascii Bool.
From Verif Require QueueModel.
From Verif Require Import ConfModel ConfSpec ConfProof ConfDemo.
Import ListNotations.
Local Open Scope string_scope.
Local Open Scope Z_scope.
Local Open Scope list_scope.

(** The server starts if and only if both addresses are given. *)
Theorem C53_required : forall f e, (exists c, load f e = InForce c) <->
  (exists v, given f e "data_source.dns" v /\ v <> Text "") /\ (exists v, given f e "redis.dns" v /\ v <> Text "").
Proof. exact required. Qed.
Print Assumptions C53_required.

(** A setting given, and not zero, is in force as given. *)
Theorem C53_given : forall f e c k v, load f e = InForce c -> given f e k v -> ~ nothing v ->
  ~ In k names -> ~ In k lock_times -> k <> "queue.hot_pair_ttl" -> (In k positives -> exists z, v = Num z /\ 0 < z) -> c k = v.
Proof. exact given_kept. Qed.
Print Assumptions C53_given.

(** Rate limits are kept even if they are zero. *)
Theorem C53_rate_given : forall f e c k v, load f e = InForce c ->
  In k ["rate_limit.requests_per_second"; "rate_limit.burst"; "rate_limit.cleanup_interval_sec"] -> given f e k v -> v <> Unset -> c k = v.
Proof. exact rate_given. Qed.
Print Assumptions C53_rate_given.

Theorem C53_names : forall f e c k s, load f e = InForce c -> In k names -> given f e k (Text s) -> s <> "" -> c k = Text (QueueModel.trim s).
Proof. exact names_trimmed. Qed.
Print Assumptions C53_names.

(** Lock times of at least a second are kept. *)
Theorem C53_lock_times : forall f e c k z, load f e = InForce c -> In k lock_times -> given f e k (Num z) -> z < 0 \/ second <= z -> c k = Num z.
Proof. exact lock_times_kept. Qed.
Print Assumptions C53_lock_times.

(** The lifetime of a hot pair is a number of seconds. *)
Theorem C53_hot_pair_ttl : forall f e c z, load f e = InForce c -> given f e "queue.hot_pair_ttl" (Num z) -> 0 < z <= 9223372036 ->
  c "queue.hot_pair_ttl" = Num (z * second).
Proof. exact ttl_in_seconds. Qed.
Print Assumptions C53_hot_pair_ttl.

(** A setting left out has the default declared for it, or none. *)
Theorem C53_left_out : forall f e c k v, load f e = InForce c -> left_out f e k -> In (k, v) (declared ++ plain) ->
  k <> "rate_limit.requests_per_second" -> k <> "rate_limit.burst" -> c k = v.
Proof. exact left_out_default. Qed.
Print Assumptions C53_left_out.

(** Of two rate limits, one left out is made from the other. *)
Theorem C53_rates : forall f e c, load f e = InForce c ->
  let rps := "rate_limit.requests_per_second" in let burst := "rate_limit.burst" in
  (left_out f e rps -> left_out f e burst -> c rps = Real 5000000 /\ c burst = Num 10000000) /\
  (forall q, given f e rps (Real q) -> (0 <= q)%Q -> left_out f e burst ->
     c rps = Real q /\ exists z, c burst = Num (2 * z) /\ (inject_Z z <= q)%Q /\ (q < inject_Z (z + 1))%Q) /\
  (forall b, left_out f e rps -> given f e burst (Num b) -> c rps = Real (b # 2) /\ c burst = Num b).
Proof. exact rates. Qed.
Print Assumptions C53_rates.

(** What the environment says, the file cannot change. *)
Theorem C53_environment_wins : forall f f' e, (forall k, e k = None -> f k = f' k) ->
  match load f e, load f' e with
  | InForce c, InForce c' => forall k, c k = c' k
  | a, b => a = b
  end.
Proof. exact environment_wins. Qed.
Print Assumptions C53_environment_wins.

(** Settings do not influence each other. *)
Theorem C53_apart : forall f e f' e' c c' k, load f e = InForce c -> load f' e' = InForce c' -> f k = f' k -> e k = e' k ->
  k <> "rate_limit.requests_per_second" -> k <> "rate_limit.burst" -> c k = c' k.
Proof. exact settings_apart. Qed.
Print Assumptions C53_apart.

(** A configuration refused leaves the one in force. *)
Theorem C53_refused_keeps : forall store f e, (forall c, load f e <> InForce c) -> init store f e = store.
Proof. exact refused_keeps. Qed.
Print Assumptions C53_refused_keeps.
Theorem C53_accepted_replaces : forall store f e c, load f e = InForce c -> init store f e = Some c.
Proof. exact accepted_replaces. Qed.
Print Assumptions C53_accepted_replaces.

Theorem C53_example : load blnk_json environment = InForce demo /\
  map demo ["project_name"; "data_source.dns"; "server.secure"; "server.port"; "queue.number_of_queues"; "queue.hot_pair_ttl";
            "transaction.lock_duration"; "transaction.enable_coalescing"; "rate_limit.requests_per_second"; "rate_limit.burst";
            "queue.webhook_queue"; "backup_dir"] =
  [Text "Acme"; Text "postgres://db"; Flag true; Text "9090"; Num 20; Num 60000000000;
   Num 120000000000; Flag true; Real (5 # 2); Num 4; Text "new:webhook"; Text ""].
Proof. exact conf_example. Qed.
Print Assumptions C53_example.

(** Refuted: that coalescing can be switched off. *)
Theorem C53_off_refuted : forall f e c, load f e = InForce c -> given f e "transaction.enable_coalescing" (Flag false) -> c "transaction.enable_coalescing" = Flag true.
Proof. exact coalescing_on. Qed.
Print Assumptions C53_off_refuted.

(** Refuted: that a number set to zero is zero. *)
Theorem C53_zero_refuted : forall f e c k d, load f e = InForce c -> given f e k (Num 0) -> In (k, Num d) declared ->
  k <> "rate_limit.burst" -> k <> "rate_limit.cleanup_interval_sec" -> c k = Num d.
Proof. exact zero_is_default. Qed.
Print Assumptions C53_zero_refuted.

(** Refuted: that the default declared for backpressure, on, is put in. *)
Theorem C53_backpressure_refuted : forall f e c, load f e = InForce c -> left_out f e "queue.enable_backpressure" -> c "queue.enable_backpressure" = Flag false.
Proof. exact backpressure_wrong. Qed.
Print Assumptions C53_backpressure_refuted.

(** Refuted: that a lock time below a second is kept. It becomes a thousand million times as long. *)
Theorem C53_sub_second_refuted : forall f e c k z, load f e = InForce c -> In k lock_times -> given f e k (Num z) -> 0 < z < second -> c k = Num (z * second).
Proof. exact sub_second. Qed.
Print Assumptions C53_sub_second_refuted.

(** Refuted: that the lifetime of a hot pair may be given as a duration. *)
Theorem C53_ttl_refuted : exists f e c, load f e = InForce c /\ given f e "queue.hot_pair_ttl" (Num 300000000000) /\
  c "queue.hot_pair_ttl" = Num 4852094820647174144.
Proof. exact ttl_wrong. Qed.
Print Assumptions C53_ttl_refuted.

(** Refuted: that the server needs an address in force to start. *)
Theorem C53_blank_refuted : exists f e c, load f e = InForce c /\ given f e "data_source.dns" (Text " ") /\ given f e "server.port" (Text " ") /\
  c "data_source.dns" = Text "" /\ c "server.port" = Text "".
Proof. exact blank_wrong. Qed.
Print Assumptions C53_blank_refuted.

(** Refuted: that the burst put in lets requests through. *)
Theorem C53_burst_refuted : exists f e c, load f e = InForce c /\ given f e "rate_limit.requests_per_second" (Real (1 # 2)) /\
  left_out f e "rate_limit.burst" /\ c "rate_limit.burst" = Num 0.
Proof. exact burst_wrong. Qed.
Print Assumptions C53_burst_refuted.
