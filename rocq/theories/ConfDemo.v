(** The configuration: examples. *)
From Coq Require Import ZArith QArith List String Ascii Bool Lia.
From Verif Require QueueModel DoorModel.
From Verif Require Import ConfModel ConfSpec ConfProof.
Import ListNotations.
Local Open Scope string_scope.
Local Open Scope Z_scope.
Local Open Scope list_scope.

Definition says (l : list (string * val)) : source := fun k => match find (fun p => String.eqb (fst p) k) l with Some p => Some (snd p) | None => None end.
Definition blnk_json : source :=
  says [("project_name", Text " Acme "); ("data_source.dns", Text "postgres://db"); ("redis.dns", Text "redis:6379"); ("server.secure", Flag true);
        ("server.port", Text "8080"); ("queue.number_of_queues", Num 5); ("queue.hot_pair_ttl", Num 60); ("transaction.lock_duration", Num 120000000000);
        ("transaction.enable_coalescing", Flag false); ("rate_limit.requests_per_second", Real (5 # 2))].
Definition environment : source := says [("server.port", Text "9090"); ("queue.number_of_queues", Num 0)].
Definition no_env : source := fun _ => None.
Definition in_force (l : loaded) : conf := match l with InForce c => c | _ => fun _ => Unset end.
Definition accepted (l : loaded) : bool := match l with InForce _ => true | _ => false end.
Lemma in_force_is l : accepted l = true -> l = InForce (in_force l).
Proof. destruct l; [discriminate|discriminate|reflexivity]. Qed.
Definition demo : conf := in_force (load blnk_json environment).

Theorem conf_example : load blnk_json environment = InForce demo /\
  map demo ["project_name"; "data_source.dns"; "server.secure"; "server.port"; "queue.number_of_queues"; "queue.hot_pair_ttl";
            "transaction.lock_duration"; "transaction.enable_coalescing"; "rate_limit.requests_per_second"; "rate_limit.burst";
            "queue.webhook_queue"; "backup_dir"] =
  [Text "Acme"; Text "postgres://db"; Flag true; Text "9090"; Num 20; Num 60000000000;
   Num 120000000000; Flag true; Real (5 # 2); Num 4; Text "new:webhook"; Text ""].
Proof. split; [apply in_force_is; vm_compute; reflexivity|vm_compute; reflexivity]. Qed.

(** What the declaration says of backpressure is not heeded. *)
Theorem backpressure_wrong f e c : load f e = InForce c -> left_out f e "queue.enable_backpressure" -> c "queue.enable_backpressure" = Flag false.
Proof. intros E L. apply left_out_is in L. rewrite (loaded_at _ _ _ _ E) by discriminate. rewrite L. reflexivity. Qed.

(** Five minutes, given as a duration, become over a century. *)
Theorem ttl_wrong : exists f e c, load f e = InForce c /\ given f e "queue.hot_pair_ttl" (Num 300000000000) /\
  c "queue.hot_pair_ttl" = Num 4852094820647174144.
Proof.
  exists blnk_json, (says [("queue.hot_pair_ttl", Num 300000000000)]), (in_force (load blnk_json (says [("queue.hot_pair_ttl", Num 300000000000)]))).
  split; [apply in_force_is; vm_compute; reflexivity|]. split; [left; reflexivity|vm_compute; reflexivity].
Qed.

(** A blank address passes the check and is emptied after it; so are name and port. *)
Theorem blank_wrong : exists f e c, load f e = InForce c /\ given f e "data_source.dns" (Text " ") /\ given f e "server.port" (Text " ") /\
  c "data_source.dns" = Text "" /\ c "server.port" = Text "".
Proof.
  pose (f := says [("data_source.dns", Text " "); ("redis.dns", Text "redis:6379"); ("server.port", Text " ")]).
  exists f, no_env, (in_force (load f no_env)). split; [apply in_force_is; vm_compute; reflexivity|].
  split; [right; split; reflexivity|]. split; [right; split; reflexivity|]. split; vm_compute; reflexivity.
Qed.

(** Less than one request a second, and no burst: none is let through. *)
Theorem burst_wrong : exists f e c, load f e = InForce c /\ given f e "rate_limit.requests_per_second" (Real (1 # 2)) /\
  left_out f e "rate_limit.burst" /\ c "rate_limit.burst" = Num 0.
Proof.
  pose (f := says [("data_source.dns", Text "postgres://db"); ("redis.dns", Text "redis:6379"); ("rate_limit.requests_per_second", Real (1 # 2))]).
  exists f, no_env, (in_force (load f no_env)). split; [apply in_force_is; vm_compute; reflexivity|].
  split; [right; split; reflexivity|]. split; [split; reflexivity|]. vm_compute; reflexivity.
Qed.
