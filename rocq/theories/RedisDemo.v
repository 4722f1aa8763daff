(** Concrete addresses of redis. *)
From Coq Require Import List String Ascii Bool Arith.
From Verif Require Import RedisModel RedisSpec RedisProof.
Import ListNotations.
Local Open Scope string_scope.
Local Open Scope list_scope.

(** What redis.ParseURL says about some addresses; a percent sign that starts no escape makes it fail. *)
Definition some_parse (t : string) : option options :=
  if String.eqb t "rediss://app:pw@r.example:6380/2" then Some {| addr := "r.example:6380"; user := "app"; password := "pw"; db := 2; secure := Checked |}
  else if String.eqb t "redis://:secret@r.example:6379" then Some {| addr := "r.example:6379"; user := ""; password := "secret"; db := 0; secure := Plain |}
  else None.

Lemma docker_form : host_and_port "redis:6379".
Proof. apply plain_test. reflexivity. Qed.
Lemma url_forms : ~ host_and_port "rediss://app:pw@r.example:6380/2" /\ (forall p h, ~ bare_password "rediss://app:pw@r.example:6380/2" p h).
Proof. split; [rewrite <- plain_test; discriminate|]. intros p h (K & _). discriminate K. Qed.
Lemma bare_form : bare_password "redis://secret@r.example:6379" "secret" "r.example:6379".
Proof. split; [reflexivity|]. repeat split; apply count_0; reflexivity. Qed.
Lemma odd_forms : bare_password "redis://100%sure@r.example:6379" "100%sure" "r.example:6379" /\ some_parse "redis://:100%sure@r.example:6379" = None /\
  some_parse "rediss://:100%sure@r.example:6380" = None /\ ~ within "redis.cache.windows.net" "r.example:6380".
Proof.
  split; [split; [reflexivity|]; repeat split; apply count_0; reflexivity|]. split; [reflexivity|]. split; [reflexivity|].
  rewrite <- contains_spec. discriminate.
Qed.

Lemma connections :
  main_client some_parse "redis:6379" true = {| addr := "redis:6379"; user := ""; password := ""; db := 0; secure := Plain |} /\
  main_client some_parse "rediss://app:pw@r.example:6380/2" false = {| addr := "r.example:6380"; user := "app"; password := "pw"; db := 2; secure := Checked |} /\
  queue_client some_parse "rediss://app:pw@r.example:6380/2" true = {| addr := "r.example:6380"; user := ""; password := "pw"; db := 2; secure := Unchecked |} /\
  main_client some_parse "redis://secret@r.example:6379" false = {| addr := "r.example:6379"; user := ""; password := "secret"; db := 0; secure := Plain |} /\
  main_client some_parse "key=@a.redis.cache.windows.net:6380" false = {| addr := "a.redis.cache.windows.net:6380"; user := ""; password := "key="; db := 0; secure := Checked |}.
Proof. repeat split; vm_compute; reflexivity. Qed.

Lemma some_cluster : cluster_client some_parse ["redis:6379"; "redis://secret@r.example:6379"; "rediss://app:pw@r.example:6380/2"] false =
  {| nodes := ["redis:6379"; "r.example:6379"; "r.example:6380"]; c_user := ""; c_password := "secret"; c_secure := Checked |}.
Proof. vm_compute. reflexivity. Qed.

Lemma user_lost_here : user (main_client some_parse "rediss://app:pw@r.example:6380/2" false) = "app" /\ user (queue_client some_parse "rediss://app:pw@r.example:6380/2" false) = "".
Proof. split; vm_compute; reflexivity. Qed.
