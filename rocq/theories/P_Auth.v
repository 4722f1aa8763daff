(** C37: nobody gets past the check of API keys without the right to. *)
From Coq Require Import ZArith List String Bool.
From Verif Require Import AuthThms AuthAdmit AuthDemo.
From Verif Require Import Base AuthModel AuthSpec.
Import ListNotations.
Local Open Scope list_scope.
Open Scope Z_scope.

(** Whatever requests arrive at whatever processes, however their checks interleave,
    whichever cache or database calls fail: a request that got to its handler came without
    need of a key, or with the master key, or with the secret of a key that was issued, had
    not expired and has a scope for the area and the operation; and the handler was told
    that key's id, owner and scopes. *)
Theorem C37_entitled : forall cfg es g, let y := play cfg es nothing in
  In g (y_log y) -> entitled cfg (y_keys y) g.
Proof. exact let_in_entitled. Qed.
Print Assumptions C37_entitled.

(** Every request that is being served, or was answered with anything but a refusal, is one
    of those. *)
Theorem C37_answered : forall cfg es j, let y := play cfg es nothing in
  In j (y_jobs y) -> through (j_phase j) ->
  exists g, In g (y_log y) /\ g_req g = j_req j /\ entitled cfg (y_keys y) g.
Proof. exact answered_let_in. Qed.
Print Assumptions C37_answered.

(** A key made with another key has the same owner and no right the other lacks. *)
Theorem C37_no_escalation : forall cfg es k id, let y := play cfg es nothing in
  In k (y_keys y) -> k_by k = Some id ->
  exists p, In p (y_keys y) /\ k_id p = id /\ k_owner p = k_owner k
    /\ forall res act, grants (k_scopes k) res act -> grants (k_scopes p) res act.
Proof. exact parent_of. Qed.
Print Assumptions C37_no_escalation.

(** So every key goes back, over any number of generations, to one made with the master
    key, for the same owner and with at least its rights. *)
Theorem C37_family : forall cfg es k, let y := play cfg es nothing in
  In k (y_keys y) ->
  exists r, descends (y_keys y) k r /\ k_by r = None /\ k_owner r = k_owner k
    /\ forall res act, grants (k_scopes k) res act -> grants (k_scopes r) res act.
Proof. exact family. Qed.
Print Assumptions C37_family.

(** A listing shows keys of one owner: the caller's, or the one the master key named. *)
Theorem C37_own_list : forall cfg es j l, let y := play cfg es nothing in
  In j (y_jobs y) -> j_phase j = PEnd (Listed l) ->
  exists g, In g (y_log y) /\ g_req g = j_req j /\ Forall (of_owner g (q_owner (j_req j))) l.
Proof. exact own_lists. Qed.
Print Assumptions C37_own_list.

(** A key is revoked only by a request to revoke it, from its owner's side or with the
    master key naming the owner. *)
Theorem C37_own_revoke : forall cfg es k, let y := play cfg es nothing in
  In k (y_keys y) -> k_revoked k = true ->
  exists g, In g (y_log y) /\ q_method (g_req g) = "DELETE"%string /\ q_path (g_req g) = ("/api-keys/" ++ k_id k)%string
    /\ of_owner g (q_owner (g_req g)) k.
Proof. exact own_revokes. Qed.
Print Assumptions C37_own_revoke.

(** Six minutes after a key was revoked it is dead everywhere: no request carrying it is let
    through as its holder, if no check takes longer than [d] seconds. *)
Theorem C37_revoked : forall cfg d es1 es2 k, 0 <= d ->
  let y1 := play cfg es1 nothing in let y2 := play cfg es2 y1 in
  In k (y_keys y1) -> k_revoked k = true -> all_along (prompt d) cfg es2 y1 ->
  exists new, y_log y2 = y_log y1 ++ new /\
  forall g c, In g new -> g_who g = Holder c -> q_key (g_req g) = k_secret k ->
    g_at g < y_now y1 + 360 + Z.max 0 (c_extra cfg) + 2 * d.
Proof. exact revoked_soon. Qed.
Print Assumptions C37_revoked.

(** A key that is neither revoked nor expired is not turned away: from every reachable
    state, whatever the caches hold, a request with it that its scopes allow gets to its
    handler within six calls, if those succeed. *)
Theorem C37_admitted : forall cfg es q x k, let y := play cfg es nothing in
  In k (y_keys y) -> k_secret k = q_key q -> k_revoked k = false -> y_now y < k_expires k -> may k q ->
  q_key q <> ""%string -> q_key q <> c_secret cfg -> x_ok x = true ->
  exists n j w, (n <= 6)%nat
    /\ nth_error (y_jobs (play cfg (ERequest q :: repeat (EStep (List.length (y_jobs y)) x) n) y)) (List.length (y_jobs y)) = Some j
    /\ j_req j = q /\ j_phase j = PServe w /\ (c_secure cfg = true -> exists c, w = Holder c /\ k_id c = k_id k).
Proof. exact good_key_admitted. Qed.
Print Assumptions C37_admitted.

(** Hooks are managed with the master key only. *)
Theorem C37_hooks : forall cfg es j o, let y := play cfg es nothing in
  In j (y_jobs y) -> first_part (q_path (j_req j)) = "hooks"%string -> j_phase j = PEnd o -> (forall code, o <> Denied code) ->
  q_key (j_req j) = c_secret cfg /\ c_secret cfg <> ""%string.
Proof. exact hooks_master. Qed.
Print Assumptions C37_hooks.

(** A key is made, used at one process, revoked at another and accepted again by the first,
    and one made with it is used after its revocation. *)
Example C37_example : last_log (play shop used nothing) = Some ("key1"%string, 0)
  /\ y_keys (play shop struck nothing) = [revoke_key key1]
  /\ last_log (play shop again (play shop struck nothing)) = Some ("key1"%string, 59)
  /\ y_keys (play shop heir nothing) = [revoke_key key1; key2]
  /\ last_log (play shop heir nothing) = Some ("key2"%string, 50000000).
Proof. exact (conj used_log (conj (proj2 struck_confirmed) (conj again_let_in (conj heir_keys heir_let_in)))). Qed.
(** The time limit is met with nothing to spare but a second: a check that overlaps with the
    revocation writes the old copy of the key back. *)
Example C37_revoked_example : y_keys (play shop raced nothing) = [revoke_key key1] /\ y_now (play shop raced nothing) = 0
  /\ all_along (prompt 0) shop lingering (play shop raced nothing)
  /\ last_log (play shop lingering (play shop raced nothing)) = Some ("key1"%string, 358).
Proof. exact (conj (proj2 raced_confirmed) (conj raced_now (conj (alongb_ok _ _ _ _ lingering_prompt) lingering_let_in))). Qed.

(** A revocation that was confirmed, with nothing else going on, does not take effect at
    once. *)
Theorem C37_revoked_at_once_refuted : ~ (forall cfg es es' k i j g c,
  let y := play cfg es nothing in
  In k (y_keys y) -> k_revoked k = true -> nth_error (y_jobs y) i = Some j -> j_phase j = PEnd Served ->
  j_req j = ask_revoke 0 (c_secret cfg) (k_owner k) (k_id k) ->
  (forall j', In j' (y_jobs y) -> ~ checking (j_phase j')) ->
  In g (skipn (List.length (y_log y)) (y_log (play cfg es' y))) -> g_who g = Holder c -> k_id c <> k_id k).
Proof. exact revoked_elsewhere. Qed.
Print Assumptions C37_revoked_at_once_refuted.

(** Nor within the five minutes of the shared cache. *)
Theorem C37_revoked_in_five_minutes_refuted : ~ (forall cfg es1 es2 k g c,
  let y1 := play cfg es1 nothing in let y2 := play cfg es2 y1 in
  In k (y_keys y1) -> k_revoked k = true -> all_along (prompt 0) cfg es2 y1 -> In g (y_log y2) -> g_who g = Holder c -> k_id c = k_id k ->
  g_at g < y_now y1 + 358).
Proof. exact revoked_slowly. Qed.
Print Assumptions C37_revoked_in_five_minutes_refuted.

(** A key made with another key may expire later, and is good after the revocation and the
    expiry of the other. *)
Theorem C37_child_expires_refuted : ~ (forall cfg es k p, let y := play cfg es nothing in
  In k (y_keys y) -> In p (y_keys y) -> k_by k = Some (k_id p) -> k_expires k <= k_expires p).
Proof. exact child_outlives. Qed.
Print Assumptions C37_child_expires_refuted.
Theorem C37_child_revoked_refuted : ~ (forall cfg es k p g c, let y := play cfg es nothing in
  In k (y_keys y) -> In p (y_keys y) -> k_by k = Some (k_id p) -> k_revoked p = true ->
  In g (y_log y) -> g_who g = Holder c -> k_id c = k_id k -> g_at g < k_expires p).
Proof. exact child_of_revoked. Qed.
Print Assumptions C37_child_revoked_refuted.

(** Three endpoints cannot be used with any key, not even one with the scope *:*. *)
Theorem C37_out_of_reach : forall cfg es g c, In g (y_log (play cfg es nothing)) -> g_who g = Holder c ->
  ~ In (q_path (g_req g)) ["/balances-snapshots"; "/backup-s3"]%string
  /\ forall id, In (substring 0 4 id) ["ldg_"; "bln_"; "txn_"; "idt_"]%string ->
       q_path (g_req g) <> ("/" ++ id ++ "/metadata")%string.
Proof. exact out_of_reach. Qed.
Print Assumptions C37_out_of_reach.

(** A key that may only write identities is let through to the endpoint that shows their
    protected fields. *)
Theorem C37_reading_needs_read_refuted : ~ (forall cfg es g c, In g (y_log (play cfg es nothing)) -> g_who g = Holder c ->
  q_path (g_req g) = "/identities/idt_1/detokenize"%string -> grants (k_scopes c) "identities" "read").
Proof. exact write_reads. Qed.
Print Assumptions C37_reading_needs_read_refuted.
