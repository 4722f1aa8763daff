(** Who may use the API: the master key, API keys, their scopes and the cached copies of
    them. *)
From Coq Require Import ZArith List String Ascii Bool.
From Verif Require Import Base.
Import ListNotations.
Local Open Scope string_scope.
Open Scope Z_scope.

(** ** Scopes *)

(** strings.Split with a separator of one character. *)
Fixpoint cut (sep : ascii) (s : string) : list string :=
  match s with
  | EmptyString => [""]
  | String c r =>
    if Ascii.eqb c sep then "" :: cut sep r
    else match cut sep r with p :: l => String c p :: l | [] => [] end
  end.

(** methodToAction, api/middleware/scope.go:55-62. *)
Definition action_of (method : string) : string :=
  if String.eqb method "GET" || String.eqb method "HEAD" then "read"
  else if String.eqb method "POST" || String.eqb method "PUT" || String.eqb method "PATCH" then "write"
  else if String.eqb method "DELETE" then "delete" else "".

(** ParseScope, scope.go:70-76. *)
Definition parse_scope (s : string) : string * string :=
  match cut ":" s with [r; a] => (r, a) | _ => ("", "") end.

(** HasPermission, scope.go:79-105. *)
Definition has_permission (scopes : list string) (resource method : string) : bool :=
  let action := action_of method in
  if String.eqb action "" then false
  else existsb (fun s =>
    let '(r, a) := parse_scope s in
    let fits := String.eqb a "*" || String.eqb a action in
    if String.eqb r "*" then fits else if String.eqb r resource then fits else false) scopes.

(** ScopeCovers, scope.go:108-125. *)
Definition scope_covers (granted requested : string) : bool :=
  let '(gr, ga) := parse_scope granted in
  let '(rr, ra) := parse_scope requested in
  if String.eqb gr "" || String.eqb ga "" || String.eqb rr "" || String.eqb ra "" then false
  else if String.eqb gr "*" then String.eqb ga "*" || String.eqb ga ra
  else if negb (String.eqb gr rr) then false
  else String.eqb ga "*" || String.eqb ga ra.

(** CanGrantScopes, scope.go:128-144. *)
Definition can_grant (caller requested : list string) : bool :=
  forallb (fun r => existsb (fun g => scope_covers g r) caller) requested.

(** pathToResource and getResourceFromPath, api/middleware/auth.go:51-64, 89-117. *)
Definition resources : list string :=
  ["ledgers"; "balances"; "accounts"; "identities"; "transactions"; "balance-monitors"; "hooks"; "api-keys";
   "search"; "reconciliation"; "metadata"; "backup"].
Definition first_part (path : string) : string :=
  match cut "/" (match path with String "/" r => r | _ => path end) with p :: _ => p | [] => "" end.
Definition resource_of (path : string) : string :=
  let p := first_part path in
  if String.eqb p "mocked-account" then "accounts"
  else if String.eqb p "multi-search" then "search"
  else if String.eqb p "refund-transaction" then "transactions"
  else if existsb (String.eqb p) resources then p
  else "".

(** ** Keys *)

(** A row of blnk.api_keys, model/api_key.go:9-20. Simplified: bcrypt is taken to be
    perfect, so the secret stands for its hash (database/api_key.go:23-35); the name and
    the times of creation and last use are left out. [k_by] is not stored: the id of the
    key whose holder asked for this one, None for the master key. *)
Record akey := { k_id : string; k_secret : string; k_owner : string; k_scopes : list string; k_expires : Z;
                 k_revoked : bool; k_by : option string }.

(** getKeyPrefix, database/api_key.go:38-43, and the cache key made of it (47-49). *)
Definition key_prefix (s : string) : string := substring 0 16 s.

(** IsValid, model/api_key.go:49-53. *)
Definition is_valid (now : Z) (k : akey) : bool := negb (k_revoked k) && (now <? k_expires k).

Definition revoke_key (k : akey) : akey :=
  {| k_id := k_id k; k_secret := k_secret k; k_owner := k_owner k; k_scopes := k_scopes k; k_expires := k_expires k;
     k_revoked := true; k_by := k_by k |}.

(** ** Requests *)

(** What the middleware and the handlers of /api-keys read of a request: header, method,
    path, ?owner=, and owner, scopes, expires_at of the body. [q_on]: the process that
    serves it. Simplified: the name of a new key is given. *)
Record request := { q_on : nat; q_key : string; q_method : string; q_path : string; q_owner : string;
                    q_body_owner : string; q_scopes : list string; q_expires : Z }.

Inductive principal := Anyone | Master | Holder (k : akey).

(** server.secure, server.secret_key; [c_extra]: how much longer than its minute the
    library keeps an entry in the memory of a process, at most (NewTinyLFU,
    internal/cache/cache.go:86, 111). Times are in seconds. *)
Record aconfig := { c_secure : bool; c_secret : string; c_extra : Z }.
Definition shared_ttl : Z := 300.   (* database/api_key.go:176 *)
Definition local_ttl : Z := 60.     (* internal/cache/cache.go:86, 111 *)

Inductive outcome := Denied (code : string) | Listed (l : list akey) | Created (k : akey) | Served.

(** Where the handling of a request has got to. *)
Inductive phase :=
| PLocal                       (* Cache.Get: the memory of the process, database/api_key.go:133 *)
| PShared                      (* Cache.Get: Redis *)
| PQuery                       (* SELECT by key_prefix, api_key.go:143-182 *)
| PKeepLocal (k : akey)        (* Cache.Set: memory, api_key.go:176 *)
| PKeepShared (k : akey)       (* Cache.Set: Redis *)
| PJudge (k : akey)            (* auth.go:245-284 *)
| PServe (p : principal)       (* the handler *)
| PDropLocal (prefix : string) (* Cache.Delete: memory, api_key.go:257 *)
| PDropShared (prefix : string)(* Cache.Delete: Redis *)
| PEnd (o : outcome).

(** Authenticate up to the lookup, auth.go:191-240. (config.Fetch does not fail once the
    server runs.) *)
Definition arrival (cfg : aconfig) (q : request) : phase :=
  if existsb (String.eqb (q_path q)) ["/"; "/health"; "/metrics"] then PServe Anyone
  else if negb (c_secure cfg) then PServe Anyone
  else if String.eqb (q_key q) "" then PEnd (Denied "AUTH_MISSING_API_KEY")
  else if negb (String.eqb (c_secret cfg) "") && String.eqb (c_secret cfg) (q_key q) then PServe Master
  else PLocal.

(** The rest of it, auth.go:247-284. *)
Definition judge (now : Z) (q : request) (k : akey) : phase :=
  if negb (is_valid now k) then PEnd (Denied "AUTH_EXPIRED_API_KEY")
  else if String.eqb (resource_of (q_path q)) "" then PEnd (Denied "AUTH_UNKNOWN_RESOURCE")
  else if negb (has_permission (k_scopes k) (resource_of (q_path q)) (q_method q)) then PEnd (Denied "AUTH_INSUFFICIENT_PERMISSIONS")
  else PServe (Holder k).

(** resolveAPIKeyOwner, api/apikeys.go:39-58. *)
Definition resolve_owner (p : principal) (requested : string) (required : bool) : string + string :=
  match p with
  | Master => if required && String.eqb requested "" then inr "APIKEY_OWNER_REQUIRED" else inl requested
  | Anyone => inr "AUTH_MISSING_PRINCIPAL"
  | Holder k => if negb (String.eqb requested "") && negb (String.eqb requested (k_owner k)) then inr "AUTH_CROSS_OWNER_ACCESS"
                else inl (k_owner k)
  end.
(** validateGrantedScopes, apikeys.go:60-74. *)
Definition may_grant (p : principal) (requested : list string) : bool :=
  match p with Master => true | Anyone => false | Holder k => can_grant (k_scopes k) requested end.

Record job := { j_req : request; j_start : Z; j_phase : phase }.
Definition with_phase (j : job) (p : phase) : job := {| j_req := j_req j; j_start := j_start j; j_phase := p |}.

(** A request that was let through to its handler. *)
Record entry := { g_req : request; g_who : principal; g_at : Z }.

Definition cache := string -> option (akey * Z).      (* by prefix: a copy, and when it goes *)
Record system := { y_now : Z; y_keys : list akey; y_shared : cache; y_local : nat -> cache; y_jobs : list job;
                   y_log : list entry }.
Definition nothing : system :=
  {| y_now := 0; y_keys := []; y_shared := fun _ => None; y_local := fun _ _ => None; y_jobs := []; y_log := [] |}.

Definition put (c : cache) (k : string) (v : option (akey * Z)) : cache := fun x => if String.eqb x k then v else c x.
Definition put_local (l : nat -> cache) (n : nat) (c : cache) : nat -> cache := fun m => if Nat.eqb m n then c else l m.
Definition fresh (now : Z) (v : option (akey * Z)) : option akey :=
  match v with Some (k, t) => if now <? t then Some k else None | None => None end.

Fixpoint set_at {A} (n : nat) (a : A) (l : list A) : list A :=
  match l, n with [], _ => [] | _ :: r, O => a :: r | x :: r, S n => x :: set_at n a r end.

(** What chance decides about a move: whether the call made succeeds, how much longer than
    a minute an entry stays in memory, and the id and secret of a new key (model/api_key.go:23-47). *)
Record chance := { x_ok : bool; x_extra : Z; x_id : string; x_secret : string }.

Definition with_keys l y := {| y_now := y_now y; y_keys := l; y_shared := y_shared y; y_local := y_local y; y_jobs := y_jobs y; y_log := y_log y |}.
Definition with_shared c y := {| y_now := y_now y; y_keys := y_keys y; y_shared := c; y_local := y_local y; y_jobs := y_jobs y; y_log := y_log y |}.
Definition with_local n c y := {| y_now := y_now y; y_keys := y_keys y; y_shared := y_shared y; y_local := put_local (y_local y) n c;
                                  y_jobs := y_jobs y; y_log := y_log y |}.
Definition with_jobs l y := {| y_now := y_now y; y_keys := y_keys y; y_shared := y_shared y; y_local := y_local y; y_jobs := l; y_log := y_log y |}.
Definition with_log l y := {| y_now := y_now y; y_keys := y_keys y; y_shared := y_shared y; y_local := y_local y; y_jobs := y_jobs y; y_log := l |}.

Definition extra (cfg : aconfig) (x : chance) : Z := Z.max 0 (Z.min (x_extra x) (c_extra cfg)).
Definition keep_local (cfg : aconfig) (x : chance) (n : nat) (p : string) (k : akey) (y : system) : system :=
  with_local n (put (y_local y n) p (Some (k, y_now y + local_ttl + extra cfg x))) y.

(** The routes of API keys, api/api.go:145-148. *)
Inductive ask := ACreate | AList | ARevoke (id : string) | AOther.
Definition ask_of (q : request) : ask :=
  match cut "/" (q_path q) with
  | a :: b :: l =>
    if String.eqb a "" && String.eqb b "api-keys" then
      match l with
      | [] => if String.eqb (q_method q) "POST" then ACreate else if String.eqb (q_method q) "GET" then AList else AOther
      | [id] => if String.eqb (q_method q) "DELETE" then ARevoke id else AOther
      | _ => AOther
      end
    else AOther
  | _ => AOther
  end.

(** The handlers: CreateAPIKey (apikeys.go:100-130, database/api_key.go:66-115), ListAPIKeys
    (apikeys.go:136-154), RevokeAPIKey (apikeys.go:160-190, database/api_key.go:204-266: the
    two statements are one step, nothing can change between them), those of /hooks, which
    ask for the master key (api/hooks.go:29-36), and all others, which do not look at who
    is calling. A generator that repeats itself is not modelled: nothing happens then. *)
Definition serve (x : chance) (q : request) (p : principal) (y : system) : system * phase :=
  if String.eqb (first_part (q_path q)) "hooks" then
    (y, PEnd (match p with Master => Served | _ => Denied "AUTH_MASTER_KEY_REQUIRED" end))
  else match ask_of q with
  | ACreate =>
    if String.eqb (q_body_owner q) "" then (y, PEnd (Denied "GEN_MALFORMED_REQUEST"))
    else match resolve_owner p (q_body_owner q) true with
    | inr c => (y, PEnd (Denied c))
    | inl owner =>
      if negb (may_grant p (q_scopes q)) then (y, PEnd (Denied "AUTH_SCOPE_ESCALATION"))
      else if negb (x_ok x) then (y, PEnd (Denied "GEN_INTERNAL"))
      else if existsb (fun r => String.eqb (k_id r) (x_id x) || String.eqb (k_secret r) (x_secret x)) (y_keys y) then (y, PServe p)
      else
        let k := {| k_id := x_id x; k_secret := x_secret x; k_owner := owner; k_scopes := q_scopes q; k_expires := q_expires q;
                    k_revoked := false; k_by := match p with Holder c => Some (k_id c) | _ => None end |} in
        (with_keys (y_keys y ++ [k]) y, PEnd (Created k))
    end
  | AList =>
    match resolve_owner p (q_owner q) (match p with Master => true | _ => false end) with
    | inr c => (y, PEnd (Denied c))
    | inl owner => (y, PEnd (if x_ok x then Listed (filter (fun k => String.eqb (k_owner k) owner) (y_keys y)) else Denied "GEN_INTERNAL"))
    end
  | ARevoke id =>
    match resolve_owner p (q_owner q) (match p with Master => true | _ => false end) with
    | inr c => (y, PEnd (Denied c))
    | inl owner =>
      let hit k := String.eqb (k_id k) id && String.eqb (k_owner k) owner in
      if negb (x_ok x) then (y, PEnd (Denied "GEN_INTERNAL"))
      else match find hit (y_keys y) with
           | None => (y, PEnd (Denied "APIKEY_NOT_FOUND"))
           | Some k => (with_keys (map (fun k => if hit k then revoke_key k else k) (y_keys y)) y, PDropLocal (key_prefix (k_secret k)))
           end
    end
  | AOther => (y, PEnd Served)
  end.

(** One step of the handling of a request. *)
Definition step (cfg : aconfig) (x : chance) (j : job) (y : system) : system * phase :=
  let q := j_req j in
  let p := key_prefix (q_key q) in
  let mine c := String.eqb (k_secret c) (q_key q) in
  match j_phase j with
  | PLocal => (y, match fresh (y_now y) (y_local y (q_on q) p) with
                  | Some c => if mine c then PJudge c else PQuery
                  | None => PShared
                  end)
  | PShared => if negb (x_ok x) then (y, PQuery)
               else match fresh (y_now y) (y_shared y p) with
                    | Some c => (keep_local cfg x (q_on q) p c y, if mine c then PJudge c else PQuery)
                    | None => (y, PQuery)
                    end
  | PQuery => (y, if negb (x_ok x) then PEnd (Denied "AUTH_INVALID_API_KEY")
                  else match find (fun k => String.eqb (key_prefix (k_secret k)) p && mine k) (y_keys y) with
                       | Some k => PKeepLocal k
                       | None => PEnd (Denied "AUTH_INVALID_API_KEY")
                       end)
  | PKeepLocal k => (keep_local cfg x (q_on q) p k y, PKeepShared k)
  | PKeepShared k => (if x_ok x then with_shared (put (y_shared y) p (Some (k, y_now y + shared_ttl))) y else y, PJudge k)
  | PJudge k =>
    match judge (y_now y) q k with
    | PServe w => (with_log (y_log y ++ [{| g_req := q; g_who := w; g_at := y_now y |}]) y, PServe w)
    | ph => (y, ph)
    end
  | PServe w => serve x q w y
  | PDropLocal pre => (with_local (q_on q) (put (y_local y (q_on q)) pre None) y, PDropShared pre)
  | PDropShared pre => (if x_ok x then with_shared (put (y_shared y) pre None) y else y, PEnd Served)
  | PEnd o => (y, PEnd o)
  end.

(** What can happen: a request arrives, a job takes a step, time passes, an entry is
    evicted from Redis or from the memory of a process (which also covers a restart). *)
Inductive event := ERequest (q : request) | EStep (i : nat) (x : chance) | ETick (d : Z)
                 | EEvictShared (p : string) | EEvictLocal (n : nat) (p : string).

Definition happen (cfg : aconfig) (e : event) (y : system) : system :=
  match e with
  | ERequest q =>
    let y' := match arrival cfg q with
              | PServe w => with_log (y_log y ++ [{| g_req := q; g_who := w; g_at := y_now y |}]) y
              | _ => y
              end in
    with_jobs (y_jobs y ++ [{| j_req := q; j_start := y_now y; j_phase := arrival cfg q |}]) y'
  | EStep i x =>
    match nth_error (y_jobs y) i with
    | Some j => let '(y', ph) := step cfg x j y in with_jobs (set_at i (with_phase j ph) (y_jobs y)) y'
    | None => y
    end
  | ETick d => {| y_now := y_now y + Z.max 0 d; y_keys := y_keys y; y_shared := y_shared y; y_local := y_local y;
                  y_jobs := y_jobs y; y_log := y_log y |}
  | EEvictShared p => with_shared (put (y_shared y) p None) y
  | EEvictLocal n p => with_local n (put (y_local y n) p None) y
  end.

Fixpoint play (cfg : aconfig) (es : list event) (y : system) : system :=
  match es with [] => y | e :: r => play cfg r (happen cfg e y) end.
