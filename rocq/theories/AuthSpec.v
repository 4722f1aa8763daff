(** What it means to be let in. *)
From Coq Require Import ZArith List String Ascii Bool.
From Verif Require Import Base AuthModel.
Import ListNotations.
Local Open Scope string_scope.
Open Scope Z_scope.

(** The areas of the API: first part of the path, and the resource a scope names. *)
Definition areas : list (string * string) :=
  [("ledgers", "ledgers"); ("balances", "balances"); ("accounts", "accounts"); ("mocked-account", "accounts");
   ("identities", "identities"); ("transactions", "transactions"); ("refund-transaction", "transactions");
   ("balance-monitors", "balance-monitors"); ("hooks", "hooks"); ("api-keys", "api-keys"); ("search", "search");
   ("multi-search", "search"); ("reconciliation", "reconciliation"); ("metadata", "metadata"); ("backup", "backup")].
Definition belongs (path res : string) : Prop :=
  exists part rest, In (part, res) areas /\ (path = "/" ++ part ++ rest \/ path = part ++ rest)
    /\ (rest = "" \/ exists r, rest = "/" ++ r).

Definition operations : list (string * string) :=
  [("GET", "read"); ("HEAD", "read"); ("POST", "write"); ("PUT", "write"); ("PATCH", "write"); ("DELETE", "delete")].

(** A list of scopes allows an action on a resource. *)
Definition grants (scopes : list string) (res act : string) : Prop :=
  exists r a, In (r ++ ":" ++ a) scopes /\ (r = "*" \/ r = res) /\ (a = "*" \/ a = act).

Definition may (k : akey) (q : request) : Prop :=
  exists res act, belongs (q_path q) res /\ In (q_method q, act) operations /\ grants (k_scopes k) res act.

(** A request let through had the right to be; [Holder c]: what the handler is told about
    the caller. *)
Definition entitled (cfg : aconfig) (keys : list akey) (g : entry) : Prop :=
  match g_who g with
  | Anyone => c_secure cfg = false \/ In (q_path (g_req g)) ["/"; "/health"; "/metrics"]
  | Master => q_key (g_req g) = c_secret cfg /\ c_secret cfg <> ""
  | Holder c => exists k, In k keys /\ k_secret k = q_key (g_req g) /\ g_at g < k_expires k /\ may k (g_req g)
                         /\ k_id c = k_id k /\ k_owner c = k_owner k /\ k_scopes c = k_scopes k
  end.

(** The request has reached its handler, or has been answered by it. *)
Definition through (p : phase) : Prop :=
  match p with
  | PServe _ | PDropLocal _ | PDropShared _ => True
  | PEnd (Denied _) => False
  | PEnd _ => True
  | _ => False
  end.

(** Nothing but the wall between owners: a listing shows, and a revocation strikes, keys
    of the caller's owner only; the master key names the owner. *)
Definition of_owner (g : entry) (asked : string) (k : akey) : Prop :=
  match g_who g with Master => k_owner k = asked | Holder c => k_owner k = k_owner c | Anyone => False end.

(** The handling of the request has not got to the handler yet. *)
Definition checking (p : phase) : Prop :=
  match p with PLocal | PShared | PQuery | PKeepLocal _ | PKeepShared _ | PJudge _ => True | _ => False end.
(** No check has been going on for more than [d] seconds. *)
Definition prompt (d : Z) (y : system) : Prop :=
  forall j, In j (y_jobs y) -> checking (j_phase j) -> y_now y <= j_start j + d.
Fixpoint all_along (P : system -> Prop) (cfg : aconfig) (es : list event) (y : system) : Prop :=
  P y /\ match es with [] => True | e :: r => all_along P cfg r (happen cfg e y) end.

(** [descends keys k r]: [k] is [r], or was made by a holder of [r], or of a key made by a
    holder of [r], and so on. *)
Inductive descends (keys : list akey) : akey -> akey -> Prop :=
| Itself : forall k, In k keys -> descends keys k k
| Child : forall k p r, In k keys -> In p keys -> k_by k = Some (k_id p) -> descends keys p r -> descends keys k r.
