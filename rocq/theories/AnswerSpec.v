(** What a client can rely on in an error answer. *)
From Coq Require Import List String Ascii Bool ZArith.
From Verif Require Import Base PoolModel AnswerModel.
Import ListNotations.
Local Open Scope string_scope.
Local Open Scope Z_scope.
Local Open Scope list_scope.

(** What stopped a post: the first of its steps that failed. *)
Inductive fault :=
| FSplit (m : string) | FResolve (source : bool) (e : err) | FLock (f : lock_fault) | FHook (m : string) | FRef (f : ref_fault)
| FBalance (f : balance_fault) | FApply (f : apply_fault) | FStore (f : store_fault) | FExpiry (m : string) | FRelease (m : string).
Definition orelse {A} (x y : option A) : option A := match x with Some _ => x | None => y end.
Definition first (n : run) : option fault :=
  fold_right orelse None
    [option_map FSplit (n_split n); option_map (fun x => FResolve (fst x) (snd x)) (n_resolve n); option_map FLock (n_lock n); option_map FHook (n_hook n);
     option_map FRef (n_ref n); option_map FBalance (n_balance n); option_map FApply (n_apply n); option_map FStore (n_store n);
     option_map FExpiry (n_expiry n); option_map FRelease (n_release n)].

(** The status and the code of each trouble that has one of its own. *)
Definition documented (f : fault) : option (Z * string) :=
  match f with
  | FLock (LHeld _) | FLock LWait => Some (423, "GEN_RESOURCE_LOCKED")
  | FRef RUsed => Some (409, "TXN_DUPLICATE_REFERENCE")
  | FBalance (BMissing _) => Some (404, "TXN_NOT_FOUND")
  | FApply AShort => Some (400, "TXN_INSUFFICIENT_FUNDS")
  | FApply ANegative => Some (400, "TXN_INVALID_AMOUNT")
  | FApply ANotPositive | FApply AOverLimit => Some (400, "TXN_VALIDATION_ERROR")
  | FStore (SMoved _) => Some (409, "GEN_CONFLICT")
  | FRef (RDown _) | FBalance (BDown _) | FStore _ => Some (500, "GEN_INTERNAL")
  | FSplit _ | FResolve _ _ | FLock _ | FHook _ | FExpiry _ | FRelease _ => None
  end.
Definition settle_documented (f : settle_fault) : option (Z * string) :=
  match f with
  | THeld _ _ => Some (423, "GEN_RESOURCE_LOCKED")
  | TNotInflight => Some (400, "TXN_NOT_INFLIGHT")
  | TVoided => Some (409, "TXN_ALREADY_VOIDED")
  | TCommitted _ => Some (409, "TXN_ALREADY_COMMITTED")
  | TMore _ _ _ _ => Some (400, "TXN_COMMIT_AMOUNT_EXCEEDED")
  | TInternal _ _ | TMoved _ => None
  end.

(** No space in the string. *)
Definition unspaced (s : string) : Prop := ~ In " "%char (list_ascii_of_string s).
(** The words of the caller in the text of a refusal. *)
Definition settle_words (f : settle_fault) : list string :=
  match f with THeld _ id => [id] | TMore _ cur a r => [cur; a; r] | _ => [] end.

(** The six codes that are no longer sent. *)
Definition legacy : list string := ["NOT_FOUND"; "CONFLICT"; "BAD_REQUEST"; "INVALID_INPUT"; "INTERNAL_SERVER_ERROR"; "RATE_LIMITED"].
(** A table of upgrades none of which leads to a retired code or to a failure of the server. *)
Definition sound_upgrades (o : options) : Prop :=
  forall k v, In (k, v) (o_upgrades o) -> ~ In v legacy /\ status_for v < 500.
(** A preview made in the state the post would find, where nothing but the reference and the balances stands in
    the way of the post. *)
Definition foresees (p : foreseen) (n : run) : Prop :=
  n_split n = None /\ n_resolve n = None /\ n_lock n = None /\ n_hook n = None /\ n_balance n = None
  /\ n_expiry n = None /\ n_release n = None
  /\ n_apply n = p_apply p
  /\ n_ref n = (if p_used p then Some RUsed else None)
  /\ n_store n = option_map SMoved (p_same p).
