(** What a receiver of webhooks relies on. *)
From Coq Require Import List String Bool Arith ZArith.
From Verif Require Import Base BodyModel BodySpec NoticeModel.
Import ListNotations.
Local Open Scope string_scope.
Local Open Scope list_scope.

(** The requests that reached the receiver about fact [n], and those it took. *)
Definition arrived (w : world) (n : nat) (q : request) : Prop :=
  exists y, In y (w_log w) /\ y_fact y = n /\ y_request y = Some q /\ y_reply y <> Unreached.
Definition count {A} (p : A -> bool) (l : list A) : nat := List.length (filter p l).
Definition settled (n : nat) (y : try) : bool := Nat.eqb (y_fact y) n && y_done y.
Definition failed (k : nat) (y : try) : bool := Nat.eqb (y_task y) k && negb (y_done y).
(** Tasks given up about fact [n]. *)
Definition given_up (n : nat) (t : task) : bool := Nat.eqb (t_fact t) n.
(** Nothing is under way. *)
Definition quiet (w : world) : Prop := w_due w = [] /\ w_tasks w = [].

(** No sender dies or fails to queue, and the URL is set wherever it is looked up. *)
Definition steady (e : event) : Prop :=
  match e with
  | EFact _ => True
  | ESend _ url ok => url <> "" /\ ok = true
  | EDie _ => False
  | ETry _ c _ _ _ => c_url c <> ""
  end.
(** The queue learns of every success. *)
Definition acked (e : event) : Prop := match e with ETry _ _ _ _ a => a = true | _ => True end.
(** The statuses transactions are posted with, transaction_inflight.go:35-45. *)
Definition known (s : string) : Prop := In s ["QUEUED"; "APPLIED"; "SCHEDULED"; "COMMIT"; "VOID"].
(** No configured header takes the place of one of the signature. *)
Definition plain_headers (c : conf) : Prop :=
  forall k v, In (k, v) (c_headers c) -> lower k <> "x-blnk-signature" /\ lower k <> "x-blnk-timestamp".
(** What the documented events are called. *)
Definition told (h : happening) : string :=
  match h with
  | Posted s true => "transaction.inflight"
  | Posted s false => if String.eqb s "VOID" then "transaction.void" else "transaction.applied"
  | Waits => ""
  | RejectedByWorker | RejectedByRecovery => "transaction.rejected"
  | LedgerMade => "ledger.created"
  | IdentityMade => "identity.created"
  | BalanceMade => "balance.created"
  | MonitorMet => "balance.monitor"
  | BulkEnded s => ("bulk_transaction." ++ s)%string
  end.
Definition proper (h : happening) : Prop := match h with Posted s _ => known s | _ => True end.
(** The receiver took the request: it answered with 200 to 299. *)
Definition took (r : reply) : bool := match r with Status s => ((200 <=? s) && (s <? 300))%Z | _ => false end.
