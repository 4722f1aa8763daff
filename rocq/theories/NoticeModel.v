(** Webhooks: what is announced, how it is queued, and the attempts to deliver it. *)
From Coq Require Import List String Bool Arith ZArith.
From Verif Require Import Base BodyModel.
Import ListNotations.
Local Open Scope string_scope.
Local Open Scope nat_scope.
Local Open Scope list_scope.

(** ** What is announced *)

(** updateTransactionDetails, transaction_execution.go:199-209: the status a transaction is recorded with, by
    that it came with and its inflight flag. *)
Definition landed (status : string) (inflight : bool) : string :=
  if inflight then "INFLIGHT"
  else if String.eqb status "QUEUED" then "APPLIED"
  else if String.eqb status "APPLIED" then "APPLIED"
  else if String.eqb status "SCHEDULED" then "APPLIED"
  else if String.eqb status "COMMIT" then "APPLIED"
  else if String.eqb status "VOID" then "VOID"
  else "".
(** getEventFromStatus, webhooks.go:49-66. *)
Definition event_of_status (status : string) : string :=
  let s := lower status in
  if String.eqb s "queued" then "transaction.queued"
  else if String.eqb s "applied" then "transaction.applied"
  else if String.eqb s "scheduled" then "transaction.scheduled"
  else if String.eqb s "inflight" then "transaction.inflight"
  else if String.eqb s "void" then "transaction.void"
  else if String.eqb s "rejected" then "transaction.rejected"
  else "transaction.unknown".

(** What can happen: a transaction is posted (runTransactionPostCommitWorkWithHooks, transaction_execution.go:563-591), with the
    status it came with; one is accepted to wait for a worker or its time; one is rejected by a worker
    (cmd/workers.go:154-165) or by the recovery (queue_recovery.go:179); a ledger, identity or balance is
    created (ledger.go:34, identity.go:33, balance.go:217); a monitor's condition is met (balance.go:92-104); an
    asynchronous bulk ends (transaction_bulk.go:112-137). *)
Inductive happening :=
| Posted (status : string) (inflight : bool)
| Waits
| RejectedByWorker
| RejectedByRecovery
| LedgerMade | IdentityMade | BalanceMade
| MonitorMet
| BulkEnded (status : string).
(** The name each sender gives to the event. *)
Definition name_of (h : happening) : string :=
  match h with
  | Posted s i => event_of_status (landed s i)
  | Waits => ""
  | RejectedByWorker | RejectedByRecovery => event_of_status "REJECTED"
  | LedgerMade => "ledger.created"
  | IdentityMade => "identity.created"
  | BalanceMade => "balance.created"
  | MonitorMet => "balance.monitor"
  | BulkEnded s => "bulk_transaction." ++ s
  end%string.
(** How many senders are started for it: a worker that rejects a transaction sends once through
    postTransactionActions (transaction_rejection.go:78) and once itself (cmd/workers.go:160-163). *)
Definition senders (h : happening) : nat :=
  match h with Waits => 0 | RejectedByWorker => 2 | _ => 1 end.

(** What happened, and its record as JSON. *)
Record fact := { f_what : happening; f_doc : json }.
(** NewWebhook, webhooks.go:37-40. *)
Record msg := { m_event : string; m_data : json }.
Definition msg_of (f : fact) : msg := {| m_event := name_of (f_what f); m_data := f_doc f |}.

(** ** What is sent *)

(** hmac.New(sha256.New, secret) in hex, by secret and text; json.Marshal; strconv.FormatInt. *)
Record env := { v_mac : string -> string -> string; v_text : json -> string; v_digits : Z -> string }.
(** The configuration of the process that runs the task. *)
Record conf := { c_url : string; c_secret : string; c_headers : list (string * string) }.

(** http.Header: names without regard to case; Set puts one in place of another. *)
Definition set_header (k v : string) (h : list (string * string)) : list (string * string) :=
  (k, v) :: filter (fun x => negb (String.eqb (lower (fst x)) (lower k))) h.
Fixpoint header (k : string) (h : list (string * string)) : option string :=
  match h with
  | [] => None
  | (k', v) :: r => if String.eqb (lower k') (lower k) then Some v else header k r
  end.
Record request := { q_headers : list (string * string); q_json : json; q_text : string }.
(** The task's payload is read into an interface and written again: ProcessWebhook, webhooks.go:175-181, and
    processHTTP, 83-86. None: the payload cannot be read. *)
Definition body_of (m : msg) : option json :=
  match remarshal (m_data m) with
  | Some d => Some (JObj [("event", JText (m_event m)); ("data", d)])
  | None => None
  end.
(** processHTTP, webhooks.go:88-115. *)
Definition request_of (v : env) (c : conf) (now : Z) (body : json) : request :=
  let text := v_text v body in
  let h := set_header "Content-Type" "application/json" [] in
  let h := if String.eqb (c_secret c) "" then h
           else let stamp := v_digits v now in
                set_header "X-Blnk-Timestamp" stamp (set_header "X-Blnk-Signature" (v_mac v (c_secret c) (stamp ++ "." ++ text)%string) h) in
  {| q_headers := fold_left (fun h x => set_header (fst x) (snd x) h) (c_headers c) h; q_json := body; q_text := text |}.

(** What comes of a request: it does not get there, it gets there and no answer comes back, or an answer does. *)
Inductive reply := Unreached | Dead | Status (s : Z).
(** webhooks.go:117-128. *)
Definition welcome (r : reply) : bool := match r with Status s => ((200 <=? s) && (s <? 300))%Z | _ => false end.

(** ** Everything together *)

(** A task of the webhook queue, with the attempts it has left: asynq's default is 25 retries
    (github.com/hibiken/asynq client.go, defaultMaxRetry). *)
Record task := { t_no : nat; t_fact : nat; t_msg : msg; t_left : nat }.
Definition attempts : nat := 26.
(** An attempt, to be spoken of: the request if one was made, what came of it, and whether the task was then done. *)
Record try := { y_task : nat; y_fact : nat; y_request : option request; y_reply : reply; y_done : bool }.

Record world := { w_facts : list fact; w_due : list (nat * msg); w_tasks : list task; w_next : nat; w_log : list try; w_gone : list task }.
Definition blank : world := {| w_facts := []; w_due := []; w_tasks := []; w_next := 0; w_log := []; w_gone := [] |}.

Fixpoint drop_nth {A} (i : nat) (l : list A) : list A :=
  match l, i with [], _ => [] | _ :: r, 0 => r | y :: r, S i => y :: drop_nth i r end.

(** Something happens, and its senders are started. A sender queues its task, or fails to, or dies with its
    process. A task is tried, by a process with configuration [c]; [acked]: the queue learns of its success (the
    worker may die before, or its lease end). *)
Inductive event :=
| EFact (f : fact)
| ESend (i : nat) (url : string) (ok : bool)
| EDie (i : nat)
| ETry (i : nat) (c : conf) (now : Z) (r : reply) (acked : bool).

(** One attempt: ProcessWebhook, webhooks.go:166-187. The request if one is made, and whether it returns no error. *)
Definition attempt (v : env) (c : conf) (now : Z) (r : reply) (m : msg) : option request * bool :=
  if String.eqb (c_url c) "" then (None, true)
  else match body_of m with
       | None => (None, false)
       | Some b => (Some (request_of v c now b), welcome r)
       end.

Definition happen (v : env) (e : event) (w : world) : world :=
  match e with
  | EFact f =>
    {| w_facts := w_facts w ++ [f]; w_due := w_due w ++ repeat (List.length (w_facts w), msg_of f) (senders (f_what f));
       w_tasks := w_tasks w; w_next := w_next w; w_log := w_log w; w_gone := w_gone w |}
  | ESend i url ok =>
    (* SendWebhook, webhooks.go:139-160 *)
    match nth_error (w_due w) i with
    | None => w
    | Some (n, m) =>
      let queue := negb (String.eqb url "") && ok in
      {| w_facts := w_facts w; w_due := drop_nth i (w_due w);
         w_tasks := if queue then w_tasks w ++ [{| t_no := w_next w; t_fact := n; t_msg := m; t_left := attempts |}] else w_tasks w;
         w_next := if queue then S (w_next w) else w_next w; w_log := w_log w; w_gone := w_gone w |}
    end
  | EDie i =>
    {| w_facts := w_facts w; w_due := drop_nth i (w_due w); w_tasks := w_tasks w; w_next := w_next w; w_log := w_log w; w_gone := w_gone w |}
  | ETry i c now r acked =>
    match nth_error (w_tasks w) i with
    | None => w
    | Some t =>
      let (q, ok) := attempt v c now r (t_msg t) in
      let done := ok && acked in
      let log := w_log w ++ [{| y_task := t_no t; y_fact := t_fact t; y_request := q; y_reply := r; y_done := done |}] in
      let rest := drop_nth i (w_tasks w) in
      let t' := {| t_no := t_no t; t_fact := t_fact t; t_msg := t_msg t; t_left := pred (t_left t) |} in
      {| w_facts := w_facts w; w_due := w_due w;
         w_tasks := if done then rest else match t_left t' with 0 => rest | _ => rest ++ [t'] end;
         w_next := w_next w; w_log := log;
         w_gone := if done then w_gone w else match t_left t' with 0 => w_gone w ++ [t'] | _ => w_gone w end |}
    end
  end.
Definition play (v : env) (es : list event) (w : world) : world := fold_left (fun w e => happen v e w) es w.
