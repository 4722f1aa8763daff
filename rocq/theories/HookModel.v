(** Transaction hooks: their registry, the calls a transaction queues, the attempts to make them. *)
From Coq Require Import List String Bool Arith ZArith Lia.
Import ListNotations.
Local Open Scope string_scope.
Local Open Scope nat_scope.

(** * What is kept and what is sent *)

(** Hook, internal/hooks/types.go:36-47. Times are numbers. *)
Record hook := { h_id : string; h_name : string; h_url : string; h_type : string; h_active : bool;
  h_timeout : Z; h_retry : Z; h_created : Z; h_last : Z; h_good : bool }.

(** HookType, internal/hooks/types.go:28-33. *)
Definition pre_type : string := "PRE_TRANSACTION".
Definition post_type : string := "POST_TRANSACTION".

(** The Redis sets "hooks:pre", "hooks:post" and, for any other type, "hooks:", internal/hooks/manager.go:33-41.
    A hook itself is kept under "hooks::" and its id, so that the keys never meet. *)
Inductive shelf := Pre | Post | Other.
Definition shelf_eqb (a b : shelf) : bool :=
  match a, b with Pre, Pre | Post, Post | Other, Other => true | _, _ => false end.

(** getTypeKey, internal/hooks/manager.go:411-420. *)
Definition shelf_of (t : string) : shelf :=
  if String.eqb t pre_type then Pre else if String.eqb t post_type then Post else Other.

(** HookPayload, internal/hooks/types.go:50-55, without its timestamp. The data is the JSON text of the transaction. *)
Record notice := { n_txn : string; n_stage : string; n_data : string }.

(** HookTaskPayload as queued, internal/hooks/manager.go:346-350. The number stands for the identity asynq
    gives the task. *)
Record task := { t_no : nat; t_hook : hook; t_notice : notice }.

(** validateHook, internal/hooks/manager.go:385-402. *)
Definition settle (h : hook) : option hook :=
  if String.eqb (h_url h) "" then None
  else if negb (String.eqb (h_type h) pre_type) && negb (String.eqb (h_type h) post_type) then None
  else
    let timeout := if (h_timeout h <=? 0)%Z then 30%Z else h_timeout h in
    let retry := if (h_retry h <? 0)%Z then 3%Z else h_retry h in
    let retry := if (10 <? retry)%Z then 10%Z else retry in
    Some {| h_id := h_id h; h_name := h_name h; h_url := h_url h; h_type := h_type h; h_active := h_active h;
            h_timeout := timeout; h_retry := retry; h_created := h_created h; h_last := h_last h; h_good := h_good h |}.

(** RegisterHook gives an id where there is none and stamps the time, internal/hooks/manager.go:81-84. *)
Definition named (gen : string) (now : Z) (h : hook) : hook :=
  {| h_id := if String.eqb (h_id h) "" then gen else h_id h; h_name := h_name h; h_url := h_url h; h_type := h_type h;
     h_active := h_active h; h_timeout := h_timeout h; h_retry := h_retry h; h_created := now; h_last := h_last h;
     h_good := h_good h |}.

(** UpdateHook keeps the id, the creation and the last run, internal/hooks/manager.go:129-133. The rest is as
    given: it is not validated. *)
Definition instead (old h : hook) : hook :=
  {| h_id := h_id old; h_name := h_name h; h_url := h_url h; h_type := h_type h; h_active := h_active h;
     h_timeout := h_timeout h; h_retry := h_retry h; h_created := h_created old; h_last := h_last old;
     h_good := h_good old |}.

(** updateHookStatus, internal/hooks/client.go:213-215. *)
Definition ran (now : Z) (ok : bool) (h : hook) : hook :=
  {| h_id := h_id h; h_name := h_name h; h_url := h_url h; h_type := h_type h; h_active := h_active h;
     h_timeout := h_timeout h; h_retry := h_retry h; h_created := h_created h; h_last := now; h_good := ok |}.

(** What comes back from a hook's URL. [Text] is a body that is no JSON, [Shape] JSON that does not fit
    HookResponse, [Verdict] JSON that does, with its "success" (false where it has none). *)
Inductive body := Empty | Text | Shape | Verdict (success : bool).
Inductive reply := Dead | Reply (status : Z) (b : body).

(** How an answer is judged, internal/hooks/client.go:99-211. *)
Definition passed (r : reply) : bool :=
  match r with
  | Dead => false
  | Reply s b =>
    let good := ((200 <=? s) && (s <? 300))%Z in
    let bad := (400 <=? s)%Z in
    match b with
    | Empty => good
    | Text => if good then true else if bad then false else true
    | Shape => if bad then false else true
    | Verdict ok => ok
    end
  end.

(** * Programs over Redis, the queue and the network *)

Inductive answer := AOk | AErr | AShow (h : hook) | AList (l : list hook).
Inductive seen := Failed | Missing | Got (h : hook).

Inductive prog :=
| Done (a : answer)
| Get (id : string) (k : seen -> prog)
| Put (id : string) (h : hook) (k : bool -> prog)
| Del (id : string) (k : bool -> prog)
| Add (s : shelf) (id : string) (k : bool -> prog)
| Rem (s : shelf) (id : string) (k : bool -> prog)
| Members (s : shelf) (k : option (list string) -> prog)
| Enqueue (h : hook) (n : notice) (k : bool -> prog)
| Send (h : hook) (n : notice) (k : reply -> prog).

(** RegisterHook, internal/hooks/manager.go:80-110. *)
Definition register (gen : string) (now : Z) (h : hook) : prog :=
  match settle (named gen now h) with
  | None => Done AErr
  | Some h => Put (h_id h) h (fun ok => if ok then
      Add (shelf_of (h_type h)) (h_id h) (fun ok => Done (if ok then AShow h else AErr)) else Done AErr)
  end.

(** UpdateHook, internal/hooks/manager.go:123-155. *)
Definition update (id : string) (h : hook) : prog :=
  Get id (fun s => match s with
    | Got old =>
      let h := instead old h in
      let store := Put id h (fun ok => Done (if ok then AShow h else AErr)) in
      if String.eqb (h_type old) (h_type h) then store
      else Rem (shelf_of (h_type old)) id (fun ok => if ok then
             Add (shelf_of (h_type h)) id (fun ok => if ok then store else Done AErr) else Done AErr)
    | _ => Done AErr
    end).

(** DeleteHook, internal/hooks/manager.go:167-182: the pipeline sends both commands, in order, not as a
    transaction, and fails if either does. *)
Definition delete (id : string) : prog :=
  Get id (fun s => match s with
    | Got h => Del id (fun a => Rem (shelf_of (h_type h)) id (fun b => Done (if a && b then AOk else AErr)))
    | _ => Done AErr
    end).

(** GetHook, internal/hooks/manager.go:194-210. *)
Definition show (id : string) : prog :=
  Get id (fun s => match s with Got h => Done (AShow h) | _ => Done AErr end).

(** The loop of ListHooks, internal/hooks/manager.go:249-255. *)
Fixpoint gather (ids : list string) (acc : list hook) (k : list hook -> prog) : prog :=
  match ids with
  | [] => k acc
  | id :: r => Get id (fun s => match s with Got h => gather r (acc ++ [h]) k | _ => gather r acc k end)
  end.

Definition mem (x : string) (l : list string) : bool := existsb (String.eqb x) l.

(** ListHooks, internal/hooks/manager.go:223-258. *)
Definition listing (t : string) (k : option (list hook) -> prog) : prog :=
  if String.eqb t "" then
    Members Pre (fun a => match a with
      | None => k None
      | Some a => Members Post (fun b => match b with
          | None => k None
          | Some b => gather (a ++ filter (fun x => negb (mem x a)) b) [] (fun l => k (Some l))
          end)
      end)
  else
    Members (shelf_of t) (fun a => match a with
      | None => k None
      | Some a => gather a [] (fun l => k (Some l))
      end).

(** ExecuteHooks, internal/hooks/manager.go:309-335: a call that cannot be queued is only reported. *)
Fixpoint queue_all (hs : list hook) (n : notice) (k : prog) : prog :=
  match hs with
  | [] => k
  | h :: r => if h_active h then Enqueue h n (fun _ => queue_all r n k) else queue_all r n k
  end.
Fixpoint queue_each (hs : list hook) (ns : list notice) (k : prog) : prog :=
  match ns with
  | [] => k
  | n :: r => queue_all hs n (queue_each hs r k)
  end.

(** ExecutePreHooks and ExecutePostHooks, internal/hooks/manager.go:270-296, for one transaction
    (transaction_execution.go:498, 583); for the transactions of a coalesced batch the hooks are listed
    once (transaction_coalescing.go:185, 248, 274, transaction_execution.go:581). A batch that breaks off is
    a stage that stops. *)
Definition stage (t : string) (ts : list (string * string)) : prog :=
  listing t (fun l => match l with
    | None => Done AErr
    | Some hs => queue_each hs (map (fun x => {| n_txn := fst x; n_stage := t; n_data := snd x |}) ts) (Done AOk)
    end).

(** ProcessHookTask and executeHook, internal/hooks/worker.go:39-55 and client.go:52-211. With no time allowed
    the context is over before anything is sent. The clock is read once. *)
Definition attempt (now : Z) (h : hook) (n : notice) : prog :=
  if (h_timeout h <=? 0)%Z then Put (h_id h) (ran now false h) (fun _ => Done AErr)
  else Send h n (fun r => Put (h_id h) (ran now (passed r) h) (fun _ => Done (if passed r then AOk else AErr))).

(** The API, api/hooks.go:39-124, and the two places where a transaction meets its hooks. *)
Inductive request :=
| RRegister (gen : string) (now : Z) (h : hook)
| RUpdate (id : string) (h : hook)
| RDelete (id : string)
| RGet (id : string)
| RList (t : string)
| RBefore (ts : list (string * string))
| RAfter (ts : list (string * string)).

Definition start (q : request) : prog :=
  match q with
  | RRegister gen now h => register gen now h
  | RUpdate id h => update id h
  | RDelete id => delete id
  | RGet id => show id
  | RList t => listing t (fun l => match l with None => Done AErr | Some l => Done (AList l) end)
  | RBefore ts => stage pre_type ts
  | RAfter ts => stage post_type ts
  end.

(** * Everything together *)

Inductive job := JCall (q : request) | JTry (t : task) (more : nat) | JOver.

(** [w_made] and [w_sent] are there to be spoken of: which run queued which call, and the requests made. *)
Record world := { w_hooks : string -> option hook; w_sets : shelf -> list string;
  w_queue : list (task * nat); w_runs : list (job * prog); w_next : nat;
  w_made : list (nat * task); w_sent : list task }.
Definition blank : world :=
  {| w_hooks := fun _ => None; w_sets := fun _ => []; w_queue := []; w_runs := []; w_next := 0;
     w_made := []; w_sent := [] |}.

(** A command is done and answered, not done and failed, or done with its answer lost. *)
Inductive outcome := Fine | Lost | Unsure.
Definition took (o : outcome) : bool := match o with Lost => false | _ => true end.
Definition told (o : outcome) : bool := match o with Fine => true | _ => false end.

Definition set_hook (id : string) (h : option hook) (m : string -> option hook) : string -> option hook :=
  fun x => if String.eqb x id then h else m x.
Definition set_shelf (s : shelf) (l : list string) (m : shelf -> list string) : shelf -> list string :=
  fun x => if shelf_eqb x s then l else m x.
Definition insert (x : string) (l : list string) : list string := if mem x l then l else x :: l.
Definition without (x : string) (l : list string) : list string := filter (fun y => negb (String.eqb x y)) l.

(** SMEMBERS answers in any order: [order] chooses one. *)
Fixpoint once (l : list string) : list string :=
  match l with [] => [] | x :: r => x :: filter (fun y => negb (String.eqb x y)) (once r) end.
Definition arrange (order l : list string) : list string :=
  once (filter (fun x => mem x l) order) ++ filter (fun x => negb (mem x order)) l.

Fixpoint set_nth {A} (i : nat) (x : A) (l : list A) : list A :=
  match l, i with [], _ => [] | _ :: r, 0 => x :: r | y :: r, S i => y :: set_nth i x r end.
Fixpoint drop_nth {A} (i : nat) (l : list A) : list A :=
  match l, i with [], _ => [] | _ :: r, 0 => r | y :: r, S i => y :: drop_nth i r end.

Definition with_hooks (w : world) (m : string -> option hook) : world :=
  {| w_hooks := m; w_sets := w_sets w; w_queue := w_queue w; w_runs := w_runs w; w_next := w_next w;
     w_made := w_made w; w_sent := w_sent w |}.
Definition with_sets (w : world) (m : shelf -> list string) : world :=
  {| w_hooks := w_hooks w; w_sets := m; w_queue := w_queue w; w_runs := w_runs w; w_next := w_next w;
     w_made := w_made w; w_sent := w_sent w |}.
Definition with_runs (w : world) (l : list (job * prog)) : world :=
  {| w_hooks := w_hooks w; w_sets := w_sets w; w_queue := w_queue w; w_runs := l; w_next := w_next w;
     w_made := w_made w; w_sent := w_sent w |}.
Definition with_queue (w : world) (l : list (task * nat)) : world :=
  {| w_hooks := w_hooks w; w_sets := w_sets w; w_queue := l; w_runs := w_runs w; w_next := w_next w;
     w_made := w_made w; w_sent := w_sent w |}.

(** queueHook, internal/hooks/manager.go:346-375. asynq runs a task once and then as often again as MaxRetry
    says, a negative number being none (github.com/hibiken/asynq, client.go). *)
Definition queued (i : nat) (h : hook) (n : notice) (w : world) : world :=
  let t := {| t_no := w_next w; t_hook := h; t_notice := n |} in
  {| w_hooks := w_hooks w; w_sets := w_sets w; w_queue := w_queue w ++ [(t, S (Z.to_nat (h_retry h)))];
     w_runs := w_runs w; w_next := S (w_next w); w_made := w_made w ++ [(i, t)]; w_sent := w_sent w |}.

Definition sent (t : task) (w : world) : world :=
  {| w_hooks := w_hooks w; w_sets := w_sets w; w_queue := w_queue w; w_runs := w_runs w; w_next := w_next w;
     w_made := w_made w; w_sent := w_sent w ++ [t] |}.

(** One command of run [i]. A request that is sent may go unanswered ([Dead]) or not go at all ([Lost]). *)
Definition command (i : nat) (j : job) (o : outcome) (order : list string) (r : reply) (p : prog) (w : world)
  : world * prog :=
  match p with
  | Done a => (w, Done a)
  | Get id k => (w, k (if told o then match w_hooks w id with Some h => Got h | None => Missing end else Failed))
  | Put id h k => (if took o then with_hooks w (set_hook id (Some h) (w_hooks w)) else w, k (told o))
  | Del id k => (if took o then with_hooks w (set_hook id None (w_hooks w)) else w, k (told o))
  | Add s id k => (if took o then with_sets w (set_shelf s (insert id (w_sets w s)) (w_sets w)) else w, k (told o))
  | Rem s id k => (if took o then with_sets w (set_shelf s (without id (w_sets w s)) (w_sets w)) else w, k (told o))
  | Members s k => (w, k (if told o then Some (arrange order (w_sets w s)) else None))
  | Enqueue h n k => (if took o then queued i h n w else w, k (told o))
  | Send h n k =>
    (match j with JTry t _ => if took o then sent t w else w | _ => w end, k (if told o then r else Dead))
  end.

(** A request arrives; a worker takes a task; a run goes one command further; a run is over, done or broken off.
    A task that failed, or whose worker died, goes back while it may be run again. *)
Inductive event :=
| EStart (q : request)
| ETake (i : nat) (now : Z)
| EStep (i : nat) (o : outcome) (order : list string) (r : reply)
| EStop (i : nat).

Definition happen (e : event) (w : world) : world :=
  match e with
  | EStart q => with_runs w (w_runs w ++ [(JCall q, start q)])
  | ETake i now =>
    match nth_error (w_queue w) i with
    | Some (t, S more) =>
      with_runs (with_queue w (drop_nth i (w_queue w)))
        (w_runs w ++ [(JTry t more, attempt now (t_hook t) (t_notice t))])
    | _ => w
    end
  | EStep i o order r =>
    match nth_error (w_runs w) i with
    | Some (j, p) => let (w', p') := command i j o order r p w in with_runs w' (set_nth i (j, p') (w_runs w'))
    | None => w
    end
  | EStop i =>
    match nth_error (w_runs w) i with
    | Some (j, p) =>
      let w' := with_runs w (set_nth i (JOver, Done AErr) (w_runs w)) in
      match j, p with
      | JTry t (S more), Done AOk => w'
      | JTry t (S more), _ => with_queue w' (w_queue w ++ [(t, S more)])
      | _, _ => w'
      end
    | None => w
    end
  end.

Fixpoint play (es : list event) (w : world) : world :=
  match es with [] => w | e :: r => play r (happen e w) end.

(** A run with nothing else going on and nothing failing; [r] answers if it sends. *)
Fixpoint alone (i : nat) (j : job) (order : list string) (r : reply) (p : prog) (w : world) : world * answer :=
  match p with
  | Done a => (w, a)
  | Get id k => let q := k (match w_hooks w id with Some h => Got h | None => Missing end) in alone i j order r q w
  | Put id h k => alone i j order r (k true) (with_hooks w (set_hook id (Some h) (w_hooks w)))
  | Del id k => alone i j order r (k true) (with_hooks w (set_hook id None (w_hooks w)))
  | Add s id k => alone i j order r (k true) (with_sets w (set_shelf s (insert id (w_sets w s)) (w_sets w)))
  | Rem s id k => alone i j order r (k true) (with_sets w (set_shelf s (without id (w_sets w s)) (w_sets w)))
  | Members s k => alone i j order r (k (Some (arrange order (w_sets w s)))) w
  | Enqueue h n k => alone i j order r (k true) (queued i h n w)
  | Send h n k => alone i j order r (k r) (match j with JTry t _ => sent t w | _ => w end)
  end.
