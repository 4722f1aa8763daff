(** Choosing a queue for a transaction and refusing to enqueue under pressure: queue.go,
    queue_backpressure.go and the queues the workers serve (cmd/workers.go). *)
From Coq Require Import ZArith NArith List String Ascii Bool.
From Coq Require Import DecimalString.
From Coq Require Import Floats.SpecFloat.
Import ListNotations.
Local Open Scope string_scope.
Open Scope Z_scope.

(** The fields of QueueConfig this code reads, config/config.go:205-232. Names and the
    switches of the hot lane and of backpressure; [q_interval] in nanoseconds. *)
Record qconfig := {
  q_name : string; q_expiry : string; q_commit : string; q_number : Z;
  q_hot : bool; q_hot_name : string;
  q_press : bool; q_percent : spec_float; q_interval : Z; q_max_pending : Z }.

(** Go's float64 arithmetic, as the standard library's specification of IEEE 754
    binary64 (53 bits of precision, round to nearest, ties to even): a conversion from
    an integer (or an integer constant), / and *. Comparisons are [SFleb] and [SFeqb]. *)
Definition to_float (z : Z) : spec_float := binary_normalize 53 1024 z 0 false.
Definition fdiv (x y : spec_float) : spec_float := SFdiv 53 1024 x y.
Definition fmul (x y : spec_float) : spec_float := SFmul 53 1024 x y.

(** setQueueDefaults, config/config.go:463-508: a zero or empty field gets its default;
    a negative number stays. *)
Definition or_default (s d : string) : string := if String.eqb s "" then d else s.
Definition queue_defaults (c : qconfig) : qconfig :=
  {| q_name := or_default (q_name c) "new:transaction";
     q_expiry := or_default (q_expiry c) "new:inflight-expiry";
     q_commit := or_default (q_commit c) "new:inflight-commit";
     q_number := if q_number c =? 0 then 20 else q_number c;
     q_hot := q_hot c; q_hot_name := or_default (q_hot_name c) "hot_transactions";
     q_press := q_press c;
     q_percent := if SFeqb (q_percent c) (to_float 0) then to_float 85 else q_percent c;
     q_interval := if q_interval c =? 0 then 500000000 else q_interval c;
     q_max_pending := q_max_pending c |}.

(** ** The queue of a transaction *)
(** hash/fnv New32a and hashBalanceID, queue.go:318-322. *)
Fixpoint fnv (h : Z) (s : string) : Z :=
  match s with
  | EmptyString => h
  | String c r => fnv (Z.lxor h (Z.of_N (N_of_ascii c)) * 16777619 mod 2 ^ 32) r
  end.
Definition hash_balance (id : string) : Z := fnv 2166136261 id.

(** fmt.Sprintf("%d"). *)
Definition int_text (z : Z) : string := NilZero.string_of_int (Z.to_int z).

(** transactionQueueName, queue.go:300-316. [lane]: the queue_lane entry of the
    transaction's metadata, "" when there is none. Go's % truncates, as [Z.rem]. A
    number of queues of 0 (a panic in Go) cannot occur after [queue_defaults]. *)
Definition queue_of (c : qconfig) (lane source : string) : string :=
  if q_hot c && String.eqb lane "hot" then q_hot_name c
  else q_name c ++ "_" ++ int_text (Z.rem (hash_balance source) (q_number c) + 1).

(** The numbers 1..n, as `for i := 1; i <= n; i++`. *)
Definition upto (n : Z) : list Z := map Z.of_nat (seq 1 (Z.to_nat n)).
(** initializeQueues and initializeHotQueues, cmd/workers.go:349-378: the queues whose
    tasks some worker takes. *)
Definition served (c : qconfig) : list string :=
  ([q_expiry c; q_commit c] ++ map (fun i => (q_name c ++ "_" ++ int_text i)%string) (upto (q_number c)) ++
   (if q_hot c then [q_hot_name c] else []))%list.

(** ** Reading redis' memory report *)
(** strings.TrimSpace on ASCII text (the other Unicode spaces are left out). *)
Definition space (c : ascii) : bool :=
  match N_of_ascii c with 9%N | 10%N | 11%N | 12%N | 13%N | 32%N => true | _ => false end.
Fixpoint trim_left (s : string) : string :=
  match s with String c r => if space c then trim_left r else s | EmptyString => EmptyString end.
Fixpoint trim_right (s : string) : string :=
  match s with
  | EmptyString => EmptyString
  | String c r => match trim_right r with
                  | EmptyString => if space c then EmptyString else String c EmptyString
                  | r' => String c r'
                  end
  end.
Definition trim (s : string) : string := trim_right (trim_left s).

(** strings.Split(s, "\n"). *)
Definition newline : ascii := "010"%char.
Fixpoint lines (s : string) : list string :=
  match s with
  | EmptyString => [EmptyString]
  | String c r => if Ascii.eqb c newline then EmptyString :: lines r
                  else match lines r with l :: ls => String c l :: ls | [] => [] end
  end.
(** strings.Cut(s, ":"). *)
Fixpoint cut (s : string) : option (string * string) :=
  match s with
  | EmptyString => None
  | String c r => if Ascii.eqb c ":" then Some (EmptyString, r)
                  else match cut r with Some (k, v) => Some (String c k, v) | None => None end
  end.
(** strconv.ParseInt(s, 10, 64) inside parseRedisInfoInt64, queue_backpressure.go:178-188:
    0 when it fails. *)
Definition int64 (z : Z) : bool := (- 2 ^ 63 <=? z) && (z <? 2 ^ 63).
Definition parse_int (s : string) : Z :=
  let s := trim s in
  let d := match s with
           | String c r => if Ascii.eqb c "+" then option_map Decimal.Pos (NilZero.uint_of_string r) else NilZero.int_of_string s
           | EmptyString => None
           end in
  match d with Some d => if int64 (Z.of_int d) then Z.of_int d else 0 | None => 0 end.

Record memory := { m_used : Z; m_max : Z }.
(** parseRedisMemoryInfo, queue_backpressure.go:156-176. *)
Definition parse_line (m : memory) (l : string) : memory :=
  let l := trim l in
  match l with
  | EmptyString => m
  | String c _ =>
    if Ascii.eqb c "#" then m
    else match cut l with
         | None => m
         | Some (k, v) =>
           if String.eqb k "used_memory" then {| m_used := parse_int v; m_max := m_max m |}
           else if String.eqb k "maxmemory" then {| m_used := m_used m; m_max := parse_int v |}
           else m
         end
  end.
Definition parse_memory (info : string) : memory := fold_left parse_line (lines info) {| m_used := 0; m_max := 0 |}.

(** ** Pressure *)
(** usageRatio, queue_backpressure.go:143-148. *)
Definition usage (m : memory) : option spec_float :=
  if m_max m <=? 0 then None else Some (fdiv (to_float (m_used m)) (to_float (m_max m))).
(** The percentage in force and the comparison, queue_backpressure.go:91-99. *)
Definition percent (c : qconfig) : spec_float :=
  if SFleb (q_percent c) (to_float 0) then to_float 85 else q_percent c.
Definition memory_full (c : qconfig) (m : memory) : bool :=
  match usage m with
  | Some r => SFleb (percent c) (fmul r (to_float 100))
  | None => false
  end.

(** What one evaluation is told by redis and by asynq's inspector: None is an error.
    [e_info] is the text of INFO memory, [e_count q] the waiting, scheduled and retried
    tasks of queue [q] (0 for a queue asynq does not know); [e_redis] and
    [e_inspector]: the client objects exist. *)
Record qenv := { e_redis : bool; e_info : option string; e_inspector : bool; e_count : string -> option Z }.

(** transactionQueuePendingCount, queue_backpressure.go:116-137. *)
Fixpoint total (count : string -> option Z) (qs : list string) : option Z :=
  match qs with
  | [] => Some 0
  | q :: r => match count q with
              | None => None
              | Some n => match total count r with Some k => Some (n + k) | None => None end
              end
  end.
Definition counted (c : qconfig) : list string :=
  (map (fun i => (q_name c ++ "_" ++ int_text i)%string) (upto (q_number c)) ++ (if q_hot c then [q_hot_name c] else []))%list.

(** evaluateBackpressure, queue_backpressure.go:83-114: Some true is a refusal. *)
Definition evaluate (c : qconfig) (e : qenv) : option bool :=
  let rest :=
    if (0 <? q_max_pending c) && e_inspector e then
      match total (e_count e) (counted c) with
      | Some n => Some (q_max_pending c <=? n)
      | None => None
      end
    else Some false in
  if e_redis e then
    match e_info e with
    | None => None
    | Some i => if memory_full c (parse_memory i) then Some true else rest
    end
  else rest.

(** shouldRejectEnqueue and assertEnqueueAllowed, queue_backpressure.go:38-81. The
    remembered verdict ([b_cache]: when and what) is shared by all requests and guarded
    by a mutex held only for the look and for the update. A request first looks
    ([BLook]), and if the verdict is missing or old evaluates ([BEval]) and then writes
    it down ([BStore]), with other requests in between and time passing. [b_now] is the
    clock; it never goes back (Go's time.Since is monotonic). The last two fields are
    history, not read by the code: the evaluations made and when, and the decisions
    taken and when (true: refused). *)
Inductive bthread := Working | Got (v : bool) | Finished.
Record bsys := { b_cache : option (Z * bool); b_thr : list bthread; b_now : Z;
                 b_evals : list (Z * qenv); b_dec : list (Z * bool) }.
Inductive bevent := BLook (t : Z) | BEval (i : nat) (t : Z) (e : qenv) | BStore (i : nat) (t : Z).

Definition interval (c : qconfig) : Z := if q_interval c <=? 0 then 500000000 else q_interval c.
Fixpoint replace {A} (n : nat) (a : A) (l : list A) : list A :=
  match l, n with
  | [], _ => []
  | _ :: r, O => a :: r
  | x :: r, S m => x :: replace m a r
  end.
Definition bstep (c : qconfig) (y : bsys) (ev : bevent) (y' : bsys) : Prop :=
  match ev with
  | BLook t =>
    b_now y <= t /\
    if negb (q_press c) then
      y' = {| b_cache := b_cache y; b_thr := b_thr y ++ [Finished]; b_now := t; b_evals := b_evals y; b_dec := (t, false) :: b_dec y |}
    else match b_cache y with
         | Some (at_, v) =>
           if t - at_ <? interval c then
             y' = {| b_cache := b_cache y; b_thr := b_thr y ++ [Finished]; b_now := t; b_evals := b_evals y; b_dec := (t, v) :: b_dec y |}
           else y' = {| b_cache := b_cache y; b_thr := b_thr y ++ [Working]; b_now := t; b_evals := b_evals y; b_dec := b_dec y |}
         | None => y' = {| b_cache := b_cache y; b_thr := b_thr y ++ [Working]; b_now := t; b_evals := b_evals y; b_dec := b_dec y |}
         end
  | BEval i t e =>
    b_now y <= t /\ nth_error (b_thr y) i = Some Working /\
    match evaluate c e with
    | None => y' = {| b_cache := b_cache y; b_thr := replace i Finished (b_thr y); b_now := t;
                      b_evals := (t, e) :: b_evals y; b_dec := (t, false) :: b_dec y |}
    | Some v => y' = {| b_cache := b_cache y; b_thr := replace i (Got v) (b_thr y); b_now := t;
                        b_evals := (t, e) :: b_evals y; b_dec := b_dec y |}
    end
  | BStore i t =>
    b_now y <= t /\ exists v, nth_error (b_thr y) i = Some (Got v) /\
    y' = {| b_cache := Some (t, v); b_thr := replace i Finished (b_thr y); b_now := t; b_evals := b_evals y; b_dec := (t, v) :: b_dec y |}
  end%list.
Inductive bsteps (c : qconfig) : bsys -> bsys -> Prop :=
| b_refl y : bsteps c y y
| b_next y1 y2 y3 ev : bsteps c y1 y2 -> bstep c y2 ev y3 -> bsteps c y1 y3.
Definition binit (t : Z) : bsys := {| b_cache := None; b_thr := []; b_now := t; b_evals := []; b_dec := [] |}.
