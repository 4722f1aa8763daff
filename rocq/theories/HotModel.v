(** Hot pairs: the lane a queued transaction waits in. *)
From Coq Require Import ZArith List String Ascii Bool.
From Verif Require Import Base.
Import ListNotations.
Local Open Scope string_scope.
Open Scope Z_scope.

(** LaneNormal, LaneHot, internal/hotpairs/hotpairs.go:12-15. *)
Inductive lane := LNormal | LHot.
Definition lane_eqb (a b : lane) : bool :=
  match a, b with LNormal, LNormal | LHot, LHot => true | _, _ => false end.

(** State, hotpairs.go:17-24. An absent key, and any other text, is StateNormal
    (GetState, 83-101). *)
Inductive mode := MNormal | MPromoting | MHot | MCooling.
Definition mode_eqb (a b : mode) : bool :=
  match a, b with
  | MNormal, MNormal | MPromoting, MPromoting | MHot, MHot | MCooling, MCooling => true
  | _, _ => false
  end.

(** NewManager, hotpairs.go:41-65: whether the lane is on (and a Redis client given) and
    the effective threshold. *)
Record hot_config := { h_enabled : bool; h_threshold : Z }.
Definition threshold (c : hot_config) : Z := if h_threshold c <=? 0 then 3 else h_threshold c.

(** strings.ToUpper, of ASCII letters. *)
Definition upper_char (c : ascii) : ascii :=
  let n := nat_of_ascii c in
  if (97 <=? n)%nat && (n <=? 122)%nat then ascii_of_nat (n - 32) else c.
Fixpoint upper (s : string) : string :=
  match s with EmptyString => EmptyString | String c r => String (upper_char c) (upper r) end.

(** Two ends and a currency. *)
Record pair := { p_src : string; p_dst : string; p_cur : string }.
Definition pair_eqb (a b : pair) : bool :=
  String.eqb (p_src a) (p_src b) && String.eqb (p_dst a) (p_dst b) && String.eqb (p_cur a) (p_cur b).

(** PairKey, hotpairs.go:79-81. The three Redis keys of a pair are prefixes of it (182-192). *)
Definition pair_key (p : pair) : string := p_src p ++ "|" ++ p_dst p ++ "|" ++ upper (p_cur p).

(** A row of blnk.transactions as the lane counter sees it: QUEUED or SCHEDULED, its lane
    (meta_data queue_lane), whether a transaction with this parent exists. *)
Record row := { w_pair : pair; w_lane : lane; w_queued : bool; w_child : bool }.

(** Redis and the table. The three maps are the keys state, activity, contention of a pair. *)
Record store := { s_mode : string -> mode; s_active : string -> bool; s_conflicts : string -> Z; s_rows : list row }.

Definition put {A} (f : string -> A) (k : string) (a : A) : string -> A :=
  fun x => if String.eqb x k then a else f x.

(** CountQueuedTransactionsForPairLane, database/transaction_coalescing.go:191-215. *)
Definition counted (p : pair) (l : lane) (w : row) : bool :=
  w_queued w && pair_eqb (w_pair w) p && lane_eqb (w_lane w) l && negb (w_child w).
Definition count_rows (p : pair) (l : lane) (rows : list row) : Z :=
  Z.of_nat (List.length (filter (counted p l) rows)).

(** Code over the Redis commands (pipelines are transactions) and SQL statements it
    issues; None is the answer of a failed call. *)
Inductive hprog : Type :=
| HRet
| HGet (k : string) (c : option mode -> hprog)                       (* GET state, hotpairs.go:88 *)
| HSet (k : string) (m : mode) (c : option unit -> hprog)            (* SET state, hotpairs.go:178-180 *)
| HActivate (k : string) (c : option unit -> hprog)                  (* ActivateHot, hotpairs.go:147-151 *)
| HClear (k : string) (c : option unit -> hprog)                     (* SetNormal, hotpairs.go:170-174 *)
| HActive (k : string) (c : option bool -> hprog)                    (* EXISTS activity, hotpairs.go:138 *)
| HBump (k : string) (c : option Z -> hprog)                         (* INCR, EXPIRE, SET, hotpairs.go:108-114 *)
| HTouch (k : string) (c : option unit -> hprog)                     (* EXPIRE state, hotpairs.go:126 *)
| HCount (p : pair) (l : lane) (c : option Z -> hprog)               (* the counter *)
| HInsert (w : row) (c : option unit -> hprog).                      (* the INSERT of the queued row *)

(** ResolveQueueLane, router.go:45-112; [c] receives the lane or the error. *)
Definition resolve (cfg : hot_config) (p : pair) (c : option lane -> hprog) : hprog :=
  if negb (h_enabled cfg) then c (Some LNormal)
  else
    let k := pair_key p in
    let clear := HClear k (fun r => match r with None => c None | Some _ => c (Some LNormal) end) in
    HGet k (fun m =>
      match m with
      | None => c None
      | Some MPromoting =>
        HCount p LNormal (fun n =>
          match n with
          | None => c None
          | Some n => if n =? 0
                      then HActivate k (fun r => match r with None => c None | Some _ => c (Some LHot) end)
                      else c (Some LNormal)
          end)
      | Some MHot =>
        HActive k (fun a =>
          match a with
          | None => c None
          | Some true => c (Some LHot)
          | Some false =>
            HCount p LHot (fun n =>
              match n with
              | None => c None
              | Some n => if 0 <? n
                          then HSet k MCooling (fun r => match r with None => c None | Some _ => c (Some LHot) end)
                          else clear
              end)
          end)
      | Some MCooling =>
        HCount p LHot (fun n =>
          match n with
          | None => c None
          | Some n => if 0 <? n then c (Some LHot) else clear
          end)
      | Some MNormal => c (Some LNormal)
      end).

(** AssignQueueLane, router.go:23-43, the last step of prepareTransactionForQueue
    (transaction_queue.go:33-55), and the INSERT that follows it (264-330). A pair with an
    empty part is never resolved. Simplified: the row's other columns. *)
Definition accept (cfg : hot_config) (p : pair) (queued : bool) : hprog :=
  let insert l := HInsert {| w_pair := p; w_lane := l; w_queued := queued; w_child := false |} (fun _ => HRet) in
  if String.eqb (p_src p) "" || String.eqb (p_dst p) "" || String.eqb (p_cur p) "" then insert LNormal
  else resolve cfg p (fun l => insert (match l with Some l => l | None => LNormal end)).

(** RecordContention, router.go:132-157 and hotpairs.go:103-133, called when a post could
    not lock its balances (transaction_execution.go:634-640, transaction_coalescing.go:144-148). *)
Definition report (cfg : hot_config) (p : pair) : hprog :=
  let k := pair_key p in
  if negb (h_enabled cfg) || String.eqb (p_src p) "" || String.eqb (p_dst p) "" || String.eqb (p_cur p) "" then HRet
  else HBump k (fun n =>
    match n with
    | None => HRet
    | Some n => if n <? threshold cfg then HRet
                else HGet k (fun m =>
                  match m with
                  | None => HRet
                  | Some MNormal => HSet k MPromoting (fun _ => HRet)
                  | Some _ => HTouch k (fun _ => HRet)
                  end)
    end).

(** One call that succeeds. *)
Definition call (q : hprog) (s : store) : hprog * store :=
  match q with
  | HRet => (HRet, s)
  | HGet k c => (c (Some (s_mode s k)), s)
  | HSet k m c => (c (Some tt), {| s_mode := put (s_mode s) k m; s_active := s_active s; s_conflicts := s_conflicts s; s_rows := s_rows s |})
  | HActivate k c => (c (Some tt), {| s_mode := put (s_mode s) k MHot; s_active := put (s_active s) k true;
                                      s_conflicts := s_conflicts s; s_rows := s_rows s |})
  | HClear k c => (c (Some tt), {| s_mode := put (s_mode s) k MNormal; s_active := put (s_active s) k false;
                                   s_conflicts := put (s_conflicts s) k 0; s_rows := s_rows s |})
  | HActive k c => (c (Some (s_active s k)), s)
  | HBump k c => (c (Some (s_conflicts s k + 1)),
                  {| s_mode := s_mode s; s_active := put (s_active s) k true;
                     s_conflicts := put (s_conflicts s) k (s_conflicts s k + 1); s_rows := s_rows s |})
  | HTouch k c => (c (Some tt), s)
  | HCount p l c => (c (Some (count_rows p l (s_rows s))), s)
  | HInsert w c => (c (Some tt), {| s_mode := s_mode s; s_active := s_active s; s_conflicts := s_conflicts s;
                                    s_rows := s_rows s ++ [w] |})
  end.

(** How it goes on when the call fails. *)
Definition after_error (q : hprog) : hprog :=
  match q with
  | HRet => HRet
  | HGet _ c => c None | HSet _ _ c => c None | HActivate _ c => c None | HClear _ c => c None
  | HActive _ c => c None | HBump _ c => c None | HTouch _ c => c None | HCount _ _ c => c None
  | HInsert _ c => c None
  end.

(** ** The system: any number of requests and reports at once *)

Inductive job := JAccept (p : pair) (queued : bool) | JReport (p : pair).
Definition prog_of (cfg : hot_config) (j : job) : hprog :=
  match j with JAccept p q => accept cfg p q | JReport p => report cfg p end.

Record system := { y_store : store; y_jobs : list (job * hprog) }.

Inductive fault := NoEffect | LostReply.

Inductive event :=
| EStart (j : job)                     (* a request arrives, or a post meets a held lock *)
| ECall (i : nat)                      (* the next call of job i succeeds *)
| EFault (i : nat) (f : fault)         (* it fails, before or after it took effect *)
| EDeath (i : nat)                     (* the process running job i dies *)
| EPosted (n : nat)                    (* row n is posted, rejected or coalesced: a child appears *)
| EQuiet (k : string)                  (* the activity key runs out *)
| EForget (k : string)                 (* the contention counter runs out *)
| ELapse (k : string).                 (* the state key runs out *)

Fixpoint set_nth {A} (n : nat) (a : A) (l : list A) : list A :=
  match n, l with
  | _, [] => []
  | O, _ :: r => a :: r
  | S n, x :: r => x :: set_nth n a r
  end.

Definition with_child (w : row) : row :=
  {| w_pair := w_pair w; w_lane := w_lane w; w_queued := w_queued w; w_child := true |}.

Definition happen (cfg : hot_config) (e : event) (y : system) : system :=
  let s := y_store y in
  match e with
  | EStart j => {| y_store := s; y_jobs := y_jobs y ++ [(j, prog_of cfg j)] |}
  | ECall i =>
    match nth_error (y_jobs y) i with
    | Some (j, q) => {| y_store := snd (call q s); y_jobs := set_nth i (j, fst (call q s)) (y_jobs y) |}
    | None => y
    end
  | EFault i f =>
    match nth_error (y_jobs y) i with
    | Some (j, q) => {| y_store := match f with NoEffect => s | LostReply => snd (call q s) end;
                        y_jobs := set_nth i (j, after_error q) (y_jobs y) |}
    | None => y
    end
  | EDeath i =>
    match nth_error (y_jobs y) i with
    | Some (j, _) => {| y_store := s; y_jobs := set_nth i (j, HRet) (y_jobs y) |}
    | None => y
    end
  | EPosted n =>
    match nth_error (s_rows s) n with
    | Some w => {| y_store := {| s_mode := s_mode s; s_active := s_active s; s_conflicts := s_conflicts s;
                                 s_rows := set_nth n (with_child w) (s_rows s) |}; y_jobs := y_jobs y |}
    | None => y
    end
  | EQuiet k => {| y_store := {| s_mode := s_mode s; s_active := put (s_active s) k false;
                                 s_conflicts := s_conflicts s; s_rows := s_rows s |}; y_jobs := y_jobs y |}
  | EForget k => {| y_store := {| s_mode := s_mode s; s_active := s_active s;
                                  s_conflicts := put (s_conflicts s) k 0; s_rows := s_rows s |}; y_jobs := y_jobs y |}
  | ELapse k => {| y_store := {| s_mode := put (s_mode s) k MNormal; s_active := s_active s;
                                 s_conflicts := s_conflicts s; s_rows := s_rows s |}; y_jobs := y_jobs y |}
  end.

(** Before the first request. *)
Definition nothing : system :=
  {| y_store := {| s_mode := fun _ => MNormal; s_active := fun _ => false; s_conflicts := fun _ => 0; s_rows := [] |};
     y_jobs := [] |}.

Fixpoint play (cfg : hot_config) (es : list event) (y : system) : system :=
  match es with [] => y | e :: r => play cfg r (happen cfg e y) end.

(** A job carried out without anybody else in between. *)
Fixpoint finish (q : hprog) (s : store) : store :=
  match q with
  | HRet => s
  | HGet k c => finish (c (Some (s_mode s k))) s
  | HSet k m c => finish (c (Some tt)) (snd (call q s))
  | HActivate k c => finish (c (Some tt)) (snd (call q s))
  | HClear k c => finish (c (Some tt)) (snd (call q s))
  | HActive k c => finish (c (Some (s_active s k))) s
  | HBump k c => finish (c (Some (s_conflicts s k + 1))) (snd (call q s))
  | HTouch k c => finish (c (Some tt)) s
  | HCount p l c => finish (c (Some (count_rows p l (s_rows s)))) s
  | HInsert w c => finish (c (Some tt)) (snd (call q s))
  end.
