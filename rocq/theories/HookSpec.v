(** What C42 speaks of. *)
From Coq Require Import List String Bool Arith ZArith.
From Verif Require Import HookModel.
Import ListNotations.
Local Open Scope string_scope.
Local Open Scope nat_scope.

(** Body [b] was sent for hook [id], to register it or to update it. *)
Definition registers (q : request) (id : string) (b : hook) : Prop :=
  exists gen now, q = RRegister gen now b /\ id = (if String.eqb (h_id b) "" then gen else h_id b).
Definition changes (q : request) (id : string) (b : hook) : Prop := registers q id b \/ q = RUpdate id b.

(** Which stage a request runs, for which transactions. *)
Definition stages (q : request) (st : string) (ts : list (string * string)) : Prop :=
  (q = RBefore ts /\ st = pre_type) \/ (q = RAfter ts /\ st = post_type).

(** How often a call may be made again, as asked for. *)
Definition retries (b : hook) : nat :=
  if (h_retry b <? 0)%Z then 3 else Nat.min 10 (Z.to_nat (h_retry b)).
Definition asks_retries (q : request) (id : string) (r : nat) : Prop :=
  exists b, (registers q id b /\ r = retries b) \/ (q = RUpdate id b /\ r = Z.to_nat (h_retry b)).

(** How often the stage [st] was run for the transaction [txn]. *)
Definition rounds (st txn : string) (e : event) : nat :=
  let among (ts : list (string * string)) := List.length (filter (fun x => String.eqb (fst x) txn) ts) in
  match e with
  | EStart (RBefore ts) => if String.eqb st pre_type then among ts else 0
  | EStart (RAfter ts) => if String.eqb st post_type then among ts else 0
  | _ => 0
  end.
Definition all_rounds (st txn : string) (es : list event) : nat := list_sum (map (rounds st txn) es).

(** The requests that reached hook [id] about [txn] at stage [st]. *)
Definition about (st txn id : string) (t : task) : bool :=
  String.eqb (h_id (t_hook t)) id && (String.eqb (n_stage (t_notice t)) st && String.eqb (n_txn (t_notice t)) txn).
Definition requests (st txn id : string) (w : world) : nat :=
  List.length (filter (about st txn id) (w_sent w)).

(** The requests made for one queued call. *)
Definition requests_of (no : nat) (w : world) : nat :=
  List.length (filter (fun t => Nat.eqb (t_no t) no) (w_sent w)).

Definition is_done (p : prog) : Prop := exists a, p = Done a.

(** Hook [id] stands, active, on the list of [st], now and at every moment of [es]. *)
Definition stands (id st : string) (w : world) : Prop :=
  In id (w_sets w (shelf_of st)) /\ exists h, w_hooks w id = Some h /\ h_active h = true.
Fixpoint stands_through (id st : string) (es : list event) (w : world) : Prop :=
  stands id st w /\ match es with [] => True | e :: r => stands_through id st r (happen e w) end.

(** No command of run [i] fails in [es], and it is not broken off. *)
Definition unhurt (i : nat) (e : event) : Prop :=
  match e with EStep j o _ _ => j = i -> o = Fine | EStop j => j <> i | _ => True end.

(** What counts as accepting a call: an answer without a body needs a status from 200 to 299, one
    with a body that is no verdict a status under 400; a verdict counts whatever the status. *)
Inductive accepts : reply -> Prop :=
| accepts_bare s : (200 <= s <= 299)%Z -> accepts (Reply s Empty)
| accepts_text s : (s < 400)%Z -> accepts (Reply s Text)
| accepts_shape s : (s < 400)%Z -> accepts (Reply s Shape)
| accepts_verdict s : accepts (Reply s (Verdict true)).

(** * The registry as its users see it *)

(** When a hook was registered, last called and whether that went well. *)
Definition history (h : hook) : Z * Z * bool := (h_created h, h_last h, h_good h).

(** What a user sets. *)
Record card := { c_name : string; c_url : string; c_type : string; c_active : bool; c_timeout : Z; c_retry : Z }.
Definition card_of (h : hook) : card :=
  {| c_name := h_name h; c_url := h_url h; c_type := h_type h; c_active := h_active h; c_timeout := h_timeout h;
     c_retry := h_retry h |}.
Definition registry := string -> option card.
Definition entry (id : string) (c : option card) (g : registry) : registry :=
  fun x => if String.eqb x id then c else g x.

(** Registering needs a URL and one of the two types; no time is thirty seconds, retries are at most ten. *)
Definition accepted (b : hook) : option card :=
  if String.eqb (h_url b) "" then None
  else if String.eqb (h_type b) pre_type || String.eqb (h_type b) post_type then
    Some {| c_name := h_name b; c_url := h_url b; c_type := h_type b; c_active := h_active b;
            c_timeout := if (h_timeout b <=? 0)%Z then 30%Z else h_timeout b; c_retry := Z.of_nat (retries b) |}
  else None.

Definition expected (q : request) (g : registry) : registry :=
  match q with
  | RRegister gen now b =>
    match accepted b with
    | Some c => entry (if String.eqb (h_id b) "" then gen else h_id b) (Some c) g
    | None => g
    end
  | RUpdate id b => match g id with Some _ => entry id (Some (card_of b)) g | None => g end
  | RDelete id => entry id None g
  | _ => g
  end.

(** Calls and attempts one after the other, nothing failing. *)
Inductive move := MCall (q : request) (order : list string) | MTry (i : nat) (now : Z) (r : reply).
Definition call (q : request) (order : list string) (w : world) : world * answer :=
  alone (List.length (w_runs w)) (JCall q) order Dead (start q) w.
Definition move_on (m : move) (w : world) : world :=
  match m with
  | MCall q order => fst (call q order w)
  | MTry i now r =>
    match nth_error (w_queue w) i with
    | Some (t, S more) =>
      let w1 := with_queue w (drop_nth i (w_queue w)) in
      let (w2, a) := alone (List.length (w_runs w)) (JTry t more) [] r (attempt now (t_hook t) (t_notice t)) w1 in
      match a, more with
      | AOk, _ | _, 0 => w2
      | _, S _ => with_queue w2 (w_queue w2 ++ [(t, more)])
      end
    | _ => w
    end
  end.
Definition expects (m : move) (g : registry) : registry :=
  match m with MCall q _ => expected q g | MTry _ _ _ => g end.

(** No call of [id] is waiting. *)
Definition idle (id : string) (w : world) : Prop := forall x, In x (w_queue w) -> h_id (t_hook (fst x)) <> id.

(** A hook is changed only while none of its calls is waiting, and registered anew only with its type. *)
Inductive proviso := Unhurried | Same_type.
Definition keeps (x : proviso) (m : move) (w : world) (g : registry) : Prop :=
  match x, m with
  | Unhurried, MCall (RRegister gen _ b) _ => idle (if String.eqb (h_id b) "" then gen else h_id b) w
  | Unhurried, MCall (RUpdate id _) _ => idle id w
  | Unhurried, MCall (RDelete id) _ => idle id w
  | Same_type, MCall (RRegister gen _ b) _ =>
    forall c, g (if String.eqb (h_id b) "" then gen else h_id b) = Some c -> c_type c = h_type b
  | _, _ => True
  end.
Inductive orderly (P : proviso -> Prop) : list move -> world -> registry -> Prop :=
| orderly_nil : orderly P [] blank (fun _ => None)
| orderly_more ms m w g : orderly P ms w g -> (forall x, P x -> keeps x m w g) ->
    orderly P (ms ++ [m]) (move_on m w) (expects m g).
Definition everything : proviso -> Prop := fun _ => True.
Definition all_but (a : proviso) : proviso -> Prop := fun x => x <> a.

(** What a user sees of the registry: each hook as set, each list with just its hooks, each once. *)
Definition shown (id : string) (w : world) : option card :=
  match snd (call (RGet id) [] w) with AShow h => Some (card_of h) | _ => None end.
Definition listed (t : string) (order : list string) (w : world) : list hook :=
  match snd (call (RList t) order w) with AList l => l | _ => [] end.
(** The calls a stage queues. *)
Definition new_calls (q : request) (order : list string) (w : world) : list task :=
  map snd (skipn (List.length (w_made w)) (w_made (fst (call q order w)))).
Definition times {A} (f : A -> bool) (l : list A) : nat := List.length (filter f l).
Definition tells (id : string) (n : notice) (t : task) : bool :=
  String.eqb (h_id (t_hook t)) id
  && (String.eqb (n_txn (t_notice t)) (n_txn n) && (String.eqb (n_stage (t_notice t)) (n_stage n)
      && String.eqb (n_data (t_notice t)) (n_data n))).
