(** What the lanes of the queue promise. *)
From Coq Require Import ZArith List String Ascii Bool.
From Verif Require Import Base HotModel.
Import ListNotations.
Local Open Scope string_scope.
Open Scope Z_scope.

(** A queued transaction of the pair waits in the lane: recorded, and nothing has been
    made of it yet. *)
Definition waits (p : pair) (l : lane) (y : system) : Prop :=
  exists w, In w (s_rows (y_store y)) /\ w_pair w = p /\ w_lane w = l /\ w_queued w = true /\ w_child w = false.

(** The same for a scheduled one. *)
Definition waits_scheduled (p : pair) (l : lane) (y : system) : Prop :=
  exists w, In w (s_rows (y_store y)) /\ w_pair w = p /\ w_lane w = l /\ w_queued w = false /\ w_child w = false.

(** No '|' in a balance id. *)
Fixpoint barless (s : string) : Prop :=
  match s with EmptyString => True | String c r => c <> "|"%char /\ barless r end.

(** Ids without '|', the currency in capitals. *)
Definition well_named (p : pair) : Prop := barless (p_src p) /\ barless (p_dst p) /\ upper (p_cur p) = p_cur p.

(** What a history has to respect. *)
Inductive proviso :=
| OneAtATime    (* two requests of one pair are not accepted at the same time *)
| NoFault       (* no Redis or database call fails while a request is accepted *)
| NoLapse       (* a pair's state does not run out *)
| Names.        (* one spelling per pair *)

Definition keeps (x : proviso) (e : event) (y : system) : Prop :=
  match x, e with
  | OneAtATime, EStart (JAccept p _) => forall q r, In (JAccept p q, r) (y_jobs y) -> r = HRet
  | NoFault, EFault i _ => forall p q r, nth_error (y_jobs y) i <> Some (JAccept p q, r)
  | NoLapse, ELapse _ => False
  | Names, EStart (JAccept p _) => well_named p
  | _, _ => True
  end.

(** The histories that respect the provisos [P], and the system after them. *)
Inductive history (cfg : hot_config) (P : proviso -> Prop) : list event -> system -> Prop :=
| h_nil : history cfg P [] nothing
| h_snoc es y e : history cfg P es y -> (forall x, P x -> keeps x e y) -> history cfg P (es ++ [e]) (happen cfg e y).

Definition everything (x : proviso) : Prop := True.
Definition all_but (a x : proviso) : Prop := x <> a.
Definition none_kept (x : proviso) : Prop := False.

(** The same ends and the same currency, whatever its case. *)
Definition alike (a b : pair) : bool :=
  String.eqb (p_src a) (p_src b) && String.eqb (p_dst a) (p_dst b) && String.eqb (upper (p_cur a)) (upper (p_cur b)).

(** The lock conflicts of a pair reported in a history. *)
Fixpoint conflicts (p : pair) (es : list event) : Z :=
  match es with
  | [] => 0
  | EStart (JReport q) :: r => (if alike p q then 1 else 0) + conflicts p r
  | _ :: r => conflicts p r
  end.

(** Pairs mentioned in a history have ids without '|'. *)
Definition barless_history (es : list event) : Prop :=
  forall e, In e es -> match e with
                       | EStart (JReport p) | EStart (JAccept p _) => barless (p_src p) /\ barless (p_dst p)
                       | _ => True
                       end.

Definition complete (p : pair) : Prop := p_src p <> "" /\ p_dst p <> "" /\ p_cur p <> "".

(** The row a job added, if it added exactly one. *)
Definition added (s s' : store) (w : row) : Prop := s_rows s' = (s_rows s ++ [w])%list.

(** [n] reports of a pair, one after the other. *)
Fixpoint reports (cfg : hot_config) (p : pair) (n : nat) (s : store) : store :=
  match n with O => s | S n => reports cfg p n (finish (report cfg p) s) end.

Definition queue_empty (p : pair) (l : lane) (s : store) : Prop :=
  forall w, In w (s_rows s) -> w_pair w = p -> w_lane w = l -> w_queued w = true -> w_child w = true.
