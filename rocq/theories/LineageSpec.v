(** What the lineage theorems talk about. *)
From Coq Require Import ZArith List String Bool Permutation Sorting.Sorted.
From Verif Require Import Base ChainModel LineageModel.
Import ListNotations.
Local Open Scope string_scope.
Open Scope Z_scope.

(** The amount allocated altogether. *)
Definition allocated (l : list alloc) : Z := sumz al_amt l.

(** The sources handed to the allocation are distinct and have something to give. *)
Definition good_sources (l : list source) : Prop := NoDup (map so_id l) /\ forall s, In s l -> 0 < so_bal s.

(** Whether a source has been used up by the allocation. *)
Definition used_up (s : source) (l : list alloc) : Prop := exists a, In a l /\ al_id a = so_id s /\ al_amt a = so_bal s.
Definition drawn_on (s : source) (l : list alloc) : Prop := exists a, In a l /\ al_id a = so_id s.

Fixpoint lruns (k : lcfg) (s : lst) (es : list levent) : option lst :=
  match es with
  | [] => Some s
  | e :: r => match lstep k s e with Some s' => lruns k s' r | None => None end
  end.
(** Any schedule, crashes and errors included. *)
Definition lreach (k : lcfg) (s : lst) : Prop := exists es, lruns k linit es = Some s.

(** No attempt outlives its claim. *)
Definition in_time (s : lst) (e : levent) : Prop :=
  match e with
  | LStep id _ | LFinish id => forall a, find_att (l_atts s) id = Some a -> l_now s <= at_until a
  | _ => True
  end.
(** No holds. *)
Definition settled (e : levent) : Prop := match e with LAccept x => en_inflight x = false | _ => True end.
(** The destination's lineage balances can be prepared. *)
Definition prepared (e : levent) : Prop := match e with LStep _ OPrep => False | _ => True end.

Fixpoint along (k : lcfg) (C : lst -> levent -> Prop) (s : lst) (es : list levent) : Prop :=
  match es with
  | [] => True
  | e :: r => C s e /\ match lstep k s e with Some s' => along k C s' r | None => False end
  end.
Definition lreach_with (k : lcfg) (C : lst -> levent -> Prop) (s : lst) : Prop :=
  exists es, along k C linit es /\ lruns k linit es = Some s.

(** The releases recorded for an entry. *)
Definition is_release (i : nat) (w : wrow) : bool := match w_kind w with WRelease => Nat.eqb (w_entry w) i | _ => false end.
Definition is_receive (i : nat) (w : wrow) : bool := match w_kind w with WReceive => Nat.eqb (w_entry w) i | _ => false end.
Definition releases (s : lst) (i : nat) : list wrow := filter (is_release i) (l_rows s).
Definition receives (s : lst) (i : nat) : list wrow := filter (is_receive i) (l_rows s).
Definition released (s : lst) (i : nat) : Z := sumz w_amt (releases s i).
