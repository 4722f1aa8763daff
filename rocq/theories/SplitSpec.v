(** What a split of [total] minor units owes each leg, without rounding. *)
From Coq Require Import ZArith QArith List String Bool Permutation.
From Verif Require Import Base SplitModel BalanceModel LedgerModel LedgerProgs.
Import ListNotations.
Open Scope Z_scope.

(** What a leg asks for, in minor units ("left" asks for nothing itself). *)
Definition asked (total prec : Z) (d : distribution) : Q :=
  match d_spec d with
  | DPrecise n => inject_Z n
  | DFixed a => a * inject_Z prec
  | DPercent p => inject_Z total * p / 100
  | _ => 0
  end.
Fixpoint sumq {A} (f : A -> Q) (l : list A) : Q :=
  match l with [] => 0%Q | x :: r => (f x + sumq f r)%Q end.
(** What remains for the "left" leg. *)
Definition left_over (total prec : Z) (l : list distribution) : Q :=
  (inject_Z total - sumq (asked total prec) l)%Q.
Definition entitled (total prec : Z) (l : list distribution) (d : distribution) : Q :=
  match d_spec d with DLeft => left_over total prec l | _ => asked total prec d end.

(** A split that makes sense: different, non-empty identifiers; amounts and
    percentages not negative; they do not exceed the total, and either there is
    one "left" leg or they use up the total. *)
Definition proper (total prec : Z) (l : list distribution) : Prop :=
  NoDup (map d_id l) /\ ~ In EmptyString (map d_id l)
  /\ (forall d, In d l -> d_spec d <> DBad /\ (0 <= asked total prec d)%Q)
  /\ (0 <= left_over total prec l)%Q
  /\ (forall d d', In d l -> In d' l -> d_spec d = DLeft -> d_spec d' = DLeft -> d = d')
  /\ ((exists d, In d l /\ d_spec d = DLeft) \/ (left_over total prec l == 0)%Q).

(** What the leg named [id] gets. *)
Definition got (m : list (string * Z)) (id : string) : Z :=
  match find (fun x => String.eqb (fst x) id) m with Some x => snd x | None => 0 end.
Definition handed_out (m : list (string * Z)) : Z := sumz snd m.

(** Every leg comes out in whole minor units. *)
Definition all_whole (total prec : Z) (l : list distribution) : Prop :=
  forall d, In d l -> exists z, (entitled total prec l d == inject_Z z)%Q.

(** A transaction is split over its sources if it lists any, else over its
    destinations. [who t l]: the participant a leg [l] of [t] is for. *)
Definition split_over (t : txn) : list distribution :=
  match t_sources t with [] => t_dests t | s => s end.
Definition who (t l : txn) : string := match t_sources t with [] => t_dst l | _ => t_src l end.
(** A leg is the transaction with one participant and one amount filled in. *)
Definition leg (t l : txn) : Prop :=
  (match t_sources t with [] => t_src l = t_src t | _ => t_dst l = t_dst t end)
  /\ t_cur l = t_cur t /\ t_prec l = t_prec t /\ t_inflight l = t_inflight t /\ t_allow l = t_allow t
  /\ t_limit l = t_limit t /\ t_parent l = t_id t /\ t_sources l = [] /\ t_dests l = [].
(** What participant [id] gets from the legs. *)
Definition share (t : txn) (id : string) (ls : list txn) : Z :=
  sumz (fun l => if String.eqb (who t l) id then t_precise l else 0) ls.

(** The runtime visits the entries of a map in any order, but visits each once. *)
Definition reorders {A} (ord : list A -> list A) : Prop := forall m, Permutation m (ord m).
Definition fair_env (e : split_env) : Prop := reorders (se_q e) /\ reorders (se_z e) /\ reorders (se_l e).
