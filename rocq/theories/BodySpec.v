(** When two bodies say the same. *)
From Coq Require Import ZArith List String Ascii Bool.
From Verif Require Import Base BodyModel.
Import ListNotations.
Local Open Scope string_scope.
Open Scope Z_scope.

Inductive orel {A} (R : A -> A -> Prop) : option A -> option A -> Prop :=
| O_none : orel R None None
| O_some : forall a b, R a b -> orel R (Some a) (Some b).

(** The same up to the order of members: a struct reads the same from both, and so does a
    map; [N] says when two numbers are the same. *)
Inductive alike (N : bool * Z -> bool * Z -> Prop) : json -> json -> Prop :=
| K_null : alike N JNull JNull
| K_bool : forall b, alike N (JBool b) (JBool b)
| K_num : forall p n p' n', N (p, n) (p', n') -> alike N (JNum p n) (JNum p' n')
| K_text : forall s, alike N (JText s) (JText s)
| K_list : forall l l', Forall2 (alike N) l l' -> alike N (JList l) (JList l')
| K_obj : forall l l', (forall f, orel (alike N) (field f l) (field f l')) -> (forall k, orel (alike N) (get k l) (get k l')) ->
    alike N (JObj l) (JObj l').

(** Numbers that are read into a float64, and into anything. *)
Definition as_float (a b : bool * Z) : Prop := float_of (snd a) = float_of (snd b).
Definition exactly (a b : bool * Z) : Prop := a = b.

(** No object has two members whose names differ in case only. *)
Fixpoint tidy (v : json) : Prop :=
  match v with
  | JList l => (fix go (l : list json) : Prop := match l with [] => True | x :: r => tidy x /\ go r end) l
  | JObj l => NoDup (map (fun kv => lower (fst kv)) l)
              /\ (fix go (l : list (string * json)) : Prop := match l with [] => True | (_, x) :: r => tidy x /\ go r end) l
  | _ => True
  end.
(** All numbers are written in digits and at most 2^53. *)
Fixpoint small (v : json) : Prop :=
  match v with
  | JNum p n => p = true /\ Z.abs n <= 2 ^ 53
  | JList l => (fix go (l : list json) : Prop := match l with [] => True | x :: r => small x /\ go r end) l
  | JObj l => (fix go (l : list (string * json)) : Prop := match l with [] => True | (_, x) :: r => small x /\ go r end) l
  | _ => True
  end.
