(** What becomes of the body of a POST made with an API key. *)
From Coq Require Import ZArith List String Ascii Bool.
From Verif Require Import Base.
Import ListNotations.
Local Open Scope string_scope.
Open Scope Z_scope.

(** JSON. Simplified: numbers are whole; [plain]: written in digits, not with an exponent.
    Texts are valid UTF-8. *)
Inductive json :=
| JNull
| JBool (b : bool)
| JNum (plain : bool) (n : Z)
| JText (s : string)
| JList (l : list json)
| JObj (l : list (string * json)).

(** ** Numbers *)

(** strconv.ParseFloat of a whole number: the nearest number of 53 binary digits, ties to
    even; None: out of range. *)
Definition nearest (a : Z) : Z :=
  if a <? 2 ^ 53 then a
  else let k := Z.log2 a - 52 in
       let q := a / 2 ^ k in
       let r := a mod 2 ^ k in
       (if 2 * r <? 2 ^ k then q else if 2 ^ k <? 2 * r then q + 1 else if Z.even q then q else q + 1) * 2 ^ k.
Definition float_of (n : Z) : option Z :=
  let v := nearest (Z.abs n) in
  if v <? 2 ^ 1024 then Some (Z.sgn n * v) else None.

(** strconv.FormatFloat with precision -1: the decimal number with the fewest digits that
    reads as [v], the nearest if there are several; digits up to 10^21, an exponent from
    there on (floatEncoder, encoding/json). *)
Fixpoint shortest (e : nat) (v : Z) : Z :=
  match e with
  | O => v
  | S e' => let t := 10 ^ Z.of_nat e in
            let m := (v + t / 2) / t * t in
            if nearest m =? v then m else shortest e' v
  end.
Definition show (v : Z) : json :=
  JNum (Z.abs v <? 10 ^ 21) (Z.sgn v * shortest (Z.to_nat (Z.log2 (Z.abs v) / 3 + 1)) (Z.abs v)).

(** ** Objects *)

(** The order of names: by their bytes. *)
Fixpoint before (a b : string) : bool :=
  match a, b with
  | _, EmptyString => false
  | EmptyString, String _ _ => true
  | String c a', String d b' =>
    if Nat.ltb (nat_of_ascii c) (nat_of_ascii d) then true
    else if Nat.ltb (nat_of_ascii d) (nat_of_ascii c) then false else before a' b'
  end.
(** A map of Go, listed in the order in which json.Marshal writes it. *)
Fixpoint put {A} (k : string) (v : A) (l : list (string * A)) : list (string * A) :=
  match l with
  | [] => [(k, v)]
  | (k', v') :: r => if String.eqb k k' then (k, v) :: r
                     else if before k k' then (k, v) :: l else (k', v') :: put k v r
  end.
Fixpoint get {A} (k : string) (l : list (string * A)) : option A :=
  match l with [] => None | (k', v) :: r => if String.eqb k k' then Some v else get k r end.

(** json.Unmarshal into an interface and json.Marshal of that: numbers become float64, of
    members with the same name the last stays. None: Unmarshal reports an error. *)
Fixpoint remarshal (v : json) : option json :=
  match v with
  | JNum _ n => match float_of n with Some f => Some (show f) | None => None end
  | JList l =>
    match (fix go (l : list json) : option (list json) :=
             match l with
             | [] => Some []
             | x :: r => match remarshal x, go r with Some x', Some r' => Some (x' :: r') | _, _ => None end
             end) l with
    | Some l' => Some (JList l')
    | None => None
    end
  | JObj l =>
    match (fix go (l : list (string * json)) (m : list (string * json)) : option (list (string * json)) :=
             match l with
             | [] => Some m
             | (k, x) :: r => match remarshal x with Some x' => go r (put k x' m) | None => None end
             end) l [] with
    | Some m => Some (JObj m)
    | None => None
    end
  | _ => Some v
  end.

(** injectAPIKeyToMetadata, api/middleware/auth.go:128-179; an error is logged and the
    request goes on with the body it came with (auth.go:271-275). A body that is the word
    null leaves the map nil, and the assignment on line 165 panics. *)
Inductive injected := Rewritten (v : json) | Untouched (v : json) | Panics.
Definition inject (id : string) (body : json) : injected :=
  match body with
  | JNull => Panics
  | JObj l =>
    match remarshal body with
    | Some (JObj m) =>
      let meta := match get "meta_data" m with Some (JObj x) => x | _ => [] end in
      Rewritten (JObj (put "meta_data" (JObj (put "BLNK_GENERATED_BY" (JText id) meta)) m))
    | _ => Untouched body
    end
  | _ => Untouched body
  end.

(** ** What a handler reads *)

Definition lower_char (c : ascii) : ascii :=
  let n := nat_of_ascii c in if (Nat.leb 65 n && Nat.leb n 90)%bool then ascii_of_nat (n + 32) else c.
Fixpoint lower (s : string) : string :=
  match s with EmptyString => "" | String c r => String (lower_char c) (lower r) end.

(** json.Unmarshal into a struct matches names without regard to case, and of several
    members for one field the last counts. (Folding of other alphabets is left out.) *)
Fixpoint field (f : string) (l : list (string * json)) : option json :=
  match l with
  | [] => None
  | (k, v) :: r => match field f r with Some x => Some x | None => if String.eqb (lower k) (lower f) then Some v else None end
  end.
(** A field that is a map keeps the entries of earlier members, and null empties it. None:
    the body is refused. *)
Definition into_map (m : list (string * json)) (v : json) : option (list (string * json)) :=
  match v with
  | JObj l => Some (fold_left (fun m kv => put (fst kv) (snd kv) m) l m)
  | JNull => Some []
  | _ => None
  end.
Fixpoint map_field (f : string) (l : list (string * json)) (m : list (string * json)) : option (list (string * json)) :=
  match l with
  | [] => Some m
  | (k, v) :: r => if String.eqb (lower k) (lower f)
                   then match into_map m v with Some m' => map_field f r m' | None => None end
                   else map_field f r m
  end.
(** A field that is a big.Int takes digits only. *)
Definition int_field (f : string) (l : list (string * json)) : option Z :=
  match field f l with Some (JNum true n) => Some n | _ => None end.
