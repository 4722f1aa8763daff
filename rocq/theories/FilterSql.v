(** How the database reads a listing query: words, then structure, then which rows.

    This is part of the specification, not of the program. It covers the fragment of
    PostgreSQL's language a listing can use: quoted text ends at the next quote that is not
    doubled; AND binds tighter than OR; BETWEEN takes the first AND after it; numbered
    parameters stand for the values handed over beside the text. Anything else is an error. *)

From Coq Require Import List Bool Arith Lia Ascii String DecimalString Sorted Permutation.
From Verif Require Import BodyModel.
Import ListNotations.
Local Open Scope string_scope.
Local Open Scope list_scope.

(** * Words *)

Inductive tok :=
  | TWord (s : string) | TArg (n : nat) | TQuo (s : string)
  | TAnd | TOr | TLike | TILike | TIn | TAny | TBetween | TIs | TNot | TNull | TTrue | TFalse
  | TSelect | TFrom | TWhere | TWith | TAs | TOrder | TBy | TAsc | TDesc | TLimit | TOffset
  | TEq | TNe | TGt | TGe | TLt | TLe | TArrow | TContains | TAsk | TStar | TCast
  | TOpen | TClose | TComma.

(** Keywords, in any letter case; every other word is a name. *)
Definition keywords : list (string * tok) :=
  [("and", TAnd); ("or", TOr); ("like", TLike); ("ilike", TILike); ("in", TIn); ("any", TAny);
   ("between", TBetween); ("is", TIs); ("not", TNot); ("null", TNull); ("true", TTrue);
   ("false", TFalse); ("select", TSelect); ("from", TFrom); ("where", TWhere); ("with", TWith);
   ("as", TAs); ("order", TOrder); ("by", TBy); ("asc", TAsc); ("desc", TDesc);
   ("limit", TLimit); ("offset", TOffset)].

Definition operators : list (string * tok) :=
  [("=", TEq); ("!=", TNe); (">", TGt); (">=", TGe); ("<", TLt); ("<=", TLe);
   ("->>", TArrow); ("@>", TContains); ("?", TAsk); ("*", TStar); ("::", TCast)].

Fixpoint look (s : string) (l : list (string * tok)) : option tok :=
  match l with
  | [] => None
  | (k, t) :: l => if String.eqb s k then Some t else look s l
  end.

Definition word (s : string) : tok :=
  match look (lower s) keywords with Some t => t | None => TWord s end.

Definition within (a b : nat) (c : ascii) : bool :=
  (a <=? nat_of_ascii c)%nat && (nat_of_ascii c <=? b)%nat.

Definition digit (c : ascii) : bool := within 48 57 c.
Definition letter (c : ascii) : bool := within 65 90 c || within 97 122 c.
Definition one_of (s : string) (c : ascii) : bool :=
  existsb (Ascii.eqb c) (list_ascii_of_string s).
Definition blank (c : ascii) : bool := one_of " " c || within 9 13 c.
Definition wordly (c : ascii) : bool := letter c || digit c || one_of "_." c.
Definition sign (c : ascii) : bool := one_of "+-*/<>=~!@#%^&|`?:" c.
Definition quote : ascii := "'"%char.

Definition snoc (s : string) (c : ascii) : string := (s ++ String c EmptyString)%string.

(** What has been read of the word under way. [Shut]: a quote was seen that may be the
    first of two. *)
Inductive scan := Out | Name (s : string) | Num (s : string) | Open (s : string)
                | Shut (s : string) | Sign (s : string).

(** The character carries on the word under way. *)
Definition carry (st : scan) (c : ascii) : option scan :=
  match st with
  | Out => None
  | Name s => if wordly c then Some (Name (snoc s c)) else None
  | Num s => if digit c then Some (Num (snoc s c)) else None
  | Open s => Some (if Ascii.eqb c quote then Shut s else Open (snoc s c))
  | Shut s => if Ascii.eqb c quote then Some (Open (snoc s c)) else None
  | Sign s => if sign c then Some (Sign (snoc s c)) else None
  end.

(** The word under way, if it may end here. *)
Definition pend (st : scan) : option (list tok) :=
  match st with
  | Out => Some []
  | Name s => Some [word s]
  | Num s => match NilEmpty.uint_of_string s with
             | Some u => if String.eqb s "" then None else Some [TArg (Nat.of_uint u)]
             | None => None
             end
  | Open _ => None
  | Shut s => Some [TQuo s]
  | Sign s => match look s operators with Some t => Some [t] | None => None end
  end.

(** A character that begins something. *)
Definition begin (c : ascii) : option (list tok * scan) :=
  if blank c then Some ([], Out)
  else if one_of "(" c then Some ([TOpen], Out)
  else if one_of ")" c then Some ([TClose], Out)
  else if one_of "," c then Some ([TComma], Out)
  else if letter c || one_of "_" c then Some ([], Name (String c EmptyString))
  else if one_of "$" c then Some ([], Num EmptyString)
  else if Ascii.eqb c quote then Some ([], Open EmptyString)
  else if sign c then Some ([], Sign (String c EmptyString))
  else None.

Definition step (st : scan) (c : ascii) : option (list tok * scan) :=
  match carry st c with
  | Some st' => Some ([], st')
  | None => match pend st, begin c with
            | Some p, Some (b, st') => Some (p ++ b, st')
            | _, _ => None
            end
  end.

Fixpoint scanned (st : scan) (s : string) : option (list tok * scan) :=
  match s with
  | EmptyString => Some ([], st)
  | String c s =>
    match step st c with
    | Some (a, st') => match scanned st' s with
                       | Some (b, e) => Some (a ++ b, e)
                       | None => None
                       end
    | None => None
    end
  end.

Definition words (s : string) : option (list tok) :=
  match scanned Out s with
  | Some (a, st) => match pend st with Some p => Some (a ++ p) | None => None end
  | None => None
  end.

(** * Structure *)

(** [Col c]: a column. [Text c k]: the text under key [k] of a JSON column. [As c k t]: that
    text turned into a number or a time. *)
Inductive operand := Col (c : string) | Text (c k : string) | As (c k t : string).
Inductive cmp := Eq | Ne | Gt | Ge | Lt | Le | Like | ILike.

Inductive cond :=
  | And (a b : cond) | Or (a b : cond)
  | Cmp (o : operand) (c : cmp) (n : nat)
  | AnyOf (o : operand) (n : nat)
  | OneOf (o : operand) (ns : list nat)
  | Among (o : operand) (c q : string)
  | Between (o : operand) (a b : nat)
  | IsNull (o : operand) | NotNull (o : operand)
  | HasKey (c k : string) (b : bool)
  | Covers (c : string) (n : nat).

Definition p_operand (ts : list tok) : option (operand * list tok) :=
  match ts with
  | TOpen :: TWord c :: TArrow :: TQuo k :: TClose :: TCast :: TWord t :: r => Some (As c k t, r)
  | TWord c :: TArrow :: TQuo k :: r => Some (Text c k, r)
  | TWord c :: r => Some (Col c, r)
  | _ => None
  end.

Fixpoint p_args (ts : list tok) : option (list nat * list tok) :=
  match ts with
  | TArg n :: TClose :: r => Some ([n], r)
  | TArg n :: TComma :: r => match p_args r with Some (ns, r') => Some (n :: ns, r') | None => None end
  | _ => None
  end.

Definition p_rest (o : operand) (ts : list tok) : option (cond * list tok) :=
  match ts with
  | TEq :: TAny :: TOpen :: TArg n :: TClose :: r => Some (AnyOf o n, r)
  | TEq :: TArg n :: r => Some (Cmp o Eq n, r)
  | TNe :: TArg n :: r => Some (Cmp o Ne n, r)
  | TGt :: TArg n :: r => Some (Cmp o Gt n, r)
  | TGe :: TArg n :: r => Some (Cmp o Ge n, r)
  | TLt :: TArg n :: r => Some (Cmp o Lt n, r)
  | TLe :: TArg n :: r => Some (Cmp o Le n, r)
  | TLike :: TArg n :: r => Some (Cmp o Like n, r)
  | TILike :: TArg n :: r => Some (Cmp o ILike n, r)
  | TIn :: TOpen :: TSelect :: TWord c :: TFrom :: TWord q :: TClose :: r => Some (Among o c q, r)
  | TIn :: TOpen :: r => match p_args r with Some (ns, r') => Some (OneOf o ns, r') | None => None end
  | TBetween :: TArg a :: TAnd :: TArg b :: r => Some (Between o a b, r)
  | TIs :: TNull :: r => Some (IsNull o, r)
  | TIs :: TNot :: TNull :: r => Some (NotNull o, r)
  | TContains :: TArg n :: TCast :: TWord t :: r =>
      match o with
      | Col c => if String.eqb t "jsonb" then Some (Covers c n, r) else None
      | _ => None
      end
  | TAsk :: TQuo k :: TEq :: TTrue :: r => match o with Col c => Some (HasKey c k true, r) | _ => None end
  | TAsk :: TQuo k :: TEq :: TFalse :: r => match o with Col c => Some (HasKey c k false, r) | _ => None end
  | _ => None
  end.

(** A parenthesis opens a converted value or a condition. *)
Definition opens (ts : list tok) : option (list tok) :=
  match ts with
  | TOpen :: TWord _ :: TArrow :: TQuo _ :: TClose :: TCast :: _ => None
  | TOpen :: r => Some r
  | _ => None
  end.

(** [n] bounds the depth of the reading; [read] gives enough. *)
Fixpoint p_or (n : nat) (ts : list tok) : option (cond * list tok) :=
  match n with
  | 0 => None
  | S n => match p_and n ts with
           | Some (a, TOr :: r) => match p_or n r with Some (b, r') => Some (Or a b, r') | None => None end
           | x => x
           end
  end
with p_and (n : nat) (ts : list tok) : option (cond * list tok) :=
  match n with
  | 0 => None
  | S n => match p_prim n ts with
           | Some (a, TAnd :: r) => match p_and n r with Some (b, r') => Some (And a b, r') | None => None end
           | x => x
           end
  end
with p_prim (n : nat) (ts : list tok) : option (cond * list tok) :=
  match n with
  | 0 => None
  | S n => match opens ts with
           | Some r => match p_or n r with Some (c, TClose :: r') => Some (c, r') | _ => None end
           | None => match p_operand ts with Some (o, r) => p_rest o r | None => None end
           end
  end.

(** A query given a name before the main one: one column of a table under an alias. *)
Record sub := { s_name : string; s_col : string; s_from : string; s_alias : string; s_cond : cond }.

Record query := {
  q_subs : list sub; q_cols : list tok; q_from : string; q_where : option cond;
  q_order : string; q_desc : bool; q_limit : nat; q_offset : nat }.

Fixpoint p_subs (n : nat) (ts : list tok) : option (list sub * list tok) :=
  match n with
  | 0 => None
  | S n =>
    match ts with
    | TWord w :: TAs :: TOpen :: TSelect :: TWord c :: TFrom :: TWord t :: TWord a :: TWhere :: r =>
      match p_or n r with
      | Some (b, TClose :: TComma :: r') =>
        match p_subs n r' with
        | Some (l, r'') => Some ({| s_name := w; s_col := c; s_from := t; s_alias := a; s_cond := b |} :: l, r'')
        | None => None
        end
      | Some (b, TClose :: r') =>
        Some ([{| s_name := w; s_col := c; s_from := t; s_alias := a; s_cond := b |}], r')
      | _ => None
      end
    | _ => None
    end
  end.

Fixpoint p_cols (ts : list tok) : option (list tok * list tok) :=
  match ts with
  | [] => None
  | TFrom :: r => Some ([], r)
  | t :: r => match p_cols r with Some (l, r') => Some (t :: l, r') | None => None end
  end.

Definition p_end (us : list sub) (cs : list tok) (f : string) (w : option cond) (ts : list tok)
  : option query :=
  match ts with
  | [TOrder; TBy; TWord c; d; TLimit; TArg l; TOffset; TArg o] =>
    match d with
    | TAsc => Some {| q_subs := us; q_cols := cs; q_from := f; q_where := w; q_order := c;
                      q_desc := false; q_limit := l; q_offset := o |}
    | TDesc => Some {| q_subs := us; q_cols := cs; q_from := f; q_where := w; q_order := c;
                       q_desc := true; q_limit := l; q_offset := o |}
    | _ => None
    end
  | _ => None
  end.

Definition p_main (n : nat) (us : list sub) (ts : list tok) : option query :=
  match ts with
  | TSelect :: r =>
    match p_cols r with
    | Some (cs, TWord f :: TWhere :: r') =>
      match p_or n r' with Some (c, r'') => p_end us cs f (Some c) r'' | None => None end
    | Some (cs, TWord f :: r') => p_end us cs f None r'
    | _ => None
    end
  | _ => None
  end.

Definition parse (ts : list tok) : option query :=
  let n := 10 + List.length ts in
  match ts with
  | TWith :: r => match p_subs n r with Some (us, r') => p_main n us r' | None => None end
  | _ => p_main n [] ts
  end.

Definition read (s : string) : option query :=
  match words s with Some ts => parse ts | None => None end.
