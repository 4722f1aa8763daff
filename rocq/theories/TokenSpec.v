(** What holders of identities rely on. *)
From Coq Require Import List String Ascii Bool Arith.
From Verif Require Import BodyModel TokenModel.
Import ListNotations.
Local Open Scope string_scope.

(** The cipher opens what it has sealed. *)
Definition opens (k : secret) : Prop := forall n v, k_open k n (k_seal k n v) = Some v.

Definition colonless (s : string) : Prop := ~ In ":"%char (list_ascii_of_string s).

(** What can be learned of a field: a field that is not tokenized shows itself. *)
Definition shown (k : secret) (y : system) (id f : string) : option string :=
  match y_rows y id with
  | None => None
  | Some r => if marked r f then detokenize k (i_text r f) else Some (i_text r f)
  end.

(** The same class of characters: capitals, small letters, digits; any other is the same. *)
Definition look (c d : ascii) : Prop :=
  if between "A" "Z" c then between "A" "Z" d = true
  else if between "a" "z" c then between "a" "z" d = true
  else if between "0" "9" c then between "0" "9" d = true
  else c = d.
(** A token of [v]: a text of the same look and what [v] can be found from. *)
Definition token_of (k : secret) (v t : string) : Prop :=
  exists w b, t = "FPT:" ++ w ++ ":" ++ b /\ Forall2 look (list_ascii_of_string v) (list_ascii_of_string w)
              /\ detokenize k t = Some v.

(** * Histories *)

Definition writes (q : request) : option string :=
  match q with
  | RPut id _ _ | RDelete id | RMeta id _ | RTokenize id _ => Some id
  | _ => None
  end.
Definition is_done (p : prog) : Prop := exists a, p = Done a.

Inductive proviso :=
| OneAtATime    (* changes of one identity are asked for one after the other *)
| NoColon       (* what is given for a field that can be tokenized has no colon *)
| MarksAlone    (* nobody sends the entry of the metadata that says what is tokenized, or drops it *)
| NoOverwrite.  (* nobody writes to a field that is tokenized *)

Definition keeps (x : proviso) (e : event) (y : system) : Prop :=
  match x, e with
  | OneAtATime, EStart q =>
    forall id q' p, writes q = Some id -> In (q', p) (y_jobs y) -> writes q' = Some id -> is_done p
  | NoColon, EStart (RCreate _ t _) | NoColon, EStart (RPut _ t _) => forall f, In f tokenizable -> colonless (t f)
  | MarksAlone, EStart (RCreate _ _ m) | MarksAlone, EStart (RMeta _ m) => ~ In "tokenized_fields" (map fst m)
  | MarksAlone, EStart (RPut id _ (Some m)) =>
    ~ In "tokenized_fields" (map fst m) /\ forall r f, y_rows y id = Some r -> marked r f = false
  | NoOverwrite, EStart (RPut id t _) =>
    forall r f, y_rows y id = Some r -> In f tokenizable -> marked r f = true -> t f = ""
  | _, _ => True
  end.
(** A nonce has twelve bytes. *)
Definition fits (e : event) : Prop :=
  match e with EStart (RTokenize _ l) => Forall (fun x => String.length (snd x) = 12%nat) l | _ => True end.

Inductive history (k : secret) (P : proviso -> Prop) : list event -> system -> Prop :=
| h_nil : history k P [] nothing
| h_snoc es e y : history k P es y -> fits e -> (forall x, P x -> keeps x e y) -> history k P (es ++ [e]) (happen k e y).

(** The event is a step of this request. *)
Definition by_step (y : system) (e : event) (q : request) : Prop :=
  exists i o p, e = EStep i o /\ nth_error (y_jobs y) i = Some (q, p).

Definition everything : proviso -> Prop := fun _ => True.
Definition all_but (a : proviso) : proviso -> Prop := fun x => x <> a.
