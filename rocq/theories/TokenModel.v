(** Identities, and the tokens that stand for what they hold. *)
From Coq Require Import List String Ascii Bool Arith Lia.
From Verif Require Import BodyModel.
Import ListNotations.
Local Open Scope string_scope.
Local Open Scope nat_scope.

(** Texts are bytes, valid UTF-8. *)
Definition code (c : ascii) : nat := nat_of_ascii c.
Definition chr (n : nat) : ascii := ascii_of_nat n.

(** * Base 64 *)

Definition alphabet : string := "ABCDEFGHIJKLMNOPQRSTUVWXYZabcdefghijklmnopqrstuvwxyz0123456789+/".
Definition letter (n : nat) : ascii := match String.get n alphabet with Some c => c | None => "="%char end.
Fixpoint place (c : ascii) (s : string) : option nat :=
  match s with
  | "" => None
  | String d r => if Ascii.eqb c d then Some 0 else option_map S (place c r)
  end.
Definition sextet (c : ascii) : option nat := place c alphabet.

(** base64.StdEncoding.EncodeToString, internal/tokenization/tokenization.go:122. *)
Fixpoint encode (s : string) : string :=
  match s with
  | "" => ""
  | String a "" =>
    String (letter (code a / 4)) (String (letter (code a mod 4 * 16)) "==")
  | String a (String b "") =>
    String (letter (code a / 4)) (String (letter (code a mod 4 * 16 + code b / 16))
      (String (letter (code b mod 16 * 4)) "="))
  | String a (String b (String c r)) =>
    String (letter (code a / 4)) (String (letter (code a mod 4 * 16 + code b / 16))
      (String (letter (code b mod 16 * 4 + code c / 64)) (String (letter (code c mod 64)) (encode r))))
  end.

Fixpoint unbroken (s : string) : string :=
  match s with
  | "" => ""
  | String c r => if Ascii.eqb c (chr 10) || Ascii.eqb c (chr 13) then unbroken r else String c (unbroken r)
  end.

Fixpoint quads (s : string) : option string :=
  match s with
  | "" => Some ""
  | String a (String b (String c (String d r))) =>
    match sextet a, sextet b with
    | Some x, Some y =>
      let one := chr (x * 4 + y / 16) in
      if Ascii.eqb c "=" then if Ascii.eqb d "=" && String.eqb r "" then Some (String one "") else None
      else match sextet c with
           | None => None
           | Some z =>
             let two := chr (y mod 16 * 16 + z / 4) in
             if Ascii.eqb d "=" then if String.eqb r "" then Some (String one (String two "")) else None
             else match sextet d with
                  | None => None
                  | Some w => match quads r with
                              | Some t => Some (String one (String two (String (chr (z mod 4 * 64 + w)) t)))
                              | None => None
                              end
                  end
           end
    | _, _ => None
    end
  | _ => None
  end.

(** base64.StdEncoding.DecodeString, internal/tokenization/tokenization.go:165: line ends are passed over, bits
    beyond the last byte are not looked at. *)
Definition decode (s : string) : option string := quads (unbroken s).

(** * Tokens *)

(** The secret: its length (blnk.go:90-97,
    internal/tokenization/tokenization.go:48-69), AES-GCM under it, and the
    bytes of the HMAC of a value. Simplified: these are any functions. *)
Record secret := { k_len : nat; k_seal : string -> string -> string; k_open : string -> string -> option string;
                   k_seed : string -> nat -> nat }.

Definition between (a b c : ascii) : bool := (code a <=? code c) && (code c <=? code b).
(** The first byte of a character. *)
Definition starts (c : ascii) : bool := (code c <? 128) || (192 <=? code c).
(** internal/tokenization/tokenization.go:260-285 (generateTokenWithFormat); [n] characters came before. *)
Fixpoint disguise (seed : nat -> nat) (n : nat) (s : string) : string :=
  match s with
  | "" => ""
  | String c r =>
    let b := seed (n mod 32) in
    String (if between "A" "Z" c then chr (65 + b mod 26)
            else if between "a" "z" c then chr (97 + b mod 26)
            else if between "0" "9" c then chr (48 + b mod 10) else c)
           (disguise seed (if starts c then S n else n) r)
  end.

(** internal/tokenization/tokenization.go:92-123 (TokenizeWithMode, standard mode); [nonce]: the 12 random bytes. *)
Definition seal (k : secret) (nonce v : string) : string := encode (nonce ++ k_seal k nonce v).
(** internal/tokenization/tokenization.go:208-231 (formatPreservingTokenize). *)
Definition token (k : secret) (nonce v : string) : string :=
  "FPT:" ++ disguise (k_seed k v) 0 v ++ ":" ++ seal k nonce v.

Fixpoint drop (n : nat) (s : string) : string :=
  match n, s with S n, String _ r => drop n r | _, _ => s end.
(** internal/tokenization/tokenization.go:163-197 (standardDetokenize); aes.NewCipher takes keys of three lengths. *)
Definition unseal (k : secret) (t : string) : option string :=
  match decode t with
  | None => None
  | Some d => if existsb (Nat.eqb (k_len k)) [16; 24; 32] && (12 <=? String.length d)
              then k_open k (substring 0 12 d) (drop 12 d) else None
  end.
(** What follows the first colon. *)
Fixpoint past_colon (s : string) : option string :=
  match s with "" => None | String c r => if Ascii.eqb c ":" then Some r else past_colon r end.
(** internal/tokenization/tokenization.go:134-143, 241-258 (Detokenize, formatPreservingDetokenize):
    strings.SplitN(token, ":", 3). *)
Definition detokenize (k : secret) (t : string) : option string :=
  if prefix "FPT:" t then match past_colon (drop 4 t) with Some s => unseal k s | None => None end
  else unseal k t.

(** * Identities *)

(** model/identity.go:23-43. Simplified: [i_text] by the name of the field; dates are left
    out; metadata that is null is empty. Numbers in metadata are those the handler has read. *)
Record row := { i_text : string -> string; i_meta : list (string * json) }.

Definition text_fields : list string :=
  ["IdentityType"; "OrganizationName"; "Category"; "FirstName"; "LastName"; "OtherNames"; "Gender"; "EmailAddress";
   "PhoneNumber"; "Nationality"; "Street"; "Country"; "State"; "PostCode"; "City"].
(** internal/tokenization/tokenization.go:27-36. *)
Definition tokenizable : list string :=
  ["FirstName"; "LastName"; "OtherNames"; "EmailAddress"; "PhoneNumber"; "Street"; "PostCode"].
Definition among (s : string) (l : list string) : bool := existsb (String.eqb s) l.

(** model/identity.go:47-53, identity.go:393-401 (convertToStructFieldName). Simplified: a first
    byte that is no ASCII letter stays; no field has such a name. *)
Definition cap (f : string) : string :=
  match f with
  | "" => ""
  | String c r => String (if between "a" "z" c then chr (code c - 32) else c) r
  end.

Definition flag (f : string) (m : list (string * json)) : option bool :=
  match get f m with Some (JBool b) => Some b | _ => None end.
(** model/identity.go:55-87 (IsFieldTokenized), on an identity read from the database. *)
Definition marked (r : row) (f : string) : bool :=
  match get "tokenized_fields" (i_meta r) with
  | Some (JObj m) => match flag (cap f) m with
                     | Some b => b
                     | None => match flag f m with Some b => b | None => false end
                     end
  | _ => false
  end.
(** model/identity.go:89-117 (MarkFieldAsTokenized). *)
Definition mark (r : row) (f : string) : list (string * json) :=
  let old := match get "tokenized_fields" (i_meta r) with
             | Some (JObj m) => filter (fun e => match snd e with JBool _ => true | _ => false end) m
             | _ => []
             end in
  put "tokenized_fields" (JObj (put (cap f) (JBool true) old)) (i_meta r).

(** * Calls to the database *)

(** UPDATE blnk.identity SET ...: a text that is empty is not set. *)
Record patch := { p_text : string -> string; p_meta : option (list (string * json)) }.
Definition apply (p : patch) (r : row) : row :=
  {| i_text := fun f => if among f text_fields && negb (String.eqb (p_text p f) "") then p_text p f else i_text r f;
     i_meta := match p_meta p with Some m => m | None => i_meta r end |}.

Inductive answer :=
| AErr | AOk
| AText (s : string)
| ATexts (l : list (string * string))
| ARow (r : row)
| ANames (l : list string).

Inductive seen := Failed | Missing | Got (r : row).
Inductive prog :=
| Done (a : answer)
| Load (id : string) (k : seen -> prog)
| Store (id : string) (p : patch) (strict : bool) (k : bool -> prog)  (* strict: no such row is an error *)
| Insert (id : string) (r : row) (k : bool -> prog)
| Remove (id : string) (k : bool -> prog).

Definition confirm (ok : bool) : prog := Done (if ok then AOk else AErr).

(** database/identity.go:211-301 (UpdateIdentity); an update of nothing is refused. *)
Definition update (id : string) (p : patch) (k : bool -> prog) : prog :=
  if forallb (fun f => String.eqb (p_text p f) "") text_fields && match p_meta p with None => true | _ => false end
  then k false else Store id p true k.

(** identity.go:150-205 (TokenizeIdentityField). *)
Definition tokenize (s : secret) (id f nonce : string) (k : bool -> prog) : prog :=
  if negb (among (cap f) tokenizable) then k false
  else Load id (fun x =>
    match x with
    | Got r =>
      if marked r f || negb (k_len s =? 32) then k false
      else update id {| p_text := fun g => if String.eqb g (cap f) then token s nonce (i_text r (cap f)) else i_text r g;
                        p_meta := Some (mark r f) |} k
    | _ => k false
    end).

(** identity.go:267-275 (TokenizeIdentity). *)
Fixpoint tokenize_all (s : secret) (id : string) (l : list (string * string)) : prog :=
  match l with
  | [] => Done AOk
  | (f, nonce) :: r => tokenize s id f nonce (fun ok => if ok then tokenize_all s id r else Done AErr)
  end.

(** identity.go:216-257 (DetokenizeIdentityField), on the identity it has read. *)
Definition reveal (s : secret) (r : row) (f : string) : option string :=
  if marked r f || marked r (cap f)
  then if among (cap f) text_fields then detokenize s (i_text r (cap f)) else None
  else None.
Fixpoint reveal_all (s : secret) (id : string) (l : list string) (acc : list (string * string)) : prog :=
  match l with
  | [] => Done (ATexts acc)
  | f :: r => Load id (fun x => match x with
                               | Got i => match reveal s i f with
                                          | Some v => reveal_all s id r (put f v acc)
                                          | None => Done AErr
                                          end
                               | _ => Done AErr
                               end)
  end.

(** The marked fields: identity.go:285-321, api/identity.go:357-452. Simplified: in the order
    of their names, the program goes through a map. *)
Definition marks (r : row) : list string :=
  match get "tokenized_fields" (i_meta r) with
  | Some (JObj m) => map fst (filter (fun e => match snd e with JBool true => true | _ => false end) m)
  | _ => []
  end.

(** metadata.go:189-199 (mergeMetadata). *)
Definition merge (old new : list (string * json)) : list (string * json) :=
  fold_left (fun m e => put (fst e) (snd e) m) new old.

(** * Requests *)

Inductive request :=
| RCreate (id : string) (t : string -> string) (m : list (string * json))
| RGet (id : string)
| RPut (id : string) (t : string -> string) (m : option (list (string * json)))
| RDelete (id : string)
| RMeta (id : string) (m : list (string * json))
| RTokenize (id : string) (l : list (string * string))      (* fields, each with its nonce *)
| RReveal (id f : string)
| RRevealAll (id : string) (l : list string)
| RMarks (id : string).

(** api/identity.go, identity.go, database/identity.go:53-337, metadata.go:139-166,
    database/metadata.go:94-107. Simplified: a generated id is the one in the request, and the
    part after "idt_" is not looked at; one field (POST .../tokenize/:field) is a list of one. *)
Definition start (s : secret) (q : request) : prog :=
  match q with
  | RCreate id t m => if prefix "idt_" id then Insert id {| i_text := t; i_meta := m |} confirm else Done AErr
  | RGet id => Load id (fun x => Done (match x with Got r => ARow r | _ => AErr end))
  | RPut id t m => update id {| p_text := t; p_meta := m |} confirm
  | RDelete id => Remove id confirm
  | RMeta id m =>
    if prefix "idt_" id
    then Load id (fun x => match x with
                           | Got r => Store id {| p_text := fun _ => ""; p_meta := Some (merge (i_meta r) m) |} false confirm
                           | _ => Done AErr
                           end)
    else Done AErr
  | RTokenize id l => match l with [] => Done AErr | _ => tokenize_all s id l end
  | RReveal id f => Load id (fun x => Done (match x with
                                            | Got r => match reveal s r f with Some v => AText v | None => AErr end
                                            | _ => AErr
                                            end))
  | RRevealAll id l =>
    match l with
    | [] => Load id (fun x => match x with Got r => reveal_all s id (marks r) [] | _ => Done AErr end)
    | _ => reveal_all s id l []
    end
  | RMarks id => Load id (fun x => Done (match x with Got r => ANames (marks r) | _ => AErr end))
  end.

(** * The system *)

Record system := { y_rows : string -> option row; y_jobs : list (request * prog) }.
Definition nothing : system := {| y_rows := fun _ => None; y_jobs := [] |}.

(** What becomes of a call: done; not done and an error; done, but an error is reported. *)
Inductive outcome := Fine | Lost | Unsure.
Definition took (o : outcome) : bool := match o with Lost => false | _ => true end.
Definition told (o : outcome) : bool := match o with Fine => true | _ => false end.

Definition set_row (id : string) (r : option row) (y : string -> option row) : string -> option row :=
  fun x => if String.eqb x id then r else y x.

Definition call (o : outcome) (p : prog) (y : string -> option row) : (string -> option row) * prog :=
  match p with
  | Done a => (y, Done a)
  | Load id k => (y, k (match o with Fine => match y id with Some r => Got r | None => Missing end | _ => Failed end))
  | Store id p strict k =>
    match y id with
    | Some r => (if took o then set_row id (Some (apply p r)) y else y, k (told o))
    | None => (y, k (told o && negb strict))
    end
  | Insert id r k =>
    match y id with
    | Some _ => (y, k false)
    | None => (if took o then set_row id (Some r) y else y, k (told o))
    end
  | Remove id k =>
    match y id with
    | Some _ => (if took o then set_row id None y else y, k (told o))
    | None => (y, k false)
    end
  end.

Inductive event := EStart (q : request) | EStep (i : nat) (o : outcome).
Fixpoint set_nth {A} (i : nat) (x : A) (l : list A) : list A :=
  match l, i with [], _ => [] | _ :: r, 0 => x :: r | y :: r, S i => y :: set_nth i x r end.

Definition happen (s : secret) (e : event) (y : system) : system :=
  match e with
  | EStart q => {| y_rows := y_rows y; y_jobs := (y_jobs y ++ [(q, start s q)])%list |}
  | EStep i o =>
    match nth_error (y_jobs y) i with
    | None => y
    | Some (q, p) => let (rows, p') := call o p (y_rows y) in
                     {| y_rows := rows; y_jobs := set_nth i (q, p') (y_jobs y) |}
    end
  end.
Fixpoint play (s : secret) (es : list event) (y : system) : system :=
  match es with [] => y | e :: r => play s r (happen s e y) end.

(** A request carried out with nobody else about and nothing failing. *)
Fixpoint alone (p : prog) (y : string -> option row) : (string -> option row) * answer :=
  match p with
  | Done a => (y, a)
  | Load id k => alone (k (match y id with Some r => Got r | None => Missing end)) y
  | Store id p strict k =>
    match y id with
    | Some r => alone (k true) (set_row id (Some (apply p r)) y)
    | None => alone (k (negb strict)) y
    end
  | Insert id r k => match y id with Some _ => alone (k false) y | None => alone (k true) (set_row id (Some r) y) end
  | Remove id k => match y id with Some _ => alone (k true) (set_row id None y) | None => alone (k false) y end
  end.
