(** C40: identities and their tokens. *)
From Coq Require Import List String Ascii Bool Arith.
From Verif Require Import BodyModel TokenModel TokenSpec TokenProof TokenDemo.
Import ListNotations.
Local Open Scope string_scope.

(** However requests come, calls fail or interleave: from one moment to the next what a field
    shows stays, unless the moment is that of a PUT that gives the field another text. *)
Theorem C40_kept : forall k, opens k -> forall es y e id f r r',
  history k everything es y -> In f tokenizable -> y_rows y id = Some r -> y_rows (happen k e y) id = Some r' ->
  exists v, shown k y id f = Some v
  /\ (shown k (happen k e y) id f = Some v
      \/ exists t m, by_step y e (RPut id t m) /\ t f <> "" /\ shown k (happen k e y) id f = Some (t f)).
Proof. exact kept. Qed.
Print Assumptions C40_kept.

(** An identity shows what it was created with, and goes only when it is deleted. *)
Theorem C40_comes_and_goes : forall k es y e id, history k everything es y ->
  (y_rows y id = None -> y_rows (happen k e y) id <> None ->
     exists t m, by_step y e (RCreate id t m) /\ forall f, In f tokenizable -> shown k (happen k e y) id f = Some (t f))
  /\ (y_rows y id <> None -> y_rows (happen k e y) id = None -> by_step y e (RDelete id)).
Proof. exact comes_and_goes. Qed.
Print Assumptions C40_comes_and_goes.

(** A field once tokenized stays so. *)
Theorem C40_marks_stay : forall k, opens k -> forall es y e id f r r',
  history k everything es y -> y_rows y id = Some r -> y_rows (happen k e y) id = Some r' ->
  In f tokenizable -> marked r f = true -> marked r' f = true.
Proof. exact marks_stay. Qed.
Print Assumptions C40_marks_stay.

(** A step of tokenizing touches one field of those asked for, that can be tokenized and is
    not yet, puts a token of its text in its place, and changes nothing else anywhere. *)
Theorem C40_only_those : forall k, opens k -> forall es y i o id l p,
  history k everything es y -> nth_error (y_jobs y) i = Some (RTokenize id l, p) ->
  (forall x, x <> id -> y_rows (happen k (EStep i o) y) x = y_rows y x)
  /\ (y_rows (happen k (EStep i o) y) id = y_rows y id
      \/ exists r r' f n, y_rows y id = Some r /\ y_rows (happen k (EStep i o) y) id = Some r'
         /\ In (f, n) l /\ In (cap f) tokenizable /\ marked r (cap f) = false /\ marked r' (cap f) = true
         /\ token_of k (i_text r (cap f)) (i_text r' (cap f))
         /\ (forall g, g <> cap f -> i_text r' g = i_text r g)
         /\ (forall g, In g tokenizable -> g <> cap f -> marked r' g = marked r g)
         /\ (forall g, g <> "tokenized_fields" -> get g (i_meta r') = get g (i_meta r))).
Proof. exact only_those. Qed.
Print Assumptions C40_only_those.

(** When tokenizing is confirmed, every field asked for holds a token of what it shows. *)
Theorem C40_confirmed : forall k, opens k -> forall es y i o id l p,
  history k everything es y -> nth_error (y_jobs y) i = Some (RTokenize id l, p) -> ~ is_done p ->
  nth_error (y_jobs (happen k (EStep i o) y)) i = Some (RTokenize id l, Done AOk) ->
  exists r, y_rows (happen k (EStep i o) y) id = Some r
  /\ forall f n, In (f, n) l -> In (cap f) tokenizable /\ marked r (cap f) = true
     /\ exists v, shown k (happen k (EStep i o) y) id (cap f) = Some v /\ token_of k v (i_text r (cap f)).
Proof. exact confirmed. Qed.
Print Assumptions C40_confirmed.

Example C40_confirmed_met : exists es y p, history glass everything es y
  /\ nth_error (y_jobs y) 1 = Some (RTokenize "idt_1" [("firstName", n1); ("EmailAddress", n2)], p) /\ ~ is_done p
  /\ nth_error (y_jobs (happen glass (EStep 1 Fine) y)) 1 = Some (RTokenize "idt_1" [("firstName", n1); ("EmailAddress", n2)], Done AOk)
  /\ row_is y "idt_1" "EmailAddress" = Some ("ada@x.org", false)
  /\ row_is (happen glass (EStep 1 Fine) y) "idt_1" "EmailAddress" = Some ("FPT:hij@l.nop:bW5vcHFyc3R1dnd4YWRhQHgub3Jn", true).
Proof. exact eve_met. Qed.

(** Detokenizing a field answers what the field shows if it is tokenized, is refused if it is
    not, and changes nothing. *)
Theorem C40_revealed : forall k es y i id f p,
  history k everything es y -> nth_error (y_jobs y) i = Some (RReveal id f, p) -> ~ is_done p ->
  nth_error (y_jobs (happen k (EStep i Fine) y)) i = Some (RReveal id f, Done
    match y_rows y id with
    | Some r => if marked r (cap f) then match shown k y id (cap f) with Some v => AText v | None => AErr end else AErr
    | None => AErr
    end)
  /\ y_rows (happen k (EStep i Fine) y) = y_rows y.
Proof. exact revealed. Qed.
Print Assumptions C40_revealed.

(** Detokenizing an identity answers with every tokenized field and what it shows, and no other. *)
Theorem C40_revealed_all : forall k, opens k -> forall es y id, history k everything es y ->
  match y_rows y id with
  | None => alone (start k (RRevealAll id [])) (y_rows y) = (y_rows y, AErr)
  | Some r => exists out, alone (start k (RRevealAll id [])) (y_rows y) = (y_rows y, ATexts out)
      /\ forall f, get f out = if among f tokenizable && marked r f then shown k y id f else None
  end.
Proof. exact revealed_all. Qed.
Print Assumptions C40_revealed_all.

(** The list of tokenized fields names each once, and no other. *)
Theorem C40_listed : forall k es y i id p,
  history k everything es y -> nth_error (y_jobs y) i = Some (RMarks id, p) -> ~ is_done p ->
  match y_rows y id with
  | None => nth_error (y_jobs (happen k (EStep i Fine) y)) i = Some (RMarks id, Done AErr)
  | Some r => exists l, nth_error (y_jobs (happen k (EStep i Fine) y)) i = Some (RMarks id, Done (ANames l))
      /\ NoDup l /\ forall f, In f l <-> (In f tokenizable /\ marked r f = true)
  end.
Proof. exact listed. Qed.
Print Assumptions C40_listed.

(** A field that cannot be tokenized, or is already, or is of no identity there is: refused. *)
Theorem C40_refused : forall k es y i id l p f n,
  history k everything es y -> nth_error (y_jobs y) i = Some (RTokenize id ((f, n) :: l), p) ->
  p = start k (RTokenize id ((f, n) :: l)) ->
  (~ In (cap f) tokenizable \/ y_rows y id = None \/ exists r, y_rows y id = Some r /\ marked r (cap f) = true) ->
  y_rows (happen k (EStep i Fine) y) = y_rows y
  /\ nth_error (y_jobs (happen k (EStep i Fine) y)) i = Some (RTokenize id ((f, n) :: l), Done AErr).
Proof. exact refused. Qed.
Print Assumptions C40_refused.

(** One history meets them: a field is tokenized, another is not, and each request waits. *)
Example C40_met : opens glass /\ exists es y, history glass everything es y
  /\ (exists p, nth_error (y_jobs y) 3 = Some (RReveal "idt_1" "firstName", p) /\ ~ is_done p)
  /\ (exists p, nth_error (y_jobs y) 4 = Some (RMarks "idt_1", p) /\ ~ is_done p)
  /\ (exists p, nth_error (y_jobs y) 5 = Some (RTokenize "idt_1" [("FirstName", n1)], p) /\ p = start glass (RTokenize "idt_1" [("FirstName", n1)]))
  /\ row_is y "idt_1" "FirstName" = Some ("FPT:Hij:YWJjZGVmZ2hpamtsQWRh", true).
Proof. exact (conj glass_opens day_met). Qed.

(** ** What does not hold *)

(** A value with a colon is never had back, whatever the cipher. *)
Theorem C40_colon_lost : forall k n v, ~ colonless v -> detokenize k (token k n v) = None.
Proof. exact colon_lost. Qed.
Print Assumptions C40_colon_lost.

Theorem C40_colon_refuted : exists es y, history glass (all_but NoColon) es y
  /\ answers y = [Some AOk; Some AOk] /\ shown glass y "idt_1" "Street" = None.
Proof. exact colon_refuted. Qed.
Print Assumptions C40_colon_refuted.

(** Two tokenizations at once are both confirmed; the name is left as it was. *)
Theorem C40_race_refuted : exists es y, history glass (all_but OneAtATime) es y
  /\ map fst (y_jobs y) = [RCreate "idt_1" ada' []; RTokenize "idt_1" [("FirstName", n1)]; RTokenize "idt_1" [("EmailAddress", n2)]]
  /\ answers y = [Some AOk; Some AOk; Some AOk] /\ row_is y "idt_1" "FirstName" = Some ("Ada", false).
Proof. exact race_refuted. Qed.
Print Assumptions C40_race_refuted.

(** A PUT confirmed while another field is being tokenized is undone. *)
Theorem C40_put_lost_refuted : exists es y, history glass (all_but OneAtATime) es y
  /\ (exists p, nth_error (y_jobs y) 2 = Some (RPut "idt_1" (only "EmailAddress" "lovelace@x.org") None, p))
  /\ answers y = [Some AOk; Some AOk; Some AOk] /\ shown glass y "idt_1" "EmailAddress" = Some "ada@x.org".
Proof. exact lost_put_refuted. Qed.
Print Assumptions C40_put_lost_refuted.

(** A PUT to a tokenized field is stored in the clear, marked as tokenized. *)
Theorem C40_overwrite_refuted : exists es y, history glass (all_but NoOverwrite) es y
  /\ answers y = [Some AOk; Some AOk; Some AOk] /\ row_is y "idt_1" "FirstName" = Some ("Grace", true)
  /\ shown glass y "idt_1" "FirstName" = None.
Proof. exact over_refuted. Qed.
Print Assumptions C40_overwrite_refuted.

(** Metadata in a PUT takes the marks away; the token stays and the value is not to be had. *)
Theorem C40_marks_refuted : exists es y, history glass (all_but MarksAlone) es y
  /\ answers y = [Some AOk; Some AOk; Some AOk; Some AErr] /\ row_is y "idt_1" "FirstName" = Some ("FPT:Hij:YWJjZGVmZ2hpamtsQWRh", false).
Proof. exact dropped_refuted. Qed.
Print Assumptions C40_marks_refuted.

(** A list of fields that is refused may be half done. *)
Theorem C40_half_refuted : exists es y, history glass everything es y
  /\ answers y = [Some AOk; Some AErr] /\ row_is y "idt_1" "FirstName" = Some ("FPT:Hij:YWJjZGVmZ2hpamtsQWRh", true).
Proof. exact half_refuted. Qed.
Print Assumptions C40_half_refuted.

(** What is neither an ASCII letter nor a digit stands in the token as it is. *)
Theorem C40_not_hidden : forall k n v,
  Forall (fun c => between "A" "Z" c = false /\ between "a" "z" c = false /\ between "0" "9" c = false) (list_ascii_of_string v) ->
  token k n v = "FPT:" ++ v ++ ":" ++ seal k n v.
Proof. exact not_hidden. Qed.
Print Assumptions C40_not_hidden.

Example C40_not_hidden_met :
  Forall (fun c => between "A" "Z" c = false /\ between "a" "z" c = false /\ between "0" "9" c = false) (list_ascii_of_string "Ελένη").
Proof. exact not_hidden_met. Qed.
