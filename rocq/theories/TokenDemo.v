(** Histories of identities, played, and what goes wrong in some. *)
From Coq Require Import List String Ascii Bool Arith Lia.
From Verif Require Import BodyModel BodyThms TokenModel TokenSpec TokenCode TokenInv TokenSteps TokenProof.
Import ListNotations.
Local Open Scope string_scope.
Local Open Scope nat_scope.

(** ** A value with a colon *)

Lemma sextet_colon : sextet ":" = None.
Proof. reflexivity. Qed.

Lemma four (P : string -> Prop) : (forall s, String.length s < 4 -> P s) ->
  (forall a b c d r, P r -> P (String a (String b (String c (String d r))))) -> forall s, P s.
Proof.
  intros S0 H s. assert (X : forall n s, String.length s <= n -> P s); [|eauto].
  induction n as [|n IH]; intros [|a [|b [|c [|d r]]]] L; try (apply S0; cbn; lia); cbn in L; try lia.
  apply H. apply IH. lia.
Qed.

Lemma quads_short s : String.length s < 4 -> s <> "" -> quads s = None.
Proof. destruct s as [|a [|b [|c [|d r]]]]; cbn; intros; try reflexivity; try congruence; lia. Qed.

Lemma quads_colon s : In ":"%char (list_ascii_of_string s) -> quads s = None.
Proof.
  induction s as [s L|a b c d r IH] using four.
  - intros I. apply quads_short; [exact L|]. intros ->. destruct I.
  - cbn [list_ascii_of_string In]. rewrite quads_cons. intros [->|[->|[->|[->|I]]]].
    + reflexivity.
    + rewrite sextet_colon. now destruct (sextet a).
    + destruct (sextet a), (sextet b); reflexivity.
    + destruct (sextet a), (sextet b), (Ascii.eqb c "="), (sextet c); reflexivity.
    + destruct (sextet a), (sextet b); try reflexivity. destruct (Ascii.eqb c "=").
      * destruct (String.eqb_spec r "") as [->|]; [destruct I|]. now rewrite andb_false_r.
      * destruct (sextet c); [|reflexivity]. destruct (Ascii.eqb d "=").
        -- destruct (String.eqb_spec r "") as [->|]; [destruct I|]. reflexivity.
        -- destruct (sextet d); [|reflexivity]. now rewrite (IH I).
Qed.

Lemma unbroken_colon s : In ":"%char (list_ascii_of_string s) -> In ":"%char (list_ascii_of_string (unbroken s)).
Proof.
  induction s as [|c s IH]; [auto|]. cbn [list_ascii_of_string In unbroken]. intros [->|I]; [now left|].
  destruct (_ || _); [auto|]. cbn [list_ascii_of_string In]. auto.
Qed.
Lemma decode_colon s : In ":"%char (list_ascii_of_string s) -> decode s = None.
Proof. intros I. apply quads_colon. now apply unbroken_colon. Qed.

Lemma look_colon sd v : forall n, ~ colonless v -> exists a b, disguise sd n v = a ++ String ":" b /\ colonless a.
Proof.
  induction v as [|c v IH]; intros n N.
  - exfalso. apply N. intros [].
  - destruct (Ascii.eqb_spec c ":") as [->|Ne].
    + exists "", (disguise sd (S n) v). split; [reflexivity|]. intros [].
    + destruct (IH (if starts c then S n else n)) as (a & b & E & C).
      { intros C. apply N. intros [X|X]; [congruence|]. now apply C. }
      pose proof (disguise_colonless sd (String c "") n) as D.
      assert (Q : colonless (String c "")) by (intros [X|[]]; congruence). specialize (D Q). cbn [disguise] in D |- *. rewrite E.
      eexists (String _ a), b. split; [reflexivity|]. intros [X|X]; [|now apply C]. apply D. now left.
Qed.

Lemma app_assoc_s a : forall b c : string, (a ++ b) ++ c = a ++ (b ++ c).
Proof. induction a as [|x a IH]; intros b c; cbn; [reflexivity|]. now rewrite IH. Qed.
Lemma in_app_s x a b : In x (list_ascii_of_string b) -> In x (list_ascii_of_string (a ++ b)).
Proof. intros I. induction a; cbn; auto. Qed.

(** Whatever the cipher: what was sealed cannot be had back. *)
Lemma colon_lost k n v : ~ colonless v -> detokenize k (token k n v) = None.
Proof.
  intros N. unfold detokenize, token. rewrite prefix_fpt.
  change (drop 4 ("FPT:" ++ disguise (k_seed k v) 0 v ++ ":" ++ seal k n v)) with (disguise (k_seed k v) 0 v ++ ":" ++ seal k n v).
  destruct (look_colon (k_seed k v) v 0 N) as (a & b & E & C). rewrite E, app_assoc_s.
  change (String ":" b ++ ":" ++ seal k n v) with (String ":" (b ++ ":" ++ seal k n v)).
  rewrite (past_colon_app a _ C). unfold unseal. rewrite decode_colon; [reflexivity|]. apply in_app_s. now left.
Qed.

(** What is neither letter nor digit is not hidden. *)
Lemma not_hidden k n v : Forall (fun c => between "A" "Z" c = false /\ between "a" "z" c = false /\ between "0" "9" c = false)
    (list_ascii_of_string v) -> token k n v = "FPT:" ++ v ++ ":" ++ seal k n v.
Proof. intros H. unfold token. now rewrite (disguise_none _ _ 0 H). Qed.
Lemma not_hidden_met : Forall (fun c => between "A" "Z" c = false /\ between "a" "z" c = false /\ between "0" "9" c = false)
    (list_ascii_of_string "Ελένη").
Proof. repeat constructor. Qed.

(** ** Histories *)

Definition doneb (p : prog) : bool := match p with Done _ => true | _ => false end.
Definition colonlessb (s : string) : bool := negb (existsb (Ascii.eqb ":") (list_ascii_of_string s)).
Definition keepsb (x : proviso) (e : event) (y : system) : bool :=
  match x, e with
  | OneAtATime, EStart q =>
    match writes q with
    | None => true
    | Some id => forallb (fun j => match writes (fst j) with Some id' => negb (String.eqb id id') || doneb (snd j) | None => true end) (y_jobs y)
    end
  | NoColon, EStart (RCreate _ t _) | NoColon, EStart (RPut _ t _) => forallb (fun f => colonlessb (t f)) tokenizable
  | MarksAlone, EStart (RCreate _ _ m) | MarksAlone, EStart (RMeta _ m) => negb (among "tokenized_fields" (map fst m))
  | MarksAlone, EStart (RPut id _ (Some m)) =>
    negb (among "tokenized_fields" (map fst m)) && match y_rows y id with
    | Some r => match get "tokenized_fields" (i_meta r) with None => true | _ => false end
    | None => true
    end
  | NoOverwrite, EStart (RPut id t _) =>
    match y_rows y id with
    | Some r => forallb (fun f => negb (marked r f) || String.eqb (t f) "") tokenizable
    | None => true
    end
  | _, _ => true
  end.
Lemma not_among s l : negb (among s l) = true -> ~ In s l.
Proof. intros H I. apply among_iff in I. rewrite I in H. discriminate. Qed.
Lemma colonlessb_ok s : colonlessb s = true -> colonless s.
Proof.
  unfold colonlessb. intros H I. apply negb_true_iff in H.
  assert (X : existsb (Ascii.eqb ":") (list_ascii_of_string s) = true) by (apply existsb_exists; exists ":"%char; auto). congruence.
Qed.
Lemma keepsb_ok x e y : keepsb x e y = true -> keeps x e y.
Proof.
  destruct x, e as [[]|]; cbn [keepsb keeps]; auto; try (intros; exact Logic.I).
  all: try (cbn [writes]; intros H i q p [= <-] I W; rewrite forallb_forall in H; specialize (H _ I); cbn [fst snd] in H; rewrite W in H;
    rewrite String.eqb_refl in H; destruct p; try discriminate; eexists; reflexivity).
  all: try (cbn [writes]; intros H i q p X; discriminate).
  all: try (intros H f I; rewrite forallb_forall in H; apply colonlessb_ok; now apply H).
  all: try (apply not_among).
  - destruct m as [m|]; [|intros; exact Logic.I]. intros H. apply andb_true_iff in H as [A B]. split; [now apply not_among|].
    intros r f E. rewrite E in B. unfold marked. now destruct (get _ (i_meta r)).
  - intros H r f E I M. rewrite E in H. rewrite forallb_forall in H. specialize (H f I). rewrite M in H. now apply String.eqb_eq.
Qed.

Definition fitsb (e : event) : bool :=
  match e with EStart (RTokenize _ l) => forallb (fun x => String.length (snd x) =? 12) l | _ => true end.
Lemma fitsb_ok e : fitsb e = true -> fits e.
Proof.
  destruct e as [[]|]; cbn; auto. rewrite forallb_forall, Forall_forall. intros H x I. now apply Nat.eqb_eq, H.
Qed.

Fixpoint legal (k : secret) (Q : list proviso) (es : list event) (y : system) : bool :=
  match es with [] => true | e :: r => fitsb e && forallb (fun x => keepsb x e y) Q && legal k Q r (happen k e y) end.
Lemma legal_from k (P : proviso -> Prop) Q es : (forall x, P x -> In x Q) -> forall pre y, history k P pre y -> legal k Q es y = true ->
  history k P (pre ++ es) (play k es y).
Proof.
  intros PQ. induction es as [|e es IH]; intros pre y H L; cbn [play].
  - now rewrite app_nil_r.
  - cbn [legal] in L. apply andb_true_iff in L as [L1 L2]. apply andb_true_iff in L1 as [L0 L1].
    change (e :: es) with ([e] ++ es)%list. rewrite app_assoc. apply IH; [|exact L2]. constructor; [exact H|now apply fitsb_ok|].
    intros x X. rewrite forallb_forall in L1. apply keepsb_ok. apply L1. now apply PQ.
Qed.
Lemma legal_all k es : legal k [OneAtATime; NoColon; MarksAlone; NoOverwrite] es nothing = true -> history k everything es (play k es nothing).
Proof. intros L. apply (legal_from k everything _ es) with (pre := []) in L; [exact L| |constructor]. intros [] _; cbn; auto. Qed.
Definition but (a : proviso) : list proviso :=
  match a with
  | OneAtATime => [NoColon; MarksAlone; NoOverwrite]
  | NoColon => [OneAtATime; MarksAlone; NoOverwrite]
  | MarksAlone => [OneAtATime; NoColon; NoOverwrite]
  | NoOverwrite => [OneAtATime; NoColon; MarksAlone]
  end.
Lemma legal_but k a es : legal k (but a) es nothing = true -> history k (all_but a) es (play k es nothing).
Proof. intros L. apply (legal_from k (all_but a) _ es) with (pre := []) in L; [exact L| |constructor]. intros [] X; destruct a; cbn; auto; now destruct X. Qed.

(** A cipher that hides nothing opens what it has sealed. *)
Definition glass : secret := {| k_len := 32; k_seal := fun _ v => v; k_open := fun _ c => Some c; k_seed := fun _ i => i + 7 |}.
Lemma glass_opens : opens glass.
Proof. intros n v. reflexivity. Qed.

Definition n1 : string := "abcdefghijkl".
Definition n2 : string := "mnopqrstuvwx".
Definition ada (f : string) : string :=
  if String.eqb f "FirstName" then "Ada" else if String.eqb f "EmailAddress" then "ada@x.org" else if String.eqb f "Street" then "Flat 2: rear" else "".
Definition ada' (f : string) : string := if String.eqb f "Street" then "" else ada f.
Definition only (f v : string) : string -> string := fun g => if String.eqb g f then v else "".
Definition whole (i n : nat) (q : request) : list event := EStart q :: repeat (EStep i Fine) n.

(** Both fields tokenized, the phone number written, the marks listed, the name asked for. *)
Definition day : list event :=
  (whole 0 1 (RCreate "idt_1" ada' [("tier", JText "gold")]) ++ whole 1 4 (RTokenize "idt_1" [("firstName", n1); ("EmailAddress", n2)])
   ++ whole 2 1 (RPut "idt_1" (only "PhoneNumber" "555") None) ++ [EStart (RReveal "idt_1" "firstName"); EStart (RMarks "idt_1");
   EStart (RTokenize "idt_1" [("FirstName", n1)]); EStart (RTokenize "idt_2" [("FirstName", n1)])])%list.
Lemma day_ok : history glass everything day (play glass day nothing).
Proof. apply legal_all. vm_compute. reflexivity. Qed.
Lemma day_seen : let y := play glass day nothing in
  shown glass y "idt_1" "FirstName" = Some "Ada" /\ shown glass y "idt_1" "EmailAddress" = Some "ada@x.org" /\ shown glass y "idt_1" "PhoneNumber" = Some "555"
  /\ match y_rows y "idt_1" with
     | Some r => i_text r "FirstName" = "FPT:Hij:YWJjZGVmZ2hpamtsQWRh" /\ marked r "EmailAddress" = true /\ marked r "PhoneNumber" = false
                 /\ get "tier" (i_meta r) = Some (JText "gold")
     | None => False
     end.
Proof. vm_compute. repeat split. Qed.

(** The last step of tokenizing both. *)
Definition eve : list event :=
  (whole 0 1 (RCreate "idt_1" ada' []) ++ whole 1 3 (RTokenize "idt_1" [("firstName", n1); ("EmailAddress", n2)]))%list.
Lemma eve_ok : history glass everything eve (play glass eve nothing).
Proof. apply legal_all. vm_compute. reflexivity. Qed.

Definition answers (y : system) : list (option answer) :=
  map (fun j => match snd j with Done a => Some a | _ => None end) (y_jobs y).
Definition row_is (y : system) (id f : string) : option (string * bool) :=
  match y_rows y id with Some r => Some (i_text r f, marked r f) | None => None end.

Lemma day_met : exists es y, history glass everything es y
  /\ (exists p, nth_error (y_jobs y) 3 = Some (RReveal "idt_1" "firstName", p) /\ ~ is_done p)
  /\ (exists p, nth_error (y_jobs y) 4 = Some (RMarks "idt_1", p) /\ ~ is_done p)
  /\ (exists p, nth_error (y_jobs y) 5 = Some (RTokenize "idt_1" [("FirstName", n1)], p) /\ p = start glass (RTokenize "idt_1" [("FirstName", n1)]))
  /\ row_is y "idt_1" "FirstName" = Some ("FPT:Hij:YWJjZGVmZ2hpamtsQWRh", true).
Proof.
  exists day, (play glass day nothing). split; [exact day_ok|].
  split; [eexists; split; [reflexivity|intros [a X]; discriminate]|].
  split; [eexists; split; [reflexivity|intros [a X]; discriminate]|].
  split; [eexists; split; [reflexivity|reflexivity]|]. vm_compute. reflexivity.
Qed.
Lemma eve_met : exists es y p, history glass everything es y
  /\ nth_error (y_jobs y) 1 = Some (RTokenize "idt_1" [("firstName", n1); ("EmailAddress", n2)], p) /\ ~ is_done p
  /\ nth_error (y_jobs (happen glass (EStep 1 Fine) y)) 1 = Some (RTokenize "idt_1" [("firstName", n1); ("EmailAddress", n2)], Done AOk)
  /\ row_is y "idt_1" "EmailAddress" = Some ("ada@x.org", false)
  /\ row_is (happen glass (EStep 1 Fine) y) "idt_1" "EmailAddress" = Some ("FPT:hij@l.nop:bW5vcHFyc3R1dnd4YWRhQHgub3Jn", true).
Proof.
  exists eve, (play glass eve nothing). eexists. split; [exact eve_ok|]. split; [reflexivity|]. split; [intros [a X]; discriminate|].
  split; [reflexivity|]. split; vm_compute; reflexivity.
Qed.

(** ** What goes wrong without the provisos *)

Definition colon_day : list event := (whole 0 1 (RCreate "idt_1" ada []) ++ whole 1 2 (RTokenize "idt_1" [("Street", n1)]))%list.
Lemma colon_refuted : exists es y, history glass (all_but NoColon) es y
  /\ answers y = [Some AOk; Some AOk] /\ shown glass y "idt_1" "Street" = None.
Proof.
  exists colon_day, (play glass colon_day nothing). split; [apply legal_but; vm_compute; reflexivity|]. split; vm_compute; reflexivity.
Qed.

(** Two at once: both confirmed, the name is stored as it was. *)
Definition race : list event :=
  (whole 0 1 (RCreate "idt_1" ada' []) ++ [EStart (RTokenize "idt_1" [("FirstName", n1)]); EStart (RTokenize "idt_1" [("EmailAddress", n2)]);
   EStep 1 Fine; EStep 2 Fine; EStep 1 Fine; EStep 2 Fine])%list.
Lemma race_refuted : exists es y, history glass (all_but OneAtATime) es y
  /\ map fst (y_jobs y) = [RCreate "idt_1" ada' []; RTokenize "idt_1" [("FirstName", n1)]; RTokenize "idt_1" [("EmailAddress", n2)]]
  /\ answers y = [Some AOk; Some AOk; Some AOk] /\ row_is y "idt_1" "FirstName" = Some ("Ada", false).
Proof.
  exists race, (play glass race nothing). split; [apply legal_but; vm_compute; reflexivity|]. split; [reflexivity|]. split; vm_compute; reflexivity.
Qed.
(** A write lost to a tokenization of another field. *)
Definition lost_put : list event :=
  (whole 0 1 (RCreate "idt_1" ada' []) ++ [EStart (RTokenize "idt_1" [("FirstName", n1)]); EStep 1 Fine;
   EStart (RPut "idt_1" (only "EmailAddress" "lovelace@x.org") None); EStep 2 Fine; EStep 1 Fine])%list.
Lemma lost_put_refuted : exists es y, history glass (all_but OneAtATime) es y
  /\ (exists p, nth_error (y_jobs y) 2 = Some (RPut "idt_1" (only "EmailAddress" "lovelace@x.org") None, p))
  /\ answers y = [Some AOk; Some AOk; Some AOk] /\ shown glass y "idt_1" "EmailAddress" = Some "ada@x.org".
Proof.
  exists lost_put, (play glass lost_put nothing). split; [apply legal_but; vm_compute; reflexivity|].
  split; [eexists; reflexivity|]. split; vm_compute; reflexivity.
Qed.
(** Over a tokenized field: confirmed, stored in the clear, said to be tokenized, and not to be had. *)
Definition over : list event :=
  (whole 0 1 (RCreate "idt_1" ada' []) ++ whole 1 2 (RTokenize "idt_1" [("FirstName", n1)]) ++ whole 2 1 (RPut "idt_1" (only "FirstName" "Grace") None))%list.
Lemma over_refuted : exists es y, history glass (all_but NoOverwrite) es y
  /\ answers y = [Some AOk; Some AOk; Some AOk] /\ row_is y "idt_1" "FirstName" = Some ("Grace", true)
  /\ shown glass y "idt_1" "FirstName" = None.
Proof.
  exists over, (play glass over nothing). split; [apply legal_but; vm_compute; reflexivity|]. split; [|split]; vm_compute; reflexivity.
Qed.
(** Metadata sent with PUT replaces what says which fields are tokenized. *)
Definition dropped : list event :=
  (whole 0 1 (RCreate "idt_1" ada' []) ++ whole 1 2 (RTokenize "idt_1" [("FirstName", n1)])
   ++ whole 2 1 (RPut "idt_1" (fun _ => "") (Some [("tier", JText "gold")])) ++ whole 3 1 (RReveal "idt_1" "FirstName"))%list.
Lemma dropped_refuted : exists es y, history glass (all_but MarksAlone) es y
  /\ answers y = [Some AOk; Some AOk; Some AOk; Some AErr] /\ row_is y "idt_1" "FirstName" = Some ("FPT:Hij:YWJjZGVmZ2hpamtsQWRh", false).
Proof.
  exists dropped, (play glass dropped nothing). split; [apply legal_but; vm_compute; reflexivity|]. split; vm_compute; reflexivity.
Qed.
(** A refused list, half of it done. *)
Definition half : list event :=
  (whole 0 1 (RCreate "idt_1" ada' []) ++ whole 1 4 (RTokenize "idt_1" [("FirstName", n1); ("Gender", n2)]))%list.
Lemma half_refuted : exists es y, history glass everything es y
  /\ answers y = [Some AOk; Some AErr] /\ row_is y "idt_1" "FirstName" = Some ("FPT:Hij:YWJjZGVmZ2hpamtsQWRh", true).
Proof.
  exists half, (play glass half nothing). split; [apply legal_all; vm_compute; reflexivity|]. split; vm_compute; reflexivity.
Qed.
