(** Filters written in the query string. *)

From Coq Require Import List Bool Arith ZArith Lia Ascii String.
From Verif Require Import BodyModel FilterSql FilterModel FilterSpec FilterLex.
From Verif Require QueueModel.
Import ListNotations.
Local Open Scope nat_scope.
Local Open Scope string_scope.

(** internal/filter/reserved.go:5-22. *)
Definition reserved (s : string) : bool :=
  mem (lower s) ["page"; "pagesize"; "per_page"; "limit"; "offset"; "sort"; "order"; "order_by"; "order_dir";
                 "logical_operator"; "instance_id"; "org_id"].

(** internal/filter/operators.go:5-34 (ResolveOperator). *)
Definition resolve_op (s : string) : option string :=
  let s := lower s in
  if s =? "neq" then Some "ne" else if s =? "gteq" then Some "gte" else if s =? "lteq" then Some "lte"
  else match op_of s with Some _ => Some s | None => None end.

(** internal/filter/parser.go:66-73: what is before and after the last underscore. *)
Fixpoint last_part (s : string) : option (string * string) :=
  match s with
  | "" => None
  | String c r => match last_part r with
                  | Some (a, b) => Some (String c a, b)
                  | None => if Ascii.eqb c "_" then Some ("", r) else None
                  end
  end.

(** strings.Split on one character. *)
Fixpoint split_on (c : ascii) (s : string) : list string :=
  match s with
  | "" => [""]
  | String d r => match split_on c r with
                  | x :: l => if Ascii.eqb d c then "" :: x :: l else String d x :: l
                  | [] => []
                  end
  end.

(** strconv.ParseInt(s, 10, 64). *)
Definition digit_of (c : ascii) : option Z :=
  let n := Z.of_nat (nat_of_ascii c) in if ((48 <=? n) && (n <=? 57))%Z then Some (n - 48)%Z else None.
Fixpoint digits (acc : Z) (s : string) : option Z :=
  match s with
  | "" => Some acc
  | String c r => match digit_of c with Some d => digits (10 * acc + d)%Z r | None => None end
  end.
Definition unsigned (s : string) : option Z := match s with "" => None | _ => digits 0 s end.
Definition read_int (s : string) : option Z :=
  let z := match s with
           | String c r => if Ascii.eqb c "-" then option_map Z.opp (unsigned r)
                           else if Ascii.eqb c "+" then unsigned r else unsigned s
           | "" => None
           end in
  match z with
  | Some z => if ((- 9223372036854775808 <=? z) && (z <=? 9223372036854775807))%Z then Some z else None
  | None => None
  end.

Section Parse.
  (** strconv.ParseFloat, and ParseDateTime with getDatePrecisionFromString
      (internal/filter/datetime.go:9-91): any functions. *)
  Variable float : string -> option value.
  Variable moment : string -> option stamp.

  (** internal/filter/values.go:7-32 (parseValue). *)
  Definition parse_value (s : string) : value :=
    match read_int s with
    | Some z => VInt z
    | None =>
      match float s with
      | Some v => v
      | None => if s =? "true" then VBool true else if s =? "false" then VBool false
                else match moment s with Some t => VTime t | None => VStr s end
      end
    end.

  Inductive reading := Skipped | Wrong | Read (f : filt).

  (** internal/filter/parser.go:51-148 (ParseFromQuery): one parameter, with the first of its
      values. Blanks around the values of a list are taken off. *)
  Definition read_param (key value : string) : reading :=
    if reserved key then Skipped
    else
      match last_part key with
      | None => Skipped
      | Some (field, o) =>
        match resolve_op o with
        | None => Skipped
        | Some o =>
          if (1000 <? String.length value)%nat then Wrong
          else
            let read v vs := Read {| f_field := field; f_op := o; f_value := v; f_values := vs |} in
            match op_of o with
            | Some OBetween =>
              match split_on "|" value with [a; b] => read VNull [parse_value a; parse_value b] | _ => Wrong end
            | Some OIn =>
              let vs := split_on "," value in
              if (100 <? List.length vs)%nat then Wrong
              else read VNull (map (fun v => parse_value (QueueModel.trim v)) vs)
            | Some ONull | Some ONotNull => read VNull []
            | _ => read (parse_value value) []
            end
        end
      end.

  (** internal/filter/parser.go:18-154: all of them, in the order the map gives them. Any
      error, or more than twenty filters, refuses the request (api/transactions.go:373-378). *)
  Definition from_query (ps : list (string * string)) : option (list filt) :=
    let rs := map (fun p => read_param (fst p) (snd p)) ps in
    let fs := flat_map (fun r => match r with Read f => [f] | _ => [] end) rs in
    if existsb (fun r => match r with Wrong => true | _ => false end) rs || (20 <? List.length fs)%nat
    then None else Some fs.

  (** * What a parameter should say *)

  Definition without (c : ascii) (s : string) : Prop := ~ In c (list_ascii_of_string s).

  (** [text] spells these values for the operator. *)
  Definition spells (o : op) (vs : list string) (text : string) : Prop :=
    match o with
    | OIn => vs <> [] /\ List.length vs <= 100 /\ text = String.concat "," vs
             /\ Forall (fun v => without "," v /\ QueueModel.trim v = v) vs
    | OBetween => exists a b, vs = [a; b] /\ text = (a ++ "|" ++ b) /\ without "|" a /\ without "|" b
    | ONull | ONotNull => vs = []
    | _ => vs = [text]
    end.

  (** The filter with these values. *)
  Definition stated (field name : string) (o : op) (vs : list value) : filt :=
    match o with
    | OIn | OBetween | ONull | ONotNull => {| f_field := field; f_op := name; f_value := VNull; f_values := vs |}
    | _ => {| f_field := field; f_op := name; f_value := hd VNull vs; f_values := [] |}
    end.

  (** A text that is no number, truth value or moment. *)
  Definition plain_text (s : string) : Prop :=
    read_int s = None /\ float s = None /\ s <> "true" /\ s <> "false" /\ moment s = None.
End Parse.

(** * Proofs *)

Lemma last_part_none : forall s, without "_" s -> last_part s = None.
Proof.
  induction s as [|c s IH]; intros W; [reflexivity|]. cbn. rewrite IH by (intros H; apply W; now right).
  destruct (Ascii.eqb_spec c "_") as [->|]; [|reflexivity]. exfalso. apply W. now left.
Qed.

Lemma last_part_of : forall a b, without "_" b -> last_part (a ++ "_" ++ b) = Some (a, b).
Proof.
  intros a b W. induction a as [|c a IH]; cbn [append].
  - cbn [last_part]. rewrite (last_part_none _ W). reflexivity.
  - cbn [append] in IH. cbn [last_part]. now rewrite IH.
Qed.

Lemma lower_app : forall a b, lower (a ++ b) = lower a ++ lower b.
Proof. induction a as [|c a IH]; intros b; [reflexivity|]. cbn. now rewrite IH. Qed.

Definition no_under (s : string) : bool := forallb (fun c => negb (Ascii.eqb c "_")) (list_ascii_of_string s).
Lemma no_under_without : forall s, no_under s = true -> without "_" s.
Proof.
  intros s H I. unfold no_under in H. rewrite forallb_forall in H. specialize (H _ I). discriminate H.
Qed.

Lemma op_names_facts : forall name o, In (name, o) op_names ->
  without "_" name /\ resolve_op name = Some name /\ op_of name = Some o /\ lower name = name.
Proof.
  intros name o I. cbn [In op_names] in I.
  repeat (destruct I as [I|I]; [injection I as <- <-; repeat split; try reflexivity; now apply no_under_without|]).
  destruct I.
Qed.

Lemma not_reserved : forall field name o, In (name, o) op_names -> reserved (field ++ "_" ++ name) = false.
Proof.
  intros field name o I. unfold reserved. rewrite !lower_app.
  destruct (op_names_facts _ _ I) as (W & _ & O & ->). change (lower "_") with "_".
  destruct (mem _ _) eqn:M; [|reflexivity]. exfalso.
  pose proof (last_part_of (lower field) name W) as L. remember (lower field ++ "_" ++ name) as key eqn:K. clear K.
  apply mem_in in M as X. cbn [In] in X. assert (Q : exists b, last_part key = b /\ match b with Some (_, x) => op_of x = None | None => True end).
  { repeat (destruct X as [<- | X]; [eexists; split; reflexivity|]). destruct X. }
  destruct Q as (b & Q & R). rewrite L in Q. subst b. congruence.
Qed.

Lemma split_on_none : forall c s, without c s -> split_on c s = [s].
Proof.
  intros c. induction s as [|d s IH]; intros W; [reflexivity|]. cbn. rewrite IH by (intros H; apply W; now right).
  destruct (Ascii.eqb_spec d c) as [->|]; [|reflexivity]. exfalso. apply W. now left.
Qed.

Lemma split_on_app : forall c a b, without c a -> split_on c (a ++ String c b) = a :: split_on c b.
Proof.
  intros c a b. assert (N : exists x l, split_on c b = x :: l).
  { clear. induction b as [|d b (x & l & E)]; [cbn; eauto|]. cbn. rewrite E. destruct (Ascii.eqb d c); eauto. }
  destruct N as (x & l & N). induction a as [|d a IH]; intros W; cbn [append split_on].
  - rewrite N, Ascii.eqb_refl. reflexivity.
  - rewrite IH by (intros H; apply W; now right).
    destruct (Ascii.eqb_spec d c) as [->|]; [|reflexivity]. exfalso. apply W. now left.
Qed.

Lemma split_on_concat : forall c vs, vs <> [] -> Forall (without c) vs ->
  split_on c (String.concat (String c "") vs) = vs.
Proof.
  intros c vs N F. induction F as [|v vs W F IH]; [congruence|]. destruct vs as [|u vs].
  - now apply split_on_none.
  - change (String.concat (String c "") (v :: u :: vs))
      with (v ++ String c (String.concat (String c "") (u :: vs))).
    rewrite split_on_app by exact W. rewrite IH by discriminate. reflexivity.
Qed.

(** A parameter field_operator with a spelling of values is that filter. *)
Theorem query_reads : forall float moment field name o vs text,
  In (name, o) op_names -> spells o vs text -> String.length text <= 1000 ->
  read_param float moment (field ++ "_" ++ name) text
  = Read (stated field name o (map (parse_value float moment) vs)).
Proof.
  intros float moment field name o vs text I E L. unfold read_param. rewrite (not_reserved _ _ _ I).
  destruct (op_names_facts _ _ I) as (W & R & O & _). rewrite (last_part_of _ _ W), R.
  replace (1000 <? String.length text)%nat with false by (symmetry; now apply Nat.ltb_ge). rewrite O.
  destruct o; cbn [spells] in E; try (subst vs; reflexivity).
  - destruct E as (N & H & -> & F).
    rewrite split_on_concat; [|exact N|eapply Forall_impl; [|exact F]; intros v [X _]; exact X].
    replace (100 <? List.length vs)%nat with false by (symmetry; now apply Nat.ltb_ge).
    cbv zeta. unfold stated. do 2 f_equal. apply map_ext_in. intros v J. rewrite Forall_forall in F.
    now rewrite (proj2 (F _ J)).
  - destruct E as (a & b & -> & -> & A & B). cbn [append].
    rewrite split_on_app by exact A. rewrite split_on_none by exact B. reflexivity.
Qed.

Theorem plain_text_kept : forall float moment s, plain_text float moment s -> parse_value float moment s = VStr s.
Proof.
  intros float moment s (A & B & T & F & C). unfold parse_value. rewrite A, B, C.
  apply String.eqb_neq in T. apply String.eqb_neq in F. now rewrite T, F.
Qed.
