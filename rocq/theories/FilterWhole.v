(** Query strings as a whole: what is taken, what is refused and what is passed over. *)

From Coq Require Import List Bool Arith ZArith Lia Ascii String Decimal DecimalString DecimalZ.
From Verif Require Import BodyModel FilterSql FilterModel FilterSpec FilterLex FilterUrl.
From Verif Require QueueModel.
Import ListNotations.
Local Open Scope nat_scope.
Local Open Scope string_scope.
Local Open Scope list_scope.

(** * What a query string should say *)

(** Other names of operators. *)
Definition aliases : list (string * string) := [("neq", "ne"); ("gteq", "gte"); ("lteq", "lte")].
(** [word] names the operator [o], whose own name is [name], in capitals or not. *)
Definition names_op (word name : string) (o : op) : Prop :=
  In (name, o) op_names /\ (lower word = name \/ In (lower word, name) aliases).

(** How often a character occurs. *)
Definition occurrences (c : ascii) (s : string) : nat := count_occ ascii_dec (list_ascii_of_string s) c.

(** A parameter for the filter [f]. *)
Definition asks_for (float : string -> option value) (moment : string -> option stamp) (p : string * string) (f : filt) : Prop :=
  exists field word name o vs, fst p = (field ++ "_" ++ word)%string /\ names_op word name o
    /\ spells o vs (snd p) /\ String.length (snd p) <= 1000 /\ f = stated field name o (map (parse_value float moment) vs).

(** A parameter for a filter that cannot be one: a text of more than a thousand characters,
    more than a hundred values, a range without two ends. *)
Definition cannot_be (p : string * string) : Prop :=
  exists field word name o, fst p = (field ++ "_" ++ word)%string /\ names_op word name o
    /\ (1000 < String.length (snd p) \/ (o = OIn /\ 100 <= occurrences "," (snd p)) \/ (o = OBetween /\ occurrences "|" (snd p) <> 1)).

(** A parameter that is no filter. *)
Definition no_filter (p : string * string) : Prop :=
  without "_" (fst p)
  \/ In (fst p) ["page"; "pagesize"; "per_page"; "limit"; "offset"; "sort"; "order"; "order_by"; "order_dir";
                 "logical_operator"; "instance_id"; "org_id"].

(** * Proofs *)
Lemma list_app : forall a b, list_ascii_of_string (a ++ b)%string = list_ascii_of_string a ++ list_ascii_of_string b.
Proof. induction a as [|c a IH]; intros b; [reflexivity|]. cbn. now rewrite IH. Qed.
Lemma lower_under : forall s, without "_" (lower s) -> without "_" s.
Proof.
  induction s as [|c s IH]; intros W; [intros []|]. intros [E|I].
  - subst c. apply W. now left.
  - apply IH; [|exact I]. intros J. apply W. now right.
Qed.

Lemma names_op_facts word name o : names_op word name o ->
  without "_" word /\ resolve_op word = Some name /\ op_of name = Some o.
Proof.
  intros [I [E|A]].
  - destruct (op_names_facts _ _ I) as (W & R & O & Lw). split; [apply lower_under; now rewrite E|]. split; [|exact O].
    unfold resolve_op in *. rewrite E. rewrite Lw in R. exact R.
  - cbn [In aliases] in A. repeat (destruct A as [A|A]; [injection A as A1 A2|]); [| | |destruct A]; subst name;
      (split; [apply lower_under; rewrite <- A1; now apply no_under_without|]); unfold resolve_op; rewrite <- A1;
      (split; [reflexivity|]); cbn [In op_names] in I; repeat (destruct I as [I|I]; [try discriminate I; injection I as <-; reflexivity|]); destruct I.
Qed.

Lemma not_reserved_op field word name o : names_op word name o -> reserved (field ++ "_" ++ word)%string = false.
Proof.
  intros N. destruct N as [I [E|A]].
  - pose proof (not_reserved (lower field) name o I) as R. unfold reserved in *. rewrite !lower_app in *.
    destruct (op_names_facts _ _ I) as (_ & _ & _ & Ln). rewrite Ln in R. rewrite E.
    assert (LL : forall s, lower (lower s) = lower s).
    { intros s. induction s as [|c s IH]; [reflexivity|]. cbn. rewrite IH. f_equal.
      destruct c as [[|] [|] [|] [|] [|] [|] [|] [|]]; reflexivity. }
    rewrite LL in R. exact R.
  - unfold reserved. rewrite !lower_app. change (lower "_") with "_".
    assert (W : without "_" (lower word)).
    { cbn [In aliases] in A. repeat (destruct A as [A|A]; [injection A as A1 A2; rewrite <- A1; now apply no_under_without|]). destruct A. }
    destruct (mem _ _) eqn:M; [|reflexivity]. exfalso.
    pose proof (last_part_of (lower field) _ W) as L. remember (lower field ++ "_" ++ lower word)%string as key eqn:K. clear K.
    apply mem_in in M as X. cbn [In] in X.
    assert (Q : exists b, last_part key = b /\ match b with Some (_, x) => ~ In x ["neq"; "gteq"; "lteq"] | None => True end).
    { repeat (destruct X as [<- | X]; [eexists; split; [reflexivity|]; cbn; try exact Logic.I; intuition discriminate|]). destruct X. }
    destruct Q as (b & Q & R). rewrite L in Q. subst b. apply R. cbn [In aliases] in A. cbn [In].
    repeat (destruct A as [A|A]; [injection A as A1 A2; rewrite <- A1; tauto|]). destruct A.
Qed.

(** Any name of an operator reads as the operator. *)
Lemma read_param_op : forall float moment field word name o text, names_op word name o ->
  read_param float moment (field ++ "_" ++ word)%string text = read_param float moment (field ++ "_" ++ name)%string text.
Proof.
  intros float moment field word name o text N. unfold read_param. rewrite (not_reserved_op _ _ _ _ N).
  destruct (names_op_facts _ _ _ N) as (W & R & O). rewrite (last_part_of _ _ W), R.
  destruct N as [I _]. rewrite (not_reserved _ _ _ I). destruct (op_names_facts _ _ I) as (W' & R' & _).
  rewrite (last_part_of _ _ W'), R'. reflexivity.
Qed.

Lemma asks_read float moment p f : asks_for float moment p f -> read_param float moment (fst p) (snd p) = Read f.
Proof.
  intros (field & word & name & o & vs & E & N & Sp & L & ->). rewrite E, (read_param_op _ _ _ _ _ _ _ N).
  apply query_reads; [exact (proj1 N)|exact Sp|exact L].
Qed.

Lemma split_count c : forall s, List.length (split_on c s) = S (occurrences c s).
Proof.
  unfold occurrences. induction s as [|d s IH]; [reflexivity|]. cbn [split_on list_ascii_of_string count_occ].
  destruct (split_on c s) as [|x l]; [discriminate IH|]. destruct (Ascii.eqb_spec d c), (ascii_dec d c); try congruence; cbn in *; lia.
Qed.

Lemma cannot_wrong float moment p : cannot_be p -> read_param float moment (fst p) (snd p) = Wrong.
Proof.
  intros (field & word & name & o & E & N & B). rewrite E. unfold read_param. rewrite (not_reserved_op _ _ _ _ N).
  destruct (names_op_facts _ _ _ N) as (W & R & O). rewrite (last_part_of _ _ W), R.
  destruct (Nat.ltb_spec 1000 (String.length (snd p))) as [L|L]; [reflexivity|].
  rewrite O. destruct B as [B|[[-> B]|[-> B]]]; [lia| |].
  - cbv zeta. rewrite split_count. destruct (Nat.ltb_spec 100 (S (occurrences "," (snd p)))); [reflexivity|lia].
  - pose proof (split_count "|" (snd p)) as C. destruct (split_on "|" (snd p)) as [|a [|b [|d l]]]; try reflexivity. cbn in C. lia.
Qed.

Lemma no_filter_skipped float moment p : no_filter p -> read_param float moment (fst p) (snd p) = Skipped.
Proof.
  intros [W|R].
  - unfold read_param. destruct (reserved _); [reflexivity|]. now rewrite (last_part_none _ W).
  - unfold read_param. cbn [In] in R. repeat (destruct R as [<-|R]; [reflexivity|]). destruct R.
Qed.

Section Whole.
  Variable float : string -> option value.
  Variable moment : string -> option stamp.

  (** Parameters, and the filters of those that are filters. *)
  Inductive asks_all : list (string * string) -> list filt -> Prop :=
  | asks_nil : asks_all [] []
  | asks_one p f ps fs : asks_for float moment p f -> asks_all ps fs -> asks_all (p :: ps) (f :: fs)
  | asks_none p ps fs : no_filter p -> asks_all ps fs -> asks_all (p :: ps) fs.

  Lemma asks_all_reads ps fs : asks_all ps fs ->
    let rs := map (fun p => read_param float moment (fst p) (snd p)) ps in
    existsb (fun r => match r with Wrong => true | _ => false end) rs = false
    /\ flat_map (fun r => match r with Read f => [f] | _ => [] end) rs = fs.
  Proof.
    intros A. induction A as [|p f ps fs P A [I1 I2]|p ps fs P A [I1 I2]]; cbn; [auto| |].
    - rewrite (asks_read _ _ _ _ P). cbn. split; [exact I1|f_equal; exact I2].
    - rewrite (no_filter_skipped float moment _ P). cbn. auto.
  Qed.

  Theorem query_whole ps fs : asks_all ps fs ->
    from_query float moment ps = if (List.length fs <=? 20)%nat then Some fs else None.
  Proof.
    intros A. destruct (asks_all_reads _ _ A) as [B C]. unfold from_query. rewrite B, C. cbn [orb].
    destruct (Nat.leb_spec (List.length fs) 20), (Nat.ltb_spec 20 (List.length fs)); try lia; reflexivity.
  Qed.

  Theorem query_wrong ps p : In p ps -> cannot_be p -> from_query float moment ps = None.
  Proof.
    intros I C. unfold from_query. replace (existsb _ _) with true; [reflexivity|]. symmetry. apply existsb_exists.
    exists Wrong. split; [|reflexivity]. rewrite <- (cannot_wrong float moment p C). apply (in_map (fun p => read_param float moment (fst p) (snd p)) ps p I).
  Qed.
End Whole.

(** * Numbers *)
Lemma digits_pos : forall u acc, digits (Z.pos acc) (NilEmpty.string_of_uint u) = Some (Z.pos (Pos.of_uint_acc u acc)).
Proof.
  induction u as [|u IH|u IH|u IH|u IH|u IH|u IH|u IH|u IH|u IH|u IH]; intros acc; [reflexivity|..];
    cbn [NilEmpty.string_of_uint digits Pos.of_uint_acc]; rewrite <- IH;
    match goal with |- context [digit_of ?c] => let d := eval vm_compute in (digit_of c) in change (digit_of c) with d end; cbv iota; f_equal; lia.
Qed.
Lemma digits_uint : forall u, digits 0 (NilEmpty.string_of_uint u) = Some (Z.of_uint u).
Proof.
  unfold Z.of_uint. induction u as [|u IH|u IH|u IH|u IH|u IH|u IH|u IH|u IH|u IH|u IH]; [reflexivity|exact IH|..];
    cbn [NilEmpty.string_of_uint digits Pos.of_uint Z.of_N]; rewrite <- digits_pos;
    match goal with |- context [digit_of ?c] => let d := eval vm_compute in (digit_of c) in change (digit_of c) with d end; reflexivity.
Qed.
Lemma unsigned_uint u : unsigned (NilZero.string_of_uint u) = Some (Z.of_uint u).
Proof. rewrite <- digits_uint. destruct u; reflexivity. Qed.

Theorem number_read float moment z : (- 2 ^ 63 <= z < 2 ^ 63)%Z ->
  parse_value float moment (NilZero.string_of_int (Z.to_int z)) = VInt z.
Proof.
  intros B. unfold parse_value. replace (read_int _) with (Some z); [reflexivity|]. symmetry.
  assert (P : forall s, (match s with
           | String c r => if Ascii.eqb c "-" then option_map Z.opp (unsigned r)
                           else if Ascii.eqb c "+" then unsigned r else unsigned s
           | EmptyString => None
           end) = Some z -> read_int s = Some z).
  { intros s E. unfold read_int. rewrite E. change (2 ^ 63)%Z with 9223372036854775808%Z in B.
    destruct (Z.leb_spec (-9223372036854775808) z), (Z.leb_spec z 9223372036854775807); try lia; reflexivity. }
  apply P. clear P. pose proof (of_to z) as T. destruct (Z.to_int z) as [u|u]; cbn [NilZero.string_of_int] in *.
  - unfold Z.of_int in T. rewrite <- T, <- unsigned_uint. destruct u; reflexivity.
  - change (Z.of_int (Neg u)) with (- Z.of_uint u)%Z in T. cbn [Ascii.eqb]. cbn. rewrite unsigned_uint. cbn. now rewrite T.
Qed.

(** * Examples *)
Lemma whole_case : asks_all (fun _ => None) (fun _ => None)
  [("limit", "10"); ("amount_GTEQ", "-5"); ("currency_in", "USD,EUR")]
  [{| f_field := "amount"; f_op := "gte"; f_value := VInt (-5); f_values := [] |};
   {| f_field := "currency"; f_op := "in"; f_value := VNull; f_values := [VStr "USD"; VStr "EUR"] |}].
Proof.
  apply asks_none; [right; cbn; tauto|]. apply asks_one.
  { exists "amount", "GTEQ", "gte", OGe, ["-5"]. split; [reflexivity|]. split; [split; [cbn; tauto|right; cbn; tauto]|].
    split; [reflexivity|]. split; [cbn; lia|reflexivity]. }
  apply asks_one; [|constructor].
  exists "currency", "in", "in", OIn, ["USD"; "EUR"]. split; [reflexivity|]. split; [split; [cbn; tauto|left; reflexivity]|].
  split; [|split; [cbn; lia|reflexivity]]. split; [discriminate|]. split; [cbn; lia|]. split; [reflexivity|].
  apply Forall_cons; [|apply Forall_cons; [|apply Forall_nil]]; (split; [intros I; cbn in I; repeat (destruct I as [I|I]; [discriminate I|]); destruct I|reflexivity]).
Qed.
Lemma wrong_case : cannot_be ("created_at_between", "2024-01-01").
Proof.
  exists "created_at", "between", "between", OBetween. split; [reflexivity|]. split; [split; [cbn; tauto|left; reflexivity]|].
  right. right. split; [reflexivity|]. cbn. lia.
Qed.
