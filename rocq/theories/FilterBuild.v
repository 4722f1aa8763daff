(** What a list of filters becomes. *)

From Coq Require Import List Bool Arith ZArith Lia Ascii String.
From Verif Require Import BodyModel FilterSql FilterModel FilterSpec FilterLex FilterParse FilterGen.
Import ListNotations.
Local Open Scope nat_scope.
Local Open Scope string_scope.
Local Open Scope list_scope.

Inductive kind := KMeta (k : string) | KSides | KInd | KCol.

Definition kind_of (table : string) (f : filt) : kind :=
  match after "meta_data." (f_field f) with
  | Some k => KMeta k
  | None => if String.eqb table "transactions" && String.eqb (f_field f) "balance_id" then KSides
            else if String.eqb table "transactions" && String.eqb (f_field f) "indicator" then KInd
            else KCol
  end.

Definition o_of (f : filt) : op := match op_of (f_op f) with Some o => o | None => OEq end.

(** The conditions on the rows listed, and the values. *)
Definition made_of (table : string) (f : filt) (p : nat) : made :=
  match kind_of table f with
  | KMeta k => meta_made k (o_of f) f p
  | KSides => sides_made (o_of f) (f_value f) (f_values f) p
  | KInd => ((sides, []), snd (indicator_made (o_of f) f p))
  | KCol => standard_made (f_field f) (o_of f) f p
  end.

(** The condition on balances. *)
Definition sub_of (table : string) (f : filt) (p : nat) : list cond :=
  match kind_of table f with KInd => [fst (fst (indicator_made (o_of f) f p))] | _ => [] end.

Definition width (table : string) (f : filt) (p : nat) : nat := List.length (snd (made_of table f p)).

(** Each filter at its first parameter. *)
Fixpoint placed (table : string) (fs : list filt) (p : nat) : list (filt * nat) :=
  match fs with [] => [] | f :: fs => (f, p) :: placed table fs (p + width table f p) end.

Definition conds_of (table : string) (l : list (filt * nat)) : list (cond * list cond) :=
  map (fun x => fst (made_of table (fst x) (snd x))) l.
Definition args_of (table : string) (l : list (filt * nat)) : list value :=
  flat_map (fun x => snd (made_of table (fst x) (snd x))) l.
Definition subs_in (table : string) (l : list (filt * nat)) : list cond :=
  flat_map (fun x => sub_of table (fst x) (snd x)) l.

(** * Fields *)

Lemma after_app : forall p s x, after p s = Some x -> s = (p ++ x)%string.
Proof.
  induction p as [|a p IH]; intros [|b s] x; cbn; intros H; try discriminate; try (injection H as <-; reflexivity).
  destruct (Ascii.eqb_spec a b) as [->|]; [|discriminate]. now rewrite (IH _ _ H).
Qed.

Lemma after_of : forall p x, after p (p ++ x)%string = Some x.
Proof. induction p as [|a p IH]; intros x; cbn; [reflexivity|]. now rewrite Ascii.eqb_refl. Qed.

Definition plain_field (c : string) : bool :=
  match split_dot c, after "meta_data." c with None, None => true | _, _ => false end.

Lemma fields_plain : forall table c, In c (valid_fields table) ->
  split_dot c = None /\ after "meta_data." c = None.
Proof.
  intros table c I. assert (P : plain_field c = true).
  { revert I. unfold valid_fields.
    repeat match goal with |- context [if ?b then _ else _] => destruct b end; intros I;
      repeat match goal with H : In _ _ |- _ => destruct H as [<- | H]; [reflexivity|] end;
      try contradiction; destruct I. }
  unfold plain_field in P. destruct (split_dot c); [discriminate|].
  destruct (after "meta_data." c); [discriminate|]. split; reflexivity.
Qed.

Lemma fields_columns : forall table, valid_fields table = columns table.
Proof.
  intros table. unfold valid_fields, columns.
  repeat match goal with |- context [if ?b then _ else _] => destruct b end; reflexivity.
Qed.

(** * One filter *)

Lemma valid_op : forall table f, valid_filter table f = true ->
  op_of (f_op f) = Some (o_of f) /\ enough (o_of f) (f_values f).
Proof.
  intros table f V. unfold valid_filter in V. unfold o_of.
  destruct (op_of (f_op f)) as [o|]; [|discriminate]. split; [reflexivity|].
  apply andb_true_iff in V as [V _]. apply andb_true_iff in V as [V _].
  destruct o; cbn [enough]; try exact I.
  - intros Q. rewrite Q in V. discriminate V.
  - now apply Nat.eqb_eq.
Qed.

Definition no_nan (f : filt) : Prop := ~ not_a_number f.

Lemma op_eq : forall s, op_of s = Some OEq -> s = "eq".
Proof.
  intros s. unfold op_of.
  destruct (String.eqb_spec s "eq"); [auto|].
  repeat match goal with |- context [if ?b then _ else _] => destruct b; [discriminate|] end. discriminate.
Qed.

Lemma valid_kind : forall table f, valid_filter table f = true ->
  match kind_of table f with
  | KMeta k => f_field f = ("meta_data." ++ k)%string /\ good_key k = true
  | KSides => In (o_of f) [OEq; ONe; OIn; ONull; ONotNull] /\ f_field f = "balance_id" /\ table = "transactions"
  | KInd => f_field f = "indicator" /\ table = "transactions"
  | KCol => In (f_field f) (columns table) /\ split_dot (f_field f) = None
            /\ ~ (table = "transactions" /\ (f_field f = "balance_id" \/ f_field f = "indicator"))
  end.
Proof.
  intros table f V. pose proof (valid_op _ _ V) as [O _]. unfold valid_filter in V. rewrite O in V.
  apply andb_true_iff in V as [V F]. apply andb_true_iff in V as [_ S].
  unfold kind_of. destruct (after "meta_data." (f_field f)) as [k|] eqn:A.
  - split; [now apply after_app|].
    destruct (mem "meta_data" (valid_fields table)); [exact F|].
    exfalso. apply mem_in in F. destruct (fields_plain _ _ F). congruence.
  - apply mem_in in F. destruct (fields_plain _ _ F) as [P _]. rewrite fields_columns in F.
    destruct (String.eqb_spec table "transactions") as [T|T], (String.eqb_spec (f_field f) "balance_id") as [B|B],
             (String.eqb_spec (f_field f) "indicator") as [D|D]; cbn [andb] in *;
      try (split; [exact F|split; [exact P|intros [? [?|?]]; contradiction]]);
      try (split; assumption).
    + split; [|split; assumption]. destruct (o_of f); try discriminate S; cbn; auto 6.
    + split; [|split; assumption]. destruct (o_of f); try discriminate S; cbn; auto 6.
Qed.

Definition grows (table : string) (f : filt) (b b' : built) : Prop :=
  let p := b_next b in
  exists text cts,
    b_conds b' = b_conds b ++ [text] /\ b_args b' = b_args b ++ snd (made_of table f p)
    /\ b_next b' = p + width table f p /\ b_ctes b' = b_ctes b ++ map indicator_cte cts
    /\ words text = Some (chain (fst (fst (made_of table f p))) (snd (fst (made_of table f p))))
    /\ Forall2 (fun t c => words t = Some (toks c)) cts (sub_of table f p).

Lemma column_alone : forall c o v vs p, snd (fst (column_made c o v vs p)) = [].
Proof. intros c o v vs p. destruct o; cbn; try reflexivity. destruct (all_strings vs); reflexivity. Qed.

Lemma keep_grows : forall table f b x,
  writes x (made_of table f (b_next b)) (b_next b) -> sub_of table f (b_next b) = [] ->
  grows table f b (let '(c, a, n) := x in
    if c =? "" then b
    else {| b_ctes := b_ctes b ++ []; b_conds := b_conds b ++ [c]; b_args := b_args b ++ a; b_next := n |}).
Proof.
  intros table f b [[c a] n] (W & A & N & E) S.
  replace (c =? "") with false by (symmetry; now apply String.eqb_neq).
  exists c, []. cbn [b_conds b_args b_next b_ctes map]. rewrite S, A.
  repeat split; try assumption. constructor.
Qed.

Lemma add_grows : forall table f b, valid_filter table f = true -> no_nan f -> grows table f b (add table b f).
Proof.
  intros table f b V NN. destruct (valid_op _ _ V) as [O E]. pose proof (valid_kind _ _ V) as K.
  unfold add. cbv zeta.
  destruct (kind_of table f) as [k| | |] eqn:KE.
  - destruct K as [F G]. rewrite F, split_meta.
    change (after "meta_data" ("meta_data." ++ k)) with (Some ("." ++ k)%string). cbn [andb].
    apply keep_grows.
    + unfold made_of. rewrite KE. apply meta_writes; try assumption.
      intros Q s Vs. apply NN. split; [apply op_eq; congruence|]. split; [exists k; exact F|]. exists s; exact Vs.
    + unfold sub_of. now rewrite KE.
  - destruct K as (I & F & T). rewrite F, T. cbn [split_dot String.eqb andb].
    change (split_dot "balance_id") with (@None (string * string)). cbn [andb].
    change ("balance_id" =? "balance_id") with true. change ("transactions" =? "transactions") with true. cbn [andb].
    subst table. apply keep_grows.
    + unfold made_of. rewrite KE. now apply sides_writes.
    + unfold sub_of. now rewrite KE.
  - destruct K as (F & T). rewrite F, T. change (split_dot "indicator") with (@None (string * string)). cbn [andb].
    change ("indicator" =? "balance_id") with false. change ("indicator" =? "indicator") with true.
    change ("transactions" =? "transactions") with true. cbn [andb]. subst table.
    pose proof (indicator_writes f (o_of f) (b_next b) O E) as W.
    destruct (indicator_text f (b_next b)) as [[c a] n]. destruct W as (W & A & N & X).
    replace (c =? "") with false by (symmetry; now apply String.eqb_neq).
    change (indicator_sides =? "") with false. cbv iota.
    exists indicator_sides, [c]. cbn [b_conds b_args b_next b_ctes map].
    unfold width, made_of, sub_of. rewrite KE. cbn [fst snd].
    repeat split; [congruence|exact N|].
    constructor; [|constructor]. rewrite W. unfold indicator_made. now rewrite column_alone.
  - destruct K as (I & P & H). rewrite P. cbn [andb].
    assert (Z1 : (f_field f =? "balance_id") && (table =? "transactions") = false).
    { apply andb_false_iff. destruct (String.eqb_spec (f_field f) "balance_id"); [|now left].
      destruct (String.eqb_spec table "transactions"); [|now right]. tauto. }
    assert (Z2 : (f_field f =? "indicator") && (table =? "transactions") = false).
    { apply andb_false_iff. destruct (String.eqb_spec (f_field f) "indicator"); [|now left].
      destruct (String.eqb_spec table "transactions"); [|now right]. tauto. }
    rewrite Z1, Z2. apply keep_grows.
    + unfold made_of. rewrite KE. now apply standard_writes.
    + unfold sub_of. now rewrite KE.
Qed.

(** * All of them *)

Definition reads (text : string) (c : cond * list cond) : Prop := words text = Some (chain (fst c) (snd c)).

Definition full (table : string) (fs : list filt) (b b' : built) : Prop :=
  let l := placed table fs (b_next b) in
  exists texts cts,
    b_conds b' = b_conds b ++ texts /\ b_args b' = b_args b ++ args_of table l
    /\ b_next b' = b_next b + List.length (args_of table l)
    /\ b_ctes b' = b_ctes b ++ map indicator_cte cts
    /\ Forall2 reads texts (conds_of table l)
    /\ Forall2 (fun t c => words t = Some (toks c)) cts (subs_in table l).

Lemma fold_full : forall table fs b, Forall (fun f => valid_filter table f = true) fs -> Forall no_nan fs ->
  full table fs b (fold_left (add table) fs b).
Proof.
  intros table. induction fs as [|f fs IH]; intros b V N.
  - exists [], []. cbn. rewrite !app_nil_r. repeat split; constructor || lia.
  - inversion V as [|? ? Vf Vs]; subst. inversion N as [|? ? Nf Ns]; subst. cbn [fold_left].
    destruct (add_grows table f b Vf Nf) as (t & cs & C & A & X & T & W & S).
    destruct (IH (add table b f) Vs Ns) as (ts & css & C' & A' & X' & T' & W' & S').
    exists (t :: ts), (cs ++ css). cbn [placed args_of conds_of subs_in flat_map map fst snd].
    rewrite X in A', X', W', S'.
    rewrite C', C, A', A, X', T', T. rewrite <- !app_assoc, map_app, app_length.
    repeat split.
    + unfold width. unfold args_of. lia.
    + constructor; [exact W|exact W'].
    + apply Forall2_app; assumption.
Qed.

Lemma build_full : forall table lop fs b, build table lop fs = Some b -> Forall no_nan fs ->
  full table fs {| b_ctes := []; b_conds := []; b_args := []; b_next := 1 |} b
  /\ (fs <> [] -> validate table lop fs = true).
Proof.
  intros table lop fs b B N. unfold build in B. destruct fs as [|f fs].
  - injection B as <-. split; [|congruence]. exists [], []. cbn. repeat split; constructor || lia.
  - destruct (validate table lop (f :: fs)) eqn:V; [|discriminate]. injection B as <-.
    split; [|auto]. refine (fold_full table (f :: fs) _ _ N).
    unfold validate in V. apply andb_true_iff in V as [_ V]. rewrite forallb_forall in V.
    now apply Forall_forall.
Qed.
