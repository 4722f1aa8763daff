(** Conditions written down as words are read back as the same conditions. *)

From Coq Require Import List Bool Arith ZArith Lia Ascii String.
From Verif Require Import BodyModel FilterSql FilterModel FilterLex.
Import ListNotations.
Local Open Scope nat_scope.
Local Open Scope string_scope.
Local Open Scope list_scope.

Definition otoks (o : operand) : list tok :=
  match o with
  | Col c => [TWord c]
  | Text c k => [TWord c; TArrow; TQuo k]
  | As c k t => [TOpen; TWord c; TArrow; TQuo k; TClose; TCast; TWord t]
  end.

Definition ctok (c : cmp) : tok :=
  match c with Eq => TEq | Ne => TNe | Gt => TGt | Ge => TGe | Lt => TLt | Le => TLe
             | Like => TLike | ILike => TILike end.

Fixpoint args_toks (ns : list nat) : list tok :=
  match ns with
  | [] => []
  | [n] => [TArg n]
  | n :: ns => TArg n :: TComma :: args_toks ns
  end.

Fixpoint toks (c : cond) : list tok :=
  match c with
  | And a b => TOpen :: toks a ++ TAnd :: toks b ++ [TClose]
  | Or a b => TOpen :: toks a ++ TOr :: toks b ++ [TClose]
  | Cmp o c n => otoks o ++ [ctok c; TArg n]
  | AnyOf o n => otoks o ++ [TEq; TAny; TOpen; TArg n; TClose]
  | OneOf o ns => otoks o ++ TIn :: TOpen :: args_toks ns ++ [TClose]
  | Among o c q => otoks o ++ [TIn; TOpen; TSelect; TWord c; TFrom; TWord q; TClose]
  | Between o a b => otoks o ++ [TBetween; TArg a; TAnd; TArg b]
  | IsNull o => otoks o ++ [TIs; TNull]
  | NotNull o => otoks o ++ [TIs; TNot; TNull]
  | HasKey c k b => [TWord c; TAsk; TQuo k; TEq; if b then TTrue else TFalse]
  | Covers c n => [TWord c; TContains; TArg n; TCast; TWord "jsonb"]
  end.

(** Every list of parameters has one. *)
Fixpoint filled (c : cond) : Prop :=
  match c with
  | And a b | Or a b => filled a /\ filled b
  | OneOf _ ns => ns <> []
  | _ => True
  end.

Lemma p_args_toks : forall ns r, ns <> [] -> p_args (args_toks ns ++ TClose :: r) = Some (ns, r).
Proof.
  induction ns as [|n ns IH]; intros r N; [congruence|].
  destruct ns as [|m ns]; [reflexivity|].
  change (args_toks (n :: m :: ns)) with (TArg n :: TComma :: args_toks (m :: ns)).
  cbn [app p_args]. rewrite IH by discriminate. reflexivity.
Qed.

Lemma args_head : forall ns r, ns <> [] -> exists n x, args_toks ns ++ r = TArg n :: x.
Proof.
  intros [|n [|m ns]] r N; [congruence|..].
  - exists n, r. reflexivity.
  - exists n, (TComma :: args_toks (m :: ns) ++ r). reflexivity.
Qed.

Lemma toks_long : forall c, 3 <= List.length (toks c).
Proof.
  destruct c as [a b|a b|[] ? ?|[] ?|[] ?|[] ? ?|[] ? ?|[]|[]|? ? []|? ?]; cbn; repeat (rewrite app_length; cbn [List.length]); lia.
Qed.

Lemma opens_toks : forall c r, opens (TOpen :: toks c ++ r) = Some (toks c ++ r).
Proof.
  destruct c as [a b|a b|[] [] ?|[] ?|[] ?|[] ? ?|[] ? ?|[]|[]|? ? []|? ?]; intros r; reflexivity.
Qed.

Lemma leaf_prim : forall c r n, filled c ->
  match c with And _ _ | Or _ _ => False | _ => True end -> p_prim (S n) (toks c ++ r) = Some (c, r).
Proof.
  intros c r n F L.
  destruct c as [a b|a b|[] [] ?|[] ?|o ns|[] ? ?|[] ? ?|[]|[]|? ? []|? ?]; try contradiction;
    try reflexivity.
  cbn [filled] in F. cbn [toks].
  destruct (args_head ns (TClose :: r) F) as (m & x & E).
  destruct o; cbn [otoks app p_prim opens p_operand]; rewrite <- ?app_assoc; cbn [app p_rest];
    rewrite E; rewrite <- E; rewrite p_args_toks by exact F; reflexivity.
Qed.

(** What may follow a condition that has been read. *)
Definition no_and (r : list tok) : Prop := match r with TAnd :: _ => False | _ => True end.
Definition no_or (r : list tok) : Prop := match r with TOr :: _ => False | _ => True end.

Lemma p_and_one : forall n ts c r, p_prim n ts = Some (c, r) -> no_and r -> p_and (S n) ts = Some (c, r).
Proof.
  intros n ts c r P N. cbn [p_and]. rewrite P. destruct r as [|[] r]; try reflexivity. destruct N.
Qed.

Lemma p_or_one : forall n ts c r, p_and n ts = Some (c, r) -> no_or r -> p_or (S n) ts = Some (c, r).
Proof.
  intros n ts c r P N. cbn [p_or]. rewrite P. destruct r as [|[] r]; try reflexivity. destruct N.
Qed.

Lemma p_and_more : forall n ts a r b r',
  p_prim n ts = Some (a, TAnd :: r) -> p_and n r = Some (b, r') -> p_and (S n) ts = Some (And a b, r').
Proof. intros n ts a r b r' A B. cbn [p_and]. now rewrite A, B. Qed.

Lemma p_or_more : forall n ts a r b r',
  p_and n ts = Some (a, TOr :: r) -> p_or n r = Some (b, r') -> p_or (S n) ts = Some (Or a b, r').
Proof. intros n ts a r b r' A B. cbn [p_or]. now rewrite A, B. Qed.

Lemma p_prim_open : forall n ts r c r',
  opens ts = Some r -> p_or n r = Some (c, TClose :: r') -> p_prim (S n) ts = Some (c, r').
Proof. intros n ts r c r' O P. cbn [p_prim]. now rewrite O, P. Qed.

Lemma read_leaf : forall c r n, filled c -> match c with And _ _ | Or _ _ => False | _ => True end ->
  List.length (toks c) <= n -> p_prim n (toks c ++ r) = Some (c, r).
Proof.
  intros c r [|n] F L X; [pose proof (toks_long c); lia|]. now apply leaf_prim.
Qed.

Lemma read_toks : forall c r n, filled c -> List.length (toks c) <= n -> p_prim n (toks c ++ r) = Some (c, r).
Proof.
  induction c as [a IHa b IHb|a IHa b IHb| | | | | | | | |]; intros rr nn F L;
    try (apply read_leaf; [exact F|exact I|exact L]).
  - destruct F as [Fa Fb]. cbn [toks List.length] in L. rewrite !app_length in L. cbn [List.length] in L.
    rewrite app_length in L. cbn [List.length] in L.
    pose proof (toks_long a) as La. pose proof (toks_long b) as Lb.
    do 4 (destruct nn as [|nn]; [lia|]).
    assert (E : toks (And a b) ++ rr = TOpen :: toks a ++ (TAnd :: toks b ++ TClose :: rr)).
    { cbn [toks app]. rewrite <- app_assoc. cbn [app]. now rewrite <- app_assoc. }
    rewrite E. eapply p_prim_open; [apply opens_toks|].
    apply p_or_one; [|exact I]. eapply p_and_more; [apply IHa; [exact Fa|lia]|].
    apply p_and_one; [|exact I]. apply IHb; [exact Fb|lia].
  - destruct F as [Fa Fb]. cbn [toks List.length] in L. rewrite !app_length in L. cbn [List.length] in L.
    rewrite app_length in L. cbn [List.length] in L.
    pose proof (toks_long a) as La. pose proof (toks_long b) as Lb.
    do 5 (destruct nn as [|nn]; [lia|]).
    assert (E : toks (Or a b) ++ rr = TOpen :: toks a ++ (TOr :: toks b ++ TClose :: rr)).
    { cbn [toks app]. rewrite <- app_assoc. cbn [app]. now rewrite <- app_assoc. }
    rewrite E. eapply p_prim_open; [apply opens_toks|].
    eapply p_or_more.
    + apply p_and_one; [|exact I]. apply IHa; [exact Fa|lia].
    + apply p_or_one; [|exact I]. apply p_and_one; [|exact I]. apply IHb; [exact Fb|lia].
Qed.

(** * Conditions joined *)

(** A condition and more of them. *)
Fixpoint joined (c : cond) (cs : list cond) : cond :=
  match cs with [] => c | d :: cs => And c (joined d cs) end.

Fixpoint chain (c : cond) (cs : list cond) : list tok :=
  match cs with [] => toks c | d :: cs => toks c ++ TAnd :: chain d cs end.

Lemma read_chain : forall cs c r n, filled c -> Forall filled cs -> no_and r ->
  List.length (chain c cs) < n -> p_and n (chain c cs ++ r) = Some (joined c cs, r).
Proof.
  induction cs as [|d cs IH]; intros c r n F G N L; (destruct n as [|n]; [lia|]).
  - cbn [chain joined] in *. apply p_and_one; [|exact N]. apply read_toks; [exact F|]. lia.
  - cbn [chain] in *. rewrite app_length in L. cbn [List.length] in L.
    rewrite <- app_assoc. cbn [app joined]. inversion G; subst.
    eapply p_and_more; [apply read_toks; [exact F|lia]|]. apply IH; [assumption..|lia].
Qed.

(** Each in parentheses, one of them. *)
Fixpoint disj (x : cond * list cond) (xs : list (cond * list cond)) : cond :=
  match xs with [] => joined (fst x) (snd x) | y :: xs => Or (joined (fst x) (snd x)) (disj y xs) end.

Fixpoint choice (x : cond * list cond) (xs : list (cond * list cond)) : list tok :=
  TOpen :: chain (fst x) (snd x) ++ TClose :: match xs with [] => [] | y :: xs => TOr :: choice y xs end.

Definition filled2 (x : cond * list cond) : Prop := filled (fst x) /\ Forall filled (snd x).

Lemma opens_chain : forall cs c r, opens (TOpen :: chain c cs ++ r) = Some (chain c cs ++ r).
Proof.
  intros [|d cs] c r; cbn [chain]; [apply opens_toks|]. rewrite <- app_assoc. apply opens_toks.
Qed.

Lemma chain_long : forall cs c, 3 <= List.length (chain c cs).
Proof.
  intros [|d cs] c; cbn [chain]; rewrite ?app_length; pose proof (toks_long c); lia.
Qed.

Lemma choice_long : forall xs x, 5 <= List.length (choice x xs).
Proof.
  intros xs x. pose proof (chain_long (snd x) (fst x)) as C.
  destruct xs; cbn [choice List.length]; rewrite app_length; cbn [List.length]; lia.
Qed.

Lemma read_choice : forall xs x r n, filled2 x -> Forall filled2 xs -> no_or r -> no_and r ->
  List.length (choice x xs) + 2 < n -> p_or n (choice x xs ++ r) = Some (disj x xs, r).
Proof.
  induction xs as [|y xs IH]; intros x r n [F G] H N N' L.
  - pose proof (choice_long [] x) as K. do 5 (destruct n as [|n]; [lia|]).
    cbn [choice disj] in *. cbn [List.length] in L. rewrite app_length in L. cbn [List.length] in L.
    apply p_or_one; [|exact N]. apply p_and_one; [|exact N'].
    cbn [app]. rewrite <- app_assoc. eapply p_prim_open; [apply opens_chain|].
    cbn [app]. apply p_or_one; [|exact I]. apply read_chain; [exact F|exact G|exact I|lia].
  - pose proof (choice_long xs y) as K.
    cbn [choice disj] in *. cbn [List.length] in L. rewrite app_length in L. cbn [List.length] in L.
    do 5 (destruct n as [|n]; [lia|]).
    inversion H; subst. cbn [app]. rewrite <- app_assoc. cbn [app].
    eapply p_or_more; [|apply IH; [assumption|assumption|exact N|exact N'|lia]].
    apply p_and_one; [|exact I]. eapply p_prim_open; [apply opens_chain|].
    apply p_or_one; [|exact I]. apply read_chain; [exact F|exact G|exact I|lia].
Qed.
