(** The words of the texts the program puts together. *)

From Coq Require Import List Bool Arith ZArith Lia Ascii String DecimalString DecimalNat DecimalFacts.
From Verif Require Import BodyModel FilterSql FilterModel.
Import ListNotations.
Local Open Scope nat_scope.
Local Open Scope string_scope.
Local Open Scope list_scope.

Lemma sapp_assoc : forall a b c : string, ((a ++ b) ++ c = a ++ (b ++ c))%string.
Proof. induction a as [|x a IH]; intros b c; cbn; [reflexivity|]. now rewrite IH. Qed.

Lemma sapp_nil : forall a : string, (a ++ "" = a)%string.
Proof. induction a as [|x a IH]; cbn; [reflexivity|]. now rewrite IH. Qed.

Lemma snoc_app : forall s c x, (snoc s c ++ x = s ++ String c x)%string.
Proof. intros s c x. unfold snoc. rewrite sapp_assoc. reflexivity. Qed.

(** * Reading on *)

Lemma scanned_app : forall a b st,
  scanned st (a ++ b)%string =
  match scanned st a with
  | Some (x, st') => match scanned st' b with Some (y, e) => Some (x ++ y, e) | None => None end
  | None => None
  end.
Proof.
  induction a as [|c a IH]; intros b st; cbn [append scanned].
  - destruct (scanned st b) as [[y e]|]; reflexivity.
  - destruct (step st c) as [[x st']|]; [|reflexivity].
    rewrite IH. destruct (scanned st' a) as [[x' st'']|]; [|reflexivity].
    destruct (scanned st'' b) as [[y e]|]; [|reflexivity]. now rewrite app_assoc.
Qed.

Lemma scanned_break : forall st p c s,
  pend st = Some p -> carry st c = None ->
  scanned st (String c s) =
  match scanned Out (String c s) with Some (b, e) => Some (p ++ b, e) | None => None end.
Proof.
  intros st p c s P C. cbn [scanned]. unfold step. rewrite C, P. cbn [carry pend app].
  destruct (begin c) as [[b st']|]; [|reflexivity].
  destruct (scanned st' s) as [[b' e]|]; [|reflexivity]. now rewrite app_assoc.
Qed.

(** A text read up to a state, then one that begins with a character that ends its last word. *)
Lemma words_join : forall a ta st p c b tb,
  scanned Out a = Some (ta, st) -> pend st = Some p -> carry st c = None ->
  words (String c b) = Some tb -> words (a ++ String c b)%string = Some (ta ++ p ++ tb).
Proof.
  intros a ta st p c b tb A P C B. unfold words in *. rewrite scanned_app, A.
  rewrite (scanned_break _ _ _ _ P C).
  destruct (scanned Out (String c b)) as [[x e]|]; [|discriminate].
  destruct (pend e) as [q|]; [|discriminate]. injection B as <-. now rewrite !app_assoc.
Qed.

Lemma words_out : forall a ta b tb,
  scanned Out a = Some (ta, Out) -> words b = Some tb -> words (a ++ b)%string = Some (ta ++ tb).
Proof.
  intros a ta b tb A B. unfold words in *. rewrite scanned_app, A.
  destruct (scanned Out b) as [[x e]|]; [|discriminate].
  destruct (pend e) as [q|]; [|discriminate]. injection B as <-. now rewrite !app_assoc.
Qed.

Lemma words_stop : forall a ta st p,
  scanned Out a = Some (ta, st) -> pend st = Some p -> words a = Some (ta ++ p).
Proof. intros a ta st p A P. unfold words. now rewrite A, P. Qed.

(** A blank, a comma or a parenthesis ends any word but a quoted one. *)
Definition ends (c : ascii) : bool := blank c || one_of "()," c.

Lemma ends_carry : forall st p c, pend st = Some p -> ends c = true -> carry st c = None.
Proof.
  intros st p c P E. destruct st; cbn [carry pend] in *; try reflexivity; try discriminate.
  all: destruct c as [[] [] [] [] [] [] [] []]; try discriminate E; reflexivity.
Qed.

Lemma words_sep : forall a ta c b tb,
  words a = Some ta -> ends c = true -> words (String c b) = Some tb ->
  words (a ++ String c b)%string = Some (ta ++ tb).
Proof.
  intros a ta c b tb A E B. unfold words in A.
  destruct (scanned Out a) as [[x st]|] eqn:X; [|discriminate].
  destruct (pend st) as [p|] eqn:P; [|discriminate]. injection A as <-.
  rewrite (words_join _ _ _ _ _ _ _ X P (ends_carry _ _ _ P E) B). now rewrite app_assoc.
Qed.

(** * Numbers *)

Definition digits (s : string) : bool := forallb digit (list_ascii_of_string s).

Lemma digits_uint : forall u, digits (NilEmpty.string_of_uint u) = true.
Proof. unfold digits. induction u; cbn; try reflexivity; exact IHu. Qed.

Lemma scanned_digits : forall d s, digits d = true -> scanned (Num s) d = Some ([], Num (s ++ d)).
Proof.
  unfold digits. induction d as [|c d IH]; intros s D; cbn [scanned].
  - now rewrite sapp_nil.
  - cbn in D. apply andb_true_iff in D as [C D]. unfold step. cbn [carry]. rewrite C.
    rewrite (IH _ D). cbn. now rewrite snoc_app.
Qed.

Lemma dec_pend : forall n, pend (Num (dec n)) = Some [TArg n].
Proof.
  intros n. unfold pend, dec. rewrite NilEmpty.usu.
  rewrite DecimalNat.Unsigned.of_to.
  destruct (String.eqb_spec (NilEmpty.string_of_uint (Nat.to_uint n)) "") as [E|]; [|reflexivity].
  exfalso. assert (X : Nat.to_uint n = Decimal.Nil).
  { destruct (Nat.to_uint n); [reflexivity|discriminate E..]. }
  revert X. rewrite <- (DecimalNat.Unsigned.of_to n), DecimalNat.Unsigned.to_of.
  apply unorm_nonnil.
Qed.

(** A text up to a dollar sign, and the number. *)
Lemma scanned_arg : forall lit tl n,
  scanned Out lit = Some (tl, Num "") -> scanned Out (lit ++ dec n)%string = Some (tl, Num (dec n)).
Proof.
  intros lit tl n L. rewrite scanned_app, L. unfold dec at 1.
  rewrite scanned_digits by apply digits_uint. now rewrite List.app_nil_r.
Qed.

Lemma words_arg : forall lit tl n,
  scanned Out lit = Some (tl, Num "") -> words (lit ++ dec n)%string = Some (tl ++ [TArg n]).
Proof.
  intros lit tl n L. exact (words_stop _ _ _ _ (scanned_arg _ _ n L) (dec_pend n)).
Qed.

Lemma words_arg_then : forall lit tl n c b tb,
  scanned Out lit = Some (tl, Num "") -> digit c = false -> words (String c b) = Some tb ->
  words (lit ++ dec n ++ String c b)%string = Some (tl ++ TArg n :: tb).
Proof.
  intros lit tl n c b tb L C B. rewrite <- sapp_assoc.
  rewrite (words_join _ _ _ _ c b tb (scanned_arg _ _ n L) (dec_pend n)).
  - reflexivity.
  - cbn. now rewrite C.
  - exact B.
Qed.

(** * Quoted keys *)

Definition unquoted (s : string) : bool :=
  forallb (fun c => negb (Ascii.eqb c quote)) (list_ascii_of_string s).

Lemma scanned_key : forall k s, unquoted k = true -> scanned (Open s) k = Some ([], Open (s ++ k)).
Proof.
  unfold unquoted. induction k as [|c k IH]; intros s U; cbn [scanned].
  - now rewrite sapp_nil.
  - cbn in U. apply andb_true_iff in U as [C U]. unfold step. cbn [carry].
    apply negb_true_iff in C. rewrite C. rewrite (IH _ U). cbn. now rewrite snoc_app.
Qed.

Lemma scanned_quoted : forall lit tl k,
  scanned Out lit = Some (tl, Open "") -> unquoted k = true ->
  scanned Out (lit ++ k ++ "'")%string = Some (tl, Shut k).
Proof.
  intros lit tl k L U. rewrite scanned_app, L, scanned_app, (scanned_key _ _ U). cbn.
  now rewrite List.app_nil_r.
Qed.

Lemma words_quoted : forall lit tl k,
  scanned Out lit = Some (tl, Open "") -> unquoted k = true ->
  words (lit ++ k ++ "'")%string = Some (tl ++ [TQuo k]).
Proof.
  intros lit tl k L U. exact (words_stop _ _ _ _ (scanned_quoted _ _ _ L U) eq_refl).
Qed.

Lemma words_quoted_then : forall lit tl k c b tb,
  scanned Out lit = Some (tl, Open "") -> unquoted k = true -> Ascii.eqb c quote = false ->
  words (String c b) = Some tb ->
  words (lit ++ k ++ "'" ++ String c b)%string = Some (tl ++ TQuo k :: tb).
Proof.
  intros lit tl k c b tb L U C B.
  replace (lit ++ k ++ "'" ++ String c b)%string with ((lit ++ k ++ "'") ++ String c b)%string
    by now rewrite !sapp_assoc.
  rewrite (words_join _ _ _ _ c b tb (scanned_quoted _ _ _ L U) eq_refl).
  - reflexivity.
  - cbn. now rewrite C.
  - exact B.
Qed.

Lemma key_unquoted : forall c, key_char c = true -> Ascii.eqb c quote = false.
Proof. intros c. destruct c as [[] [] [] [] [] [] [] []]; cbn; intros H; try reflexivity; discriminate H. Qed.

Lemma forall_unquoted : forall l, forallb key_char l = true ->
  forallb (fun c => negb (Ascii.eqb c quote)) l = true.
Proof.
  induction l as [|c l IH]; intros H; [reflexivity|]. cbn in *.
  apply andb_true_iff in H as [C H]. now rewrite (key_unquoted _ C), (IH H).
Qed.

Lemma good_sanitize : forall k, good_key k = true -> sanitize k = k /\ unquoted k = true /\ k <> "".
Proof.
  intros [|c k]; cbn [good_key]; [discriminate|]. intros G. apply andb_true_iff in G as [L K].
  assert (X : forallb key_char (list_ascii_of_string (String c k)) = true).
  { cbn. rewrite K. unfold key_char. now rewrite L. }
  unfold sanitize. rewrite X, L. cbn [andb].
  repeat split; [|discriminate]. exact (forall_unquoted _ X).
Qed.

(** * Columns *)

(** A name the database reads as a column, by itself. *)
Definition name (c : string) : Prop := scanned Out c = Some ([], Name c) /\ word c = TWord c.

Lemma words_name_then : forall n c b tb,
  name n -> wordly c = false -> words (String c b) = Some tb ->
  words (n ++ String c b)%string = Some (TWord n :: tb).
Proof.
  intros n c b tb [A B] W T.
  rewrite (words_join _ _ _ _ c b tb A (eq_refl : pend (Name n) = Some [word n])); [|cbn; now rewrite W|exact T].
  now rewrite B.
Qed.

Definition namely (c : string) : bool :=
  match scanned Out c with
  | Some ([], Name d) => String.eqb c d && match word c with TWord e => String.eqb c e | _ => false end
  | _ => false
  end.

Lemma namely_name : forall c, namely c = true -> name c.
Proof.
  intros c. unfold namely, name. destruct (scanned Out c) as [[[|] []]|]; try discriminate.
  intros H. apply andb_true_iff in H as [A B]. apply String.eqb_eq in A as <-.
  destruct (word c) as [e| | | | | | | | | | | | | | | | | | | | | | | | | | | | | | | | | | | | | | |]; try discriminate.
  apply String.eqb_eq in B as <-. split; reflexivity.
Qed.

Lemma mem_in : forall s l, mem s l = true <-> In s l.
Proof.
  intros s. induction l as [|x l IH]; cbn; [split; [discriminate|intros []]|].
  rewrite orb_true_iff, IH, String.eqb_eq. split; intros [A|A]; auto.
Qed.

Lemma columns_names : forall table c, In c (columns table) -> name c.
Proof.
  intros table c. unfold columns.
  repeat match goal with |- context [if ?b then _ else _] => destruct b end; intros I;
    try destruct I; apply namely_name;
    repeat match goal with H : In _ _ |- _ => destruct H as [<- | H]; [reflexivity|] end;
    try contradiction; subst; reflexivity.
Qed.

(** * Lists of parameters *)

Fixpoint arg_list (p n : nat) : list tok :=
  match n with
  | 0 => []
  | 1 => [TArg p]
  | S n => TArg p :: TComma :: arg_list (S p) n
  end.

Lemma words_places : forall n p c b tb,
  0 < n -> digit c = false -> words (String c b) = Some tb ->
  words (String.concat ", " (places p n) ++ String c b)%string = Some (arg_list p n ++ tb).
Proof.
  induction n as [|n IH]; intros p c b tb N C B; [lia|].
  destruct n as [|n].
  - cbn [places String.concat arg_list app].
    replace (("$" ++ dec p) ++ String c b)%string with ("$" ++ dec p ++ String c b)%string
      by now rewrite sapp_assoc.
    exact (words_arg_then "$" [] p c b tb eq_refl C B).
  - change (String.concat ", " (places p (S (S n))))
      with (("$" ++ dec p) ++ ", " ++ String.concat ", " (places (S p) (S n)))%string.
    rewrite 2 sapp_assoc.
    change (arg_list p (S (S n)) ++ tb) with ([] ++ TArg p :: TComma :: (arg_list (S p) (S n) ++ tb)).
    apply (words_arg_then "$" [] p ","%char); [reflexivity|reflexivity|].
    exact (words_out ", " [TComma] _ _ eq_refl (IH (S p) c b tb ltac:(lia) C B)).
Qed.
