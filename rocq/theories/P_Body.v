(** C38: a request made with an API key says what its sender wrote, and who sent it. *)
From Coq Require Import ZArith List String Bool.
From Verif Require Import BodyThms BodyDemo.
From Verif Require Import Base BodyModel BodySpec.
Import ListNotations.
Local Open Scope string_scope.
Local Open Scope list_scope.
Open Scope Z_scope.

(** Numbers up to 2^53 written in digits: the body is always rewritten, and every field but
    the metadata, and every entry of the metadata but the attribution, reads as sent. *)
Theorem C38_rewritten : forall id l, small (JObj l) -> exists l', inject id (JObj l) = Rewritten (JObj l').
Proof. exact small_rewritten. Qed.
Print Assumptions C38_rewritten.
Theorem C38_same : forall id l l', tidy (JObj l) -> small (JObj l) -> inject id (JObj l) = Rewritten (JObj l') ->
  (forall f, lower f <> "meta_data" -> orel (alike exactly) (field f l) (field f l'))
  /\ forall M, map_field "meta_data" l [] = Some M ->
     exists M', map_field "meta_data" l' [] = Some M' /\ forall k, k <> "BLNK_GENERATED_BY" -> orel (alike exactly) (get k M) (get k M').
Proof. exact same_exactly. Qed.
Print Assumptions C38_same.

(** Any numbers: whatever is read into a float64, amounts for instance, reads as sent. *)
Theorem C38_same_floats : forall id l l', tidy (JObj l) -> inject id (JObj l) = Rewritten (JObj l') ->
  (forall f, lower f <> "meta_data" -> orel (alike as_float) (field f l) (field f l'))
  /\ forall M, map_field "meta_data" l [] = Some M ->
     exists M', map_field "meta_data" l' [] = Some M' /\ forall k, k <> "BLNK_GENERATED_BY" -> orel (alike as_float) (get k M) (get k M').
Proof. exact same_as_float. Qed.
Print Assumptions C38_same_floats.

(** A rewritten body that is accepted names the key it was sent with, whatever it said
    before, under whatever spelling of the name. *)
Theorem C38_attributed : forall id l l' meta,
  inject id (JObj l) = Rewritten (JObj l') -> map_field "meta_data" l' [] = Some meta ->
  get "BLNK_GENERATED_BY" meta = Some (JText id).
Proof. exact attributed. Qed.
Print Assumptions C38_attributed.

(** A payment that claims to be somebody else's. *)
Example C38_example : tidy (JObj payment) /\ small (JObj payment) /\ inject "key1" (JObj payment) = Rewritten (JObj sent)
  /\ get "BLNK_GENERATED_BY" [("invoice", JNum true 17); ("BLNK_GENERATED_BY", JText "somebody else")] = Some (JText "somebody else").
Proof. exact (conj (proj1 payment_tidy) (conj (proj2 payment_tidy) (conj payment_sent eq_refl))). Qed.

(** Whole numbers above 2^53 are not safe: every odd one is altered, in every field. *)
Theorem C38_odd_altered : forall id l l' f n, tidy (JObj l) -> lower f <> "meta_data" ->
  int_field f l = Some n -> Z.odd n = true -> 2 ^ 53 < Z.abs n ->
  inject id (JObj l) = Rewritten (JObj l') -> int_field f l' <> Some n.
Proof. exact odd_altered. Qed.
Print Assumptions C38_odd_altered.
Example C38_odd_example : exists l', inject "key1" (JObj large) = Rewritten (JObj l')
  /\ int_field "precise_amount" large = Some 9007199254740993 /\ int_field "precise_amount" l' = Some 9007199254740992.
Proof. exact large_sent. Qed.

(** So a transaction is posted with another amount, *)
Theorem C38_amount_refuted : ~ (forall id l l', tidy (JObj l) -> inject id (JObj l) = Rewritten (JObj l') ->
  int_field "precise_amount" l' = int_field "precise_amount" l).
Proof. exact amount_altered. Qed.
Print Assumptions C38_amount_refuted.
(** or refused, as 10^21 is. *)
Theorem C38_accepted_refuted : ~ (forall id l l' n, tidy (JObj l) -> inject id (JObj l) = Rewritten (JObj l') ->
  int_field "precise_amount" l = Some n -> exists n', int_field "precise_amount" l' = Some n').
Proof. exact amount_refused. Qed.
Print Assumptions C38_accepted_refuted.

(** A number out of range in a field nobody reads keeps the body from being rewritten, and
    with it the attribution its sender chose. *)
Theorem C38_attribution_refuted : ~ (forall id l l' meta, tidy (JObj l) ->
  handed (inject id (JObj l)) = Some l' -> map_field "meta_data" l' [] = Some meta ->
  get "BLNK_GENERATED_BY" meta = Some (JText id)).
Proof. exact spoofed. Qed.
Print Assumptions C38_attribution_refuted.
(** The transactions of a bulk are not attributed at all. *)
Theorem C38_bulk_attribution_refuted : ~ (forall id l l' items t meta, tidy (JObj l) -> inject id (JObj l) = Rewritten (JObj l') ->
  field "transactions" l' = Some (JList items) -> In (JObj t) items -> map_field "meta_data" t [] = Some meta ->
  get "BLNK_GENERATED_BY" meta = Some (JText id)).
Proof. exact bulk_spoofed. Qed.
Print Assumptions C38_bulk_attribution_refuted.

(** Names that differ in case only change places. *)
Theorem C38_case_refuted : ~ (forall id l l' f, small (JObj l) -> inject id (JObj l) = Rewritten (JObj l') -> lower f <> "meta_data" ->
  orel (alike exactly) (field f l) (field f l')).
Proof. exact case_reorders. Qed.
Print Assumptions C38_case_refuted.
(** The body null makes the server panic. *)
Theorem C38_panic_refuted : ~ (forall id body, inject id body <> Panics).
Proof. exact null_panics. Qed.
Print Assumptions C38_panic_refuted.
