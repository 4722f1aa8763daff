(** What an account should show. *)
From Coq Require Import List String Bool Arith.
From Verif Require Import AcctModel.
Import ListNotations.
Local Open Scope string_scope.
Local Open Scope list_scope.

(** The stores that calls can lead to. *)
Definition reached (s : store) : Prop := exists es, s = fold_left step es empty.

(** Account [a] tells the truth about the balance [b]. *)
Definition stands_for (a : account) (b : balance) : Prop := a_balance a = b_id b /\ a_ledger a = b_ledger b /\ a_currency a = b_currency b.

(** The identity, the name and the number a new account should have. *)
Definition owner (b : balance) (q : request) (id : string) : Prop := b_identity b <> "" /\ id = b_identity b \/ b_identity b = "" /\ id = q_identity q.
Definition named_after (n : string) (i : identity) : Prop :=
  i_type i = "organization" /\ n = i_organization i \/ i_type i <> "organization" /\ n = (i_first i ++ " " ++ i_last i)%string.
Definition handed_out (sv : service) (q : request) (number bank : string) : Prop :=
  match sv with
  | Broken => False
  | Says n k => n <> "" /\ k <> "" /\ number = n /\ bank = k \/ (n = "" \/ k = "") /\ number = q_number q /\ bank = q_bank q
  | Off => number = q_number q /\ bank = q_bank q
  end.
