(** Concrete histories of accounts. *)
From Coq Require Import List String Bool Arith.
From Verif Require Import AcctModel AcctSpec AcctProof.
Import ListNotations.
Local Open Scope string_scope.
Local Open Scope list_scope.

Definition ada : identity := {| i_id := "idt_1"; i_type := "individual"; i_first := "Ada"; i_last := "Obi"; i_organization := "" |}.
Definition ada_married : identity := {| i_id := "idt_1"; i_type := "individual"; i_first := "Ada"; i_last := "Eze"; i_organization := "" |}.
Definition acme : identity := {| i_id := "idt_2"; i_type := "organization"; i_first := ""; i_last := ""; i_organization := "Acme" |}.
Definition wallet : balance := {| b_id := "bln_1"; b_ledger := "ldg_1"; b_identity := "idt_1"; b_currency := "NGN" |}.
Definition till : balance := {| b_id := "bln_2"; b_ledger := "ldg_1"; b_identity := ""; b_currency := "USD" |}.
Definition ask (number bal idn : string) : request :=
  {| q_bank := "First"; q_number := number; q_currency := ""; q_identity := idn; q_ledger := ""; q_balance := bal |}.

Definition rows : list event := [NewLedger "ldg_1"; NewIdentity ada; NewIdentity acme; NewBalance wallet; NewBalance till].
Definition history : list event := rows ++ [NewAccount (Says "0102" "Second") "acc_1" (ask "" "bln_1" ""); NewAccount Off "acc_2" (ask "" "bln_2" "idt_2")].
Definition there : store := fold_left step history empty.

Lemma there_reached : reached there.
Proof. now exists history. Qed.

(** Two accounts: one of a person, with a number from the service, and one of an organization. *)
Lemma there_accounts : map (fun a => (a_name a, a_number a, a_bank a)) (accounts there) = [("Ada Obi", "0102", "Second"); ("Acme", "", "First")] /\
  map (fun a => (a_identity a, a_currency a, a_ledger a, a_balance a)) (accounts there) = [("idt_1", "NGN", "ldg_1", "bln_1"); ("idt_2", "USD", "ldg_1", "bln_2")].
Proof. split; vm_compute; reflexivity. Qed.

(** The number once given cannot be given again, an unnumbered account cannot be followed by another, a broken service stops it. *)
Lemma there_refuses : snd (create there (Says "0102" "Third") "acc_3" (ask "" "bln_2" "idt_1")) = DbRefused /\
  snd (create there Off "acc_3" (ask "" "bln_1" "")) = DbRefused /\ snd (create there Broken "acc_3" (ask "9" "bln_1" "")) = NoNumber /\
  snd (create there Off "acc_3" (ask "9" "bln_2" "")) = NoIdentity /\ snd (create there Off "acc_3" (ask "9" "bln_9" "")) = NoBalance.
Proof. repeat split; vm_compute; reflexivity. Qed.
Lemma there_unnumbered : In "" (map a_number (accounts there)).
Proof. right. left. vm_compute. reflexivity. Qed.

(** The request the validation offers, with a ledger, an identity and a currency in place of a balance. *)
Definition by_ledger : request := {| q_bank := "First"; q_number := "77"; q_currency := "NGN"; q_identity := "idt_1"; q_ledger := "ldg_1"; q_balance := "" |}.
Lemma by_ledger_valid : valid by_ledger = true /\ snd (create there Off "acc_3" by_ledger) = NoBalance.
Proof. split; vm_compute; reflexivity. Qed.

(** Giving the balance another identity, and renaming a person, leaves the account as it was. *)
Definition after : store := fold_left step (history ++ [SetIdentity "bln_1" "idt_2"; Rename ada_married]) empty.
Lemma after_reached : reached after.
Proof. now exists (history ++ [SetIdentity "bln_1" "idt_2"; Rename ada_married]). Qed.
Lemma stale : exists s a b i, reached s /\ In a (accounts s) /\ In b (balances s) /\ stands_for a b /\ b_identity b <> "" /\ a_identity a <> b_identity b /\
  In i (identities s) /\ i_id i = a_identity a /\ ~ named_after (a_name a) i.
Proof.
  exists after, {| a_id := "acc_1"; a_name := "Ada Obi"; a_number := "0102"; a_bank := "Second"; a_currency := "NGN"; a_ledger := "ldg_1"; a_identity := "idt_1"; a_balance := "bln_1" |},
    {| b_id := "bln_1"; b_ledger := "ldg_1"; b_identity := "idt_2"; b_currency := "NGN" |}, ada_married.
  split; [exact after_reached|]. split; [left; vm_compute; reflexivity|]. split; [left; vm_compute; reflexivity|]. split; [now repeat split|].
  split; [discriminate|]. split; [discriminate|]. split; [left; vm_compute; reflexivity|]. split; [reflexivity|].
  intros [(K & _)|(_ & K)]; discriminate K.
Qed.
