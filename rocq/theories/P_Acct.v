(** C54: accounts tell the truth about their balances, and no two share a number. *)
From Coq Require Import List String Bool.
From Verif Require Import AcctModel AcctSpec AcctProof AcctDemo.
Import ListNotations.
Local Open Scope string_scope.
Local Open Scope list_scope.

(** At any time every account points to a balance that exists and has its ledger and its currency, and to an identity that exists. *)
Theorem C54_points : forall s a, reached s -> In a (accounts s) ->
  (exists b, In b (balances s) /\ stands_for a b) /\ (exists i, In i (identities s) /\ i_id i = a_identity a).
Proof. exact accounts_true. Qed.
Print Assumptions C54_points.

(** No two accounts share a number or an id. *)
Theorem C54_unique : forall s a a', reached s -> In a (accounts s) -> In a' (accounts s) -> a_number a = a_number a' \/ a_id a = a_id a' -> a = a'.
Proof. exact numbers_differ. Qed.
Print Assumptions C54_unique.

(** What a new account contains, whatever the request said about it, and that nothing else is touched. *)
Theorem C54_created : forall s sv id q s' a, reached s -> create s sv id q = (s', Created a) ->
  ledgers s' = ledgers s /\ identities s' = identities s /\ balances s' = balances s /\ accounts s' = accounts s ++ [a] /\ a_id a = id /\
  exists b i, In b (balances s) /\ b_id b = q_balance q /\ stands_for a b /\ owner b q (a_identity a) /\
    In i (identities s) /\ i_id i = a_identity a /\ named_after (a_name a) i /\ handed_out sv q (a_number a) (a_bank a).
Proof. exact created. Qed.
Print Assumptions C54_created.

(** Exactly when a request makes an account. *)
Theorem C54_when : forall s sv id q, reached s ->
  (exists a, snd (create s sv id q) = Created a) <->
  q_ledger q = "" /\ q_currency q = "" /\ ~ In id (map a_id (accounts s)) /\
  (exists b i, In b (balances s) /\ b_id b = q_balance q /\ In (i_id i) (map i_id (identities s)) /\ owner b q (i_id i)) /\
  (exists number bank, handed_out sv q number bank /\ ~ In number (map a_number (accounts s))).
Proof. exact when_created. Qed.
Print Assumptions C54_when.

(** A request that makes none changes nothing. *)
Theorem C54_refused : forall s sv id q, (forall a, snd (create s sv id q) <> Created a) -> fst (create s sv id q) = s.
Proof. exact refused_unchanged. Qed.
Print Assumptions C54_refused.

(** An account read with its balance and identity comes with the rows it points to. *)
Theorem C54_read : forall s a, reached s -> In a (accounts s) ->
  exists b i, get s (a_id a) = Some (a, Some b, Some i) /\ In b (balances s) /\ stands_for a b /\ In i (identities s) /\ i_id i = a_identity a.
Proof. exact got. Qed.
Print Assumptions C54_read.

(** Not so: the validation offers a ledger, an identity and a currency in place of a balance; no such request ever makes an account. *)
Theorem C54_by_ledger_refuted : (exists q, valid q = true /\ q_balance q = "" /\ q_ledger q = "ldg_1" /\ q_identity q = "idt_1" /\ q_currency q = "NGN") /\
  forall s sv id q, reached s -> q_balance q = "" -> fst (create s sv id q) = s /\ forall a, snd (create s sv id q) <> Created a.
Proof. exact (conj (ex_intro _ by_ledger (conj (proj1 by_ledger_valid) (conj eq_refl (conj eq_refl (conj eq_refl eq_refl))))) without_balance). Qed.
Print Assumptions C54_by_ledger_refuted.

(** Not so: a number may be left out; after one account without a number there is never another, for whatever balance. *)
Theorem C54_no_number_refuted : (exists s, reached s /\ In "" (map a_number (accounts s))) /\
  forall s id q, reached s -> In "" (map a_number (accounts s)) -> q_number q = "" -> forall a, snd (create s Off id q) <> Created a.
Proof. exact (conj (ex_intro _ there (conj there_reached there_unnumbered)) second_unnumbered). Qed.
Print Assumptions C54_no_number_refuted.

(** Not so: the account follows its balance's identity and that identity's name. *)
Theorem C54_follows_refuted : exists s a b i, reached s /\ In a (accounts s) /\ In b (balances s) /\ stands_for a b /\ b_identity b <> "" /\ a_identity a <> b_identity b /\
  In i (identities s) /\ i_id i = a_identity a /\ ~ named_after (a_name a) i.
Proof. exact stale. Qed.
Print Assumptions C54_follows_refuted.

(** Not so: the list of accounts is paged and shows what they point to. *)
Theorem C54_list_refuted : forall limit offset limit' offset' s, list_accounts limit offset s = list_accounts limit' offset' s /\
  List.length (list_accounts limit offset s) = List.length (accounts s) /\
  forall a, In a (list_accounts limit offset s) -> a_balance a = "" /\ a_ledger a = "" /\ a_identity a = "".
Proof. exact listing_ignores. Qed.
Print Assumptions C54_list_refuted.

(** The hypotheses are met: a history with two accounts, and requests of each kind refused. *)
Example C54_example : reached there /\ map (fun a => (a_name a, a_number a, a_bank a)) (accounts there) = [("Ada Obi", "0102", "Second"); ("Acme", "", "First")] /\
  map (fun a => (a_identity a, a_currency a, a_ledger a, a_balance a)) (accounts there) = [("idt_1", "NGN", "ldg_1", "bln_1"); ("idt_2", "USD", "ldg_1", "bln_2")].
Proof. exact (conj there_reached there_accounts). Qed.
Example C54_example_refused : snd (create there (Says "0102" "Third") "acc_3" (ask "" "bln_2" "idt_1")) = DbRefused /\
  snd (create there Off "acc_3" (ask "" "bln_1" "")) = DbRefused /\ snd (create there Broken "acc_3" (ask "9" "bln_1" "")) = NoNumber /\
  snd (create there Off "acc_3" (ask "9" "bln_2" "")) = NoIdentity /\ snd (create there Off "acc_3" (ask "9" "bln_9" "")) = NoBalance.
Proof. exact there_refuses. Qed.
