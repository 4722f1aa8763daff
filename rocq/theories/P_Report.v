(** Property C45: what GET /balances/:id/lineage reports. *)
From Coq Require Import ZArith List String Bool.
From Verif Require Import Base ChainModel LineageModel LineageSpec LineageReport LineageDemo LineageReportDemo.
Import ListNotations.
Local Open Scope string_scope.
Open Scope Z_scope.
Local Open Scope list_scope.

(** C45. The line of a provider says what has been paid into the balance of that provider's
    money, what has been drawn of it, and the difference. *)
Theorem C45_line : forall k C seen s b ls t x, lreach_with k C s -> own k s b -> report k seen s b = Some (ls, t) -> In x ls ->
  li_amount x = paid_in s b (li_prov x) /\ li_spent x = drawn s b (li_prov x) /\ li_available x = li_amount x - li_spent x.
Proof. exact line_exact. Qed.
Example C45_line_met : let s := state rk pay in
  lreach_with rk in_time s /\ own rk s "alice" /\ report rk (fun _ => true) s "alice" = Some ([L "p1" 100 100 0; L "p2" 100 50 50], 50).
Proof. exact (match pay_report with conj A (conj _ (conj B (conj _ (conj _ (conj C _))))) => conj A (conj B C) end). Qed.
Print Assumptions C45_line.

(** Each provider has at most one line, and the total is that of the lines. *)
Theorem C45_once : forall k C seen s b ls t, lreach_with k C s -> report k seen s b = Some (ls, t) ->
  NoDup (map li_prov ls) /\ t = sumz li_available ls.
Proof. exact lines_once. Qed.
Print Assumptions C45_once.

(** Without holds no provider's line is negative. *)
Theorem C45_no_negative : forall k seen s b ls t x, lreach_with k (fun _ => settled) s -> report k seen s b = Some (ls, t) -> In x ls -> 0 <= li_available x.
Proof. exact line_sound. Qed.
Theorem C45_no_negative_holds_refuted : exists k s b ls t, lreach_with k in_time s /\ report k (fun _ => true) s b = Some (ls, t) /\ t < 0.
Proof. exact holds_report_refute. Qed.
Print Assumptions C45_no_negative.
Print Assumptions C45_no_negative_holds_refuted.

(** No more is reported as spent than the transactions from the balance come to. *)
Theorem C45_spent : forall k seen s b ls t, lreach_with k in_time s -> own k s b -> report k seen s b = Some (ls, t) ->
  sumz li_spent ls <= debits s b.
Proof. exact spent_bounded. Qed.
Example C45_spent_met : let s := state rk pay in
  lreach_with rk in_time s /\ own rk s "alice" /\ report rk (fun _ => true) s "alice" = Some ([L "p1" 100 100 0; L "p2" 100 50 50], 50) /\ debits s "alice" = 150.
Proof. exact (match pay_report with conj A (conj _ (conj B (conj _ (conj _ (conj C (conj _ (conj _ (conj _ (conj _ D))))))))) => conj A (conj B (conj C D)) end). Qed.
Print Assumptions C45_spent.

(** Nothing is left out: with no attempt under way, none having failed between a payment and
    the noting of its provider, and every shadow balance readable, the total is all that has
    been paid in less all that has been drawn. *)
Theorem C45_complete : forall k s b ls t, lreach_with k noted s -> own k s b -> l_atts s = [] -> report k (fun _ => true) s b = Some (ls, t) ->
  t = all_paid_in s b - all_drawn s b.
Proof. exact report_complete. Qed.
Example C45_complete_met : let s := state rk pay in
  lreach_with rk noted s /\ own rk s "bob" /\ l_atts s = [] /\ report rk (fun _ => true) s "bob" = Some ([L "p1" 100 0 100; L "p2" 50 0 50], 150) /\ all_paid_in s "bob" = 150.
Proof. exact (match pay_report with conj _ (conj A (conj _ (conj B (conj C (conj _ (conj D (conj _ (conj E _)))))))) => conj A (conj B (conj C (conj D E))) end). Qed.
Print Assumptions C45_complete.

(** The provisos are needed. Balances of one identity share their shadow balances, and each
    reports the money of all. *)
Theorem C45_shared_refuted : exists k s b ls t, lreach_with k in_time s /\ lreach_with k noted s /\ l_atts s = [] /\
  report k (fun _ => true) s b = Some (ls, t) /\ all_paid_in s b - all_drawn s b < t.
Proof. exact shared_refute. Qed.
Print Assumptions C45_shared_refuted.
(** A provider that could not be noted is not reported, although its transaction is done. *)
Theorem C45_unnoted_refuted : exists k s b ls t, lreach_with k in_time s /\ own k s b /\ l_atts s = [] /\
  (forall e, In e (l_entries s) -> en_status e = ECompleted) /\
  report k (fun _ => true) s b = Some (ls, t) /\ t < all_paid_in s b - all_drawn s b.
Proof. exact unnoted_refute. Qed.
Print Assumptions C45_unnoted_refuted.
