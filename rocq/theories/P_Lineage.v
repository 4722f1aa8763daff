(** Properties C25 (allocation to providers) and C26 (retries of the lineage worker). *)
From Coq Require Import ZArith List String Bool.
From Verif Require Import Base ChainModel LineageModel LineageSpec AllocProof LineageProof LineageBudget LineageLocks LineageDone LineageDemo.
Import ListNotations.
Local Open Scope string_scope.
Open Scope Z_scope.

(** C25. Every allocation is positive, is to one of the sources, at most what that has, and
    no source gets two. *)
Theorem C25_within_sources : forall l amount strategy, good_sources l ->
  NoDup (map al_id (calculate_allocation l amount strategy)) /\
  forall a, In a (calculate_allocation l amount strategy) ->
    0 < al_amt a /\ exists s, In s l /\ so_id s = al_id a /\ al_amt a <= so_bal s.
Proof. exact (fun l amount strategy G => allocation_fits l amount strategy (proj1 G)). Qed.
Example C25_within_sources_met : good_sources mixed /\
  map (fun a => (al_id a, al_amt a)) (calculate_allocation mixed 80 "FIFO") = [("a", 70); ("b", 10)] /\
  map (fun a => (al_id a, al_amt a)) (calculate_allocation mixed 80 "LIFO") = [("c", 45); ("b", 30); ("a", 5)] /\
  map (fun a => (al_id a, al_amt a)) (calculate_allocation mixed 80 "PROPORTIONAL") = [("a", 38); ("b", 16); ("c", 26)].
Proof. exact (conj mixed_good mixed_allocations). Qed.
Print Assumptions C25_within_sources.

(** FIFO and LIFO (and any unknown strategy): the total is the smaller of debit and funds. *)
Theorem C25_sequential_total : forall l amount strategy, good_sources l -> strategy <> "PROPORTIONAL" -> 0 <= amount ->
  allocated (calculate_allocation l amount strategy) = Z.min amount (sumz so_bal l).
Proof. exact sequential_strategy_total. Qed.
Print Assumptions C25_sequential_total.

(** PROPORTIONAL: never more, and less by less than one unit per source. *)
Theorem C25_proportional_total : forall l amount, good_sources l -> 0 <= amount -> l <> [] ->
  let sum := allocated (calculate_allocation l amount "PROPORTIONAL") in
  sum <= Z.min amount (sumz so_bal l) /\ Z.min amount (sumz so_bal l) < sum + Z.of_nat (List.length l).
Proof. exact proportional_total. Qed.
Print Assumptions C25_proportional_total.

(** Every source gives at least its share, rounded down. *)
Theorem C25_proportional_share : forall l amount, good_sources l -> 0 < amount ->
  forall s, In s l -> 0 < Z.min amount (sumz so_bal l) * so_bal s / sumz so_bal l ->
  exists a, In a (calculate_allocation l amount "PROPORTIONAL") /\ al_id a = so_id s /\
            Z.min amount (sumz so_bal l) * so_bal s / sumz so_bal l <= al_amt a.
Proof. exact proportional_share. Qed.
Print Assumptions C25_proportional_share.

(** ... and the total can be short although there is enough. *)
Theorem C25_proportional_exact_refuted : exists l amount, good_sources l /\ 0 < amount <= sumz so_bal l /\
  allocated (calculate_allocation l amount "PROPORTIONAL") < amount.
Proof. exact (ex_intro _ thirds (ex_intro _ 2 thirds_refute)). Qed.
Print Assumptions C25_proportional_exact_refuted.

(** Oldest first: a source is drawn on only when all older ones are used up. *)
Theorem C25_fifo_oldest_first : forall l amount strategy s s', good_sources l -> strategy <> "LIFO" -> strategy <> "PROPORTIONAL" ->
  In s l -> In s' l -> so_at s' < so_at s ->
  drawn_on s (calculate_allocation l amount strategy) -> used_up s' (calculate_allocation l amount strategy).
Proof. exact fifo_oldest_first. Qed.
Print Assumptions C25_fifo_oldest_first.
Theorem C25_lifo_newest_first : forall l amount s s', good_sources l -> In s l -> In s' l -> so_at s < so_at s' ->
  drawn_on s (calculate_allocation l amount "LIFO") -> used_up s' (calculate_allocation l amount "LIFO").
Proof. exact lifo_newest_first. Qed.
Print Assumptions C25_lifo_newest_first.

(** Whatever workers, crashes and retries do, without holds no provider's balance is ever overdrawn. *)
Theorem C25_never_overdrawn : forall k s, lreach_with k (fun _ => settled) s -> forall sh, 0 <= available (l_rows s) sh.
Proof. exact (fun k s R => d_avail k s (inv3_reach k s R)). Qed.
Example C25_never_overdrawn_met : ran (lk "FIFO") pay = true /\ timely (lk "FIFO") linit pay = true.
Proof. exact pay_runs. Qed.
Print Assumptions C25_never_overdrawn.

(** With holds it can be: two holds are allocated the same money. *)
Theorem C25_holds_refuted : exists k s sh, lreach_with k in_time s /\ available (l_rows s) sh < 0.
Proof. exact holds_refute. Qed.
Print Assumptions C25_holds_refuted.

(** C26. Whatever happens, a provider's release for a transaction is recorded at most once. *)
Theorem C26_release_once : forall k s i p, lreach k s ->
  (List.length (filter (fun w => is_release i w && String.eqb (w_prov w) p) (l_rows s)) <= 1)%nat.
Proof. exact release_once. Qed.
Print Assumptions C26_release_once.

(** As long as no attempt outlives its claim, the total released never exceeds the amount. *)
Theorem C26_total_bounded : forall k s i e, lreach_with k in_time s -> nth_error (l_entries s) i = Some e -> released s i <= en_amt e.
Proof. exact released_bounded. Qed.
Example C26_total_bounded_met : ran (lk "FIFO") pay = true /\ timely (lk "FIFO") linit pay = true /\ released (state (lk "FIFO") pay) 2 = 150.
Proof. exact (conj (proj1 pay_runs) (conj (proj2 pay_runs) (proj1 pay_done))). Qed.
Print Assumptions C26_total_bounded.

(** ... but an attempt that outlives its claim can release the debit a second time. *)
Theorem C26_total_late_refuted : exists k s i e, lreach k s /\ nth_error (l_entries s) i = Some e /\ en_amt e < released s i.
Proof. exact late_refute. Qed.
Print Assumptions C26_total_late_refuted.

(** The destination receives nothing that was not released: whatever happens, each receive
    has its release, of the same provider and amount. *)
Theorem C26_receives_released : forall k s i r, lreach k s -> In r (receives s i) ->
  exists w, In w (releases s i) /\ w_prov w = w_prov r /\ w_amt w = w_amt r.
Proof. exact receive_has_release. Qed.
Print Assumptions C26_receives_released.

(** Money comes out of the source's share for that provider and goes into the destination's. *)
Theorem C26_from_and_to : forall k s i e w, lreach k s -> nth_error (l_entries s) i = Some e ->
  (In w (releases s i) -> w_shadow w = shadow_of k (en_src e) (w_prov w)) /\
  (In w (receives s i) -> w_shadow w = shadow_of k (en_dst e) (w_prov w)).
Proof. exact (fun k s i e w R E => conj (release_accounted k s i e w R E) (receive_accounted k s i e w R E)). Qed.
Print Assumptions C26_from_and_to.

(** An attempt that gets to its end has handed on all it released. (Missing: what an
    attempt released that did not get to its end.) *)
Theorem C26_handed_on_partial : forall k s a e w, lreach_with k (fun _ => prepared) s -> In a (l_atts s) -> at_todo a = [] ->
  nth_error (l_entries s) (at_entry a) = Some e -> k_track k (en_dst e) = true ->
  In w (l_rows s) -> w_kind w = WRelease -> w_att w = at_id a ->
  exists r, In r (receives s (at_entry a)) /\ w_prov r = w_prov w /\ w_amt r = w_amt w.
Proof. exact finished_handed_on. Qed.
Example C26_handed_on_partial_met : map (fun w => (w_prov w, w_amt w)) (receives (state (lk "FIFO") pay) 2) = [("p1", 100); ("p2", 50)].
Proof. exact (proj1 (proj2 (proj2 pay_done))). Qed.
Print Assumptions C26_handed_on_partial.

(** A crash between a release and its receive loses the receive for good: the entry is completed. *)
Theorem C26_received_refuted : exists k s i e, lreach_with k in_time s /\ nth_error (l_entries s) i = Some e /\
  en_status e = ECompleted /\ k_track k (en_dst e) = true /\ released s i = en_amt e /\ receives s i = [].
Proof. exact received_refute. Qed.
Print Assumptions C26_received_refuted.

(** When the payer names a provider, a crash after the destination's credit makes every
    retry fail: the entry fails for good with nothing released. *)
Theorem C26_credit_blocks_retry_refuted : exists k s i e, lreach_with k in_time s /\ nth_error (l_entries s) i = Some e /\
  en_status e = EFailed /\ released s i = 0 /\ available (l_rows s) (shadow_of k (en_dst e) (en_prov e)) = en_amt e.
Proof. exact credit_refute. Qed.
Print Assumptions C26_credit_blocks_retry_refuted.

(** ... and without any crash the destination is credited and receives: twice the amount. *)
Theorem C26_counted_twice_refuted : exists k s i e, lreach_with k in_time s /\ nth_error (l_entries s) i = Some e /\
  en_status e = ECompleted /\ available (l_rows s) (shadow_of k (en_dst e) (en_prov e)) = 2 * en_amt e.
Proof. exact twice_refute. Qed.
Print Assumptions C26_counted_twice_refuted.

(** A crash within a proportional allocation leaves the retry short of the debit. *)
Theorem C26_retry_short_refuted : exists k s i e, lreach_with k in_time s /\ nth_error (l_entries s) i = Some e /\
  en_status e = ECompleted /\ released s i < en_amt e /\
  0 < available (l_rows s) (shadow_of k (en_src e) "p1") + available (l_rows s) (shadow_of k (en_src e) "p2").
Proof. exact short_refute. Qed.
Print Assumptions C26_retry_short_refuted.

(** Failed attempts are counted up to the limit and no further. *)
Theorem C26_attempts_bounded : forall k s i e, lreach_with k in_time s -> nth_error (l_entries s) i = Some e ->
  (en_attempts e <= en_max e)%nat /\ (en_status e = EFailed -> en_attempts e = en_max e).
Proof. exact attempts_bounded. Qed.
Print Assumptions C26_attempts_bounded.

(** A completed or failed entry is never touched again, and nothing more is released for it. *)
Theorem C26_done_left_alone : forall k s ev s' i e, lreach_with k in_time s -> in_time s ev -> lstep k s ev = Some s' ->
  nth_error (l_entries s) i = Some e -> en_status e = ECompleted \/ en_status e = EFailed ->
  nth_error (l_entries s') i = Some e /\ released s' i = released s i.
Proof. exact done_left_alone. Qed.
Print Assumptions C26_done_left_alone.

(** A debit that finds no provider for its source while money for that source is still to
    be credited (the credit is pending or being worked on) is not finished but tried again. *)
Theorem C26_waits_for_credit : forall k s id o s' a e rest c, lstep k s (LStep id o) = Some s' ->
  find_att (l_atts s) id = Some a -> nth_error (l_entries s) (at_entry a) = Some e ->
  at_todo a = XMaps :: rest -> (forall m, In m (l_maps s) -> mp_bal m <> en_src e) ->
  In c (l_entries s) -> en_dst c = en_src e -> en_prov c <> "" -> k_track k (en_src e) = true ->
  en_status c = EPending \/ en_status c = EProcessing ->
  find_att (l_atts s') id = None /\ l_rows s' = l_rows s /\
  exists e', nth_error (l_entries s') (at_entry a) = Some e' /\ en_attempts e' = S (en_attempts e) /\ en_status e' <> ECompleted.
Proof. exact waits_for_credit. Qed.
Example C26_waits_for_credit_met : ran (lk "FIFO") early = true /\
  map (fun e => (en_status e, en_attempts e)) (l_entries (state (lk "FIFO") early)) = [(EProcessing, 0%nat); (EPending, 1%nat)].
Proof. exact early_waits. Qed.
Print Assumptions C26_waits_for_credit.
