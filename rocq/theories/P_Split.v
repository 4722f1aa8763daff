(** Property theorems about split transactions: C16 (statements only). *)
From Coq Require Import ZArith QArith List String Bool.
From Verif Require Import Base MoneyModel SplitModel BalanceModel LedgerModel LedgerProgs PostSpec Sched SplitSpec SplitThms SplitLegs SplitDemo.
Import ListNotations.
Local Open Scope string_scope.
Open Scope Z_scope.

(** ** C16 *)
(** A proper split of at least two minor units, of which some participant is owed at
    least one, is accepted; its legs carry different references and add up to the total. Nobody gets a negative
    amount or loses a whole unit. Nobody gets more than one unit per leg too much. If
    every entitlement is a whole number of units, everybody gets exactly that. *)
Theorem C16_split_is_fair n e t tr r : fair_env e -> 2 <= t_precise t ->
  proper (t_precise t) (t_prec t) (split_over t) ->
  (exists d, In d (split_over t) /\ (1 <= entitled (t_precise t) (t_prec t) (split_over t) d)%Q) ->
  traces n (split_txn e t) tr (Some r) ->
  exists ls, r = Ok ls /\ Forall (leg t) ls /\ NoDup (map t_ref ls) /\ sumz t_precise ls = t_precise t
    /\ (forall l, In l ls -> exists d, In d (split_over t) /\ who t l = d_id d)
    /\ (forall d, In d (split_over t) -> let e := entitled (t_precise t) (t_prec t) (split_over t) d in
          0 <= share t (d_id d) ls /\ (e - 1 < inject_Z (share t (d_id d) ls))%Q
          /\ (inject_Z (share t (d_id d) ls) < e + inject_Z (Z.of_nat (List.length (split_over t))))%Q)
    /\ (all_whole (t_precise t) (t_prec t) (split_over t) -> forall d, In d (split_over t) ->
          (inject_Z (share t (d_id d) ls) == entitled (t_precise t) (t_prec t) (split_over t) d)%Q).
Proof. exact (split_shares n e t tr r). Qed.
Print Assumptions C16_split_is_fair.

(** Any split at all that is accepted and puts money on some leg hands out exactly the total. *)
Theorem C16_split_adds_up n e t tr ls : fair_env e -> 2 <= t_precise t -> ~ In "" (map d_id (split_over t)) ->
  traces n (split_txn e t) tr (Some (Ok ls)) ->
  sumz t_precise ls = t_precise t \/ Forall (fun l => t_precise l <= 0) ls.
Proof. exact (split_total n e t tr ls). Qed.
Print Assumptions C16_split_adds_up.

(** The entitlements of a proper split add up to the total. *)
Theorem C16_entitlements_add_up total prec l : proper total prec l -> (sumq (entitled total prec l) l == inject_Z total)%Q.
Proof. exact (entitled_total total prec l). Qed.
Print Assumptions C16_entitlements_add_up.

(** One minor unit, or none. *)
Theorem C16_single_unit ordq ordz prec l : l <> [] -> NoDup (map d_id l) ->
  exists m, calculate_distributions ordq ordz 1 l prec = Some m /\ handed_out m = 1
    /\ NoDup (map fst m) /\ incl (map fst m) (map d_id l) /\ forall id, 0 <= got m id.
Proof. exact (split_unit ordq ordz prec l). Qed.
Print Assumptions C16_single_unit.
Theorem C16_nothing ordq ordz prec l :
  exists m, calculate_distributions ordq ordz 0 l prec = Some m /\ handed_out m = 0 /\ forall id, got m id = 0.
Proof. exact (split_nothing ordq ordz prec l). Qed.
Print Assumptions C16_nothing.

(** Without "some participant is owed a whole unit" the money is not handed out: ten
    times 10% of 3 gives every leg nothing. *)
Theorem C16_split_is_fair_tiny_refuted : proper 3 1 ten_tenths /\
  exists m, calculate_distributions (fun m => m) (fun m => m) 3 ten_tenths 1 = Some m /\ handed_out m = 0.
Proof. exact tiny_shares. Qed.
Print Assumptions C16_split_is_fair_tiny_refuted.

(** A leg with a fixed amount can get a different amount when percentages do not come
    out whole: 90 of 100 becomes 91. *)
Theorem C16_fixed_is_exact_refuted : proper 100 1 fixed_and_percent /\
  exists m, calculate_distributions (fun m => m) (fun m => m) 100 fixed_and_percent 1 = Some m
    /\ got m "a" = 91 /\ asked 100 1 {| d_id := "a"; d_spec := DFixed 90 |} = 90%Q.
Proof. exact fixed_is_off. Qed.
Print Assumptions C16_fixed_is_exact_refuted.

(** Splits that ask for more, or less, than the total are accepted and silently changed. *)
Theorem C16_improper_refused_refuted :
  (exists m, calculate_distributions (fun m => m) (fun m => m) 100 over_asked 1 = Some m /\ got m "a" = 50 /\ got m "b" = 50)
  /\ (exists m, calculate_distributions (fun m => m) (fun m => m) 100 under_asked 1 = Some m /\ got m "a" = 80 /\ got m "b" = 20)
  /\ (exists m, calculate_distributions (fun m => m) (fun m => m) 100 negative_ask 1 = Some m /\ got m "a" = -50 /\ got m "b" = 150).
Proof. exact improper_accepted. Qed.
Print Assumptions C16_improper_refused_refuted.

Example C16_case : fair_env env0 /\ proper 1000 100 mixed_split /\
  (exists d, In d mixed_split /\ (1 <= entitled 1000 100 mixed_split d)%Q) /\
  calculate_distributions (fun m => m) (fun m => m) 1000 mixed_split 100 = Some [("a", 250); ("b", 333); ("c", 417)].
Proof. exact mixed_case. Qed.
Example C16_case_legs : exists tr ls, traces 0 (split_txn env0 mixed_txn) tr (Some (Ok ls))
  /\ map (fun l => (t_dst l, t_precise l)) ls = [("a", 250); ("b", 333); ("c", 417)]
  /\ t_precise mixed_txn = 1000 /\ split_over mixed_txn = mixed_split.
Proof. exact mixed_legs. Qed.
