(** Property theorems about amounts: C10, C17 (statements only). *)
From Coq Require Import ZArith QArith Qabs List String Bool.
From Verif Require Import Base MoneyModel MoneySpec MoneyThms BalanceModel LedgerModel LedgerProgs ConcModel BudgetSpec HoldSpec
  PostSpec Sched Demo TidyDemo CommitModel CommitThms CommitDemo.
Import ListNotations.
Local Open Scope string_scope.
Open Scope Z_scope.

(** ** C17 *)
(** Without a positive precise_amount the decimal amount is rounded to the nearest
    minor unit, halves away from zero (precision 0 means 1). *)
Theorem C17_amount_is_rounded (precise : Z) (amount : Q) (prec : Z) : precise <= 0 -> 0 <= prec ->
  forall p a pr, apply_precision precise amount prec = (p, a, pr) ->
  a = amount /\ 1 <= pr /\ (1 <= prec -> pr = prec) /\ rounds_to (amount * inject_Z pr) p.
Proof. exact (convert_amount precise amount prec). Qed.
Print Assumptions C17_amount_is_rounded.

(** The rounding rule leaves no choice and is monotone. *)
Theorem C17_rounding_is_unique (q : Q) (z1 z2 : Z) : rounds_to q z1 -> rounds_to q z2 -> z1 = z2.
Proof. exact (rounds_unique q z1 z2). Qed.
Print Assumptions C17_rounding_is_unique.
Theorem C17_rounding_is_monotone (q1 q2 : Q) (z1 z2 : Z) :
  (q1 <= q2)%Q -> rounds_to q1 z1 -> rounds_to q2 z2 -> z1 <= z2.
Proof. exact (rounds_le q1 q2 z1 z2). Qed.
Print Assumptions C17_rounding_is_monotone.

(** A precise_amount given by the client is used unchanged, and the decimal amount is
    the same money. *)
Theorem C17_precise_amount_is_kept (precise : Z) (amount : Q) (prec : Z) : 0 < precise -> 0 <= prec ->
  forall p a pr, apply_precision precise amount prec = (p, a, pr) ->
  p = precise /\ (a * inject_Z pr == inject_Z p)%Q.
Proof. exact (keep_precise precise amount prec). Qed.
Print Assumptions C17_precise_amount_is_kept.

(** Converting again never changes the minor units, and from the second time on
    changes nothing at all. *)
Theorem C17_conversion_is_stable (precise : Z) (amount : Q) (prec : Z) : 0 <= prec ->
  forall p a pr, apply_precision precise amount prec = (p, a, pr) ->
  exists a', apply_precision p a pr = (p, a', pr) /\ apply_precision p a' pr = (p, a', pr).
Proof. exact (convert_again precise amount prec). Qed.
Print Assumptions C17_conversion_is_stable.

Theorem C17_round_trip (z prec : Z) : 1 <= prec ->
  convert_decimal_to_precise (convert_precise_to_decimal z prec) prec = z.
Proof. exact (round_trip z prec). Qed.
Print Assumptions C17_round_trip.

Example C17_case : apply_precision 0 (1005 # 1000) 100 = (101, (1005 # 1000)%Q, 100).
Proof. reflexivity. Qed.
Example C17_case2 : fst (fst (apply_precision 12345 (7 # 1) 1000)) = 12345.
Proof. reflexivity. Qed.
Example C17_case3 : fst (fst (apply_precision 0 (-1005 # 1000) 100)) = -101.
Proof. reflexivity. Qed.

(** ** C10 *)
(** For an amount of at least half a minor unit, whatever other requests do meanwhile
    and wherever the process dies, each write of a commit request records exactly the
    rounded amount. Missing: smaller positive amounts, for which it is false. *)
Theorem C10_partial_commit_partial cfg n id a prec aid : 1 <= prec -> (1 # 2 <= a * inject_Z prec)%Q ->
  forall tr r, traces n (commit_request cfg id a None (Some prec) aid) tr r ->
  exists z, rounds_to (a * inject_Z prec) z /\ 0 < z
    /\ Forall (fun x => untouched x \/ exists t, posted t x /\ t_precise t = z) tr
    /\ forall l t, r = Some (Some l) -> In (Ok t) l -> t_precise t = z.
Proof. exact (commit_request_exact cfg n id a prec aid). Qed.
Print Assumptions C10_partial_commit_partial.

(** A precise_amount is committed as given, or refused if it is not positive. *)
Theorem C10_precise_commit cfg n id a p prec aid :
  forall tr r, traces n (commit_request cfg id a (Some p) prec aid) tr r ->
  (p <= 0 -> tr = [] /\ (r = Some None \/ r = None)) /\
  (0 < p -> Forall (fun x => untouched x \/ exists t, posted t x /\ t_precise t = p) tr
            /\ forall l t, r = Some (Some l) -> In (Ok t) l -> t_precise t = p).
Proof. exact (precise_request_exact cfg n id a p prec aid). Qed.
Print Assumptions C10_precise_commit.

(** A positive amount below half a minor unit commits the whole hold. *)
Theorem C10_partial_commit_refuted : exists y, steps cfg0 careful (init_sys uuids) y /\
  exists a z, (0 < a)%Q /\ found a z (y_st y) /\ ~ rounds_to (a * inject_Z 100) z.
Proof. exact tiny_commits_all. Qed.
Print Assumptions C10_partial_commit_refuted.

Example C10_case : exists y, steps cfg0 careful (init_sys uuids) y /\ found (2469 # 200) 1235 (y_st y).
Proof. exact partial_commit_case. Qed.
