(** C49: balances and transactions in memory behave as values, although their integers are shared and changed in place. *)
From Coq Require Import ZArith List.
From Verif Require Import Base MoneyModel SplitModel BalanceModel CellModel CellSpec CellProof CellDemo.
Import ListNotations.
Local Open Scope list_scope.

(** Whatever is loaded, decoded, copied, shared and applied, in any order: nothing panics, and every balance, transaction, outcome
    and projection is what plain arithmetic gives. *)
Theorem C49_values : forall os, voids_priced os -> exists m, run os empty = Some m /\ seen m = steps os nothing.
Proof. exact values. Qed.
Print Assumptions C49_values.
Example C49_values_example : voids_priced story /\ option_map look (run story empty) = Some ([(40, 60, 0); (60, 0, 0); (70, 30, 0)], [30; 30; 40], [None; None; Some EInsufficient; Some EInflightCredit])%Z.
Proof. exact (conj story_priced story_runs). Qed.

(** A copy of a balance shows what the balance showed. *)
Theorem C49_copies : forall os b m m' v, voids_priced os -> run os empty = Some m -> run (os ++ [OCopy b]) empty = Some m' -> shown m b = Some v ->
  shown m' (List.length (p_bal (seen m))) = Some v.
Proof. exact copies. Qed.
Print Assumptions C49_copies.

(** A balance that nothing is applied to keeps all its figures, whatever is applied to its copies or to what it was copied from. *)
Theorem C49_apart : forall os os' m m' i v, voids_priced (os ++ os') -> run os empty = Some m -> run (os ++ os') empty = Some m' -> not_applied i os' ->
  shown m i = Some v -> shown m' i = Some v.
Proof. exact apart. Qed.
Print Assumptions C49_apart.
Example C49_apart_example : story = first_part ++ second_part /\ not_applied 2 second_part /\
  exists m v, run first_part empty = Some m /\ shown m 2 = Some v /\ shown m 0 = Some v /\ b_bal (fst v) = 70%Z /\ b_queued (fst v) = Some 5%Z.
Proof. exact (conj story_parts (conj copy_not_applied copy_shown)). Qed.

(** A transaction that is not applied itself keeps its amount and all else, though others have the same integer as their amount. *)
Theorem C49_apart_transaction : forall os os' m m' i v, voids_priced (os ++ os') -> run os empty = Some m -> run (os ++ os') empty = Some m' -> not_used i os' ->
  shown_txn m i = Some v -> shown_txn m' i = Some v.
Proof. exact apart_txn. Qed.
Print Assumptions C49_apart_transaction.
Example C49_apart_transaction_example : not_used 0 second_part.
Proof. exact zero_not_used. Qed.

(** An application to two balances gives what the arithmetic on values gives. *)
Theorem C49_applied : forall os x s d m m' t vs vd, voids_priced os -> run os empty = Some m -> run (os ++ [OApply x s d]) empty = Some m' -> s <> d ->
  shown_txn m x = Some t -> shown m s = Some vs -> shown m d = Some vd ->
  match apply_to_balances t (fst vs) (fst vd) with
  | Ok (_, s', d') => p_res (seen m') = p_res (seen m) ++ [None] /\ shown m' s = Some (s', snd vs) /\ shown m' d = Some (d', snd vd)
  | Err e => p_res (seen m') = p_res (seen m) ++ [Some e]
  end.
Proof. exact applied_is. Qed.
Print Assumptions C49_applied.
Example C49_applied_example : exists m m', run first_part empty = Some m /\ run (first_part ++ [OApply 1 0 1]) empty = Some m' /\
  match shown_txn m 1, shown m 0, shown m 1 with
  | Some t, Some vs, Some vd => match apply_to_balances t (fst vs) (fst vd) with Ok (_, s', d') => b_bal s' = 40%Z /\ b_bal d' = 60%Z | Err _ => False end
  | _, _, _ => False
  end.
Proof. exact post_applied. Qed.

(** A post that fails changes no balance in memory. *)
Theorem C49_failed : forall os x s d m m' t e, voids_priced os -> run os empty = Some m -> run (os ++ [OApply x s d]) empty = Some m' ->
  shown_txn m x = Some t -> t_status t <> SCommit -> t_status t <> SVoid -> p_res (seen m') = p_res (seen m) ++ [Some e] -> p_bal (seen m') = p_bal (seen m).
Proof. exact failed. Qed.
Print Assumptions C49_failed.
Example C49_failed_example : exists m m' t, run (firstn 8 story) empty = Some m /\ run (firstn 8 story ++ [OApply 1 1 1]) empty = Some m' /\ shown_txn m 1 = Some t /\ t_status t = SNone /\
  p_res (seen m') = p_res (seen m) ++ [Some EInsufficient].
Proof. exact post_fails. Qed.

(** Not so a commit or a void: the source is changed when the destination refuses. *)
Theorem C49_failed_refuted : exists os x s d m m' e, voids_priced os /\ run os empty = Some m /\ run (os ++ [OApply x s d]) empty = Some m' /\
  p_res (seen m') = p_res (seen m) ++ [Some e] /\ p_bal (seen m') <> p_bal (seen m).
Proof. exact failed_refuted. Qed.
Print Assumptions C49_failed_refuted.

(** A void that is given no amount ends in a panic. *)
Theorem C49_priced_refuted : exists os, run os empty = None.
Proof. exact priced_refuted. Qed.
Print Assumptions C49_priced_refuted.

(** A dry run leaves the caller's transaction as it was and shows both balances as they were and as the arithmetic on values leaves
    them, or twice as they were if it is refused, even where the application had changed one of them before it failed. *)
Theorem C49_preview : forall c1 c2 t a m ok, (a = None -> t_status t <> SVoid) -> run (dry_run c1 c2 t a ok) empty = Some m ->
  let s := fst (row c1) in let d := fst (row c2) in
  shown_txn m 0 = Some (priced t (or0 a)) /\
  match apply_to_balances (apply_precision_txn (priced t (or0 a))) s d with
  | Ok (_, s', d') => p_res (seen m) = [None] /\ (ok = true -> p_out (seen m) = [figures s ++ figures s'; figures d ++ figures d'])
  | Err e => p_res (seen m) = [Some e]
  end /\
  (ok = false -> p_out (seen m) = [figures s ++ figures s; figures d ++ figures d]).
Proof. exact dry. Qed.
Print Assumptions C49_preview.
Example C49_preview_example : (exists m, run (dry_run hundred held transfer None true) empty = Some m /\ p_res (seen m) = [None] /\
    p_out (seen m) = [[100; 95; 100; 0; 0; 0; 70; 65; 100; 30; 0; 0]; [0; -40; 0; 0; 40; 0; 30; -10; 30; 0; 40; 0]]%Z /\ option_map t_precise (shown_txn m 0) = Some 0%Z) /\
  exists m, run (dry_run hundred held much None false) empty = Some m /\ p_res (seen m) = [Some EInsufficient] /\
    p_out (seen m) = [[100; 95; 100; 0; 0; 0; 100; 95; 100; 0; 0; 0]; [0; -40; 0; 0; 40; 0; 0; -40; 0; 0; 40; 0]]%Z.
Proof. exact (conj dry_applied dry_rejected). Qed.
