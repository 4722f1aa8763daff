(** Instances for the theorems about shared integers. *)
From Coq Require Import ZArith QArith List String Bool Arith.
From Verif Require Import Base MoneyModel SplitModel BalanceModel CellModel CellSpec CellProof.
Import ListNotations.
Local Open Scope Z_scope.
Local Open Scope list_scope.

Definition hundred (f : field) : option Z := match f with FBal | FCr => Some 100 | FQDb => Some 5 | FDb | FIBal | FICr | FIDb => Some 0 | FQCr => None end.
(** 40 held; the other fields are nil *)
Definition held (f : field) : option Z := match f with FIDb => Some 40 | _ => None end.
Definition transfer : txn :=
  {| t_id := "t"; t_parent := ""; t_src := "a"; t_dst := "b"; t_ref := "r"; t_cur := "USD"; t_status := SNone; t_precise := 0; t_amount := 30; t_prec := 1;
     t_inflight := false; t_allow := false; t_limit := 0; t_skipq := false; t_atomic := false; t_sched := false; t_meta := meta0; t_sources := []; t_dests := [] |}.
Definition as_ (s : status) (t : txn) : txn :=
  {| t_id := t_id t; t_parent := t_parent t; t_src := t_src t; t_dst := t_dst t; t_ref := t_ref t; t_cur := t_cur t; t_status := s; t_precise := t_precise t; t_amount := t_amount t; t_prec := t_prec t;
     t_inflight := t_inflight t; t_allow := t_allow t; t_limit := t_limit t; t_skipq := t_skipq t; t_atomic := t_atomic t; t_sched := t_sched t; t_meta := t_meta t; t_sources := t_sources t; t_dests := t_dests t |}.

(** Two balances, a transfer between them, a second one that has the same integer as amount, a copy of the source between them. *)
Definition story : list op := [OLoad hundred; OLoad held; ODecode transfer None; OPrec 0; OShare 0 transfer; OApply 0 0 1; OCopy 0; OApply 1 0 1; OApply 1 1 1; ODecode (as_ SVoid transfer) (Some 40); OApply 2 1 0].
Example story_priced : voids_priced story.
Proof. intros o Ho. cbn in Ho. repeat (destruct Ho as [<-|Ho]; [first [exact I|discriminate]|]). contradiction. Qed.
Definition got (os : list op) : mem := match run os empty with Some m => m | None => empty end.
Lemma got_run os : voids_priced os -> run os empty = Some (got os).
Proof. intros H. unfold got. destruct (values os H) as (m & E & _). rewrite E. reflexivity. Qed.
Ltac all_priced := intros o Ho; cbn in Ho; repeat (destruct Ho as [<-|Ho]; [first [exact I|discriminate]|]); contradiction.
Definition look (m : mem) := (map (fun b => (b_bal (fst b), b_db (fst b), b_idb (fst b))) (p_bal (seen m)), map t_precise (p_txn (seen m)), p_res (seen m)).
Example story_runs : option_map look (run story empty) =
  Some ([(40, 60, 0); (60, 0, 0); (70, 30, 0)], [30; 30; 40], [None; None; Some EInsufficient; Some EInflightCredit]).
Proof. vm_compute. reflexivity. Qed.
(** the copy, number 2, is not applied to; transaction 0 is not used after the sixth step *)
Definition first_part := firstn 7 story.
Definition second_part := skipn 7 story.
Example story_parts : story = first_part ++ second_part. Proof. reflexivity. Qed.
Example copy_not_applied : not_applied 2 second_part.
Proof. intros x s d Ho. cbn in Ho. repeat (destruct Ho as [K|Ho]; [first [discriminate K|injection K as <- <- <-; split; discriminate]|]). contradiction. Qed.
Example zero_not_used : not_used 0 second_part.
Proof. split; [intros s d Ho|intros Ho]; cbn in Ho; repeat (destruct Ho as [K|Ho]; [discriminate K|]); contradiction. Qed.
Example copy_shown : exists m v, run first_part empty = Some m /\ shown m 2 = Some v /\ shown m 0 = Some v /\ b_bal (fst v) = 70 /\ b_queued (fst v) = Some 5.
Proof. exists (got first_part). eexists. split; [apply got_run; all_priced|]. vm_compute. repeat split. Qed.

(** A post that fails, and one that is applied, to two balances. *)
Example post_fails : exists m m' t, run (firstn 8 story) empty = Some m /\ run (firstn 8 story ++ [OApply 1 1 1]) empty = Some m' /\ shown_txn m 1 = Some t /\ t_status t = SNone /\
  p_res (seen m') = p_res (seen m) ++ [Some EInsufficient].
Proof. exists (got (firstn 8 story)), (got (firstn 8 story ++ [OApply 1 1 1])). eexists. split; [apply got_run; all_priced|]. split; [apply got_run; all_priced|]. vm_compute. repeat split. Qed.
Example post_applied : exists m m', run first_part empty = Some m /\ run (first_part ++ [OApply 1 0 1]) empty = Some m' /\
  match shown_txn m 1, shown m 0, shown m 1 with
  | Some t, Some vs, Some vd => match apply_to_balances t (fst vs) (fst vd) with Ok (_, s', d') => b_bal s' = 40 /\ b_bal d' = 60 | Err _ => False end
  | _, _, _ => False
  end.
Proof. exists (got first_part), (got (first_part ++ [OApply 1 0 1])). split; [apply got_run; all_priced|]. split; [apply got_run; all_priced|]. vm_compute. repeat split. Qed.

(** A void whose hold was of the source only: it fails at the destination, and the source is changed. *)
Definition half : list op := firstn 10 story.
Lemma failed_refuted : exists os x s d m m' e, voids_priced os /\ run os empty = Some m /\ run (os ++ [OApply x s d]) empty = Some m' /\
  p_res (seen m') = p_res (seen m) ++ [Some e] /\ p_bal (seen m') <> p_bal (seen m).
Proof.
  exists half, 2%nat, 1%nat, 0%nat, (got half), (got (half ++ [OApply 2 1 0])), EInflightCredit.
  split; [all_priced|].
  split; [apply got_run; all_priced|]. split; [apply got_run; all_priced|]. split; [vm_compute; reflexivity|]. intros K. apply (f_equal (map (fun b => b_idb (fst b)))) in K. vm_compute in K. discriminate K.
Qed.
(** A void without an amount ends in a panic. *)
Lemma priced_refuted : exists os, run os empty = None.
Proof. exists [OLoad held; OLoad hundred; ODecode (as_ SVoid transfer) None; OApply 0 0 1]. vm_compute. reflexivity. Qed.

(** Dry runs: of 30, which is applied, and of 300, which is not. *)
Definition much : txn := with_money transfer 0 300 1.
Example dry_applied : exists m, run (dry_run hundred held transfer None true) empty = Some m /\ p_res (seen m) = [None] /\
  p_out (seen m) = [[100; 95; 100; 0; 0; 0; 70; 65; 100; 30; 0; 0]; [0; -40; 0; 0; 40; 0; 30; -10; 30; 0; 40; 0]] /\ option_map t_precise (shown_txn m 0) = Some 0.
Proof. exists (got (dry_run hundred held transfer None true)). split; [apply got_run; all_priced|]. vm_compute. repeat split. Qed.
Example dry_rejected : exists m, run (dry_run hundred held much None false) empty = Some m /\ p_res (seen m) = [Some EInsufficient] /\
  p_out (seen m) = [[100; 95; 100; 0; 0; 0; 100; 95; 100; 0; 0; 0]; [0; -40; 0; 0; 40; 0; 0; -40; 0; 0; 40; 0]].
Proof. exists (got (dry_run hundred held much None false)). split; [apply got_run; all_priced|]. vm_compute. repeat split. Qed.
