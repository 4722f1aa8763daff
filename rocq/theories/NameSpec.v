(** What a balance named by an indicator, such as @World, should be. The model is that of the ledger:
    CreateBalance, GetBalanceByIndicator and getOrCreateBalanceByIndicator in LedgerModel and LedgerProgs. *)
From Coq Require Import ZArith List String Bool.
From Verif Require Import Base BalanceModel LedgerModel.
Import ListNotations.
Local Open Scope string_scope.
Local Open Scope list_scope.

(** No two balances share a name and a currency. *)
Definition one_per_name (s : state) : Prop :=
  forall b b', In b (s_bals s) -> In b' (s_bals s) -> b_ind b <> "" -> b_ind b' = b_ind b -> b_cur b' = b_cur b -> b' = b.

(** Whatever others do meanwhile: any operations of any threads, locks that expire, jobs that start. *)
Inductive others : state -> state -> Prop :=
| others_none s : others s s
| others_op s s' n o : others s s' -> others s (fst (exec n o s'))
| others_locks s s' l : others s s' -> others s (set_locks s' l)
| others_jobs s s' l : others s s' -> others s (set_jobs s' l).

(** Program [p], run by thread [n] from [s] with others in between, ends in [s'] with [a]. *)
Fixpoint amid (n : nat) {A} (p : prog A) (s s' : state) (a : A) : Prop :=
  match p with
  | Ret x => others s s' /\ a = x
  | Do o k => exists s1, others s s1 /\ amid n (k (snd (exec n o s1))) (fst (exec n o s1)) s' a
  end.
