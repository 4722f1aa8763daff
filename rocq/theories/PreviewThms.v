(** The dry runs, in reached states. *)
From Coq Require Import ZArith QArith List String Bool Lia.
From Verif Require Import LedgerInv LedgerSafe HoldSpec BatchProof PreviewAlone PreviewPost PreviewProof PreviewBulk PreviewQuiet PreviewReach PreviewSplit.
From Verif Require Import Base MoneyModel SplitModel SplitSpec BalanceModel LedgerModel LedgerProgs ConcModel BatchSpec BulkSpec PreviewModel PreviewSpec.
Import ListNotations.
Local Open Scope string_scope.
Open Scope Z_scope.

Theorem dry_runs_quiet cfg n p s r s' own : dry_run cfg p -> among n p s r s' own -> Forall unchanged own.
Proof.
  intros D. apply among_unchanged. destruct D; [apply preview_harmless|apply bulk_harmless|apply action_harmless|apply refund_harmless].
Qed.
Theorem dry_runs_alone cfg n p s : dry_run cfg p -> unchanged (s, fst (run n p s)).
Proof.
  intros D. apply run_unchanged. destruct D; [apply preview_harmless|apply bulk_harmless|apply action_harmless|apply refund_harmless].
Qed.

Theorem single_foretold cfg u y e t n m :
  distinct_uuids u -> steps cfg no_recon_flag (init_sys u) y -> s_locks (y_st y) = [] ->
  api_txn t -> unsplit t -> t_skipq t = true ->
  unguessed (y_st y) (t_src t) -> unguessed (y_st y) (t_dst t) ->
  (c_queued cfg = true -> starts_with_at (t_src t) = false) ->
  let R := run m (queue_transaction cfg e t) (y_st y) in
  match snd (run n (preview_transaction cfg e t) (y_st y)) with
  | Err _ => exists er, snd R = Err er
  | Ok p => foretells p (y_st y) t (fst R) (snd R)
  end.
Proof.
  intros Hu Hy Hl Ha Hs Hq Us Ud Hc. destruct (reach_new_names cfg u y Hu Hy) as [T N].
  exact (proj2 (single_predicts cfg e t (y_st y) Ha Hs Hq T Hl N Us Ud n m Hc)).
Qed.

Theorem bulk_foretold cfg u y e ts atomic infl n m :
  distinct_uuids u -> steps cfg no_recon_flag (init_sys u) y -> s_locks (y_st y) = [] -> c_queued cfg = false ->
  Forall api_txn ts -> Forall unsplit ts ->
  (forall t x, In t ts -> names t x -> unguessed (y_st y) x) -> one_name_each (y_st y) ts ->
  let R := run m (bulk cfg e ts atomic infl true) (y_st y) in
  match snd (run n (preview_bulk cfg e ts infl true) (y_st y)) with
  | Err _ => exists er, snd R = Err er
  | Ok p => foretells_all p (y_st y) ts (fst R) (snd R)
  end.
Proof.
  intros Hu Hy Hl Hc Ha Hs Us Ho. destruct (reach_new_names cfg u y Hu Hy) as [T N].
  exact (proj2 (bulk_predicts cfg e ts atomic infl (y_st y) n m Hc T Hl N Ha Hs Us Ho)).
Qed.

Theorem split_foretold cfg u y e t n m :
  distinct_uuids u -> steps cfg no_recon_flag (init_sys u) y -> s_locks (y_st y) = [] -> c_queued cfg = false ->
  api_txn t -> is_split t -> t_skipq t = true -> fair_env e ->
  (forall l x, In l (participants t) -> names l x -> unguessed (y_st y) x) -> one_name_each (y_st y) (participants t) ->
  (forall i, ref_exists (t_ref t ++ "-" ++ nat_str i) (s_txns (y_st y)) = false) ->
  let R := run m (queue_transaction cfg e t) (y_st y) in
  match snd (run n (preview_transaction cfg e t) (y_st y)) with
  | Err _ => exists er, snd R = Err er
  | Ok p => foretells_split p (y_st y) t (fst R) (snd R)
  end.
Proof.
  intros Hu Hy Hl Hc Ha Hs Hq He Us Ho Hr. destruct (reach_new_names cfg u y Hu Hy) as [T N].
  pose proof (split_predicts cfg e t (y_st y) n m Ha Hs Hq He Hc T Hl N (ids_not_empty _ _ _ _ Hy) Us Ho Hr) as P. cbv zeta in P |- *.
  destruct (snd (run n (preview_transaction cfg e t) (y_st y))) as [p|er]; [|exact P].
  destruct P as [P1 P2]. split; [exact P1|]. intros H1 H2. destruct (P2 H1 H2) as [P3 P4]. split; [exact P3|].
  intros l x Il Nx. destruct (P4 l x Il Nx) as [L|R]; [left; exact L|right]. intros b Hb. apply R.
  unfold view. destruct Hb as [Ib Nb]. destruct (starts_with_at x) eqn:Sx.
  - destruct (get_bal_ind x (t_cur t) (s_bals (y_st y))) as [b'|] eqn:G.
    + f_equal. apply (one_meaning cfg u y x (t_cur t)); auto; unfold named; rewrite Sx; [|auto].
      split; [eapply get_bal_ind_in; eauto|]. exact (ind_keys _ _ _ _ G).
    + exfalso. exact (ind_none _ _ _ G b Ib Nb).
  - subst x. apply (get_bal_nodup); [apply T|exact Ib].
Qed.
