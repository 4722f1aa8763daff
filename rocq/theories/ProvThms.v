(** Consequences of the provenance and budget invariants: what a client can rely on
    about holds, queued transactions and refunds. *)
From Coq Require Import ZArith QArith List String Bool Lia.
From Verif Require Import Base SplitModel BalanceModel LedgerModel LedgerProgs ConcModel LedgerSpec
  BudgetSpec LedgerInv LedgerSafe LedgerThms BudgetProof BudgetThms ProvSpec ProvInv ProvProof HoldSpec.
Import ListNotations.
Local Open Scope string_scope.
Open Scope list_scope.
Open Scope Z_scope.

(** ** Facts of one state *)
Section State.
Variables (cfg : config) (u : nat -> string) (NS : Prop) (s : state).
Hypothesis HI : inv cfg s.
Hypothesis HC : invC u NS s.

Lemma row_id r : In r (s_txns s) -> exists i, t_id (r_t r) = tid u i.
Proof.
  intros Hr. assert (Hp : pub (t_id (r_t r)) s).
  { unfold pub, ids. apply in_or_app. left. apply (in_map (fun r => t_id (r_t r))); exact Hr. }
  destruct (c_pub _ _ _ HC _ Hp) as (i & _ & E). eauto.
Qed.

Lemma same_id r1 r2 : In r1 (s_txns s) -> In r2 (s_txns s) -> t_id (r_t r1) = t_id (r_t r2) -> r1 = r2.
Proof. intros H1 H2 E. exact (NoDup_map_inv_eq (fun r => t_id (r_t r)) _ _ _ (i_ids _ _ HI) H1 H2 E). Qed.

Lemma kind_of r : In r (s_txns s) -> kind_status (r_kind r) (t_status (r_t r)).
Proof. exact (row_kind cfg s r HI). Qed.

(** A row whose parent is a recorded row is its copy, its refund, its commit or its void. *)
Lemma parent_cases o r : In o (s_txns s) -> In r (s_txns s) -> child_of o r ->
  r_kind r <> KCommit -> r_kind r <> KVoid ->
  copy_of NS o (r_t r) \/ refund_of NS o (r_t r).
Proof.
  intros Ho Hr Hp N1 N2. destruct (row_C u NS s r HC Hr) as [_ H].
  assert (H' : orig_ok NS s (r_t r)) by (destruct (r_kind r); congruence || exact H). clear H.
  destruct (row_id o Ho) as (i & Ei). unfold child_of in Hp.
  destruct H' as [H|[(b & H)|[(x & Hx & H)|[_ H]]]].
  - rewrite Hp, Ei in H. unfold tid in H. simpl in H. discriminate.
  - rewrite Hp, Ei in H. unfold tid in H. simpl in H. discriminate.
  - assert (x = o); [|subst; exact H]. apply same_id; auto. destruct H as [H|H]; destruct H as (_ & E & _); congruence.
  - exfalso. apply H. rewrite Hp. unfold pub, ids. apply in_or_app. left.
    apply (in_map (fun r => t_id (r_t r))); exact Ho.
Qed.

Lemma inflight_hold h : In h (s_txns s) -> t_status (r_t h) = SInflight -> r_kind h = KHold /\ 0 < amount h.
Proof.
  intros Hh E. pose proof (kind_of h Hh) as Hk. rewrite E in Hk.
  assert (K : r_kind h = KHold) by (destruct (r_kind h); simpl in Hk; try discriminate; try reflexivity; destruct Hk as [H|[H|H]]; discriminate).
  split; [exact K|]. pose proof (i_legal _ _ HI) as Hl. revert Hh Hl. generalize (s_txns s). clear - K.
  induction l as [|x l IH]; [contradiction|]. intros [->|Hin] [Hr Hl]; [|auto].
  unfold legal in Hr. rewrite K in Hr. apply Hr.
Qed.

Lemma hold_only_commits h : In h (s_txns s) -> t_status (r_t h) = SInflight -> only_commits (t_id (r_t h)) (s_txns s).
Proof.
  intros Hh E r Hr Hp Hk. destruct (parent_cases h r Hh Hr Hp) as [H|H]; try congruence.
  - destruct H as ([H|H] & _); congruence.
  - destruct H as ([H|H] & _); congruence.
Qed.

(** Under [NS] a queued hold has no posted child either. *)
Lemma queued_only_commits (ns : NS) h : In h (s_txns s) -> is_hold h -> only_commits (t_id (r_t h)) (s_txns s).
Proof.
  intros Hh [E|[E Ei]]; [apply hold_only_commits; auto|].
  intros r Hr Hp Hk. destruct (parent_cases h r Hh Hr Hp) as [H|H]; try congruence.
  - destruct H as (_ & _ & _ & _ & _ & _ & _ & H & _). destruct (H ns) as [H' _].
    destruct (row_C u NS s r HC Hr) as [Hc _]. rewrite Hk in Hc. simpl in Hc. destruct Hc. congruence.
  - destruct H as ([H|H] & _); congruence.
Qed.

Lemma action_hold r : In r (s_txns s) -> r_kind r = KCommit \/ r_kind r = KVoid ->
  exists h, In h (s_txns s) /\ t_id (r_t h) = t_parent (r_t r)
    /\ (t_status (r_t h) = SInflight \/ (t_status (r_t h) = SQueued /\ (NS -> t_inflight (r_t h) = true))).
Proof.
  intros Hr Hk. destruct (row_C u NS s r HC Hr) as [Hc _].
  destruct Hk as [Hk|Hk]; rewrite Hk in Hc; exact (proj1 Hc).
Qed.

Lemma commits_positive (ns : NS) :
  actions_in_order (s_txns s) -> ~ negative_queued (s_txns s) -> positive_commits (s_txns s).
Proof.
  intros Ha Hn r Hr Hk. pose proof Hr as Hr0. apply in_split in Hr as (n & j & E).
  assert (Ho : action_in_order j r) by (apply (in_order_at n); [rewrite <- E; exact Ha|exact Hk]).
  destruct Ho as (h & Hh & Eh & _ & _ & _ & _ & Hamt).
  assert (Hh' : In h (s_txns s)) by (rewrite E; apply in_or_app; right; right; exact Hh).
  destruct (action_hold r Hr0 Hk) as (h' & Hin & Eid & Hst).
  assert (h' = h) by (apply same_id; auto; congruence). subst h'.
  assert (Hhold : is_hold h) by (destruct Hst as [H|[H1 H2]]; [left; exact H|right; auto]).
  assert (Hoc : only_commits (t_parent (r_t r)) j).
  { intros x Hx. rewrite <- Eid. apply (queued_only_commits ns h Hin Hhold x). rewrite E. apply in_or_app. right; right; exact Hx. }
  assert (Hp : 0 <= amount h).
  { destruct Hhold as [H|[H _]]; [pose proof (proj2 (inflight_hold h Hin H)); lia|].
    destruct (Z_lt_le_dec (amount h) 0); [|assumption]. exfalso. apply Hn. exists h. auto. }
  destruct (Hamt Hp Hoc) as [[H _] _]; exact H.
Qed.

(** Two outcomes of a waiting transaction are the same row. *)
Lemma outcome_copy o r : In o (s_txns s) -> In r (s_txns s) -> waiting o -> outcome_of o r -> copy_of NS o (r_t r).
Proof.
  intros Ho Hr Hw [Hp Hk]. assert (Hn : r_kind r <> KCommit /\ r_kind r <> KVoid).
  { destruct Hk as [[Hk|Hk]|Hk]; try (rewrite Hk; split; discriminate).
    pose proof (kind_of r Hr) as K. rewrite Hk in K. destruct (r_kind r); simpl in K; split; discriminate. }
  destruct (parent_cases o r Ho Hr Hp (proj1 Hn) (proj2 Hn)) as [H|H]; [exact H|].
  destruct H as (H & _). destruct Hw as [Hw|Hw]; destruct H; congruence.
Qed.

Lemma same_ref r1 r2 : In r1 (s_txns s) -> In r2 (s_txns s) -> t_ref (r_t r1) = t_ref (r_t r2) -> r1 = r2.
Proof. intros H1 H2 E. exact (NoDup_map_inv_eq (fun r => t_ref (r_t r)) _ _ _ (i_refs _ _ HI) H1 H2 E). Qed.

Lemma outcome_unique o r1 r2 : In o (s_txns s) -> In r1 (s_txns s) -> In r2 (s_txns s) -> waiting o ->
  outcome_of o r1 -> outcome_of o r2 -> r1 = r2.
Proof.
  intros Ho H1 H2 Hw O1 O2. apply same_ref; auto.
  destruct (outcome_copy o r1 Ho H1 Hw O1) as (_ & _ & E1 & _).
  destruct (outcome_copy o r2 Ho H2 Hw O2) as (_ & _ & E2 & _). congruence.
Qed.

(** A row given back under a settled or voided transaction. *)
Lemma back_refund o x : In o (s_txns s) -> In x (s_txns s) -> ~ waiting o -> child_of o x -> posts x \/ waiting x ->
  refund_of NS o (r_t x).
Proof.
  intros Ho Hx Hs Hp Hk. assert (Hn : r_kind x <> KCommit /\ r_kind x <> KVoid).
  { destruct Hk as [[Hk|Hk]|Hk]; try (rewrite Hk; split; discriminate).
    pose proof (kind_of x Hx) as K. destruct Hk as [Hk|Hk]; rewrite Hk in K; destruct (r_kind x); simpl in K; split; discriminate. }
  destruct (parent_cases o x Ho Hx Hp (proj1 Hn) (proj2 Hn)) as [H|H]; [|exact H].
  destruct H as (H & _). contradiction.
Qed.

Lemma gives_back_cases o r : In o (s_txns s) -> In r (s_txns s) -> ~ waiting o -> gives_back (s_txns s) o r ->
  refund_of NS o (r_t r)
  \/ exists q, In q (s_txns s) /\ waiting q /\ refund_of NS o (r_t q) /\ copy_of NS q (r_t r) /\ child_of q r.
Proof.
  intros Ho Hr Hs [Hk [Hp|(q & Hq & Hw & Hp & Hc)]].
  - left. apply back_refund; auto.
  - right. exists q. split; [exact Hq|]. split; [exact Hw|]. split; [apply back_refund; auto|].
    split; [|exact Hc]. apply outcome_copy; auto. split; auto.
Qed.

Lemma refund_unique o r1 r2 : In o (s_txns s) -> In r1 (s_txns s) -> In r2 (s_txns s) -> ~ waiting o ->
  gives_back (s_txns s) o r1 -> gives_back (s_txns s) o r2 -> r1 = r2.
Proof.
  intros Ho H1 H2 Hs G1 G2. pose proof (proj1 G1) as P1. pose proof (proj1 G2) as P2.
  assert (W : forall x, In x (s_txns s) -> waiting x -> posts x -> False).
  { intros x Hx Hw Hp. pose proof (kind_of x Hx) as K. destruct Hp as [Hp|Hp], Hw as [Hw|Hw]; rewrite Hp, Hw in K; discriminate. }
  destruct (gives_back_cases o r1 Ho H1 Hs G1) as [A|(q1 & Hq1 & W1 & A & C1 & D1)];
    destruct (gives_back_cases o r2 Ho H2 Hs G2) as [B|(q2 & Hq2 & W2 & B & C2 & D2)];
    destruct A as (_ & _ & A & _); destruct B as (_ & _ & B & _).
  - apply same_ref; auto; congruence.
  - exfalso. assert (r1 = q2) by (apply same_ref; auto; congruence). subst. eauto.
  - exfalso. assert (r2 = q1) by (apply same_ref; auto; congruence). subst. eauto.
  - assert (q1 = q2) by (apply same_ref; auto; congruence). subst q2.
    apply (outcome_unique q1); auto; split; auto.
Qed.

(** The row given back reverses the original. *)
Lemma refund_reverses o r : In o (s_txns s) -> In r (s_txns s) -> ~ waiting o -> 0 < amount o ->
  gives_back (s_txns s) o r ->
  source r = destination o /\ destination r = source o /\ t_cur (r_t r) = t_cur (r_t o) /\ amount r = amount o
  /\ (NS -> r_kind r = match t_status (r_t o) with SVoid => KHold | _ => KPost end).
Proof.
  intros Ho Hr Hs Hp G. pose proof (proj1 G) as Pk.
  assert (Hki : t_inflight (r_t r) = true /\ r_kind r = KHold \/ t_inflight (r_t r) = false /\ r_kind r = KPost).
  { destruct (row_C u NS s r HC Hr) as [K _]. destruct Pk as [Pk|Pk]; rewrite Pk in K; simpl in K; [right; split; [apply K|exact Pk]|left; auto]. }
  destruct (gives_back_cases o r Ho Hr Hs G) as [A|(q & Hq & W1 & A & C & _)].
  - destruct A as (_ & _ & _ & A1 & A2 & A3 & A4 & A5). split; [exact A1|]. split; [exact A2|]. split; [exact A3|].
    split; [exact (A4 Hp)|]. intros ns. rewrite (A5 ns) in Hki. destruct (t_status (r_t o)), Hki as [[? ?]|[? ?]]; congruence.
  - destruct A as (_ & _ & _ & A1 & A2 & A3 & A4 & A5). destruct C as (_ & _ & _ & C1 & C2 & C3 & C4 & C5 & _).
    specialize (A4 Hp). unfold amount, source, destination in *.
    split; [congruence|]. split; [congruence|]. split; [congruence|].
    split; [rewrite C4; [exact A4|lia]|]. intros ns. destruct (C5 ns) as [C5' _]. rewrite C5', (A5 ns) in Hki.
    destruct (t_status (r_t o)), Hki as [[? ?]|[? ?]]; congruence.
Qed.

(** An APPLIED row is a commit exactly if its parent is a hold. *)
Lemma commit_visible (ns : NS) r : In r (s_txns s) -> t_status (r_t r) = SApplied ->
  (r_kind r = KCommit <-> exists h, In h (s_txns s) /\ t_id (r_t h) = t_parent (r_t r) /\ is_hold h).
Proof.
  intros Hr E. split.
  - intros Hk. destruct (action_hold r Hr (or_introl Hk)) as (h & Hh & Ei & Hs).
    exists h. split; [exact Hh|]. split; [exact Ei|]. destruct Hs as [Hs|[Hs Hi]]; [left; exact Hs|right; auto].
  - intros (h & Hh & Ei & Hs). pose proof (kind_of r Hr) as K. rewrite E in K.
    destruct (r_kind r) eqn:Ek; simpl in K; try discriminate; auto.
    + exfalso. exact (queued_only_commits ns h Hh Hs r Hr (eq_sym Ei) Ek).
    + destruct K as [K|[K|K]]; discriminate.
Qed.
End State.

(** ** Reachable states *)
Section Reach.
Variables (cfg : config) (u : nat -> string) (y : sys).
Hypothesis u_inj : distinct_uuids u.
Let s := y_st y.

Lemma steps_mono (ok ok' : sys -> event -> Prop) y0 y1 :
  (forall y e, ok y e -> ok' y e) -> steps cfg ok y0 y1 -> steps cfg ok' y0 y1.
Proof. intros H Hs. induction Hs; [constructor|]. econstructor; eauto. Qed.

Lemma reach_plain : steps cfg no_recon_flag (init_sys u) y -> inv cfg s /\ invC u False s.
Proof. apply reachable_invC; [exact u_inj|]. intros y0 e H. split; [exact H|contradiction]. Qed.
Lemma reach_honest : steps cfg honest (init_sys u) y -> inv cfg s /\ invC u True s.
Proof. apply reachable_invC; [exact u_inj|]. intros y0 e [H1 H2]. split; [exact H1|auto]. Qed.
Lemma reach_polite : steps cfg (fun y e => no_recon_flag y e /\ polite y e) (init_sys u) y ->
  inv cfg s /\ invC u False s /\ actions_in_order (s_txns s).
Proof.
  intros H. destruct (reach_plain (steps_mono _ _ _ _ (fun y e H => proj1 H) H)) as [A B].
  destruct (reachable_invB cfg _ u y (fun y e H => H) H) as [_ C]. split; [exact A|]. split; [exact B|apply C].
Qed.
Lemma careful_parts : steps cfg careful (init_sys u) y ->
  steps cfg honest (init_sys u) y /\ steps cfg (fun y e => no_recon_flag y e /\ polite y e) (init_sys u) y
  /\ steps cfg no_recon_flag (init_sys u) y.
Proof. intros H. repeat split; (eapply steps_mono; [|exact H]); unfold honest, careful; intuition. Qed.
Lemma reach_careful : steps cfg careful (init_sys u) y ->
  inv cfg s /\ invC u True s /\ actions_in_order (s_txns s).
Proof.
  intros H. destruct (careful_parts H) as (H1 & H2 & _).
  destruct (reach_honest H1) as [A B]. destruct (reach_polite H2) as (_ & _ & C). auto.
Qed.

Lemma careful_positive : steps cfg careful (init_sys u) y -> ~ negative_queued (s_txns s) -> positive_commits (s_txns s).
Proof. intros H Hn. destruct (reach_careful H) as (A & B & C). exact (commits_positive _ _ _ _ A B Logic.I C Hn). Qed.

(** *** Counters *)
Lemma counters_careful : steps cfg careful (init_sys u) y -> ~ negative_queued (s_txns s) ->
  forall b, In b (s_bals s) -> 0 <= b_cr b /\ 0 <= b_db b /\ 0 <= b_icr b /\ 0 <= b_idb b.
Proof.
  intros H Hn b Hb. destruct (careful_parts H) as (_ & _ & H3).
  destruct (counters_nonneg cfg u y H3 b Hb (careful_positive H Hn)).
  destruct (inflight_nonneg cfg u y H3 b Hb). auto.
Qed.

Lemma overdraft_careful : steps cfg careful (init_sys u) y -> ~ negative_queued (s_txns s) ->
  forall b L, In b (s_bals s) -> 0 <= L -> overdraft_at_most (b_id b) L (s_txns s) -> - L <= b_bal b - b_idb b.
Proof.
  intros H Hn b L Hb HL Ho. destruct (careful_parts H) as (_ & _ & H3).
  exact (no_overdraft cfg u y H3 b L Hb HL Ho (careful_positive H Hn) (fun _ => Hn)).
Qed.

(** *** Holds *)
Lemma hold_budget : steps cfg (fun y e => no_recon_flag y e /\ polite y e) (init_sys u) y ->
  forall h, In h (s_txns s) -> t_status (r_t h) = SInflight ->
  0 <= committed (t_id (r_t h)) (s_txns s) /\ 0 <= voided (t_id (r_t h)) (s_txns s)
  /\ committed (t_id (r_t h)) (s_txns s) + voided (t_id (r_t h)) (s_txns s) <= amount h.
Proof.
  intros H h Hh E. destruct (reach_polite H) as (A & B & C).
  pose proof (hold_totals h ltac:(pose proof (proj2 (inflight_hold _ _ A h Hh E)); lia) (s_txns s) C (i_ids _ _ A) Hh (hold_only_commits _ _ _ _ A B h Hh E)).
  tauto.
Qed.

Lemma void_final : steps cfg (fun y e => no_recon_flag y e /\ polite y e) (init_sys u) y ->
  forall h later v earlier, s_txns s = later ++ v :: earlier -> r_kind v = KVoid -> t_parent (r_t v) = h ->
  forall r, In r later -> ~ is_action h r.
Proof.
  intros H h later v earlier E Hv Hp. destruct (reach_polite H) as (A & B & C). rewrite E in C.
  exact (after_void h later v earlier C Hv Hp).
Qed.

Lemma full_final : steps cfg (fun y e => no_recon_flag y e /\ polite y e) (init_sys u) y ->
  forall h later earlier, s_txns s = later ++ earlier -> In h earlier -> t_status (r_t h) = SInflight ->
  committed (t_id (r_t h)) earlier = amount h -> forall r, In r later -> ~ is_action (t_id (r_t h)) r.
Proof.
  intros H h later earlier E Hh Es Hf. destruct (reach_polite H) as (A & B & C).
  assert (Hin : In h (s_txns s)) by (rewrite E; apply in_or_app; auto).
  pose proof (hold_only_commits _ _ _ _ A B h Hin Es) as Ho. pose proof (i_ids _ _ A) as Hi.
  pose proof (proj2 (inflight_hold _ _ A h Hin Es)) as Hp. rewrite E in C, Ho, Hi.
  exact (after_full h ltac:(lia) later earlier C Hi Hh Ho Hf).
Qed.

(** A queued hold, counting only the commits made against its own id. *)
Lemma queued_budget : steps cfg careful (init_sys u) y ->
  forall h, In h (s_txns s) -> is_hold h -> 0 <= amount h ->
  0 <= committed (t_id (r_t h)) (s_txns s) /\ 0 <= voided (t_id (r_t h)) (s_txns s)
  /\ committed (t_id (r_t h)) (s_txns s) + voided (t_id (r_t h)) (s_txns s) <= amount h.
Proof.
  intros H h Hh E Hp. destruct (reach_careful H) as (A & B & C).
  pose proof (hold_totals h Hp (s_txns s) C (i_ids _ _ A) Hh (queued_only_commits _ _ _ _ A B Logic.I h Hh E)).
  tauto.
Qed.

End Reach.

(** *** A commit or void as a step *)
Lemma step_moves cfg u y y' r :
  steps cfg no_recon_flag (init_sys u) y -> steps cfg no_recon_flag (init_sys u) y' ->
  s_txns (y_st y') = r :: s_txns (y_st y) ->
  forall id, moves_on id (s_bals (y_st y)) (s_bals (y_st y'))
    (iff_z (String.eqb (destination r) id) (settled r)) (iff_z (String.eqb (source r) id) (settled r))
    (iff_z (String.eqb (destination r) id) (held r)) (iff_z (String.eqb (source r) id) (held r)).
Proof.
  intros Hy Hy' E id b b' Hb Hb' Eb Eb'.
  pose proof (i_shows _ _ (reach_inv cfg u y Hy) b Hb) as ((A1 & A2 & A3 & A4 & A5 & A6) & _).
  pose proof (i_shows _ _ (reach_inv cfg u y' Hy') b' Hb') as ((B1 & B2 & B3 & B4 & B5 & B6) & _).
  rewrite E, Eb' in *. rewrite Eb in *.
  unfold credits, debits, held_in, held_out in *. rewrite total_cons in B1, B2, B3, B4, B5, B6.
  rewrite total_cons in B5, B6. unfold iff_z. lia.
Qed.

Lemma commit_step cfg u y e y' r :
  distinct_uuids u -> steps cfg careful (init_sys u) y -> careful y e -> step cfg y e y' ->
  s_txns (y_st y') = r :: s_txns (y_st y) -> r_kind r = KCommit ->
  commits_exactly r (s_bals (y_st y)) (s_bals (y_st y'))
  /\ exists h, In h (s_txns (y_st y)) /\ t_id (r_t h) = t_parent (r_t r) /\ is_hold h
       /\ source r = source h /\ destination r = destination h /\ t_cur (r_t r) = t_cur (r_t h)
       /\ (0 <= amount h -> 0 < amount r <= amount h - committed (t_id (r_t h)) (s_txns (y_st y))).
Proof.
  intros Hu Hy He Hs E Hk.
  assert (Hy' : steps cfg careful (init_sys u) y') by (econstructor; eauto).
  destruct (careful_parts cfg u y Hy) as (_ & _ & P1). destruct (careful_parts cfg u y' Hy') as (_ & _ & P2).
  split.
  - intros id. pose proof (step_moves cfg u y y' r P1 P2 E id) as H. unfold settled, held in H. rewrite Hk in H.
    unfold moves_on in *. intros b b' H1 H2 H3 H4. specialize (H b b' H1 H2 H3 H4). unfold iff_z in *.
    destruct (String.eqb (destination r) id), (String.eqb (source r) id); lia.
  - destruct (reach_careful cfg u y' Hu Hy') as (A & B & C). rewrite E in C.
    destruct C as [C _]. destruct (C (or_introl Hk)) as (h & Hh & Ei & E1 & E2 & E3 & _ & Ha).
    assert (Hr' : In r (s_txns (y_st y'))) by (rewrite E; left; reflexivity).
    assert (Hh' : In h (s_txns (y_st y'))) by (rewrite E; right; exact Hh).
    destruct (action_hold _ _ _ B r Hr' (or_introl Hk)) as (h' & Hin & Eid & Hst).
    assert (h' = h) by (apply (same_id _ _ A); auto; congruence). subst h'.
    assert (Hhold : is_hold h) by (destruct Hst as [H|[H1 H2]]; [left; exact H|right; auto]).
    exists h. split; [exact Hh|]. split; [exact Ei|]. split; [exact Hhold|]. split; [exact E1|]. split; [exact E2|].
    split; [exact E3|]. intros Hp. rewrite <- Ei in Ha. apply Ha; [exact Hp|].
    intros x Hx. apply (queued_only_commits _ _ _ _ A B Logic.I h Hh' Hhold). rewrite E. right; exact Hx.
Qed.

Lemma void_step cfg u y e y' r :
  distinct_uuids u -> steps cfg careful (init_sys u) y -> careful y e -> step cfg y e y' ->
  s_txns (y_st y') = r :: s_txns (y_st y) -> r_kind r = KVoid ->
  voids_exactly r (s_bals (y_st y)) (s_bals (y_st y'))
  /\ exists h, In h (s_txns (y_st y)) /\ t_id (r_t h) = t_parent (r_t r) /\ is_hold h
       /\ source r = source h /\ destination r = destination h /\ t_cur (r_t r) = t_cur (r_t h)
       /\ (0 <= amount h -> 0 < amount r /\ amount r = amount h - committed (t_id (r_t h)) (s_txns (y_st y))).
Proof.
  intros Hu Hy He Hs E Hk.
  assert (Hy' : steps cfg careful (init_sys u) y') by (econstructor; eauto).
  destruct (careful_parts cfg u y Hy) as (_ & _ & P1). destruct (careful_parts cfg u y' Hy') as (_ & _ & P2).
  split.
  - intros id. pose proof (step_moves cfg u y y' r P1 P2 E id) as H. unfold settled, held in H. rewrite Hk in H.
    unfold moves_on in *. intros b b' H1 H2 H3 H4. specialize (H b b' H1 H2 H3 H4). unfold iff_z in *.
    destruct (String.eqb (destination r) id), (String.eqb (source r) id); lia.
  - destruct (reach_careful cfg u y' Hu Hy') as (A & B & C). rewrite E in C.
    destruct C as [C _]. destruct (C (or_intror Hk)) as (h & Hh & Ei & E1 & E2 & E3 & _ & Ha).
    assert (Hr' : In r (s_txns (y_st y'))) by (rewrite E; left; reflexivity).
    assert (Hh' : In h (s_txns (y_st y'))) by (rewrite E; right; exact Hh).
    destruct (action_hold _ _ _ B r Hr' (or_intror Hk)) as (h' & Hin & Eid & Hst).
    assert (h' = h) by (apply (same_id _ _ A); auto; congruence). subst h'.
    assert (Hhold : is_hold h) by (destruct Hst as [H|[H1 H2]]; [left; exact H|right; auto]).
    exists h. split; [exact Hh|]. split; [exact Ei|]. split; [exact Hhold|]. split; [exact E1|]. split; [exact E2|].
    split; [exact E3|]. intros Hp. rewrite <- Ei in Ha. destruct Ha as [Ha1 Ha2]; [exact Hp| |split; [lia|auto]].
    intros x Hx. apply (queued_only_commits _ _ _ _ A B Logic.I h Hh' Hhold). rewrite E. right; exact Hx.
Qed.

(** *** What a hold contributed, all in all *)
Lemma only_row (f : row -> Z) h j : NoDup (map (fun r => t_id (r_t r)) j) -> In h j ->
  sumz (fun r => if String.eqb (t_id (r_t r)) (t_id (r_t h)) then f r else 0) j = f h.
Proof.
  induction j as [|r j IH]; intros Hnd Hin; [contradiction|]. simpl in Hnd. inversion Hnd as [|? ? Hni Hnd']; subst. simpl.
  destruct (String.eqb_spec (t_id (r_t r)) (t_id (r_t h))) as [E|E].
  - assert (r = h). { destruct Hin as [Hin|Hin]; [exact Hin|]. exfalso. apply Hni. rewrite E.
      apply (in_map (fun r => t_id (r_t r))); exact Hin. }
    subst r. rewrite sumz_zero; [lia|]. intros x Hx.
    destruct (String.eqb_spec (t_id (r_t x)) (t_id (r_t h))) as [E'|E']; [|reflexivity].
    exfalso. apply Hni. rewrite <- E'. apply (in_map (fun r => t_id (r_t r))); exact Hx.
  - destruct Hin as [->|Hin]; [congruence|]. rewrite IH; auto.
Qed.

Lemma sumz_add {A} (f g : A -> Z) l : sumz (fun x => f x + g x) l = sumz f l + sumz g l.
Proof. induction l; simpl; lia. Qed.

Lemma hold_contribution cfg u y :
  distinct_uuids u -> steps cfg (fun y e => no_recon_flag y e /\ polite y e) (init_sys u) y ->
  forall h, In h (s_txns (y_st y)) -> t_status (r_t h) = SInflight ->
  held_for h (s_txns (y_st y)) = amount h - committed (t_id (r_t h)) (s_txns (y_st y)) - voided (t_id (r_t h)) (s_txns (y_st y))
  /\ settled_for h (s_txns (y_st y)) = committed (t_id (r_t h)) (s_txns (y_st y)).
Proof.
  intros Hu H h Hh E. destruct (reach_polite cfg u y Hu H) as (A & B & C).
  destruct (inflight_hold _ _ A h Hh E) as [Hk _]. set (j := s_txns (y_st y)) in *.
  assert (Hid : forall r, In r j -> t_id (r_t r) = t_id (r_t h) -> r = h).
  { intros r Hr Er. apply (same_id _ _ A); auto. }
  unfold held_for, settled_for. split.
  - transitivity (sumz (fun r => ((if String.eqb (t_id (r_t r)) (t_id (r_t h)) then held r else 0)
        + (- match r_kind r with KCommit => if String.eqb (t_parent (r_t r)) (t_id (r_t h)) then amount r else 0 | _ => 0 end))
        + (- match r_kind r with KVoid => if String.eqb (t_parent (r_t r)) (t_id (r_t h)) then amount r else 0 | _ => 0 end)) j).
    + apply sumz_ext. intros r Hr. unfold concerns.
      destruct (String.eqb_spec (t_id (r_t r)) (t_id (r_t h))) as [Er|Er]; cbn [orb].
      * rewrite (Hid r Hr Er). rewrite Hk. lia.
      * unfold held. destruct (r_kind r); try lia; destruct (String.eqb (t_parent (r_t r)) (t_id (r_t h))); lia.
    + rewrite !sumz_add. rewrite (only_row held h j (i_ids _ _ A) Hh). unfold held at 1. rewrite Hk.
      assert (N : forall (g : row -> Z) l, sumz (fun r => - g r) l = - sumz g l) by (clear; induction l; simpl; lia).
      rewrite !N. unfold committed, voided. lia.
  - apply sumz_ext. intros r Hr. unfold concerns, settled.
    destruct (String.eqb_spec (t_id (r_t r)) (t_id (r_t h))) as [Er|Er]; cbn [orb].
    + rewrite (Hid r Hr Er). rewrite Hk. reflexivity.
    + destruct (r_kind r); try reflexivity; destruct (String.eqb (t_parent (r_t r)) (t_id (r_t h))); reflexivity.
Qed.

(** Once voided, a hold holds nothing: hold followed by void leaves no trace but
    what was committed. *)
Lemma void_releases cfg u y :
  distinct_uuids u -> steps cfg (fun y e => no_recon_flag y e /\ polite y e) (init_sys u) y ->
  forall h v, In h (s_txns (y_st y)) -> t_status (r_t h) = SInflight ->
  In v (s_txns (y_st y)) -> r_kind v = KVoid -> t_parent (r_t v) = t_id (r_t h) ->
  held_for h (s_txns (y_st y)) = 0
  /\ settled_for h (s_txns (y_st y)) = committed (t_id (r_t h)) (s_txns (y_st y))
  /\ committed (t_id (r_t h)) (s_txns (y_st y)) + amount v = amount h.
Proof.
  intros Hu H h v Hh E Hv Hk Hp. destruct (hold_contribution cfg u y Hu H h Hh E) as [H1 H2].
  destruct (reach_polite cfg u y Hu H) as (A & B & C).
  pose proof (proj2 (inflight_hold _ _ A h Hh E)) as Hpos.
  pose proof (hold_only_commits _ _ _ _ A B h Hh E) as Hoc.
  assert (Hone : committed (t_id (r_t h)) (s_txns (y_st y)) + amount v = amount h
                 /\ voided (t_id (r_t h)) (s_txns (y_st y)) = amount v).
  { apply in_split in Hv as (later & earlier & Ej). rewrite Ej in *.
    pose proof (after_void (t_id (r_t h)) later v earlier C Hk Hp) as Hl.
    destruct (committed_none _ _ Hl) as [L1 L2]. rewrite committed_app, voided_app, L1, L2, committed_cons, voided_cons.
    rewrite Hk, Hp, String.eqb_refl.
    pose proof (in_order_app _ _ C) as C'. pose proof (i_ids _ _ A) as Hids. rewrite Ej in Hids.
    assert (Hin : In h (v :: earlier)).
    { apply in_app_iff in Hh as [Hh|Hh]; [|exact Hh]. exfalso.
      destruct C' as [C' _]. destruct (C' (or_intror Hk)) as (x & Hx & Ex & _).
      rewrite map_app in Hids. apply (nodup_disj _ _ (t_id (r_t h)) Hids).
      - apply (in_map (fun r => t_id (r_t r))); exact Hh.
      - rewrite <- Hp, <- Ex. apply (in_map (fun r => t_id (r_t r))). right; exact Hx. }
    rewrite map_app in Hids. apply nodup_r in Hids.
    destruct (action_amount h ltac:(lia) earlier v C' Hids Hin (only_commits_app _ _ _ Hoc) (conj (or_intror Hk) Hp)) as (Hhe & _ & Hv' & _).
    specialize (Hv' Hk).
    assert (V0 : voided (t_id (r_t h)) earlier = 0).
    { assert (Hids' : NoDup (map (fun r => t_id (r_t r)) earlier)) by (inversion Hids; auto).
      assert (Hoc' : only_commits (t_id (r_t h)) earlier) by (intros x Hx; apply Hoc; apply in_or_app; right; right; exact Hx).
      destruct (hold_totals h ltac:(lia) earlier (proj2 C') Hids' Hhe Hoc') as (_ & _ & _ & Hz).
      destruct (Z.eq_dec (voided (t_id (r_t h)) earlier) 0) as [|Hnz]; [assumption|]. exfalso.
      destruct (Hz Hnz) as (_ & w & Hw & Hwk & Hwp). destruct C' as [C' _].
      destruct (C' (or_intror Hk)) as (x & _ & _ & _ & _ & _ & Hnv & _). apply (Hnv w Hw); congruence. }
    lia. }
  destruct Hone as [O1 O2]. split; [lia|]. split; [exact H2|exact O1].
Qed.

(** *** Queued transactions and refunds *)
Lemma queued_once cfg u y : distinct_uuids u -> steps cfg no_recon_flag (init_sys u) y ->
  forall o r1 r2, In o (s_txns (y_st y)) -> In r1 (s_txns (y_st y)) -> In r2 (s_txns (y_st y)) -> waiting o ->
  outcome_of o r1 -> outcome_of o r2 -> r1 = r2.
Proof. intros Hu H. destruct (reach_plain cfg u y Hu H) as [A B]. exact (outcome_unique _ _ _ _ A B). Qed.

Lemma queued_faithful cfg u y : distinct_uuids u -> steps cfg no_recon_flag (init_sys u) y ->
  forall o r, In o (s_txns (y_st y)) -> In r (s_txns (y_st y)) -> waiting o -> outcome_of o r ->
  t_ref (r_t r) = (t_ref (r_t o) ++ "_q")%string /\ source r = source o /\ destination r = destination o
  /\ t_cur (r_t r) = t_cur (r_t o) /\ (0 < amount o -> amount r = amount o).
Proof.
  intros Hu H o r Ho Hr Hw Hc. destruct (reach_plain cfg u y Hu H) as [A B].
  destruct (outcome_copy _ _ _ _ A B o r Ho Hr Hw Hc) as (_ & _ & E1 & E2 & E3 & E4 & E5 & _). auto.
Qed.

Lemma queued_permission cfg u y : distinct_uuids u -> steps cfg honest (init_sys u) y ->
  forall o r, In o (s_txns (y_st y)) -> In r (s_txns (y_st y)) -> waiting o -> outcome_of o r ->
  t_inflight (r_t r) = t_inflight (r_t o) /\ t_allow (r_t r) = t_allow (r_t o)
  /\ (t_limit (r_t r) = t_limit (r_t o) \/ t_limit (r_t r) = 0%Q).
Proof.
  intros Hu H o r Ho Hr Hw Hc. destruct (reach_honest cfg u y Hu H) as [A B].
  destruct (outcome_copy _ _ _ _ A B o r Ho Hr Hw Hc) as (_ & _ & _ & _ & _ & _ & _ & E & E').
  destruct (E Logic.I) as [F1 F2]. auto.
Qed.

Lemma refunded_once cfg u y : distinct_uuids u -> steps cfg no_recon_flag (init_sys u) y ->
  forall o r1 r2, In o (s_txns (y_st y)) -> In r1 (s_txns (y_st y)) -> In r2 (s_txns (y_st y)) -> ~ waiting o ->
  gives_back (s_txns (y_st y)) o r1 -> gives_back (s_txns (y_st y)) o r2 -> r1 = r2.
Proof. intros Hu H. destruct (reach_plain cfg u y Hu H) as [A B]. exact (refund_unique _ _ _ _ A B). Qed.

Lemma applied_kind cfg s o : inv cfg s -> In o (s_txns s) -> t_status (r_t o) = SApplied ->
  r_kind o = KPost \/ r_kind o = KCommit.
Proof.
  intros A Ho E. pose proof (kind_of _ _ A o Ho) as K. rewrite E in K.
  destruct (r_kind o); simpl in K; auto; try discriminate. destruct K as [K|[K|K]]; discriminate.
Qed.

Lemma refund_exact cfg u y : distinct_uuids u -> steps cfg honest (init_sys u) y ->
  forall o r, In o (s_txns (y_st y)) -> In r (s_txns (y_st y)) -> t_status (r_t o) = SApplied -> 0 < amount o ->
  gives_back (s_txns (y_st y)) o r ->
  t_status (r_t r) = SApplied /\ t_cur (r_t r) = t_cur (r_t o) /\ forall id, net id [o] + net id [r] = 0.
Proof.
  intros Hu H o r Ho Hr E Hp G. destruct (reach_honest cfg u y Hu H) as [A B].
  assert (Hw : ~ waiting o) by (intros [W|W]; congruence).
  destruct (refund_reverses _ _ _ _ A B o r Ho Hr Hw Hp G) as (E1 & E2 & E3 & E4 & E5).
  specialize (E5 Logic.I). rewrite E in E5.
  pose proof (kind_of _ _ A r Hr) as K. rewrite E5 in K. split; [exact K|]. split; [exact E3|].
  intros id. unfold net, credits, debits, total, settled. simpl. rewrite E5, E1, E2, E4.
  destruct (applied_kind _ _ o A Ho E) as [-> | ->];
    destruct (String.eqb (destination o) id), (String.eqb (source o) id); lia.
Qed.

Lemma commits_visible cfg u y : distinct_uuids u -> steps cfg honest (init_sys u) y ->
  forall r, In r (s_txns (y_st y)) -> t_status (r_t r) = SApplied ->
  (r_kind r = KCommit <-> exists h, In h (s_txns (y_st y)) /\ t_id (r_t h) = t_parent (r_t r) /\ is_hold h).
Proof.
  intros Hu H. destruct (reach_honest cfg u y Hu H) as [A B]. exact (commit_visible _ _ _ _ A B Logic.I).
Qed.
