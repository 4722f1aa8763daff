(** A dry run tells what the post would do. *)
From Coq Require Import ZArith QArith List String Bool Lia.
From Verif Require Import LedgerInv LedgerSafe BatchProof BulkProof MoneyProof PreviewAlone PreviewPost.
From Verif Require Import Base MoneyModel SplitModel BalanceModel LedgerModel LedgerProgs ConcModel BatchSpec BulkSpec PreviewModel PreviewSpec.
Import ListNotations.
Local Open Scope string_scope.
Open Scope Z_scope.

Lemma fresh_facts n s : tidy s -> new_names s -> tidy (after_fresh n s) /\ new_names (after_fresh n s) /\ later s (after_fresh n s)
  /\ s_txns (after_fresh n s) = s_txns s /\ s_locks (after_fresh n s) = s_locks s
  /\ (forall x c, view (after_fresh n s) x c = view s x c) /\ s_bals (after_fresh n s) = s_bals s.
Proof.
  intros T [N1 N2]. split; [exact T|]. split.
  - split; [exact N1|]. intros i Hi. simpl in Hi |- *. apply N2. lia.
  - split; [split; [reflexivity|simpl; lia]|]. repeat split.
Qed.
Lemma id_absent id l : id_exists id l = false <-> ~ In id (map (fun r => t_id (r_t r)) l).
Proof.
  unfold id_exists. induction l as [|r l IH]; simpl; [tauto|]. destruct (String.eqb_spec (t_id (r_t r)) id) as [E|E]; simpl.
  - split; [discriminate|]. intros H. exfalso. apply H. left. exact E.
  - rewrite IH. split; [intros H [Q|Q]; tauto|tauto].
Qed.
Lemma new_good n s t : tidy s -> new_names s -> s_locks s = [] -> unguessed s (t_src t) -> unguessed s (t_dst t) ->
  t_src t <> t_dst t -> sort t = 0%nat -> t_id t = ("txn_" ++ s_uuid s (s_ctr s))%string -> good (after_fresh n s) t.
Proof.
  intros T N L Us Ud D So Hi. destruct (fresh_facts n s T N) as (T1 & N1 & L1 & R1 & K1 & V1 & _).
  split; [exact T1|]. split; [exact N1|]. split; [congruence|]. split; [eapply unguessed_later; eauto|]. split; [eapply unguessed_later; eauto|].
  split; [exact D|]. split; [exact So|]. split.
  - apply id_absent. rewrite R1, Hi. apply N. lia.
  - intros i Hlt E. destruct N as [N _]. rewrite Hi in E. change (s_uuid (after_fresh n s)) with (s_uuid s) in E.
    change (s_ctr (after_fresh n s)) with (S (s_ctr s)) in Hlt. assert (s_uuid s (s_ctr s) = s_uuid s i) as E2 by (simpl in E; congruence). apply N in E2. lia.
Qed.
Lemma fresh_seen n s x c : seen (after_fresh n s) x c = seen s x c.
Proof. reflexivity. Qed.
Lemma same_ids cfg s x y a d : same_balance (seen_q cfg s x a) (seen_q cfg s y d) = same_balance a d.
Proof. unfold same_balance, seen_q. destruct (starts_with_at x); destruct (starts_with_at y); rewrite ?qb_id; reflexivity. Qed.
Lemma seen_q_alike cfg s x b : alike b (seen_q cfg s x b).
Proof. unfold seen_q, qb. destruct (starts_with_at x); [apply alike_refl|]. destruct (c_queued cfg); [apply alike_queued|apply alike_refl]. Qed.

Section Single.
Variables (cfg : config) (e : split_env) (t : txn) (s : state).
Hypothesis Ha : api_txn t.
Hypothesis Hu : unsplit t.
Hypothesis Hk : t_skipq t = true.
Hypothesis Ht : tidy s.
Hypothesis Hl : s_locks s = [].
Hypothesis Hn : new_names s.
Hypothesis Us : unguessed s (t_src t).
Hypothesis Ud : unguessed s (t_dst t).

Lemma nonneg : 0 <= t_precise (apply_precision_txn t).
Proof using Ha.
  clear -Ha.
  destruct Ha as (_ & _ & _ & _ & _ & Hp & Hq & Hz & _). unfold apply_precision_txn, apply_precision.
  destruct (Z.ltb_spec 0 (t_precise t)); simpl; [lia|].
  apply round_half_away_nonneg. apply Qmult_le_0_compat; [exact Hq|].
  unfold q_of_Z, Qle. simpl. destruct (Z.eqb_spec (t_prec t) 0); lia.
Qed.

Lemma ready_same : same_money (apply_precision_txn t) (ready_leg t).
Proof. apply same_money_precise, same_money_normal. Qed.
Lemma ready_keys : t_src (ready_leg t) = t_src t /\ t_dst (ready_leg t) = t_dst t /\ t_cur (ready_leg t) = t_cur t /\ t_ref (ready_leg t) = t_ref t
  /\ t_sources (ready_leg t) = t_sources t /\ t_dests (ready_leg t) = t_dests t.
Proof.
  unfold ready_leg, normalize, apply_precision_txn. destruct (t_status t); destruct (apply_precision _ _ _) as [[? ?] ?]; repeat split.
Qed.

Definition predicted (p : preview) (s' : state) (r : res txn) : Prop :=
  (would_apply p = true <-> exists t', r = Ok t')
  /\ (would_apply p = true -> exists src dst, pv_balances p = [src; dst]
        /\ about s (t_src t) (t_cur t) src /\ about s (t_dst t) (t_cur t) dst
        /\ shows s' (t_src t) (t_cur t) (pj_after src) /\ shows s' (t_dst t) (t_cur t) (pj_after dst))
  /\ (forall er, pv_rejection p = Some er -> ref_exists (t_ref t) (s_txns s) = false -> r = Err er).

Lemma single_predicts n m : (c_queued cfg = true -> starts_with_at (t_src t) = false) ->
  fst (run n (preview_transaction cfg e t) s) = s
  /\ match snd (run n (preview_transaction cfg e t) s) with
     | Err _ => exists er, snd (run m (queue_transaction cfg e t) s) = Err er
     | Ok p => predicted p (fst (run m (queue_transaction cfg e t) s)) (snd (run m (queue_transaction cfg e t) s))
     end.
Proof.
  intros Hc. pose proof Ha as (A1 & _ & A3 & A4 & _ & _ & _ & _ & _ & As & Ad & Asd & _).
  destruct ready_keys as (K1 & K2 & K3 & K4 & K5 & K6). destruct Hu as [Hu1 Hu2].
  assert (Ns : t_src t <> "") by (intros E; apply As in E; congruence).
  assert (Nd : t_dst t <> "") by (intros E; apply Ad in E; congruence).
  assert (Dn : t_src t <> t_dst t) by (intros E; apply (Asd Ns); auto).
  unfold preview_transaction. fold (ready_leg t). cbv zeta. rewrite K5, K6, Hu1, Hu2, single_preview_run by congruence. rewrite K1, K2, K3.
  split; [reflexivity|]. cbn [snd].
  destruct (post_run m cfg e t s (conj Hu1 Hu2) Hk A1 nonneg A3) as (t' & P1 & P2 & P3 & P4 & P5 & P6 & _ & P7 & P8).
  assert (G : good (after_fresh m s) t').
  { apply new_good; auto; rewrite ?P2, ?P3; auto. destruct P1 as (_ & _ & _ & _ & _ & _ & P1). rewrite P1. unfold sort.
    destruct (precision_keys t) as (_ & _ & _ & Kk & _). rewrite Kk, A3. reflexivity. }
  destruct (fresh_facts m s Ht Hn) as (T1 & N1 & L1 & R1 & Lk1 & V1 & _).
  destruct (seen s (t_src t) (t_cur t)) as [a|] eqn:Sa; destruct (seen s (t_dst t) (t_cur t)) as [d|] eqn:Sd.
  2-4: destruct (missing m cfg t' (after_fresh m s)) as (er & Er);
    [exact T1|exact N1|congruence|eapply unguessed_later; [exact L1|rewrite P2; assumption]|eapply unguessed_later; [exact L1|rewrite P3; assumption]
    |rewrite !fresh_seen, P2, P3, P4; auto|exists er; rewrite Er in P8; exact P8].
  pose proof (outcome m cfg t' (after_fresh m s) a d G) as O. rewrite !fresh_seen, P2, P3, P4, P5, R1 in O.
  specialize (O Hc Sa Sd). cbv zeta in O.
  assert (Q : qb cfg (after_fresh m s) a = seen_q cfg s (t_src t) a).
  { unfold seen_q, qb. destruct (c_queued cfg) eqn:Ec; [rewrite (Hc eq_refl); reflexivity|destruct (starts_with_at (t_src t)); reflexivity]. }
  rewrite Q in O.
  pose proof (apply_alike (ready_leg t) t' (seen_q cfg s (t_src t) a) (seen_q cfg s (t_dst t) d) (seen_q cfg s (t_src t) a) d
    (same_money_trans _ _ _ (same_money_sym _ _ ready_same) P1) (alike_refl _) eq_refl (alike_sym _ _ (seen_q_alike cfg s (t_dst t) d))) as E.
  unfold single_answer. rewrite K1, K2, K4. unfold project.
  destruct (apply_to_balances (ready_leg t) (seen_q cfg s (t_src t) a) (seen_q cfg s (t_dst t) d)) as [[[t1 a1] d1]|er] eqn:E1;
    destruct (apply_to_balances t' (seen_q cfg s (t_src t) a) d) as [[[t2 a2] d2]|er2] eqn:E2; try contradiction.
  - destruct E as (Ea & Ed & _). destruct (ref_exists (t_ref t) (s_txns s)) eqn:Er.
    + rewrite O in P8. unfold predicted. cbn [would_apply pv_rejection]. rewrite P8. split; [|split; [discriminate|congruence]].
      split; [discriminate|intros (x & ?); discriminate].
    + rewrite same_ids. destruct (same_balance a d) as [er|] eqn:Sb.
      * rewrite O in P8. unfold predicted. cbn [would_apply pv_rejection]. rewrite P8. split; [|split; [discriminate|congruence]].
        split; [discriminate|intros (x & ?); discriminate].
      * destruct O as (r & Or & Op). rewrite Or in P8. destruct P8 as (r' & P8). unfold predicted. rewrite P7, P8. cbn [would_apply pv_rejection pv_balances].
        split; [split; eauto|]. split; [|discriminate]. intros _. eexists _, _. split; [reflexivity|].
        split; [rewrite K3; apply seen_about, Sa|]. split; [rewrite K3; apply seen_about, Sd|]. cbn [pj_after].
        destruct Op as (_ & T3 & _ & _ & _ & _ & Op).
        assert (Ug : unguessed (after_fresh m s) (t_src t) /\ unguessed (after_fresh m s) (t_dst t)) by (split; eapply unguessed_later; eauto).
        destruct (Op (t_src t) (t_cur t) a (proj1 Ug) Sa) as (b1 & _ & Vb1 & Bb1 & _).
        destruct (Op (t_dst t) (t_cur t) d (proj2 Ug) Sd) as (b2 & _ & Vb2 & _ & Bb2 & _).
        split; [exists b1|exists b2].
        -- split; [apply view_named, Vb1; auto|]. eapply alike_trans; [exact Ea|auto].
        -- split; [apply view_named, Vb2; auto|]. eapply alike_trans; [exact Ed|auto].
  - subst er2. unfold predicted. cbn [would_apply pv_rejection].
    destruct (ref_exists (t_ref t) (s_txns s)) eqn:Er; rewrite O in P8; rewrite P8.
    + split; [|split; [discriminate|congruence]]. split; [discriminate|intros (x & ?); discriminate].
    + split; [|split; [discriminate|congruence]]. split; [discriminate|intros (x & ?); discriminate].
Qed.
End Single.
