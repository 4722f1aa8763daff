(** Dry runs of refunds, in reached states. *)
From Coq Require Import ZArith QArith List String Bool Lia.
From Verif Require Import LedgerInv LedgerSafe HoldSpec ProvInv ProvThms BatchProof BulkProof PreviewAlone PreviewBulk PreviewReach PreviewAct PreviewAction PreviewActThms PreviewRefund.
From Verif Require Import Base MoneyModel SplitModel BalanceModel LedgerModel LedgerProgs LedgerSpec ConcModel BatchSpec BulkSpec PreviewModel PreviewSpec PreviewRefundSpec.
Import ListNotations.
Local Open Scope string_scope.
Open Scope Z_scope.
Local Open Scope list_scope.

Lemma length_app a b : String.length (a ++ b) = (String.length a + String.length b)%nat.
Proof. induction a as [|c a IH]; simpl; [reflexivity|]. f_equal. exact IH. Qed.
Lemma suffix_inj z a : forall b, (a ++ z = b ++ z)%string -> a = b.
Proof.
  induction a as [|c a IH]; intros [|d b] H; [reflexivity|exfalso|exfalso|].
  - apply (f_equal String.length) in H. rewrite !length_app in H. simpl in H. lia.
  - apply (f_equal String.length) in H. rewrite !length_app in H. simpl in H. lia.
  - simpl in H. injection H as -> H. f_equal. apply IH, H.
Qed.

Section Refund.
Variables (cfg : config) (s0 : state).
Hypothesis Ht : tidy s0.

Definition given (l : txn) : bool := refund_exists (t_id l) (t_src l) (t_dst l) (s_txns s0).

(** ** One transaction *)
Record fitr (l : txn) : Prop := {
  fr_status : takes l;
  fr_src : get_bal (t_src l) (s_bals s0) <> None; fr_dst : get_bal (t_dst l) (s_bals s0) <> None;
  fr_src0 : t_src l <> ""; fr_dst0 : t_dst l <> "";
  fr_keys : t_src l <> refund_lock (t_id l) /\ t_dst l <> refund_lock (t_id l) }.
Record openr (s : state) (l : txn) : Prop := {
  or_row : exists t0, get_row (t_id l) (s_txns s) = Some t0 /\ db_view (meta_of (s_meta s) t0) t0 = l;
  or_given : refund_exists (t_id l) (t_src l) (t_dst l) (s_txns s) = given l;
  or_ref : given l = false -> ref_exists (t_id l ++ "_refund") (s_txns s) = false }.
Lemma openr_keeps s s2 r l : openr s l -> s_txns s2 = r :: s_txns s -> s_meta s2 = s_meta s ->
  t_parent (r_t r) <> t_id l -> t_ref (r_t r) <> (t_id l ++ "_refund")%string ->
  ~ In (t_id (r_t r)) (map (fun r => t_id (r_t r)) (s_txns s)) -> openr s2 l.
Proof.
  intros [(t0 & G & E) O D] R M P Q I. apply String.eqb_neq in P, Q. constructor.
  - exists t0. rewrite R, M. split; [|exact E]. simpl. destruct (String.eqb_spec (t_id (r_t r)) (t_id l)) as [K|]; [|exact G].
    exfalso. apply I. rewrite K. exact (get_row_in _ _ _ G).
  - rewrite R. unfold refund_exists in *. simpl. rewrite P. exact O.
  - intros K. rewrite R, ref_exists_cons, Q. exact (D K).
Qed.
Definition lookr (w : balance_set) (l : txn) : prog (res (balance_set * option err)) :=
  if given l then Ret (Ok (w, Some EAlreadyRefunded)) else project_leg cfg w (ready_leg (prepare_refund l "" true (fun m => m))).

Lemma ready_ends l : let x := ready_leg (prepare_refund l "" true (fun m => m)) in t_src x = t_dst l /\ t_dst x = t_src l /\ t_cur x = t_cur l.
Proof.
  cbv zeta. unfold ready_leg. set (z := prepare_refund l "" true (fun m => m)).
  rewrite (precision_fields (normalize z) _ t_src), (precision_fields (normalize z) _ t_dst), (precision_fields (normalize z) _ t_cur) by reflexivity.
  rewrite (normal_fields z _ t_src), (normal_fields z _ t_dst), (normal_fields z _ t_cur) by reflexivity. repeat split.
Qed.
Lemma ready_error l b c e : apply_to_balances (ready_leg (prepare_refund l "" true (fun m => m))) b c = Err e -> e <> EAlreadyRefunded.
Proof.
  set (x := ready_leg _).
  assert (E : apply_to_balances x b c = update_balances x b c).
  { assert (S : sort x = 0%nat).
    { unfold x, ready_leg, sort. set (z := prepare_refund l "" true (fun m => m)). rewrite (precision_fields (normalize z) _ t_status) by reflexivity.
      unfold normalize. change (t_status z) with SNone. cbv iota. cbn [with_status t_status]. destruct (t_inflight z); reflexivity. }
    unfold sort in S. unfold apply_to_balances. destruct (t_status x); try reflexivity; discriminate S. }
  rewrite E. unfold update_balances, validate_txn, can_process. cbv zeta. clearbody x.
  repeat match goal with |- context[if ?d then _ else _] => destruct d end; intros [= <-]; discriminate.
Qed.

Lemma leg_told n m upd w s l : tells s0 w s -> still s -> fitr l -> openr s l ->
  exists w1 e, run n (lookr w l) s0 = (s0, Ok (w1, e)) /\
  match e with
  | None => exists s2 y r, run m (refund cfg (t_id l) true upd) s = (s2, Ok y) /\ tells s0 w1 s2 /\ still s2
      /\ s_txns s2 = r :: s_txns s /\ s_meta s2 = s_meta s /\ t_parent (r_t r) = t_id l /\ t_ref (r_t r) = (t_id l ++ "_refund")%string
      /\ ~ In (t_id (r_t r)) (map (fun r => t_id (r_t r)) (s_txns s))
      /\ (forall z, In z (map fst w1) <-> z = t_src l \/ z = t_dst l \/ In z (map fst w))
  | Some er => exists s2 er', run m (refund cfg (t_id l) true upd) s = (s2, Err er') /\ (er = EAlreadyRefunded -> er' = er)
  end.
Proof.
  intros T C [F1 F2 F3 F4 F5 [F6 F7]] [(t0 & G & Ev) Og Or].
  destruct (get_bal (t_src l) (s_bals s0)) as [sb0|] eqn:Gs0; [|contradiction]. destruct (get_bal (t_dst l) (s_bals s0)) as [db0|] eqn:Gd0; [|contradiction].
  assert (As : starts_with_at (t_src l) = false) by (eapply plain_get; eauto).
  assert (Ad : starts_with_at (t_dst l) = false) by (eapply plain_get; eauto).
  unfold lookr. destruct (given l) eqn:Gv.
  - exists w, (Some EAlreadyRefunded). split; [reflexivity|]. exists s, EAlreadyRefunded. split; [|auto].
    assert (E0 : t_src t0 = t_src l /\ t_dst t0 = t_dst l /\ t_status t0 = t_status l) by (rewrite <- Ev; repeat split). destruct E0 as (E1 & E2 & E3).
    rewrite (refund_run m cfg (t_id l) s t0 upd (proj1 C) G); unfold takes in *; rewrite ?E1, ?E2, ?E3; try assumption. rewrite Og. reflexivity.
  - specialize (Or eq_refl). set (x := ready_leg (prepare_refund l "" true (fun m => m))).
    destruct (ready_ends l) as (X1 & X2 & X3). fold x in X1, X2, X3. unfold project_leg. rewrite X1, X2, X3.
    destruct (resolve_tells cfg s0 Ht n w s (t_dst l) (t_cur l) db0 T Gd0 F5) as (w1 & b1 & r1 & R1 & T1 & I1 & G1 & A1 & K1).
    rewrite run_bindr, R1. cbn [fst snd].
    destruct (resolve_tells cfg s0 Ht n w1 s (t_src l) (t_cur l) sb0 T1 Gs0 F4) as (w2 & b2 & r2 & R2 & T2 & I2 & G2 & A2 & K2).
    rewrite run_bindr, R2. cbn [fst snd]. unfold same_balance. rewrite I1, I2.
    pose proof (refund_outcome m cfg s t0 l r1 r2 upd C G Ev F1 As Ad F6 F7 Og Or G1 G2) as O. cbv zeta in O. fold x in O.
    destruct (String.eqb_spec (t_dst l) (t_src l)) as [D|D].
    + exists w2, (Some EConflict). split; [reflexivity|]. destruct O as (s2 & e & O). exists s2, e. split; [exact O|]. intros Q. discriminate Q.
    + destruct (reversal_facts l (t_meta l) "" (fun m => m)) as (_ & _ & _ & _ & _ & Y6 & Y7 & Y8 & _ & Ym).
      assert (Ez : ready_leg (prepare_refund (db_view (t_meta l) l) "" true (fun m => m)) = x).
      { assert (Ed : db_view (t_meta l) l = l) by (rewrite <- Ev; reflexivity). rewrite Ed. reflexivity. }
      rewrite Ez in Ym. pose proof Ym as (_ & _ & _ & _ & Y1 & Y2 & Y3).
      assert (Sx : sort x = 0%nat) by (rewrite <- Y3; unfold sort; rewrite Y8; reflexivity).
      assert (K : match apply_to_balances x r1 r2, apply_to_balances x b1 b2 with
        | Ok (t1, a, b), Ok (t1', a2, b2) => alike a a2 /\ alike b b2 /\ t_precise t1' = t_precise t1 /\ 0 < t_precise t1
        | Err e, Err e' => e = e' | _, _ => False end).
      { apply free_alike; [apply same_money_refl|congruence|congruence|exact Sx|exact A1|exact A2]. }
      unfold project. destruct (apply_to_balances x b1 b2) as [[[y1 s'] d']|e1] eqn:Ea1.
      * destruct (apply_to_balances x r1 r2) as [[[y2 s''] d'']|e2]; [|contradiction]. destruct K as (K3 & K4 & _).
        cbv iota beta. eexists. exists None. split; [reflexivity|].
        destruct O as (s2 & r & y & O1 & O2 & O3 & O4 & O5 & O6 & O7 & O9).
        destruct (apply_ids _ _ _ _ _ _ Ea1) as (J1 & _ & J2 & _).
        exists s2, y, r. split; [exact O1|]. split; [|split; [exact O7|split; [exact O2|split; [exact O6|split; [exact O3|split; [exact O4|split; [exact O5|]]]]]]].
        -- clearbody x. constructor.
           ++ rewrite !keys_put. apply (te_nodup _ _ _ T2).
           ++ intros z p. rewrite !get_put. rewrite (String.eqb_sym (t_dst l) z), (String.eqb_sym (t_src l) z). destruct (set_get z w2) as [q|] eqn:Ez'.
              ** destruct (te_in _ _ _ T2 z q Ez') as (b0 & b & Q1 & Q2 & Q3 & Q4 & Q5 & Q6 & Q7). destruct (O9 z b Q6) as (b' & Gb' & Hb').
                 revert Hb'. destruct (String.eqb_spec z (t_src l)) as [Ed|Ed]; destruct (String.eqb_spec z (t_dst l)) as [Es|Es]; simpl;
                   intros Hb' [= <-]; cbn [pj_virtual pj_before pj_after].
                 { congruence. }
                 { exists b0, b'. repeat (split; [assumption|]). split; [congruence|]. split; [exact Gb'|].
                   eapply alike_trans; [apply alike_sym; exact Hb'|exact K4]. }
                 { exists b0, b'. repeat (split; [assumption|]). split; [congruence|]. split; [exact Gb'|].
                   eapply alike_trans; [apply alike_sym; exact Hb'|exact K3]. }
                 { subst b'. exists b0, b. repeat (split; [assumption|]). exact Q7. }
              ** destruct (String.eqb z (t_src l)); destruct (String.eqb z (t_dst l)); simpl; discriminate.
           ++ intros z bz. rewrite !get_put. intros Hn Gz.
              assert (Ez' : set_get z w2 = None).
              { destruct (set_get z w2) as [q|] eqn:Ez'; [|reflexivity]. try rewrite Ez' in Hn.
                destruct (String.eqb (t_src l) z); destruct (String.eqb (t_dst l) z); simpl in Hn; discriminate. }
              destruct (te_out _ _ _ T2 z bz Ez' Gz) as (b & Gb & Ab). destruct (O9 z b Gb) as (b' & Gb' & Hb').
              assert (Nz : z <> t_src l /\ z <> t_dst l).
              { apply get_none in Ez'. split; intros ->; apply Ez'; apply K2; [left; reflexivity|right; apply K1; left; reflexivity]. }
              destruct Nz as [N1 N2]. apply String.eqb_neq in N1, N2. rewrite N1, N2 in Hb'. subst b'. eauto.
        -- intros z. rewrite !keys_put, K2, K1. tauto.
      * destruct (apply_to_balances x r1 r2) as [[[y2 s''] d'']|e2]; [contradiction|]. subst e2.
        eexists. exists (Some e1). split; [reflexivity|]. destruct O as (s2 & e & O). exists s2, e. split; [exact O|].
        intros Q. exfalso. exact (ready_error _ _ _ _ Ea1 Q).
Qed.

(** ** All of them *)
Lemma lookr_total n w l : fitr l -> exists y, run n (lookr w l) s0 = (s0, Ok y).
Proof.
  intros [F1 F2 F3 F4 F5 _]. unfold lookr. destruct (given l); [eexists; reflexivity|].
  destruct (ready_ends l) as (X1 & X2 & _). unfold project_leg. set (x := ready_leg _) in *. rewrite X1, X2.
  destruct (resolve_total cfg s0 Ht n w (t_dst l) (t_cur x) F3 F5) as ([w1 b1] & R1). rewrite run_bindr, R1. cbn [fst snd].
  destruct (resolve_total cfg s0 Ht n w1 (t_src l) (t_cur x) F2 F4) as ([w2 b2] & R2). rewrite run_bindr, R2. cbn [fst snd].
  destruct (same_balance b1 b2); [eexists; reflexivity|]. destruct (project x b1 b2) as [[why s'] d']. eexists. reflexivity.
Qed.
Lemma refunds_step n w l r : run n (refund_legs cfg w (l :: r)) s0
  = run n (bindr (lookr w l) (fun y => bindr (refund_legs cfg (fst y) r) (fun x => Ret (Ok (fst x, match snd y with Some e => Some e | None => snd x end))))) s0.
Proof. reflexivity. Qed.
Lemma refunds_total n legs : forall w, Forall fitr legs -> exists y, run n (refund_legs cfg w legs) s0 = (s0, Ok y).
Proof.
  induction legs as [|l r IH]; intros w F; [eexists; reflexivity|]. inversion F as [|? ? F1 F2]; subst.
  rewrite refunds_step, run_bindr. destruct (lookr_total n w l F1) as (y & ->). cbn [fst snd]. rewrite run_bindr.
  destruct (IH (fst y) F2) as (z & ->). cbn [fst snd run]. eexists. reflexivity.
Qed.
Lemma each_refund m upd l r s : run m (for_each (fun l => refund cfg (t_id l) true upd) (l :: r)) s
  = let R := run m (refund cfg (t_id l) true upd) s in
    let R' := run m (for_each (fun l => refund cfg (t_id l) true upd) r) (fst R) in (fst R', snd R :: snd R').
Proof. cbn [for_each]. rewrite run_bind. cbv zeta. rewrite run_bind. reflexivity. Qed.

Lemma refunds_told n m upd legs : forall w s, tells s0 w s -> still s -> Forall fitr legs -> Forall (openr s) legs -> NoDup (map t_id legs) ->
  let R := run m (for_each (fun l => refund cfg (t_id l) true upd) legs) s in
  exists w' e, run n (refund_legs cfg w legs) s0 = (s0, Ok (w', e)) /\
  match e with
  | None => Forall (fun r => exists t, r = Ok t) (snd R) /\ tells s0 w' (fst R)
            /\ (forall z, In z (map fst w') <-> In z (map fst w) \/ exists l, In l legs /\ names l z)
  | Some er => ~ Forall (fun r => exists t, r = Ok t) (snd R) /\ (er = EAlreadyRefunded -> In (Err er) (snd R))
  end.
Proof.
  induction legs as [|l r IH]; intros w s T C F O N R.
  - exists w, None. split; [reflexivity|]. split; [constructor|]. split; [exact T|]. intros z. split; [auto|]. intros [H|(l & [] & _)]. exact H.
  - inversion F as [|? ? F1 F2]; subst. inversion O as [|? ? O1 O2]; subst. simpl in N. inversion N as [|? ? N1 N2]; subst.
    unfold R. rewrite each_refund. cbv zeta. cbn [fst snd]. rewrite refunds_step, run_bindr.
    destruct (leg_told n m upd w s l T C F1 O1) as (w1 & e & E1 & H). rewrite E1. cbn [fst snd]. destruct e as [er|].
    + destruct (refunds_total n r w1 F2) as (y & Ey). rewrite run_bindr, Ey. cbn [fst snd run]. exists (fst y), (Some er). split; [reflexivity|].
      destruct H as (s2 & er' & E2 & H). rewrite E2. cbn [fst snd]. split.
      * intros Q. inversion Q as [|? ? [t Q1] _]; subst. discriminate.
      * intros Q. left. rewrite (H Q). reflexivity.
    + destruct H as (s2 & y & row & E2 & T2 & C2 & X1 & X2 & X3 & X4 & X5 & X6). rewrite E2. cbn [fst snd].
      assert (O3 : Forall (openr s2) r).
      { rewrite Forall_forall in O2 |- *. intros l' Il.
        assert (Ne : t_id l <> t_id l') by (intros Q; apply N1; rewrite Q; apply in_map; exact Il).
        apply (openr_keeps s s2 row l' (O2 l' Il) X1 X2); [rewrite X3; exact Ne| |exact X5].
        rewrite X4. intros Q. apply suffix_inj in Q. contradiction. }
      destruct (IH w1 s2 T2 C2 F2 O3 N2) as (w' & e & E3 & H). rewrite run_bindr, E3. cbn [fst snd run]. exists w', e. split; [reflexivity|].
      destruct e as [er|].
      * destruct H as [H1 H2]. split; [intros Q; apply H1; inversion Q; assumption|intros Q; right; auto].
      * destruct H as (H1 & H2 & H3). split; [constructor; [eauto|exact H1]|]. split; [exact H2|].
        intros z. rewrite H3, X6. split.
        -- intros [[->|[->|Hz]]|(l' & Il & Nl)]; [right; exists l|right; exists l|auto|right; exists l'; simpl; auto]; (split; [left; reflexivity|]); [left|right]; reflexivity.
        -- intros [Hz|(l' & [<-|Il] & Nl)]; [auto|destruct Nl; auto|right; eauto].
Qed.
End Refund.

(** ** In reached states *)
Definition wantedr (id : string) (t : txn) : bool :=
  (String.eqb (t_id t) id && status_eqb (t_status t) SApplied)
  || (String.eqb (t_parent t) id && (status_eqb (t_status t) SApplied || status_eqb (t_status t) SVoid))
  || (status_eqb (t_status t) SApplied && String.eqb (m_qparent (t_meta t)) id).
Lemma wantedr_iff s id r : In r (s_txns s) -> (wantedr id (seen_as s r) = true <-> refundable s id r).
Proof.
  intros I. unfold wantedr, refundable, settled_row, seen_as. cbn [db_view t_id t_parent t_meta t_status].
  rewrite !orb_true_iff, !andb_true_iff, orb_true_iff, !String.eqb_eq. destruct (t_status (r_t r)); simpl; intuition congruence.
Qed.
Lemma refundable_in s id l : In l (filter (wantedr id) (map (seen_as s) (s_txns s))) <-> exists h, refundable s id h /\ l = seen_as s h.
Proof.
  rewrite filter_In, in_map_iff. split.
  - intros ((h & <- & Ih) & W). apply wantedr_iff in W; [|exact Ih]. eauto.
  - intros (h & U & ->). split; [exists h; split; [reflexivity|apply U]|]. apply wantedr_iff; [apply U|auto].
Qed.
Lemma filter_nodup f s : NoDup (map (fun r => t_id (r_t r)) (s_txns s)) -> NoDup (map t_id (filter f (map (seen_as s) (s_txns s)))).
Proof.
  intros N. assert (Q : NoDup (map t_id (map (seen_as s) (s_txns s)))) by (rewrite map_map; exact N).
  revert Q. generalize (map (seen_as s) (s_txns s)). intros l. induction l as [|x l IH]; simpl; intros Q; [constructor|].
  inversion Q as [|? ? Q1 Q2]; subst. destruct (f x); [|auto]. simpl. constructor; [|auto].
  intros I. apply Q1. apply in_map_iff in I as (z & Ez & Iz). apply filter_In in Iz as [Iz _]. rewrite <- Ez. apply in_map. exact Iz.
Qed.

Theorem refund_foretold cfg u y id n m :
  distinct_uuids u -> steps cfg no_recon_flag (init_sys u) y -> s_locks (y_st y) = [] -> refund_refs_free (y_st y) id ->
  let R := run m (refund_batch cfg id true) (y_st y) in
  match snd (run n (preview_refund cfg id) (y_st y)) with
  | Err _ => snd R = []
  | Ok p => foretells_refund p (y_st y) id (fst R) (snd R)
  end.
Proof.
  intros Hu Hy Hl Hr R. destruct (reach_plain cfg u y Hu Hy) as (A & B).
  destruct (reach_new_names cfg u y Hu Hy) as [T N].
  set (s := y_st y) in *. set (legs := filter (wantedr id) (map (seen_as s) (s_txns s))).
  assert (C : still s) by (split; [exact Hl|auto]).
  assert (Ef : Forall (fitr s) legs).
  { apply Forall_forall. intros l Il. apply refundable_in in Il as (h & [Ih Hh] & ->).
    pose proof (i_ends _ _ A) as En. rewrite Forall_forall in En. destruct (En h Ih) as [E1 E2].
    assert (Hb : forall x, In x (map b_id (s_bals s)) -> get_bal x (s_bals s) <> None /\ exists q, x = ("bln" ++ "_" ++ q)%string).
    { intros x I. apply in_map_iff in I as (b & <- & Ib). split; [rewrite (tidy_get s b T Ib); discriminate|]. exact (c_bals _ _ _ B b Ib). }
    destruct (Hb _ E1) as (G1 & q1 & Q1). destruct (Hb _ E2) as (G2 & q2 & Q2). unfold source, destination in *.
    constructor; cbn [seen_as db_view t_status t_src t_dst t_id t_precise].
    - unfold takes. cbn [seen_as db_view t_status]. unfold settled_row in Hh. tauto.
    - exact G1.
    - exact G2.
    - rewrite Q1. discriminate.
    - rewrite Q2. discriminate.
    - rewrite Q1, Q2. split; discriminate. }
  pose proof (i_ids _ _ A) as Nd.
  assert (Eo : Forall (openr s s) legs).
  { apply Forall_forall. intros l Il. apply refundable_in in Il as (h & Rh & ->). constructor.
    - exists (r_t h). split; [|reflexivity]. apply row_get; [exact Nd|apply Rh].
    - reflexivity.
    - intros Gv. destruct (ref_exists _ _) eqn:E; [exfalso|reflexivity].
      unfold ref_exists in E. apply existsb_exists in E as (r & Ir & Er). apply String.eqb_eq in Er.
      destruct (Hr h r Rh Ir Er) as (P1 & P2 & P3).
      unfold given, refund_exists in Gv. cbn [seen_as db_view t_id t_src t_dst] in Gv.
      assert (Q : existsb (fun x => String.eqb (t_parent (r_t x)) (t_id (r_t h)) && String.eqb (t_src (r_t x)) (t_dst (r_t h)) && String.eqb (t_dst (r_t x)) (t_src (r_t h)))%bool (s_txns s) = true).
      { apply existsb_exists. exists r. split; [exact Ir|]. rewrite P1, P2, P3, !String.eqb_refl. reflexivity. }
      congruence. }
  assert (ER : R = run m (for_each (fun l => refund cfg (t_id l) true (fun m => m)) legs) s) by reflexivity.
  destruct (refunds_told cfg s T n m (fun m => m) legs [] s (tells_start s) C Ef Eo (filter_nodup _ s Nd)) as (w & e & E1 & H).
  rewrite <- ER in H.
  assert (EP : run n (preview_refund cfg id) s = match legs with [] => (s, Err ETxnNotFound)
     | _ => (s, Ok {| pv_rejection := e; pv_balances := projections w |}) end).
  { unfold preview_refund. rewrite run_bind. assert (Fr : run n (act (ORefundable id)) s = (s, legs)) by reflexivity. rewrite Fr. cbn [fst snd].
    destruct legs as [|l r]; [reflexivity|]. rewrite run_bindr, E1. reflexivity. }
  rewrite EP. clear EP. assert (Hc : legs = [] \/ legs <> []) by (destruct legs; [auto|right; discriminate]).
  destruct Hc as [El|Ne].
  { rewrite El in *. cbn [snd]. rewrite ER. reflexivity. }
  assert (Es : snd (match legs with [] => (s, Err ETxnNotFound) | _ => (s, Ok {| pv_rejection := e; pv_balances := projections w |}) end)
     = Ok {| pv_rejection := e; pv_balances := projections w |}) by (destruct legs; [contradiction|reflexivity]).
  rewrite Es. clear Es.
  assert (Nr : snd R <> []).
  { rewrite ER. destruct legs as [|l r]; [contradiction|]. rewrite each_refund. discriminate. }
  clearbody R. unfold foretells_refund, would_apply. cbn [pv_rejection pv_balances].
  destruct e as [er|].
  - destruct H as [H1 H2]. split; [|split].
    + split; [discriminate|]. intros [_ Q]. contradiction.
    + discriminate.
    + intros [= ->]. exact (H2 eq_refl).
  - destruct H as (H1 & H2 & H3). split; [split; auto|]. split; [|discriminate]. intros _. split.
    + intros h x Rh Nx.
      assert (Ix : In x (map fst w)).
      { apply H3. right. exists (seen_as s h). split; [apply refundable_in; eauto|]. destruct Nx as [->| ->]; [left|right]; reflexivity. }
      destruct (set_get x w) as [p|] eqn:G; [|apply get_none in G; contradiction].
      exists p. split; [|split; [eapply entry_about; eauto|eapply entry_shows; eauto]].
      unfold projections. clear - G. induction w as [|[k q] w IH]; simpl in *; [discriminate|].
      destruct (String.eqb k x); [injection G as <-; auto|right; auto].
    + intros q Iq. unfold projections in Iq. apply in_map_iff in Iq as ([x p] & <- & Ip). cbn [snd].
      assert (Ix : In x (map fst w)) by (apply in_map_iff; exists (x, p); auto).
      pose proof (get_in x w p (te_nodup _ _ _ H2) Ip) as G.
      apply H3 in Ix. destruct Ix as [[]|(l & Il & Nl)]. apply refundable_in in Il as (h & Rh & ->).
      exists h, x. split; [exact Rh|]. split; [exact Nl|]. eapply entry_about; eauto.
Qed.
