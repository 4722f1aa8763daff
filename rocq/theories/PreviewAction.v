(** Dry runs of commits and voids against the real thing. *)
From Coq Require Import ZArith QArith List String Bool Lia.
From Verif Require Import LedgerInv LedgerSafe HoldSpec BatchProof BulkProof PreviewAlone PreviewBulk PreviewAct.
From Verif Require Import Base MoneyModel SplitModel BalanceModel LedgerModel LedgerProgs BatchSpec BulkSpec PreviewModel PreviewSpec.
Import ListNotations.
Local Open Scope string_scope.
Open Scope Z_scope.
Local Open Scope list_scope.

Section Action.
Variables (cfg : config) (is_void : bool) (amount : Z) (s0 : state).
Hypothesis Ht : tidy s0.

(** ** Working copies and real balances *)
Record tells (w : balance_set) (s : state) : Prop := {
  te_nodup : NoDup (map fst w);
  te_in : forall x p, set_get x w = Some p -> exists b0 b, get_bal x (s_bals s0) = Some b0 /\ pj_virtual p = false
     /\ b_id (pj_before p) = x /\ alike b0 (pj_before p) /\ b_id (pj_after p) = x
     /\ get_bal x (s_bals s) = Some b /\ alike b (pj_after p);
  te_out : forall x b0, set_get x w = None -> get_bal x (s_bals s0) = Some b0 ->
     exists b, get_bal x (s_bals s) = Some b /\ alike b0 b }.
Lemma tells_start : tells [] s0.
Proof. constructor; [constructor|discriminate|]. intros x b0 _ G. exists b0. split; [exact G|apply alike_refl]. Qed.

Lemma plain_get x b : get_bal x (s_bals s0) = Some b -> starts_with_at x = false.
Proof.
  intros G. destruct Ht as [_ F]. rewrite Forall_forall in F. rewrite <- (get_bal_id _ _ _ G). apply F. eapply get_bal_in; eauto.
Qed.
Lemma qb_alike s b : alike b (qb cfg s b).
Proof. unfold qb. destruct (c_queued cfg); [apply alike_queued|apply alike_refl]. Qed.

Lemma resolve_tells n w s x c b0 : tells w s -> get_bal x (s_bals s0) = Some b0 -> x <> "" ->
  exists w' b br, run n (set_resolve cfg w x c) s0 = (s0, Ok (w', b)) /\ tells w' s /\ b_id b = x
    /\ get_bal x (s_bals s) = Some br /\ alike br b
    /\ (forall z, In z (map fst w') <-> z = x \/ In z (map fst w)).
Proof.
  intros T G Nx. unfold set_resolve. destruct (set_get x w) as [p|] eqn:E.
  - destruct (te_in _ _ T x p E) as (b0' & b & H1 & H2 & H3 & H4 & H5 & H6 & H7). exists w, (pj_after p), b.
    split; [reflexivity|]. split; [exact T|]. split; [exact H5|]. split; [exact H6|]. split; [exact H7|].
    intros z. split; [auto|]. intros [->|H]; [|exact H]. destruct (In_dec string_dec x (map fst w)) as [I|I]; [exact I|]. apply get_none in I. congruence.
  - destruct (te_out _ _ T x b0 E G) as (b & Gb & Ab).
    assert (R : run n (preview_end cfg x c) s0 = (s0, Ok (qb cfg s0 b0, false))).
    { unfold preview_end. apply String.eqb_neq in Nx. rewrite Nx, (plain_get _ _ G), run_bindr, get_balance_run, G. reflexivity. }
    rewrite run_bindr, R. cbn [fst snd run].
    eexists. exists (qb cfg s0 b0), b. split; [reflexivity|].
    assert (Ex : b_id (qb cfg s0 b0) = x) by (rewrite qb_id; exact (get_bal_id _ _ _ G)).
    assert (Aq : alike b (qb cfg s0 b0)) by (eapply alike_trans; [apply alike_sym; exact Ab|apply qb_alike]).
    split; [|split; [exact Ex|split; [exact Gb|split; [exact Aq|]]]].
    + constructor.
      * rewrite map_app. simpl. apply get_none in E. rewrite <- (rev_involutive (map fst w ++ [x])%list).
        apply NoDup_rev. rewrite rev_app_distr. simpl. constructor; [rewrite <- in_rev; exact E|apply NoDup_rev, (te_nodup _ _ T)].
      * intros z p. rewrite get_app. destruct (set_get z w) as [q|] eqn:Ez; [intros [= <-]; exact (te_in _ _ T z q Ez)|].
        destruct (String.eqb_spec x z) as [<-|]; [|discriminate]. intros [= <-]. cbn [pj_virtual pj_before pj_after].
        exists b0, b. split; [exact G|]. split; [reflexivity|]. split; [exact Ex|]. split; [apply qb_alike|]. split; [exact Ex|]. split; [exact Gb|exact Aq].
      * intros z bz. rewrite get_app. destruct (set_get z w) as [q|] eqn:Ez; [discriminate|].
        destruct (String.eqb x z); [discriminate|]. intros _. apply (te_out _ _ T z bz Ez).
    + intros z. rewrite map_app, in_app_iff. simpl. intuition congruence.
Qed.

(** ** One hold *)
Record fit (l : txn) : Prop := {
  fi_status : t_status l = SInflight;
  fi_src : get_bal (t_src l) (s_bals s0) <> None; fi_dst : get_bal (t_dst l) (s_bals s0) <> None;
  fi_src0 : t_src l <> ""; fi_dst0 : t_dst l <> "";
  fi_keys : t_src l <> lock_name (t_id l) /\ t_dst l <> lock_name (t_id l);
  fi_left : 0 <= t_precise l - total_committed (t_id l) (s_txns s0) }.
Record open_in (s : state) (l : txn) : Prop := {
  op_row : exists t0, get_row (t_id l) (s_txns s) = Some t0 /\ db_view (meta_of (s_meta s) t0) t0 = l;
  op_open : parent_void (t_id l) (s_txns s) = false;
  op_done : total_committed (t_id l) (s_txns s) = total_committed (t_id l) (s_txns s0) }.
Lemma open_keeps s s2 r l : open_in s l -> s_txns s2 = r :: s_txns s -> s_meta s2 = s_meta s ->
  t_parent (r_t r) <> t_id l -> ~ In (t_id (r_t r)) (map (fun r => t_id (r_t r)) (s_txns s)) -> open_in s2 l.
Proof.
  intros [(t0 & G & E) O D] R M P I. apply String.eqb_neq in P. constructor.
  - exists t0. rewrite R, M. split; [|exact E]. simpl. destruct (String.eqb_spec (t_id (r_t r)) (t_id l)) as [Q|]; [|exact G].
    exfalso. apply I. rewrite Q. exact (get_row_in _ _ _ G).
  - rewrite R. unfold parent_void in *. simpl. rewrite P. exact O.
  - rewrite <- D, R. unfold total_committed. simpl. rewrite P. reflexivity.
Qed.
Lemma settlement_pos l v c x : 0 <= t_precise l - c -> settlement l v amount c = Ok x -> 0 < t_precise x.
Proof.
  intros H. unfold settlement. destruct v; cbv zeta.
  - destruct (Z.eqb_spec (t_precise l - c) 0); [discriminate|]. intros [= <-]. simpl. lia.
  - unfold commit_amount. destruct (Z.eqb_spec (t_precise l - c) 0); [discriminate|]. destruct (Z.ltb_spec amount 0); [discriminate|].
    destruct (Z.eqb_spec amount 0); [intros [= <-]; simpl; lia|]. destruct (_ <? _); [discriminate|]. destruct (_ <? _); [discriminate|].
    intros [= <-]. simpl. lia.
Qed.
(** The two ways of reading a row agree on what a settlement depends on. *)
Lemma settlement_views m t v c :
  match settlement (db_view_get m t) v amount c, settlement (db_view m t) v amount c with
  | Ok x, Ok x' => t_status x' = t_status x /\ t_precise x' = t_precise x
  | Err e, Err e' => e' = e
  | _, _ => False
  end.
Proof.
  unfold settlement. cbv zeta. change (t_precise (db_view_get m t)) with (t_precise t). change (t_precise (db_view m t)) with (t_precise t).
  destruct v; [destruct (_ =? 0); [reflexivity|split; reflexivity]|].
  change (commit_amount (db_view_get m t)) with (commit_amount (db_view m t)).
  destruct (commit_amount _ _ _) as [[p a]|e]; [split; reflexivity|reflexivity].
Qed.
Definition look (w : balance_set) (l : txn) : prog (res (balance_set * option err)) :=
  match settlement l is_void amount (total_committed (t_id l) (s_txns s0)) with
  | Err e => Ret (Ok (w, Some e))
  | Ok t => project_leg cfg w t
  end.
Lemma settlement_ends l v c x : settlement l v amount c = Ok x -> t_src x = t_src l /\ t_dst x = t_dst l /\ t_cur x = t_cur l.
Proof.
  unfold settlement. destruct v; cbv zeta.
  - destruct (_ =? 0); [discriminate|]. intros [= <-]. repeat split.
  - destruct (commit_amount _ _ _) as [[p a]|e]; [|discriminate]. intros [= <-]. repeat split.
Qed.

Lemma leg_tells n m w s l : tells w s -> calm s -> fit l -> open_in s l ->
  exists w1 e, run n (look w l) s0 = (s0, Ok (w1, e)) /\
  match e with
  | None => exists s2 y r, run m (action cfg is_void amount (t_id l)) s = (s2, Ok y) /\ tells w1 s2 /\ calm s2
      /\ s_txns s2 = r :: s_txns s /\ s_meta s2 = s_meta s /\ t_parent (r_t r) = t_id l
      /\ ~ In (t_id (r_t r)) (map (fun r => t_id (r_t r)) (s_txns s))
      /\ (forall z, In z (map fst w1) <-> z = t_src l \/ z = t_dst l \/ In z (map fst w))
  | Some er => exists s2 er', run m (action cfg is_void amount (t_id l)) s = (s2, Err er') /\ (er <> EConflict -> er' = er)
  end.
Proof.
  intros T C [F1 F2 F3 F4 F5 [F6 F7] F8] [(t0 & G & Ev) Op Dn].
  destruct (get_bal (t_src l) (s_bals s0)) as [sb0|] eqn:Gs0; [|contradiction]. destruct (get_bal (t_dst l) (s_bals s0)) as [db0|] eqn:Gd0; [|contradiction].
  set (mt := meta_of (s_meta s) t0) in *. set (c := total_committed (t_id l) (s_txns s0)) in *.
  assert (Es : t_src t0 = t_src l /\ t_dst t0 = t_dst l /\ t_status t0 = SInflight /\ t_id t0 = t_id l).
  { rewrite <- Ev. repeat split. rewrite <- Ev in F1. exact F1. }
  destruct Es as (Es1 & Es2 & Es3 & Es4).
  assert (Hi : is_inflight (db_view_get mt t0) = true) by (unfold is_inflight; simpl; rewrite Es3; reflexivity).
  assert (As : starts_with_at (t_src t0) = false) by (rewrite Es1; eapply plain_get; eauto).
  assert (Ad : starts_with_at (t_dst t0) = false) by (rewrite Es2; eapply plain_get; eauto).
  pose proof (settlement_views mt t0 is_void c) as SV. rewrite Ev in SV. unfold look. fold c.
  destruct (settlement l is_void amount c) as [x|e] eqn:Ex.
  - destruct (settlement (db_view_get mt t0) is_void amount c) as [x'|e'] eqn:Ex'; [|contradiction]. destruct SV as [SV1 SV2].
    pose proof (settlement_pos _ _ _ _ F8 Ex) as Px. destruct (settlement_ends _ _ _ _ Ex) as (X1 & X2 & X3).
    unfold project_leg. rewrite X1, X2, X3.
    destruct (resolve_tells n w s (t_src l) (t_cur l) sb0 T Gs0 F4) as (w1 & b1 & r1 & R1 & T1 & I1 & G1 & A1 & K1).
    rewrite run_bindr, R1. cbn [fst snd].
    destruct (resolve_tells n w1 s (t_dst l) (t_cur l) db0 T1 Gd0 F5) as (w2 & b2 & r2 & R2 & T2 & I2 & G2 & A2 & K2).
    rewrite run_bindr, R2. cbn [fst snd]. unfold same_balance. rewrite I1, I2.
    assert (Px' : 0 < t_precise x') by lia.
    assert (O : if String.eqb (t_src t0) (t_dst t0) then exists s2 e, run m (action cfg is_void amount (t_id l)) s = (s2, Err e)
      else match apply_to_balances x' r1 r2 with
      | Err e => exists s2, run m (action cfg is_void amount (t_id l)) s = (s2, Err e)
      | Ok (_, s', d') => exists s2 r y, run m (action cfg is_void amount (t_id l)) s = (s2, Ok y) /\ s_txns s2 = r :: s_txns s
          /\ t_parent (r_t r) = t_id l /\ (forall i, t_id (r_t r) = ("txn_" ++ s_uuid s i)%string -> i = s_ctr s)
          /\ ~ In (t_id (r_t r)) (map (fun r => t_id (r_t r)) (s_txns s))
          /\ s_meta s2 = s_meta s /\ calm s2 /\ later s s2 /\ ended (t_src t0) (t_dst t0) s' d' s s2
      end).
    { apply (leg_outcome m cfg is_void amount (t_id l) s t0 x' r1 r2 C G Hi Op As Ad); try congruence.
      rewrite Dn. exact Ex'. }
    rewrite Es1, Es2 in O.
    destruct (String.eqb_spec (t_src l) (t_dst l)) as [D|D].
    + exists w2, (Some EConflict). split; [reflexivity|]. destruct O as (s2 & e & O). exists s2, e. split; [exact O|]. intros Q. contradiction.
    + assert (K : match apply_to_balances x' r1 r2, apply_to_balances x b1 b2 with
        | Ok (t1, a, b), Ok (t1', a2, b2) => alike a a2 /\ alike b b2 /\ t_precise t1 = pay x' /\ t_precise t1' = pay x'
        | Err e, Err e' => e = e' | _, _ => False end).
      { apply act_alike; [|exact SV1| |exact A1|exact A2].
        - pose proof (settlement_status _ _ _ _ _ Ex') as Q. rewrite Q. destruct is_void; auto.
        - rewrite !pay_pos by lia. exact SV2. }
      unfold project. destruct (apply_to_balances x b1 b2) as [[[y1 s'] d']|e1] eqn:Ea1.
      * destruct (apply_to_balances x' r1 r2) as [[[y2 s''] d'']|e2]; [|contradiction]. destruct K as (K3 & K4 & _).
        cbv iota beta. eexists. exists None. split; [reflexivity|].
        destruct O as (s2 & r & y & O1 & O2 & O3 & _ & O5 & O6 & O7 & O8 & O9).
        destruct (apply_ids _ _ _ _ _ _ Ea1) as (J1 & _ & J2 & _).
        exists s2, y, r. split; [exact O1|]. split; [|split; [exact O7|split; [exact O2|split; [exact O6|split; [exact O3|split; [exact O5|]]]]]].
        -- constructor.
           ++ rewrite !keys_put. apply (te_nodup _ _ T2).
           ++ intros z p. rewrite !get_put. rewrite (String.eqb_sym (t_dst l) z), (String.eqb_sym (t_src l) z). destruct (set_get z w2) as [q|] eqn:Ez.
              ** destruct (te_in _ _ T2 z q Ez) as (b0 & b & Q1 & Q2 & Q3 & Q4 & Q5 & Q6 & Q7). destruct (O9 z b Q6) as (b' & Gb' & Hb').
                 revert Hb'. destruct (String.eqb_spec z (t_dst l)) as [Ed|Ed]; destruct (String.eqb_spec z (t_src l)) as [Es|Es]; simpl;
                   intros Hb' [= <-]; cbn [pj_virtual pj_before pj_after].
                 { congruence. }
                 { exists b0, b'. repeat (split; [assumption|]). split; [congruence|]. split; [exact Gb'|].
                   eapply alike_trans; [apply alike_sym; exact Hb'|exact K4]. }
                 { exists b0, b'. repeat (split; [assumption|]). split; [congruence|]. split; [exact Gb'|].
                   eapply alike_trans; [apply alike_sym; exact Hb'|exact K3]. }
                 { subst b'. exists b0, b. repeat (split; [assumption|]). exact Q7. }
              ** destruct (String.eqb z (t_dst l)); destruct (String.eqb z (t_src l)); simpl; discriminate.
           ++ intros z bz. rewrite !get_put. intros Hn Gz.
              assert (Ez : set_get z w2 = None).
              { destruct (set_get z w2) as [q|] eqn:Ez; [|reflexivity]. try rewrite Ez in Hn.
                destruct (String.eqb (t_dst l) z); destruct (String.eqb (t_src l) z); simpl in Hn; discriminate. }
              destruct (te_out _ _ T2 z bz Ez Gz) as (b & Gb & Ab). destruct (O9 z b Gb) as (b' & Gb' & Hb').
              assert (Nz : z <> t_dst l /\ z <> t_src l).
              { apply get_none in Ez. split; intros ->; apply Ez; apply K2; [left; reflexivity|right; apply K1; left; reflexivity]. }
              destruct Nz as [N1 N2]. apply String.eqb_neq in N1, N2. rewrite N1, N2 in Hb'. subst b'. eauto.
        -- intros z. rewrite !keys_put, K2, K1. tauto.
      * destruct (apply_to_balances x' r1 r2) as [[[y2 s''] d'']|e2]; [contradiction|]. subst e2.
        eexists. exists (Some e1). split; [reflexivity|]. destruct O as (s2 & O). exists s2, e1. split; [exact O|]. auto.
  - destruct (settlement (db_view_get mt t0) is_void amount c) as [x'|e'] eqn:Ex'; [contradiction|]. subst e'.
    exists w, (Some e). split; [reflexivity|]. exists s, e. split; [|auto].
    pose proof (leg_run m cfg is_void amount (t_id l) s t0 (proj1 C) G Hi Op As Ad) as R. rewrite Dn in R. fold mt c in R. rewrite Ex' in R.
    apply R; congruence.
Qed.

(** ** All the holds *)
Lemma resolve_total n w x c : get_bal x (s_bals s0) <> None -> x <> "" -> exists y, run n (set_resolve cfg w x c) s0 = (s0, Ok y).
Proof.
  intros G Nx. unfold set_resolve. destruct (set_get x w) as [p|]; [eexists; reflexivity|].
  destruct (get_bal x (s_bals s0)) as [b|] eqn:E; [|contradiction].
  assert (R : run n (preview_end cfg x c) s0 = (s0, Ok (qb cfg s0 b, false))).
  { unfold preview_end. apply String.eqb_neq in Nx. rewrite Nx, (plain_get _ _ E), run_bindr, get_balance_run, E. reflexivity. }
  rewrite run_bindr, R. cbn [fst snd run]. eexists. reflexivity.
Qed.
Lemma look_total n w l : fit l -> exists y, run n (look w l) s0 = (s0, Ok y).
Proof.
  intros [F1 F2 F3 F4 F5 _ _]. unfold look. destruct (settlement l is_void amount _) as [x|e] eqn:Ex; [|eexists; reflexivity].
  destruct (settlement_ends _ _ _ _ Ex) as (X1 & X2 & _). unfold project_leg. rewrite X1, X2.
  destruct (resolve_total n w (t_src l) (t_cur x) F2 F4) as ([w1 b1] & R1). rewrite run_bindr, R1. cbn [fst snd].
  destruct (resolve_total n w1 (t_dst l) (t_cur x) F3 F5) as ([w2 b2] & R2). rewrite run_bindr, R2. cbn [fst snd].
  destruct (same_balance b1 b2); [eexists; reflexivity|]. destruct (project x b1 b2) as [[why s'] d']. eexists. reflexivity.
Qed.
Lemma legs_step n w l r : run n (action_legs cfg is_void amount w (l :: r)) s0
  = run n (bindr (look w l) (fun y => bindr (action_legs cfg is_void amount (fst y) r) (fun x => Ret (Ok (fst x, match snd y with Some e => Some e | None => snd x end))))) s0.
Proof. reflexivity. Qed.
Lemma legs_total n legs : forall w, Forall fit legs -> exists y, run n (action_legs cfg is_void amount w legs) s0 = (s0, Ok y).
Proof.
  induction legs as [|l r IH]; intros w F; [eexists; reflexivity|]. inversion F as [|? ? F1 F2]; subst.
  rewrite legs_step, run_bindr. destruct (look_total n w l F1) as (y & ->). cbn [fst snd]. rewrite run_bindr.
  destruct (IH (fst y) F2) as (z & ->). cbn [fst snd run]. eexists. reflexivity.
Qed.
Lemma each_step m l r s : run m (for_each (fun l => action cfg is_void amount (t_id l)) (l :: r)) s
  = let R := run m (action cfg is_void amount (t_id l)) s in
    let R' := run m (for_each (fun l => action cfg is_void amount (t_id l)) r) (fst R) in (fst R', snd R :: snd R').
Proof. cbn [for_each]. rewrite run_bind. cbv zeta. rewrite run_bind. reflexivity. Qed.

Lemma legs_tells n m legs : forall w s, tells w s -> calm s -> Forall fit legs -> Forall (open_in s) legs -> NoDup (map t_id legs) ->
  let R := run m (for_each (fun l => action cfg is_void amount (t_id l)) legs) s in
  exists w' e, run n (action_legs cfg is_void amount w legs) s0 = (s0, Ok (w', e)) /\
  match e with
  | None => Forall (fun r => exists t, r = Ok t) (snd R) /\ tells w' (fst R)
            /\ (forall z, In z (map fst w') <-> In z (map fst w) \/ exists l, In l legs /\ names l z)
  | Some er => ~ Forall (fun r => exists t, r = Ok t) (snd R) /\ (er <> EConflict -> In (Err er) (snd R))
  end.
Proof.
  induction legs as [|l r IH]; intros w s T C F O N R.
  - exists w, None. split; [reflexivity|]. split; [constructor|]. split; [exact T|]. intros z. split; [auto|]. intros [H|(l & [] & _)]. exact H.
  - inversion F as [|? ? F1 F2]; subst. inversion O as [|? ? O1 O2]; subst. simpl in N. inversion N as [|? ? N1 N2]; subst.
    unfold R. rewrite each_step. cbv zeta. cbn [fst snd]. rewrite legs_step, run_bindr.
    destruct (leg_tells n m w s l T C F1 O1) as (w1 & e & E1 & H). rewrite E1. cbn [fst snd]. destruct e as [er|].
    + destruct (legs_total n r w1 F2) as (y & Ey). rewrite run_bindr, Ey. cbn [fst snd run]. exists (fst y), (Some er). split; [reflexivity|].
      destruct H as (s2 & er' & E2 & H). rewrite E2. cbn [fst snd]. split.
      * intros Q. inversion Q as [|? ? [t Q1] _]; subst. discriminate.
      * intros Q. left. rewrite (H Q). reflexivity.
    + destruct H as (s2 & y & row & E2 & T2 & C2 & X1 & X2 & X3 & X4 & X5). rewrite E2. cbn [fst snd].
      assert (O3 : Forall (open_in s2) r).
      { rewrite Forall_forall in O2 |- *. intros l' Il. apply (open_keeps s s2 row l' (O2 l' Il) X1 X2); [|exact X4].
        rewrite X3. intros Q. apply N1. rewrite Q. apply in_map. exact Il. }
      destruct (IH w1 s2 T2 C2 F2 O3 N2) as (w' & e & E3 & H). rewrite run_bindr, E3. cbn [fst snd run]. exists w', e. split; [reflexivity|].
      destruct e as [er|].
      * destruct H as [H1 H2]. split; [intros Q; apply H1; inversion Q; assumption|intros Q; right; auto].
      * destruct H as (H1 & H2 & H3). split; [constructor; [eauto|exact H1]|]. split; [exact H2|].
        intros z. rewrite H3, X5. split.
        -- intros [[->|[->|Hz]]|(l' & Il & Nl)]; [right; exists l|right; exists l|auto|right; exists l'; simpl; auto]; (split; [left; reflexivity|]); [left|right]; reflexivity.
        -- intros [Hz|(l' & [<-|Il] & Nl)]; [auto|destruct Nl; auto|right; eauto].
Qed.
End Action.
