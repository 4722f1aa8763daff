(** Dry runs of commits and voids, in reached states. *)
From Coq Require Import ZArith QArith List String Bool Lia.
From Verif Require Import LedgerInv LedgerSafe HoldSpec BudgetSpec BudgetProof ProvInv ProvThms BatchProof BulkProof PreviewAlone PreviewBulk PreviewReach PreviewAct PreviewAction.
From Verif Require Import Base MoneyModel SplitModel BalanceModel LedgerModel LedgerProgs LedgerSpec ConcModel BatchSpec BulkSpec PreviewModel PreviewSpec.
Import ListNotations.
Local Open Scope string_scope.
Open Scope Z_scope.
Local Open Scope list_scope.

Definition wanted (s : state) (id : string) (t : txn) : bool :=
  (String.eqb (t_id t) id || String.eqb (t_parent t) id || String.eqb (m_qparent (t_meta t)) id) && status_eqb (t_status t) SInflight.
Definition seen_as (s : state) (r : row) : txn := db_view (meta_of (s_meta s) (r_t r)) (r_t r).
Lemma wanted_iff s id r : In r (s_txns s) -> (wanted s id (seen_as s r) = true <-> under s id r /\ a_hold r).
Proof.
  intros I. unfold wanted, under, a_hold, seen_as. cbn [db_view t_id t_parent t_meta t_status].
  rewrite andb_true_iff, !orb_true_iff, !String.eqb_eq. destruct (t_status (r_t r)); simpl; intuition congruence.
Qed.
Lemma legs_of s id : plain_target s id ->
  inflight_by_parent (s_meta s) id (s_txns s) = filter (wanted s id) (map (seen_as s) (s_txns s)).
Proof.
  intros (P1 & _). unfold inflight_by_parent. cbv zeta. fold (seen_as s).
  change (map (fun x : row => db_view (meta_of (s_meta s) (r_t x)) (r_t x)) (s_txns s)) with (map (seen_as s) (s_txns s)).
  change (filter (fun t => (String.eqb (t_id t) id || String.eqb (t_parent t) id || String.eqb (m_qparent (t_meta t)) id) && status_eqb (t_status t) SInflight) (map (seen_as s) (s_txns s)))
    with (filter (wanted s id) (map (seen_as s) (s_txns s))).
  destruct (filter (wanted s id) (map (seen_as s) (s_txns s))) as [|l r] eqn:E; [|reflexivity].
  match goal with |- ?x = [] => destruct x as [|q qs] eqn:Eq; [reflexivity|exfalso] end.
  assert (I : In q (q :: qs)) by (left; reflexivity). rewrite <- Eq in I. apply filter_In in I as [I H].
  apply in_map_iff in I as (w & <- & Iw). rewrite !andb_true_iff, orb_true_iff, !String.eqb_eq in H. destruct H as ((((H1 & H2) & _) & _) & _).
  cbn [seen_as db_view t_id t_parent t_status] in H1, H2.
  destruct (P1 w) as (_ & h & Uh & Hh).
  { split; [exact Iw|]. destruct H1; auto. }
  { destruct (t_status (r_t w)); simpl in H2; congruence. }
  assert (Q : In (seen_as s h) (filter (wanted s id) (map (seen_as s) (s_txns s)))).
  { apply filter_In. split; [apply in_map; apply Uh|]. apply wanted_iff; [apply Uh|auto]. }
  rewrite E in Q. exact Q.
Qed.
Lemma legs_in s id l : In l (filter (wanted s id) (map (seen_as s) (s_txns s))) <-> exists h, under s id h /\ a_hold h /\ l = seen_as s h.
Proof.
  rewrite filter_In, in_map_iff. split.
  - intros ((h & <- & Ih) & W). apply wanted_iff in W as [W1 W2]; [|exact Ih]. eauto.
  - intros (h & U & Hh & ->). split; [exists h; split; [reflexivity|apply U]|]. apply wanted_iff; [apply U|auto].
Qed.
Lemma legs_nodup s id : NoDup (map (fun r => t_id (r_t r)) (s_txns s)) -> NoDup (map t_id (filter (wanted s id) (map (seen_as s) (s_txns s)))).
Proof.
  intros N. assert (Q : NoDup (map t_id (map (seen_as s) (s_txns s)))) by (rewrite map_map; exact N).
  revert Q. generalize (map (seen_as s) (s_txns s)). intros l. induction l as [|x l IH]; simpl; intros Q; [constructor|].
  inversion Q as [|? ? Q1 Q2]; subst. destruct (wanted s id x); [|auto]. simpl. constructor; [|auto].
  intros I. apply Q1. apply in_map_iff in I as (z & Ez & Iz). apply filter_In in Iz as [Iz _]. rewrite <- Ez. apply in_map. exact Iz.
Qed.
Lemma get_row_row id l t : get_row id l = Some t -> exists r, In r l /\ r_t r = t /\ t_id t = id.
Proof.
  induction l as [|x r IH]; simpl; [discriminate|]. destruct (String.eqb_spec (t_id (r_t x)) id) as [E|E].
  - intros [= <-]. eauto.
  - intros H. destruct (IH H) as (y & I & Q). eauto.
Qed.
Lemma row_get l r : NoDup (map (fun r => t_id (r_t r)) l) -> In r l -> get_row (t_id (r_t r)) l = Some (r_t r).
Proof.
  induction l as [|x q IH]; intros N I; [destruct I|]. simpl in N |- *. inversion N as [|? ? N1 N2]; subst.
  destruct I as [->|I]; [rewrite String.eqb_refl; reflexivity|].
  destruct (String.eqb_spec (t_id (r_t x)) (t_id (r_t r))) as [E|_]; [|auto].
  exfalso. apply N1. rewrite E. apply (in_map (fun r => t_id (r_t r))). exact I.
Qed.
Lemma for_each_same {A B} (f g : A -> prog B) l : (forall x, In x l -> f x = g x) -> for_each f l = for_each g l.
Proof.
  induction l as [|x r IH]; intros H; [reflexivity|]. cbn [for_each]. rewrite (H x (or_introl eq_refl)), (IH (fun y I => H y (or_intror I))). reflexivity.
Qed.

Lemma entry_about s0 w s x c p : tells s0 w s -> tidy s0 -> set_get x w = Some p -> about s0 x c p.
Proof.
  intros T Ht G. destruct (te_in _ _ _ T x p G) as (b0 & b & H1 & H2 & H3 & H4 & _).
  unfold about. rewrite H2. exists b0. split; [|split; [rewrite H3; symmetry; exact (get_bal_id _ _ _ H1)|exact H4]].
  split; [eapply get_bal_in; eauto|]. rewrite (plain_get s0 Ht x b0 H1). exact (get_bal_id _ _ _ H1).
Qed.
Lemma entry_shows s0 w s x c p : tells s0 w s -> tidy s0 -> set_get x w = Some p -> PreviewSpec.shows s x c (pj_after p).
Proof.
  intros T Ht G. destruct (te_in _ _ _ T x p G) as (b0 & b & H1 & H2 & H3 & H4 & H5 & H6 & H7).
  exists b. split; [|apply alike_sym; exact H7]. split; [eapply get_bal_in; eauto|].
  rewrite (plain_get s0 Ht x b0 H1). exact (get_bal_id _ _ _ H6).
Qed.

Lemma project_same x x' b c : t_status x = SCommit \/ t_status x = SVoid -> t_status x' = t_status x -> pay x' = pay x -> project x b c = project x' b c.
Proof.
  intros H E P. unfold pay in P. unfold project, apply_to_balances. rewrite E in *. destruct H as [H|H]; rewrite H in *; cbv zeta.
  - rewrite P. destruct (commit_inflight_debit b (t_precise (apply_precision_txn x))) as [s'|e]; [|reflexivity].
    destruct (commit_inflight_credit c (t_precise (apply_precision_txn x))); reflexivity.
  - rewrite P. destruct (rollback_inflight_debit b (t_precise x)) as [s'|e]; [|reflexivity]. destruct (rollback_inflight_credit c (t_precise x)); reflexivity.
Qed.
Lemma project_leg_same n cfg w x x' s : t_src x' = t_src x -> t_dst x' = t_dst x -> t_cur x' = t_cur x ->
  t_status x = SCommit \/ t_status x = SVoid -> t_status x' = t_status x -> pay x' = pay x ->
  run n (project_leg cfg w x) s = run n (project_leg cfg w x') s.
Proof.
  intros E1 E2 E3 H E P. unfold project_leg. rewrite E1, E2, E3, !run_bindr. destruct (snd (run n (set_resolve cfg w (t_src x) (t_cur x)) s)) as [a|e]; [|reflexivity].
  rewrite !run_bindr. destruct (snd (run n (set_resolve cfg (fst a) (t_dst x) (t_cur x)) _)) as [b|e]; [|reflexivity].
  destruct (same_balance (snd a) (snd b)); [reflexivity|]. rewrite (project_same x x' (snd a) (snd b) H E P). reflexivity.
Qed.

Theorem action_foretold cfg u y id is_void amount n m :
  distinct_uuids u -> steps cfg (fun y e => no_recon_flag y e /\ polite y e) (init_sys u) y -> s_locks (y_st y) = [] ->
  new_refs (y_st y) -> plain_target (y_st y) id ->
  let R := run m (inflight_action cfg id is_void amount "") (y_st y) in
  match snd (run n (preview_action cfg id is_void amount) (y_st y)) with
  | Err _ => snd R = []
  | Ok p => foretells_action p (y_st y) id (fst R) (snd R)
  end.
Proof.
  intros Hu Hy Hl Hr Hp R. destruct (reach_polite cfg u y Hu Hy) as (A & B & _).
  destruct (reach_new_names cfg u y Hu (steps_mono cfg _ _ _ _ (fun y e H => proj1 H) Hy)) as [T N].
  set (s := y_st y) in *. set (legs := filter (wanted s id) (map (seen_as s) (s_txns s))).
  assert (C : calm s) by (split; [exact Hl|auto]).
  assert (Ef : Forall (fit s) legs).
  { apply Forall_forall. intros l Il. apply legs_in in Il as (h & [Ih _] & Hh & ->). unfold a_hold in Hh.
    pose proof (i_ends _ _ A) as En. rewrite Forall_forall in En. destruct (En h Ih) as [E1 E2].
    assert (Hb : forall x, In x (map b_id (s_bals s)) -> get_bal x (s_bals s) <> None /\ exists q, x = ("bln" ++ "_" ++ q)%string).
    { intros x I. apply in_map_iff in I as (b & <- & Ib). split; [rewrite (tidy_get s b T Ib); discriminate|]. exact (c_bals _ _ _ B b Ib). }
    destruct (Hb _ E1) as (G1 & q1 & Q1). destruct (Hb _ E2) as (G2 & q2 & Q2). unfold source, destination in *.
    constructor; cbn [seen_as db_view t_status t_src t_dst t_id t_precise].
    - exact Hh.
    - exact G1.
    - exact G2.
    - rewrite Q1. discriminate.
    - rewrite Q2. discriminate.
    - rewrite Q1, Q2. split; discriminate.
    - destruct (hold_budget cfg u y Hu Hy h Ih Hh) as (W1 & W2 & W3). change (y_st y) with s in W1, W2, W3.
      rewrite (total_is_committed _ _ (i_rows _ _ A) (hold_only_commits _ _ _ _ A B h Ih Hh)). unfold LedgerSpec.amount in W3. lia. }
  pose proof (i_ids _ _ A) as Nd.
  assert (Er : forall h, under s id h -> a_hold h -> parent_void (t_id (r_t h)) (s_txns s) = false -> open_in s s (seen_as s h)).
  { intros h [Ih _] _ V. constructor; [|exact V|reflexivity]. exists (r_t h). split; [|reflexivity]. apply row_get; assumption. }
  assert (ER : R = run m (for_each (fun l => action cfg is_void amount (t_id l)) legs) s).
  { unfold R, inflight_action. cbn [bind act run exec]. rewrite (legs_of s id Hp). fold legs. f_equal. apply for_each_same.
    intros l Il. rewrite Forall_forall in Ef. pose proof (fi_status _ _ (Ef l Il)) as Q. unfold is_inflight. rewrite Q. reflexivity. }
  assert (Gone : R = (s, []) \/ legs <> []).
  { destruct legs as [|l r]; [left; rewrite ER; reflexivity|right; discriminate]. }
  (* the loop over the holds *)
  assert (Loop : Forall (open_in s s) legs -> legs <> [] ->
     match snd (run n (bindr (action_legs cfg is_void amount [] legs) (fun x => Ret (Ok {| pv_rejection := snd x; pv_balances := projections (fst x) |}))) s) with
     | Err _ => snd R = []
     | Ok p => foretells_action p s id (fst R) (snd R)
     end).
  { intros Eo Ne. destruct (legs_tells cfg is_void amount s T n m legs [] s (tells_start s) C Ef Eo (legs_nodup s id Nd)) as (w & e & E1 & H).
    rewrite <- ER in H. rewrite run_bindr, E1. cbn [fst snd run].
    assert (Nr : snd R <> []).
    { rewrite ER. destruct legs as [|l r]; [contradiction|]. rewrite each_step. discriminate. }
    unfold foretells_action, would_apply. cbn [pv_rejection pv_balances].
    destruct e as [er|].
    - destruct H as [H1 H2]. split; [|split].
      + split; [discriminate|]. intros [_ Q]. contradiction.
      + discriminate.
      + intros x [= <-] _ Q. exact (H2 Q).
    - destruct H as (H1 & H2 & H3). split; [split; auto|]. split; [|discriminate]. intros _. split.
      + intros h x Uh Hh Nx.
        assert (Ix : In x (map fst w)).
        { apply H3. right. exists (seen_as s h). split; [apply legs_in; eauto|]. destruct Nx as [->| ->]; [left|right]; reflexivity. }
        destruct (set_get x w) as [p|] eqn:G; [|apply get_none in G; contradiction].
        exists p. split; [|split; [eapply entry_about; eauto|eapply entry_shows; eauto]].
        unfold projections. clear - G. induction w as [|[k q] w IH]; simpl in *; [discriminate|].
        destruct (String.eqb k x); [injection G as <-; auto|right; auto].
      + intros q Iq. unfold projections in Iq. apply in_map_iff in Iq as ([x p] & <- & Ip). cbn [snd].
        assert (Ix : In x (map fst w)) by (apply in_map_iff; exists (x, p); auto).
        pose proof (get_in x w p (te_nodup _ _ _ H2) Ip) as G.
        apply H3 in Ix. destruct Ix as [[]|(l & Il & Nl)]. apply legs_in in Il as (h & Uh & Hh & ->).
        exists h, x. split; [exact Uh|]. split; [exact Hh|]. split; [exact Nl|]. eapply entry_about; eauto. }
  destruct Hp as (P1 & P2 & P3).
  assert (Elegs : inflight_by_parent (s_meta s) id (s_txns s) = legs) by (apply legs_of; exact (conj P1 (conj P2 P3))).
  assert (Many : (forall h, under s id h -> a_hold h -> t_id (r_t h) <> id) -> Forall (open_in s s) legs).
  { intros Q. apply Forall_forall. intros l Il. apply legs_in in Il as (h & Uh & Hh & ->). apply Er; auto.
    destruct (parent_void (t_id (r_t h)) (s_txns s)) eqn:V; [exfalso|reflexivity]. unfold parent_void in V. apply existsb_exists in V as (v & Iv & V).
    apply andb_true_iff in V as [V1 V2]. apply String.eqb_eq in V1.
    apply (P3 h v Uh Hh (Q h Uh Hh) Iv V1). destruct (t_status (r_t v)); simpl in V2; congruence. }
  assert (Rest : forall e, e <> EAlreadyVoided -> (forall h, under s id h -> a_hold h -> t_id (r_t h) <> id) ->
    match snd (run n (legs <- act (OInflightBy id) ;;
        match legs, e with
        | [], ENotInflight => Ret (Ok {| pv_rejection := Some ENotInflight; pv_balances := [] |})
        | [], e => Ret (Err e)
        | legs, _ => bindr (action_legs cfg is_void amount [] legs) (fun x => Ret (Ok {| pv_rejection := snd x; pv_balances := projections (fst x) |}))
        end) s) with
    | Err _ => snd R = []
    | Ok p => foretells_action p s id (fst R) (snd R)
    end).
  { intros e He Q. cbn [bind act run exec]. rewrite Elegs. destruct legs as [|l r] eqn:El.
    - destruct Gone as [Gone|Gone]; [|contradiction]. rewrite Gone. cbn [fst snd].
      assert (Z : foretells_action {| pv_rejection := Some ENotInflight; pv_balances := [] |} s id s []).
      { split; [split; [discriminate|intros [X _]; contradiction]|]. split; [discriminate|]. intros er _ X. contradiction. }
      destruct e; try reflexivity. exact Z.
    - assert (X : Forall (open_in s s) (l :: r)) by (apply Many; exact Q).
      destruct e; (apply Loop; [exact X|discriminate]). }
  assert (E0 : run n (fetch_inflight id) s = (s, match get_row id (s_txns s) with
     | None => Err ETxnNotFound
     | Some t => if negb (is_inflight (db_view_get (meta_of (s_meta s) t) t)) then Err ENotInflight
                 else if parent_void id (s_txns s) then Err EAlreadyVoided else Ok (db_view_get (meta_of (s_meta s) t) t) end)).
  { unfold fetch_inflight. cbn [bind act run exec]. destruct (get_row id (s_txns s)) as [t|]; [|reflexivity].
    destruct (negb _); [reflexivity|]. cbn [bind run exec]. destruct (parent_void id (s_txns s)); reflexivity. }
  unfold preview_action. rewrite run_bind, E0. cbn [fst snd].
  destruct (get_row id (s_txns s)) as [t|] eqn:G.
  - destruct (get_row_row _ _ _ G) as (r & Ir & Et & Ei).
    destruct (is_inflight (db_view_get (meta_of (s_meta s) t) t)) eqn:Hi; cbn [negb].
    + assert (Ur : under s id r) by (split; [exact Ir|left; congruence]).
      assert (Hh : a_hold r).
      { unfold is_inflight in Hi. cbn [db_view_get db_view t_status t_meta] in Hi. unfold a_hold. rewrite Et. destruct (t_status t) eqn:Es; simpl in Hi; try discriminate; [|reflexivity].
        exfalso. destruct (P1 r Ur); [rewrite Et; exact Es|congruence]. }
      assert (Ll : legs = [seen_as s r]).
      { assert (I1 : In (seen_as s r) legs) by (apply legs_in; eauto).
        assert (I2 : forall l, In l legs -> l = seen_as s r).
        { intros l Il. apply legs_in in Il as (h & Uh & Hh' & ->). f_equal. apply (P2 r h); auto. congruence. }
        pose proof (legs_nodup s id Nd) as Q. fold legs in Q. destruct legs as [|a [|b q]]; [destruct I1|rewrite (I2 a (or_introl eq_refl)); reflexivity|].
        exfalso. simpl in Q. inversion Q as [|? ? Q1 _]; subst. apply Q1. left. rewrite (I2 a (or_introl eq_refl)), (I2 b (or_intror (or_introl eq_refl))). reflexivity. }
      destruct (parent_void id (s_txns s)) eqn:V.
      * cbn [run snd]. assert (Rv : R = (s, [Err EAlreadyVoided])).
        { rewrite ER, Ll, each_step. cbv zeta. cbn [seen_as db_view t_id].
          assert (Q : run m (action cfg is_void amount (t_id (r_t r))) s = (s, Err EAlreadyVoided)).
          { rewrite Et, Ei. assert (Ex : forall (p : txn -> prog (res txn)), run m (with_lock (lock_name id) (bindr (fetch_inflight id) p)) s = (s, Err EAlreadyVoided)).
            { intros p. assert (F : run m (bindr (fetch_inflight id) p) (set_locks s [(lock_name id, m)]) = (set_locks s [(lock_name id, m)], Err EAlreadyVoided)).
              { unfold bindr. rewrite run_bind. unfold fetch_inflight. cbn [bind act run exec]. change (s_txns (set_locks s [(lock_name id, m)])) with (s_txns s).
                change (s_meta (set_locks s [(lock_name id, m)])) with (s_meta s). rewrite G, Hi. cbn [negb bind run exec].
                change (s_txns (set_locks s [(lock_name id, m)])) with (s_txns s). rewrite V. reflexivity. }
              rewrite locked_prog; [rewrite F; cbn [fst snd]; f_equal|exact Hl|].
              - transitivity (set_locks s []); [reflexivity|]. rewrite <- Hl. apply set_locks_same.
              - intros r' s2. rewrite F. intros [= <- <-]. reflexivity. }
            unfold action, void, commit. destruct is_void; apply Ex. }
          rewrite Q. reflexivity. }
        rewrite Rv. cbn [fst snd]. unfold foretells_action, would_apply. cbn [pv_rejection pv_balances]. split; [|split].
        -- split; [discriminate|]. intros [_ Q]. inversion Q as [|? ? [t' Q1] _]; subst. discriminate.
        -- discriminate.
        -- intros er [= <-] _ _. left. reflexivity.
      * assert (X : Forall (open_in s s) legs).
        { rewrite Ll. constructor; [|constructor]. apply Er; auto. rewrite Et, Ei. exact V. }
        assert (Y : legs <> []) by (rewrite Ll; discriminate).
        specialize (Loop X Y). rewrite Ll in Loop.
        (* the dry run reads the hold by its id *)
        assert (Same : run n (action_legs cfg is_void amount [] [db_view_get (meta_of (s_meta s) t) t]) s = run n (action_legs cfg is_void amount [] [seen_as s r]) s).
        { unfold seen_as. rewrite Et. set (mt := meta_of (s_meta s) t).
          cbn [action_legs bind act run exec]. unfold bindr. rewrite !run_bind.
          change (t_id (db_view_get mt t)) with (t_id t). change (t_id (db_view mt t)) with (t_id t).
          assert (Sm : forall c, run n (match settlement (db_view_get mt t) is_void amount c with Err e => Ret (Ok ([], Some e)) | Ok t => project_leg cfg [] t end) s
             = run n (match settlement (db_view mt t) is_void amount c with Err e => Ret (Ok ([], Some e)) | Ok t => project_leg cfg [] t end) s).
          { intros c. unfold settlement. cbv zeta. change (t_precise (db_view_get mt t)) with (t_precise t). change (t_precise (db_view mt t)) with (t_precise t).
            change (commit_amount (db_view_get mt t)) with (commit_amount (db_view mt t)).
            destruct is_void; [destruct (_ =? 0); [reflexivity|]|destruct (commit_amount _ _ _) as [[p a]|e]; [|reflexivity]]; (apply project_leg_same; [reflexivity|reflexivity|reflexivity|auto|reflexivity|]);
              [reflexivity|unfold pay, apply_precision_txn; cbn [with_status with_money t_status t_precise t_amount t_prec db_view db_view_get]; destruct (apply_precision _ _ _) as [[? ?] ?]; reflexivity]. }
          rewrite Sm. reflexivity. }
        rewrite run_bindr, Same, <- run_bindr. exact Loop.
    + refine (Rest ENotInflight _ _); [discriminate|]. intros h Uh Hh Q. assert (h = r) as ->.
      { apply (same_id cfg s A); [apply Uh|exact Ir|congruence]. }
      unfold a_hold in Hh. rewrite Et in Hh. unfold is_inflight in Hi. cbn [db_view_get db_view t_status] in Hi. rewrite Hh in Hi. discriminate.
  - refine (Rest ETxnNotFound _ _); [discriminate|]. intros h Uh Hh Q. rewrite <- Q, (row_get _ _ Nd (proj1 Uh)) in G. discriminate.
Qed.
