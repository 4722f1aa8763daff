(** The check made before a commit or void is queued. *)
From Coq Require Import ZArith List String Ascii Bool Lia.
From Verif Require Import PoolProof BatchProof.
From Verif Require Import Base BalanceModel LedgerModel LedgerProgs ConcModel LedgerSafe Sched WorkModel PoolModel PoolSpec.
Import ListNotations.
Open Scope Z_scope.

Lemma row_of id l t : get_row id l = Some t -> exists h, In h l /\ r_t h = t /\ t_id t = id.
Proof.
  induction l as [|x l IH]; simpl; [discriminate|]. destruct (String.eqb (t_id (r_t x)) id) eqn:E.
  - intros H. injection H as <-. apply String.eqb_eq in E. exists x. auto.
  - intros H. destruct (IH H) as (h & A & B & C). exists h. auto.
Qed.

Lemma any_left_run n legs s : run n (any_left legs) s
  = (s, existsb (fun t => negb (t_precise t - total_committed (t_id t) (s_txns s) =? 0)) legs).
Proof.
  induction legs as [|t l IH]; [reflexivity|]. cbn [any_left]. rewrite run_bind. cbn [run act exec fst snd existsb].
  destruct (t_precise t - total_committed (t_id t) (s_txns s) =? 0); [exact IH|reflexivity].
Qed.

Lemma legs_in s id t : In t (inflight_by_parent (s_meta s) id (s_txns s)) ->
  exists h, found_under s id h /\ (t_status (r_t h) = SInflight \/ t_status (r_t h) = SQueued)
    /\ t_precise t = t_precise (r_t h) /\ t_id t = t_id (r_t h).
Proof.
  unfold inflight_by_parent. set (v := map _ _).
  assert (V : forall x, In x v -> exists h, In h (s_txns s) /\ x = db_view (meta_of (s_meta s) (r_t h)) (r_t h)).
  { intros x Hx. apply in_map_iff in Hx. destruct Hx as (h & <- & Hh). eauto. }
  assert (F : In t (filter (fun t => (String.eqb (t_id t) id || String.eqb (t_parent t) id || String.eqb (m_qparent (t_meta t)) id)
                               && status_eqb (t_status t) SInflight) v) ->
    exists h, found_under s id h /\ (t_status (r_t h) = SInflight \/ t_status (r_t h) = SQueued)
    /\ t_precise t = t_precise (r_t h) /\ t_id t = t_id (r_t h)).
  { intros H. apply filter_In in H. destruct H as [H1 H2]. destruct (V _ H1) as (h & Hh & ->). cbn in H2.
    apply andb_true_iff in H2. destruct H2 as [H2 H3]. exists h. split; [split; [exact Hh|]|].
    - apply orb_true_iff in H2. destruct H2 as [H2|H2]; [apply orb_true_iff in H2; destruct H2 as [H2|H2]|]; apply String.eqb_eq in H2; auto.
    - split; [left; destruct (t_status (r_t h)); try discriminate; reflexivity|]. split; reflexivity. }
  destruct (filter _ v) as [|a l] eqn:E; [|exact F]. clear F.
  intros H. apply filter_In in H. destruct H as [H1 H2]. destruct (V _ H1) as (h & Hh & ->). cbn in H2.
  repeat (apply andb_true_iff in H2; destruct H2 as [H2 ?]). exists h. split; [split; [exact Hh|]|].
  - apply orb_true_iff in H2. destruct H2 as [H2|H2]; apply String.eqb_eq in H2; auto.
  - split; [right; destruct (t_status (r_t h)); try discriminate; reflexivity|]. split; reflexivity.
Qed.
Lemma legs_all s id h : found_under s id h -> t_status (r_t h) = SInflight ->
  exists t, In t (inflight_by_parent (s_meta s) id (s_txns s)) /\ t_precise t = t_precise (r_t h) /\ t_id t = t_id (r_t h).
Proof.
  intros [Hh U] St. unfold inflight_by_parent.
  assert (X : In (db_view (meta_of (s_meta s) (r_t h)) (r_t h))
    (filter (fun t => (String.eqb (t_id t) id || String.eqb (t_parent t) id || String.eqb (m_qparent (t_meta t)) id)
                               && status_eqb (t_status t) SInflight) (map (fun x => db_view (meta_of (s_meta s) (r_t x)) (r_t x)) (s_txns s)))).
  { apply filter_In. split; [apply in_map_iff; eauto|]. cbn. rewrite St. cbn. rewrite andb_true_r.
    destruct U as [<-|[<-|<-]]; rewrite String.eqb_refl, ?orb_true_r; reflexivity. }
  exists (db_view (meta_of (s_meta s) (r_t h)) (r_t h)). split; [|split; reflexivity].
  destruct (filter _ (map (fun x => db_view (meta_of (s_meta s) (r_t x)) (r_t x)) (s_txns s))) as [|a l]; [destruct X|exact X].
Qed.

Lemma fetch_run n id s : run n (fetch_inflight id) s = (s, match get_row id (s_txns s) with
  | None => Err ETxnNotFound
  | Some t => let v := db_view_get (meta_of (s_meta s) t) t in
              if negb (is_inflight v) then Err ENotInflight else if parent_void id (s_txns s) then Err EAlreadyVoided else Ok v
  end).
Proof.
  unfold fetch_inflight. rewrite run_bind. cbn [run act exec fst snd]. destruct (get_row id (s_txns s)) as [t|]; [|reflexivity].
  cbv zeta. destruct (negb (is_inflight _)); [reflexivity|]. rewrite run_bind. cbn [run act exec fst snd]. destruct (parent_void id (s_txns s)); reflexivity.
Qed.

Lemma with_lock_run m k {A} (p : prog (res A)) s : s_locks s = [] ->
  snd (run m (with_lock k p) s) = snd (run m p (set_locks s [(k, m)])).
Proof.
  intros L. unfold with_lock. rewrite run_bind. cbn [run act exec]. rewrite L. cbn [lock_owner fst snd].
  rewrite run_bind. destruct (run m p (set_locks s [(k, m)])) as [s1 r]. cbn [fst snd]. cbn [run bind act].
  destruct (exec m (OUnlock k) s1). reflexivity.
Qed.

Lemma single_run m cfg (is_void : bool) it s e : s_locks s = [] ->
  (match get_row (i_id it) (s_txns s) with
   | None => e = ETxnNotFound
   | Some t => let v := db_view_get (meta_of (s_meta s) t) t in
       if negb (is_inflight v) then e = ENotInflight else if parent_void (i_id it) (s_txns s) then e = EAlreadyVoided
       else let left := t_precise t - total_committed (t_id t) (s_txns s) in
            if is_void then left = 0 /\ e = EAlreadyCommitted else commit_amount v (i_amount it) left = Err e
   end) -> snd (run m (single cfg is_void it) s) = Err e.
Proof.
  intros L H. unfold single. destruct is_void; unfold void, commit; rewrite with_lock_run by exact L; unfold bindr; rewrite run_bind, fetch_run;
    cbn [fst snd set_locks s_txns s_meta]; destruct (get_row (i_id it) (s_txns s)) as [t|]; try (subst e; reflexivity);
    cbv zeta in *; destruct (negb (is_inflight _)); try (subst e; reflexivity); destruct (parent_void _ _); try (subst e; reflexivity);
    rewrite run_bind; cbn [run act exec fst snd set_locks s_txns s_meta].
  - destruct H as [H ->]. change (t_precise (db_view_get (meta_of (s_meta s) t) t)) with (t_precise t).
    change (t_id (db_view_get (meta_of (s_meta s) t) t)) with (t_id t). rewrite H. reflexivity.
  - change (t_precise (db_view_get (meta_of (s_meta s) t) t)) with (t_precise t).
    change (t_id (db_view_get (meta_of (s_meta s) t) t)) with (t_id t). rewrite H. reflexivity.
Qed.

Lemma check_ok cfg (is_void : bool) it n m s : s_locks s = [] -> checked cfg is_void it m s (snd (run n (prevalidate (act_of is_void) it) s)).
Proof.
  intros L. unfold prevalidate. rewrite run_bind, fetch_run. cbn [fst snd]. pose proof (single_run m cfg is_void it s) as SR.
  assert (Legs : forall e, (e = ETxnNotFound \/ e = ENotInflight) -> snd (run m (single cfg is_void it) s) = Err e ->
    snd (run m (fetch_inflight (i_id it)) s) = Err e ->
    checked cfg is_void it m s (snd (run n (legs <- act (OInflightBy (i_id it)) ;;
      match legs with
      | [] => Ret (Err e)
      | t :: _ => left <- any_left legs ;; if left then Ret (Ok t) else Ret (Err EAlreadyCommitted)
      end)%prog s))).
  { intros e He Hs Hf. rewrite run_bind. cbn [run act exec fst snd].
    destruct (inflight_by_parent (s_meta s) (i_id it) (s_txns s)) as [|t l] eqn:E; [left; exact Hs|].
    rewrite run_bind, any_left_run. cbn [fst snd]. destruct (existsb _ (t :: l)) eqn:X; cbn [run snd checked].
    - apply existsb_exists in X. destruct X as (x & Hx & X). rewrite <- E in Hx. destruct (legs_in _ _ _ Hx) as (h & F & St & P1 & P2).
      exists h. split; [exact F|]. split; [exact St|]. split.
      + unfold uncommitted. change (t_precise (r_t h) - total_committed (t_id (r_t h)) (s_txns s) <> 0). rewrite <- P1, <- P2.
        apply negb_true_iff, Z.eqb_neq in X. exact X.
      + intros _ _ t' Ht. congruence.
    - right. split; [reflexivity|]. intros h F St. destruct (legs_all _ _ _ F St) as (x & Hx & P1 & P2).
      change (t_precise (r_t h) - total_committed (t_id (r_t h)) (s_txns s) = 0). rewrite <- P1, <- P2.
      rewrite E in Hx. destruct (Z.eqb_spec (t_precise x - total_committed (t_id x) (s_txns s)) 0) as [Y|Y]; [exact Y|exfalso].
      assert (T : existsb (fun t => negb (t_precise t - total_committed (t_id t) (s_txns s) =? 0)) (t :: l) = true).
      { apply existsb_exists. exists x. split; [exact Hx|]. apply negb_true_iff, Z.eqb_neq. exact Y. }
      congruence. }
  pose proof (fetch_run m (i_id it) s) as FR.
  destruct (get_row (i_id it) (s_txns s)) as [t|] eqn:G.
  2:{ apply Legs; auto. rewrite FR. reflexivity. }
  cbv zeta in *. set (v := db_view_get (meta_of (s_meta s) t) t) in *.
  destruct (negb (is_inflight v)) eqn:I.
  { apply Legs; auto. rewrite FR. reflexivity. }
  destruct (parent_void (i_id it) (s_txns s)) eqn:Vd.
  { left. apply SR; auto. }
  rewrite run_bind. cbn [run act exec fst snd]. change (t_precise v) with (t_precise t). change (t_id v) with (t_id t).
  destruct (row_of _ _ _ G) as (h & Hh & Et & Eid).
  assert (Un : uncommitted s h = t_precise t - total_committed (t_id t) (s_txns s)) by (unfold uncommitted; rewrite Et; reflexivity).
  assert (St : t_status (r_t h) = SInflight \/ t_status (r_t h) = SQueued).
  { rewrite Et. apply negb_false_iff in I. unfold is_inflight in I. change (t_status v) with (t_status t) in I.
    destruct (t_status t); try discriminate I; auto. }
  assert (Fu : found_under s (i_id it) h) by (split; [exact Hh|left; rewrite Et; exact Eid]).
  destruct (Z.eqb_spec (t_precise t - total_committed (t_id t) (s_txns s)) 0) as [Z0|Z0].
  { left. apply SR; auto. destruct is_void; [auto|]. unfold commit_amount. rewrite Z0. reflexivity. }
  destruct is_void; cbn [act_of].
  - exists h. rewrite Un. split; [exact Fu|]. split; [exact St|]. split; [exact Z0|discriminate].
  - destruct (commit_amount v (i_amount it) (t_precise t - total_committed (t_id t) (s_txns s))) as [x|e] eqn:C; cbn [run snd checked].
    + exists h. rewrite Un. split; [exact Fu|]. split; [exact St|]. split; [exact Z0|]. intros _ _ t' _.
      revert C. unfold commit_amount. destruct (_ =? 0); [discriminate|]. destruct (i_amount it <? 0) eqn:A1; [discriminate|].
      destruct (i_amount it =? 0) eqn:A2; [intros _; left; lia|]. destruct (_ <? i_amount it); [discriminate|].
      destruct (_ <? i_amount it) eqn:A4; [discriminate|]. intros _. right. lia.
    + left. apply SR; auto.
Qed.

Lemma queued_items (is_void : bool) enq curs (Hc : forall i, spaceless (curs i) = true) items : forall i n s q s',
  during n (queue_bulk (act_of is_void) enq curs i items) s q s' ->
  forall k it, nth_error items k = Some it ->
  exists x v s1 s2, nth_error (a_results q) k = Some x /\ a_id x = i_id it
    /\ during n (prevalidate (act_of is_void) it) s1 v s2 /\ reports x v (enq (i + k)%nat).
Proof.
  induction items as [|it0 items IH]; intros i n s q s' H k it Hk; [destruct k; discriminate|].
  cbn [queue_bulk] in H. apply during_bind' in H. destruct H as [v [s1 [Hv H]]].
  apply during_bind' in H. destruct H as [q0 [s2 [H H']]]. cbn [during] in H'. destruct H' as [_ <-].
  destruct k as [|k].
  - cbn in Hk. injection Hk as ->. rewrite Nat.add_0_r.
    destruct v as [t|e]; [destruct (enq i)|]; cbn [a_results nth_error]; eexists _, _, s, s1;
      (split; [reflexivity|]); cbn [a_id]; (split; [reflexivity|]); (split; [exact Hv|]); cbn [reports a_status a_code a_id]; auto.
    split; [reflexivity|]. intros Hs. apply codes; auto.
  - cbn in Hk. destruct (IH _ _ _ _ _ H _ _ Hk) as (x & v' & t1 & t2 & A & B & C & D).
    exists x, v', t1, t2. replace (i + S k)%nat with (S i + k)%nat by lia.
    split; [|auto]. destruct v as [t|e]; [destruct (enq i)|]; exact A.
Qed.
