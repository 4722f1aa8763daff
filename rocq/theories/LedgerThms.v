(** Consequences of the money invariant. *)
From Coq Require Import ZArith QArith Qabs List String Bool Lia.
From Verif Require Import Base MoneyModel SplitModel BalanceModel LedgerModel LedgerProgs
  ConcModel ConcLogic LedgerSpec SerialSpec LedgerInv LedgerPure LedgerSafe Sched.
Import ListNotations.
Open Scope Z_scope.

(** ** The serial bookkeeper *)
Definition books (j : list row) : book := fun id =>
  {| a_credit := credits id j; a_debit := debits id j; a_held_in := held_in id j; a_held_out := held_out id j |}.

Definition same_book (x y : book) : Prop := forall id, x id = y id.

Lemma enter_books r j : same_book (enter r (books j)) (books (r :: j)).
Proof.
  intros id. unfold enter, books, credits, debits, held_in, held_out. rewrite !total_cons.
  unfold settled, held, source, destination, amount, when. simpl.
  destruct (r_kind r); simpl; destruct (String.eqb (t_src (r_t r)) id), (String.eqb (t_dst (r_t r)) id);
    f_equal; lia.
Qed.

Lemma enter_same r x y : same_book x y -> same_book (enter r x) (enter r y).
Proof. intros H id. unfold enter. rewrite (H id). reflexivity. Qed.

Lemma permitted_same r x y : same_book x y -> permitted r x -> permitted r y.
Proof. intros H. unfold permitted. rewrite (H (t_src (r_t r))), (H (t_dst (r_t r))). auto. Qed.

Lemma legal_serial qc j : legal_journal qc j -> exists bk, serial qc j bk /\ same_book bk (books j).
Proof.
  induction j as [|r j IH]; intros H; simpl in H.
  - exists empty_book. split; [constructor|]. intros id. reflexivity.
  - destruct H as [Hr Hj]. destruct (IH Hj) as (bk & Hs & He). exists (enter r bk). split.
    + apply serial_cons; [exact Hs|].
      unfold legal in Hr. unfold permitted. unfold funded, amount, source, destination in Hr.
      rewrite (He (t_src (r_t r))), (He (t_dst (r_t r))). simpl. unfold spendable; simpl.
      unfold available in Hr.
      destruct (r_kind r) eqn:Ek.
      1,2: destruct Hr as [Hp [Hf|Hq]]; [left; split; auto|right; destruct Hq; auto].
      all: left; auto.
    + intros id. rewrite (enter_same r _ _ He id). apply enter_books.
Qed.

Section Reach.
Variables (cfg : config) (u : nat -> string) (y : sys).
Hypothesis reach : steps cfg no_recon_flag (init_sys u) y.
Let s := y_st y.

Lemma reach_inv : inv cfg s.
Proof. exact (reachable_inv cfg no_recon_flag u y (fun _ _ H => H) reach). Qed.

Lemma serialisable :
  exists bk, serial (c_queued cfg) (s_txns s) bk /\ forall b, In b (s_bals s) -> agrees b bk.
Proof.
  pose proof reach_inv as HI.
  destruct (legal_serial _ _ (i_legal _ _ HI)) as (bk & H1 & H2). exists bk. split; [exact H1|].
  intros b Hb. destruct (i_shows _ _ HI b Hb) as ((A1 & A2 & A3 & A4 & A5 & A6) & _).
  unfold agrees. rewrite (H2 (b_id b)). simpl. repeat split; try assumption; lia.
Qed.

(** Sum of a journal total over all balances. *)
Lemma sum_total f who j (l : list balance) :
  NoDup (map b_id l) -> Forall (fun r => In (who r) (map b_id l)) j ->
  sumz (fun b => total f who (b_id b) j) l = sumz f j.
Proof.
  intros Hnd. induction j as [|r j IH]; intros HF.
  - simpl. apply sumz_zero. reflexivity.
  - inversion HF as [|? ? Hr Hj]; subst.
    transitivity (sumz (fun b => (if String.eqb (who r) (b_id b) then f r else 0) + total f who (b_id b) j) l).
    { apply sumz_ext. intros b _. rewrite total_cons. reflexivity. }
    transitivity (sumz (fun b => if String.eqb (who r) (b_id b) then f r else 0) l
                  + sumz (fun b => total f who (b_id b) j) l).
    { clear. induction l as [|b l IHl]; simpl; lia. }
    rewrite IH by exact Hj. simpl. f_equal.
    clear - Hnd Hr. induction l as [|b l IHl]; simpl in *; [contradiction|].
    inversion Hnd as [|? ? Hni Hnd']; subst. destruct (String.eqb_spec (who r) (b_id b)) as [E|E].
    + rewrite sumz_zero; [lia|]. intros b' Hb'. destruct (String.eqb_spec (who r) (b_id b')) as [E'|E']; [|reflexivity].
      exfalso. apply Hni. rewrite <- E, E'. apply in_map; exact Hb'.
    + destruct Hr as [Hr|Hr]; [congruence|]. rewrite IHl; auto; lia.
Qed.

Lemma double_entry :
  sumz b_cr (s_bals s) = sumz b_db (s_bals s)
  /\ sumz b_icr (s_bals s) = sumz b_idb (s_bals s)
  /\ sumz b_bal (s_bals s) = 0 /\ sumz b_ibal (s_bals s) = 0.
Proof.
  pose proof reach_inv as HI.
  assert (Hs : Forall (fun r => In (source r) (map b_id (s_bals s))) (s_txns s)).
  { eapply Forall_impl; [|exact (i_ends _ _ HI)]. intros r [H _]; exact H. }
  assert (Hd : Forall (fun r => In (destination r) (map b_id (s_bals s))) (s_txns s)).
  { eapply Forall_impl; [|exact (i_ends _ _ HI)]. intros r [_ H]; exact H. }
  pose proof (i_nodup _ _ HI) as Hn.
  assert (E : forall g f who, (forall b, In b (s_bals s) -> g b = total f who (b_id b) (s_txns s)) ->
              Forall (fun r => In (who r) (map b_id (s_bals s))) (s_txns s) ->
              sumz g (s_bals s) = sumz f (s_txns s)).
  { intros g f who Hg HF. rewrite (sumz_ext _ _ _ Hg). apply sum_total; auto. }
  assert (E1 : sumz b_cr (s_bals s) = sumz settled (s_txns s)).
  { apply (E _ settled destination); auto. intros b Hb. apply (i_shows _ _ HI b Hb). }
  assert (E2 : sumz b_db (s_bals s) = sumz settled (s_txns s)).
  { apply (E _ settled source); auto. intros b Hb. apply (i_shows _ _ HI b Hb). }
  assert (E3 : sumz b_icr (s_bals s) = sumz held (s_txns s)).
  { apply (E _ held destination); auto. intros b Hb. apply (i_shows _ _ HI b Hb). }
  assert (E4 : sumz b_idb (s_bals s) = sumz held (s_txns s)).
  { apply (E _ held source); auto. intros b Hb. apply (i_shows _ _ HI b Hb). }
  assert (Hsub : forall (l : list balance) f g h, (forall b, In b l -> h b = f b - g b) ->
                 sumz h l = sumz f l - sumz g l).
  { clear. induction l as [|b l IH]; intros f g h H; simpl; [lia|].
    rewrite (H b) by (left; reflexivity). rewrite (IH f g h); [lia|]. intros b' Hb'. apply H. right; exact Hb'. }
  split; [congruence|]. split; [congruence|]. split.
  - rewrite (Hsub _ b_cr b_db); [lia|]. intros b Hb.
    destruct (i_shows _ _ HI b Hb) as ((A1 & A2 & A3 & A4 & A5 & A6) & _). lia.
  - rewrite (Hsub _ b_icr b_idb); [lia|]. intros b Hb.
    destruct (i_shows _ _ HI b Hb) as ((A1 & A2 & A3 & A4 & A5 & A6) & _). lia.
Qed.

Lemma balance_journal b : In b (s_bals s) ->
  b_cr b = sumz (fun r => if status_eqb (t_status (r_t r)) SApplied && String.eqb (t_dst (r_t r)) (b_id b)
                          then t_precise (r_t r) else 0) (s_txns s)
  /\ b_db b = sumz (fun r => if status_eqb (t_status (r_t r)) SApplied && String.eqb (t_src (r_t r)) (b_id b)
                          then t_precise (r_t r) else 0) (s_txns s)
  /\ b_icr b = held_in (b_id b) (s_txns s) /\ b_idb b = held_out (b_id b) (s_txns s)
  /\ b_bal b = b_cr b - b_db b /\ b_ibal b = b_icr b - b_idb b.
Proof.
  intros Hb. pose proof reach_inv as HI.
  destruct (i_shows _ _ HI b Hb) as ((A1 & A2 & A3 & A4 & A5 & A6) & _).
  pose proof (i_rows _ _ HI) as Hk. rewrite Forall_forall in Hk.
  assert (E : forall who, total settled who (b_id b) (s_txns s) =
     sumz (fun r => if status_eqb (t_status (r_t r)) SApplied && String.eqb (who r) (b_id b)
                    then t_precise (r_t r) else 0) (s_txns s)).
  { intros who. apply sumz_ext. intros r Hr. destruct (Hk r Hr) as [Hks _]. unfold kind_status, settled, amount in *.
    destruct (r_kind r); try (rewrite Hks; simpl; destruct (String.eqb (who r) (b_id b)); reflexivity).
    destruct (String.eqb (who r) (b_id b)); destruct Hks as [->|[->| ->]]; reflexivity. }
  split; [rewrite A1; apply (E destination)|]. split; [rewrite A2; apply (E source)|].
  repeat split; auto; lia.
Qed.

(** Held money is never negative. *)
Lemma held_nonneg qc j id : legal_journal qc j -> 0 <= held_in id j /\ 0 <= held_out id j.
Proof.
  induction j as [|r j IH]; intros H; [split; reflexivity|]. destruct H as [Hr Hj].
  destruct (IH Hj) as [I1 I2]. unfold held_in, held_out in *. rewrite !total_cons.
  unfold legal in Hr. unfold held_in, held_out in Hr.
  pose proof (eq_refl : held r = match r_kind r with KHold => amount r | KCommit | KVoid => - amount r | _ => 0 end) as Hh. rewrite Hh. clear Hh.
  destruct (r_kind r) eqn:Ek.
  - destruct (String.eqb (destination r) id), (String.eqb (source r) id); lia.
  - destruct Hr as [Hr _]. destruct (String.eqb (destination r) id), (String.eqb (source r) id); lia.
  - destruct Hr as (_ & Ha & Hb).
    destruct (String.eqb_spec (destination r) id) as [Ed|Ed], (String.eqb_spec (source r) id) as [Es|Es];
      rewrite ?Ed in Hb; rewrite ?Es in Ha; lia.
  - destruct Hr as (_ & Ha & Hb).
    destruct (String.eqb_spec (destination r) id) as [Ed|Ed], (String.eqb_spec (source r) id) as [Es|Es];
      rewrite ?Ed in Hb; rewrite ?Es in Ha; lia.
  - destruct (String.eqb (destination r) id), (String.eqb (source r) id); lia.
Qed.

Lemma inflight_nonneg b : In b (s_bals s) -> 0 <= b_icr b /\ 0 <= b_idb b.
Proof.
  intros Hb. pose proof reach_inv as HI.
  destruct (i_shows _ _ HI b Hb) as ((A1 & A2 & A3 & A4 & A5 & A6) & _). rewrite A3, A4.
  eapply held_nonneg. exact (i_legal _ _ HI).
Qed.

Definition positive_commits (j : list row) : Prop :=
  forall r, In r j -> r_kind r = KCommit \/ r_kind r = KVoid -> 0 < amount r.

Lemma settled_nonneg qc j who id : legal_journal qc j -> positive_commits j -> 0 <= total settled who id j.
Proof.
  induction j as [|r j IH]; intros H Hp; [reflexivity|]. destruct H as [Hr Hj]. rewrite total_cons.
  assert (0 <= total settled who id j) by (apply IH; auto; intros x Hx; apply Hp; right; exact Hx).
  unfold legal in Hr. pose proof (eq_refl : settled r = match r_kind r with KPost | KCommit => amount r | _ => 0 end) as Hst. rewrite Hst. clear Hst. specialize (Hp r (or_introl eq_refl)).
  destruct (r_kind r); destruct (String.eqb (who r) id); try lia; try (destruct Hr; lia).
  specialize (Hp (or_introl eq_refl)). lia.
Qed.

Lemma counters_nonneg b : In b (s_bals s) -> positive_commits (s_txns s) -> 0 <= b_cr b /\ 0 <= b_db b.
Proof.
  intros Hb Hp. pose proof reach_inv as HI.
  destruct (i_shows _ _ HI b Hb) as ((A1 & A2 & A3 & A4 & A5 & A6) & _). rewrite A1, A2.
  split; eapply settled_nonneg; eauto; exact (i_legal _ _ HI).
Qed.

(** The largest overdraft any transaction out of [id] was granted. *)
Definition overdraft_at_most (id : string) (L : Z) (j : list row) : Prop :=
  forall r, In r j -> t_src (r_t r) = id -> r_kind r = KPost \/ r_kind r = KHold ->
    ~ (t_allow (r_t r) = true /\ (t_limit (r_t r) == 0)%Q) /\ forall l, grants (r_t r) l -> l <= L.

Lemma available_bound j id L :
  legal_journal (c_queued cfg) j -> 0 <= L -> overdraft_at_most id L j -> positive_commits j ->
  (c_queued cfg = true -> ~ negative_queued j) -> - L <= available id j.
Proof.
  intros Hl HL. induction j as [|r j IH]; intros Ho Hp Hq; [unfold available; simpl; lia|].
  destruct Hl as [Hr Hj].
  assert (IH' : - L <= available id j).
  { apply IH; auto.
    - intros x Hx. apply Ho. right; exact Hx.
    - intros x Hx. apply Hp. right; exact Hx.
    - intros Hc (x & Hx & H). apply (Hq Hc). exists x. split; [right; exact Hx|exact H]. }
  unfold available, credits, debits, held_out in *. rewrite !total_cons. unfold legal, funded in Hr.
  specialize (Ho r (or_introl eq_refl)). specialize (Hp r (or_introl eq_refl)).
  pose proof (eq_refl : held r = match r_kind r with KHold => amount r | KCommit | KVoid => - amount r | _ => 0 end) as Hh. pose proof (eq_refl : settled r = match r_kind r with KPost | KCommit => amount r | _ => 0 end) as Hst.
  rewrite Hh, Hst. clear Hh Hst. unfold source in *.
  destruct (r_kind r) eqn:Ek.
  - destruct Hr as [H0 [Hf|[Hc Hn]]].
    2:{ exfalso. apply (Hq Hc). destruct Hn as (x & Hx & H). exists x. split; [right; exact Hx|exact H]. }
    assert (Hs : t_src (r_t r) = id -> amount r <= available id j + L).
    { intros E. destruct (Ho E (or_introl eq_refl)) as [Ho1 Ho2]. rewrite E in Hf.
      destruct Hf as [Hf|[Hf|(l & Hg & Hf)]]; [contradiction|lia|specialize (Ho2 l Hg); lia]. }
    unfold available, credits, debits, held_out, source in Hs.
    destruct (String.eqb_spec (t_src (r_t r)) id) as [E|E]; destruct (String.eqb (destination r) id);
      try (specialize (Hs E)); lia.
  - destruct Hr as [H0 [Hf|[Hc Hn]]].
    2:{ exfalso. apply (Hq Hc). destruct Hn as (x & Hx & H). exists x. split; [right; exact Hx|exact H]. }
    assert (Hs : t_src (r_t r) = id -> amount r <= available id j + L).
    { intros E. destruct (Ho E (or_intror eq_refl)) as [Ho1 Ho2]. rewrite E in Hf.
      destruct Hf as [Hf|[Hf|(l & Hg & Hf)]]; [contradiction|lia|specialize (Ho2 l Hg); lia]. }
    unfold available, credits, debits, held_out, source in Hs.
    destruct (String.eqb_spec (t_src (r_t r)) id) as [E|E]; destruct (String.eqb (destination r) id);
      try (specialize (Hs E)); lia.
  - specialize (Hp (or_introl eq_refl)).
    destruct (String.eqb (t_src (r_t r)) id), (String.eqb (destination r) id); lia.
  - specialize (Hp (or_intror eq_refl)).
    destruct (String.eqb (t_src (r_t r)) id), (String.eqb (destination r) id); lia.
  - destruct (String.eqb (t_src (r_t r)) id), (String.eqb (destination r) id); lia.
Qed.

Lemma no_overdraft b L :
  In b (s_bals s) -> 0 <= L -> overdraft_at_most (b_id b) L (s_txns s) -> positive_commits (s_txns s) ->
  (c_queued cfg = true -> ~ negative_queued (s_txns s)) -> - L <= b_bal b - b_idb b.
Proof.
  intros Hb HL Ho Hp Hq. pose proof reach_inv as HI.
  destruct (i_shows _ _ HI b Hb) as ((A1 & A2 & A3 & A4 & A5 & A6) & _).
  pose proof (available_bound _ _ _ (i_legal _ _ HI) HL Ho Hp Hq) as H. unfold available in H. lia.
Qed.

Lemma unique_refs r1 r2 : In r1 (s_txns s) -> In r2 (s_txns s) -> t_ref (r_t r1) = t_ref (r_t r2) -> r1 = r2.
Proof.
  pose proof (i_refs _ _ reach_inv) as H. revert H. generalize (s_txns s). intros l H H1 H2 E.
  induction l as [|x r IH]; [contradiction|]. simpl in H. inversion H as [|? ? Hni Hnd]; subst.
  destruct H1 as [<-|H1], H2 as [<-|H2]; auto; exfalso; apply Hni.
  - rewrite E. apply (in_map (fun r => t_ref (r_t r))); exact H2.
  - rewrite <- E. apply (in_map (fun r => t_ref (r_t r))); exact H1.
Qed.

Lemma reconcile_nothing n id : fst (exec n (OReconcile id) s) = s.
Proof.
  simpl. pose proof reach_inv as HI.
  rewrite reconcile_noop; [destruct s; reflexivity|exact (i_rows _ _ HI)|].
  exact (i_shows _ _ HI).
Qed.

End Reach.

(** ** Immutability of the journal *)
Lemma insert_txns_ext ts bals l l' : insert_txns ts bals l = Ok l' -> exists x, l' = (x ++ l)%list.
Proof.
  revert l. induction ts as [|[k t] r IH]; intros l; simpl; [intros H; inversion H; exists []; reflexivity|].
  unfold insert_txn. destruct (ref_exists _ _); [discriminate|]. destruct (id_exists _ _); [discriminate|].
  destruct (get_bal (t_src t) bals), (get_bal (t_dst t) bals); try discriminate. intros H. destruct (IH _ H) as (x & ->).
  exists (x ++ [{| r_t := t; r_kind := k |}])%list. rewrite <- app_assoc. reflexivity.
Qed.

Lemma exec_journal n o s : exists l, s_txns (fst (exec n o s)) = (l ++ s_txns s)%list.
Proof.
  destruct o; simpl; try (exists []; reflexivity).
  - unfold create_balance. destruct (get_bal _ _); [exists []; reflexivity|].
    destruct (_ && _); exists []; reflexivity.
  - destruct (lock_owner _ _); exists []; reflexivity.
  - destruct (lock_owner _ _) as [x|]; [destruct (Nat.eqb x n)|]; exists []; reflexivity.
  - destruct (insert_txn _ _ _ _) as [l'|] eqn:E; simpl; [|exists []; reflexivity].
    apply (insert_txns_ext [(KNone, t)] (s_bals s)). simpl. rewrite E. reflexivity.
  - unfold persist_single. destruct (update_balance _ _ _) as [b1|]; simpl; [|exists []; reflexivity].
    destruct (update_balance _ _ _) as [b2|]; simpl; [|exists []; reflexivity].
    destruct (insert_txn _ _ _ _) as [l'|] eqn:E; simpl; [|exists []; reflexivity].
    apply (insert_txns_ext [(k, t)] b2). simpl. rewrite E. reflexivity.
  - unfold persist_batch. destruct (update_balance_set _ _ _) as [b|]; simpl; [|exists []; reflexivity].
    destruct (insert_txns _ _ _) as [l'|] eqn:E; simpl; [|exists []; reflexivity].
    exact (insert_txns_ext _ _ _ _ E).
Qed.

Lemma step_journal cfg y e y' : step cfg y e y' -> exists l, s_txns (y_st y') = (l ++ s_txns (y_st y))%list.
Proof.
  destruct e as [r|n|n|k]; simpl.
  - intros H. exists []. destruct r; simpl in H;
      try (destruct H as [_ H]; subst y'; reflexivity).
    destruct H as (l1 & l2 & _ & H); subst y'; reflexivity.
  - destruct (nth_error (y_thr y) n) as [[a|o k]|]; try contradiction. intros ->. simpl. apply exec_journal.
  - intros ->. exists []; reflexivity.
  - intros ->. exists []; reflexivity.
Qed.

Lemma append_only cfg ok y y' : steps cfg ok y y' -> exists l, s_txns (y_st y') = (l ++ s_txns (y_st y))%list.
Proof.
  induction 1 as [|y1 y2 y3 e H IH Ho Hs]; [exists []; reflexivity|].
  destruct IH as (l & E). destruct (step_journal _ _ _ _ Hs) as (l' & E').
  exists (l' ++ l)%list. rewrite E', E, app_assoc. reflexivity.
Qed.

(** ** A used reference is refused *)
Lemma ref_exists_in ref l : ref_exists ref l = true <-> exists r, In r l /\ t_ref (r_t r) = ref.
Proof.
  unfold ref_exists. rewrite existsb_exists. split; intros (r & H1 & H2); exists r; split; auto;
    apply String.eqb_eq; auto.
Qed.

Lemma used_ref_refused n s t k src dst ob r :
  In r (s_txns s) -> t_ref (r_t r) = t_ref t ->
  (exists e, exec n (OInsert t) s = (s, Err e)) /\ (exists e, exec n (OPersist k t src dst ob) s = (s, Err e)).
Proof.
  intros Hr E. assert (H : ref_exists (t_ref t) (s_txns s) = true) by (apply ref_exists_in; eauto).
  split; simpl.
  - unfold insert_txn. rewrite H. eauto.
  - unfold persist_single. destruct (update_balance _ _ _) as [b1|]; [|eauto].
    destruct (update_balance _ _ _) as [b2|]; [|eauto].
    unfold insert_txn. rewrite H. eauto.
Qed.

Lemma used_ref_refused_batch n s ts ws obs k t r :
  In (k, t) ts -> In r (s_txns s) -> t_ref (r_t r) = t_ref t ->
  exists e, exec n (OPersistBatch ts ws obs) s = (s, Err e).
Proof.
  intros Ht Hr E. simpl. unfold persist_batch. destruct (update_balance_set _ _ _) as [b|]; [|eauto].
  assert (H : exists e, insert_txns ts b (s_txns s) = Err e).
  { revert Hr. generalize (s_txns s). induction ts as [|[k' t'] q IH]; intros l Hl; [contradiction|]. simpl.
    unfold insert_txn. destruct (ref_exists (t_ref t') l) eqn:Er; [eauto|].
    destruct (id_exists _ _); [eauto|]. destruct (get_bal (t_src t') b), (get_bal (t_dst t') b); eauto.
    destruct Ht as [Ht|Ht].
    - inversion Ht; subst. rewrite (proj2 (ref_exists_in (t_ref t) l)) in Er; [discriminate|eauto].
    - apply IH; auto. right; exact Hl. }
  destruct H as (e & ->). eauto.
Qed.

Lemma rows_stay cfg ok y y' :
  steps cfg ok y y' -> forall r, In r (s_txns (y_st y)) -> In r (s_txns (y_st y')).
Proof. intros H r Hr. destruct (append_only _ _ _ _ H) as (l & ->). apply in_or_app. right; exact Hr. Qed.
