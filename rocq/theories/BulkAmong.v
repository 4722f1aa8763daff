(** The rollback of a bulk of holds under any schedule. *)
From Coq Require Import ZArith QArith List String Bool Lia.
From Verif Require Import LedgerInv LedgerThms PostSpec PostProof WorkProof BatchProof BatchOrd BulkProof.
From Verif Require Import Base MoneyModel SplitModel BalanceModel LedgerModel LedgerProgs BatchSpec BulkModel BulkSpec.
Import ListNotations.
Local Open Scope string_scope.
Open Scope Z_scope.

Lemma among_traces n {A} (p : prog A) s a s' own : among n p s (Some a) s' own -> traces n p own (Some a).
Proof.
  revert s own. induction p as [x|o k IH]; intros s own; simpl.
  - intros (_ & E & ->). auto.
  - intros [(_ & E & _)|(s1 & rest & _ & -> & H)]; [discriminate|]. right. exists s1, rest. split; [reflexivity|]. eapply IH, H.
Qed.
Lemma others_rows s s' : others s s' -> incl (s_txns s) (s_txns s').
Proof. intros H. exact (among_rows 0 (Ret tt) s (Some tt) s' [] (conj H (conj eq_refl eq_refl))). Qed.
(** The rows a request finds and writes are still there at its end. *)
Lemma among_own_rows n {A} (p : prog A) s r s' own : among n p s r s' own ->
  forall x, In x own -> incl (s_txns (snd x)) (s_txns s').
Proof.
  revert s own. induction p as [a|o k IH]; intros s own; simpl.
  - intros (_ & _ & ->) x [].
  - intros [(_ & _ & ->)|(s1 & rest & _ & -> & H)] x; [intros []|]. intros [<-|Hx].
    + exact (among_rows _ _ _ _ _ _ H).
    + exact (IH _ _ _ H x Hx).
Qed.
Lemma among_fst_rows n {A} (p : prog A) s r s' own : among n p s r s' own ->
  forall x, In x own -> incl (s_txns s) (s_txns (fst x)).
Proof.
  revert s own. induction p as [a|o k IH]; intros s own; simpl.
  - intros (_ & _ & ->) x [].
  - intros [(_ & _ & ->)|(s1 & rest & Ho & -> & H)] x; [intros []|]. intros [<-|Hx].
    + apply others_rows, Ho.
    + eapply incl_tran; [apply others_rows, Ho|]. eapply incl_tran; [apply exec_rows|]. exact (IH _ _ _ H x Hx).
Qed.

(** Which rows a request writes. *)
Definition writes (P : txn -> Prop) (o : op) : Prop :=
  match o with OPersist _ t _ _ _ => P t | OInsert _ | OPersistBatch _ _ _ => False | _ => True end.
Lemma writes_rows n (P : txn -> Prop) o s r : writes P o -> s_txns (fst (exec n o s)) = r :: s_txns s -> P (r_t r).
Proof.
  assert (N : forall (x : row) l, l <> x :: l) by (intros x l E; apply (f_equal (@List.length row)) in E; simpl in E; lia).
  assert (N' : forall (x : row) l, x :: l <> l) by (intros x l E; symmetry in E; exact (N _ _ E)).
  destruct o; simpl; intros W E; try contradiction; try (exfalso; exact (N _ _ E)).
  - exfalso. revert E. unfold create_balance. destruct (get_bal _ _); [apply N|]. destruct (_ && _); apply N.
  - exfalso. destruct (lock_owner _ _); apply (N _ _ E).
  - exfalso. destruct (lock_owner _ _) as [m|]; [destruct (Nat.eqb m n)|]; apply (N _ _ E).
  - unfold persist_single in E. destruct (update_balance _ _ (s_bals s)) as [b1|]; [|exfalso; exact (N _ _ E)].
    destruct (update_balance _ _ b1) as [b2|]; [|exfalso; exact (N _ _ E)].
    unfold insert_txn in E. destruct (ref_exists _ _); [exfalso; exact (N _ _ E)|].
    destruct (id_exists _ _); [exfalso; exact (N _ _ E)|].
    destruct (get_bal (t_src t) b2); [|exfalso; exact (N _ _ E)]. destruct (get_bal (t_dst t) b2); [|exfalso; exact (N _ _ E)].
    simpl in E. injection E as <-. exact W.
Qed.
Lemma among_writes n (P : txn -> Prop) {A} (p : prog A) s a s' own : all_ops (writes P) p -> among n p s a s' own ->
  forall x r, In x own -> s_txns (snd x) = r :: s_txns (fst x) -> P (r_t r).
Proof.
  revert s own. induction p as [b|o k IH]; intros s own Hp; simpl.
  - intros (_ & _ & ->) x r [].
  - destruct Hp as [Ho Hk]. intros [(_ & _ & ->)|(s1 & rest & _ & -> & H)] x r; [intros []|]. intros [<-|Hx] E.
    + exact (writes_rows _ _ _ _ _ Ho E).
    + exact (IH _ _ _ (Hk _) H x r Hx E).
Qed.

Create HintDb wr.
Ltac wr := repeat match goal with
  | |- forall _, _ => intro
  | |- all_ops _ (Ret _) => exact Logic.I
  | |- all_ops _ (bindr _ _) => apply all_ops_bindr
  | |- all_ops _ (bind _ _) => apply all_ops_bind
  | |- all_ops _ (act _) => apply all_ops_act; exact Logic.I
  | |- all_ops _ (Do _ _) => split; [exact Logic.I|]
  | |- all_ops _ (match ?x with _ => _ end) => destruct x
  | |- all_ops _ _ => solve [auto with wr]
  | |- _ => progress cbv zeta
  end.
Section Writes.
Variable P : txn -> Prop.
Lemma wr_get_balance cfg id : all_ops (writes P) (get_balance cfg id). Proof. unfold get_balance. wr. Qed.
#[local] Hint Resolve wr_get_balance : wr.
Lemma wr_get_or_create cfg i c : all_ops (writes P) (get_or_create cfg i c). Proof. unfold get_or_create, fresh. wr. Qed.
#[local] Hint Resolve wr_get_or_create : wr.
Lemma wr_resolve cfg s c : all_ops (writes P) (resolve_id cfg s c). Proof. unfold resolve_id. wr. Qed.
Lemma wr_get_end cfg s c : all_ops (writes P) (get_end cfg s c). Proof. unfold get_end. wr. Qed.
Lemma wr_unlock ks : all_ops (writes P) (unlock_keys ks). Proof. induction ks; cbn [unlock_keys]; wr. Qed.
#[local] Hint Resolve wr_resolve wr_get_end wr_unlock : wr.
Lemma wr_lock ks : forall got, all_ops (writes P) (lock_keys ks got). Proof. induction ks; intros got; cbn [lock_keys]; wr. Qed.
#[local] Hint Resolve wr_lock : wr.
Lemma wr_wait n ks : all_ops (writes P) (wait_lock n ks). Proof. induction n; cbn [wait_lock]; wr. Qed.
#[local] Hint Resolve wr_wait : wr.
Lemma wr_fetch id : all_ops (writes P) (fetch_inflight id). Proof. unfold fetch_inflight. wr. Qed.
Lemma wr_choose r : all_ops (writes P) (choose_ref r). Proof. unfold choose_ref, fresh. wr. Qed.
Lemma wr_ensure t : all_ops (writes P) (ensure_id t). Proof. unfold ensure_id, fresh. wr. Qed.
#[local] Hint Resolve wr_fetch wr_choose wr_ensure : wr.
(** A post writes a transaction with the keys it was given. *)
Lemma wr_locked cfg t : (forall t', t_parent t' = t_parent t -> t_status t' = final_status t -> P t') -> all_ops (writes P) (record_locked cfg t).
Proof.
  intros HP. unfold record_locked. apply all_ops_bind; [wr|]. intros [|]; [wr|].
  apply all_ops_bindr; [wr|]. intros src. apply all_ops_bindr; [wr|]. intros dst. cbv zeta.
  destruct (apply_to_balances _ _ _) as [[[t1 s1] d1]|er] eqn:E; [|wr].
  apply apply_keys in E as (E1 & E2 & E3 & E4 & _). simpl in E1, E3, E4.
  destruct (_ =? 0); [wr|]. apply all_ops_bind; [|wr]. apply all_ops_act. cbn [writes].
  destruct (clear_rest (update_details t1 s1 d1)) as (C1 & C2 & C3). apply HP; rewrite ?C1, ?C3; simpl.
  - exact E1.
  - unfold final_status. rewrite E3, E4. reflexivity.
Qed.
Lemma wr_record cfg t : (forall t', t_parent t' = t_parent t -> t_status t' = final_status t -> P t') -> all_ops (writes P) (record_single cfg t).
Proof.
  intros HP. unfold record_single. apply all_ops_bindr; [wr|]. intros a. apply all_ops_bindr; [wr|]. intros b. cbv zeta.
  apply all_ops_bind; [wr|]. intros [|]; [|wr]. apply all_ops_bind; [apply wr_locked; exact HP|]. wr.
Qed.
Lemma wr_void cfg id ref : (forall t', t_status t' = SVoid -> P t') -> all_ops (writes P) (void cfg id ref).
Proof.
  intros HP. unfold void, with_lock. apply all_ops_bind; [wr|]. intros [|]; [|wr]. apply all_ops_bind; [|wr].
  apply all_ops_bindr; [wr|]. intros t. apply all_ops_bind; [wr|]. intros c. cbv zeta. destruct (_ =? 0); [wr|].
  apply all_ops_bind; [unfold fresh; wr|]. intros nid. apply all_ops_bind; [wr|]. intros nref.
  apply wr_record. intros t' _ E. apply HP. rewrite E. set (v := with_status _ _).
  destruct (precision_keys v) as (_ & _ & P3 & P4 & _). unfold final_status. rewrite P3, P4. reflexivity.
Qed.
Lemma wr_member cfg e t : unsplit t -> t_skipq t = true -> (forall t', t_parent t' = t_parent t -> P t') ->
  all_ops (writes P) (queue_transaction cfg e t).
Proof.
  intros [U1 U2] Hs HP. unfold queue_transaction. rewrite U1, U2. unfold queue_nosplit.
  set (t0 := set_metadata t).
  assert (K0 : t_parent t0 = t_parent t /\ t_skipq t0 = true).
  { unfold t0, set_metadata. simpl. destruct (precision_keys t) as (P1 & _). rewrite P1.
    repeat split. unfold apply_precision_txn. destruct (apply_precision _ _ _) as [[? ?] ?]. exact Hs. }
  assert (K : forall t1, t_parent t1 = t_parent t -> t_skipq t1 = true -> all_ops (writes P)
    (let t2 := set_status t1 in
     match calculate_distributions (fun m => m) (fun m => m) (t_precise t2) [] (t_prec t2) with
     | None => Ret (Err ESplit)
     | Some _ =>
       if t_skipq t2 then bindr (record_single cfg t2) (fun _ => Ret (Ok (with_status t2 (if t_inflight t2 then SInflight else SApplied))))
       else queue_async t2 [] (t_ref t) (t_id t2)
     end)).
  { intros t1 E1 E2. cbv zeta.
    assert (K2 : t_parent (set_status t1) = t_parent t /\ t_skipq (set_status t1) = true).
    { unfold set_status. destruct (t_sched t1); [auto|]. destruct (t_status t1); auto. }
    destruct K2 as [K2 K3]. destruct (calculate_distributions _ _ _ _ _); [|wr]. rewrite K3.
    apply all_ops_bindr; [|wr]. apply wr_record. intros t' E _. apply HP. congruence. }
  destruct K0 as [K1 K2]. unfold ensure_id. destruct (String.eqb (t_id t0) "").
  - unfold fresh. cbn [bind act]. split; [exact Logic.I|]. intros x. exact (K (with_keys t0 ("txn_" ++ x) (t_parent t0) (t_ref t0)) K1 K2).
  - cbn [bind]. exact (K t0 K1 K2).
Qed.
Lemma wr_members cfg e batch i ts : Forall unsplit ts -> (forall t', t_parent t' = batch -> P t') ->
  all_ops (writes P) (process_bulk cfg e ts batch i true).
Proof.
  intros U HP. induction U as [|t r U1 _ IH]; cbn [process_bulk]; [wr|]. cbv zeta.
  apply all_ops_bind; [|intros [x|er]; [exact IH|wr]]. apply wr_member; [exact U1|reflexivity|]. intros t' E. apply HP. exact E.
Qed.
Lemma wr_voids cfg legs : (forall t', t_status t' = SVoid -> P t') ->
  all_ops (writes P) (for_each (fun l => if negb (is_inflight l) then Ret (Err ENotInflight) else void cfg (t_id l) "") legs).
Proof.
  intros HP. induction legs as [|l r IH]; cbn [for_each]; [wr|]. apply all_ops_bind.
  - destruct (negb _); [wr|]. apply wr_void. exact HP.
  - intros x. apply all_ops_bind; [exact IH|]. wr.
Qed.
End Writes.

(** A hold listed for rollback whose void succeeded. *)
Lemma voided_leg n cfg legs : forall s rs s' own l,
  among n (for_each (fun l => if negb (is_inflight l) then Ret (Err ENotInflight) else void cfg (t_id l) "") legs) s (Some rs) s' own ->
  Forall succeeded rs -> In l legs ->
  (exists v, In v (s_txns s') /\ t_status (r_t v) = SVoid /\ t_parent (r_t v) = t_id l)
  \/ exists x x' o, In x own /\ In x' own /\ get_row (t_id l) (s_txns (fst x)) = Some o
       /\ t_precise o < total_committed (t_id l) (s_txns (fst x')).
Proof.
  induction legs as [|l0 r IH]; intros s rs s' own l H S Hl; [destruct Hl|].
  cbn [for_each] in H. apply among_bind in H as [[E _]|(x & s1 & o1 & o2 & -> & H1 & H)]; [discriminate|].
  apply among_bind in H as [[E _]|(xs & s2 & o3 & o4 & -> & H2 & H)]; [discriminate|].
  destruct H as (Ho & E & ->). injection E as ->. inversion S as [|? ? [t Ex] S2]; subst.
  destruct Hl as [->|Hl].
  - destruct (negb _); [destruct H1 as (_ & E & _); discriminate|].
    pose proof (among_traces _ _ _ _ _ _ H1) as T. pose proof (void_aon _ _ _ _ _ _ T) as Q.
    apply void_result in T as (Q1 & Q2 & Q3).
    destruct Q as [[_ Z]|(t1 & x & t2 & t' & E & _ & P & _ & Er)].
    + right. destruct Q3 as [Q3|(x & x' & o & I1 & I2 & Eo & Le)]; [exfalso; apply Q3, Z; reflexivity|].
      exists x, x', o. split; [apply in_or_app; auto|]. split; [apply in_or_app; auto|auto].
    + destruct Er as [Er|Er]; [discriminate|]. injection Er as <-.
      left. destruct P as [(v & <- & Rv) _]. exists v. split; [|auto].
      apply (others_rows _ _ Ho), (among_rows _ _ _ _ _ _ H2), (among_own_rows _ _ _ _ _ _ H1 x).
      * rewrite E. apply in_or_app. right. left. reflexivity.
      * rewrite Rv. left. reflexivity.
  - destruct (IH _ _ _ _ l H2 S2 Hl) as [(v & Iv & Ev)|(x & x' & o & I1 & I2 & Eo & Le)].
    + left. exists v. split; [apply (others_rows _ _ Ho), Iv|exact Ev].
    + right. exists x, x', o. rewrite app_nil_r. split; [apply in_or_app; auto|]. split; [apply in_or_app; auto|auto].
Qed.

Lemma listed ov batch l h : In h l -> t_status (r_t h) = SInflight -> t_parent (r_t h) = batch ->
  In (db_view (meta_of ov (r_t h)) (r_t h)) (inflight_by_parent ov batch l).
Proof.
  intros Ih S E. unfold inflight_by_parent.
  set (f := filter _ (map _ l)).
  assert (I : In (db_view (meta_of ov (r_t h)) (r_t h)) f).
  { unfold f. apply filter_In. split.
    - apply (in_map (fun x => db_view (meta_of ov (r_t x)) (r_t x))). exact Ih.
    - simpl. rewrite S, E, String.eqb_refl, Bool.orb_true_r. reflexivity. }
  destruct f; [destruct I|exact I].
Qed.

(** Rows keep their identifiers. *)
Definition uids (s : state) := NoDup (map (fun r => t_id (r_t r)) (s_txns s)).
Lemma id_exists_in id l : id_exists id l = false -> ~ In id (map (fun r => t_id (r_t r)) l).
Proof.
  unfold id_exists. induction l as [|x r IH]; simpl; [tauto|]. destruct (String.eqb_spec (t_id (r_t x)) id); [discriminate|].
  intros H [E|I]; [congruence|exact (IH H I)].
Qed.
Lemma insert_uids k t b l l' : insert_txn k t b l = Ok l' -> NoDup (map (fun r => t_id (r_t r)) l) -> NoDup (map (fun r => t_id (r_t r)) l').
Proof.
  unfold insert_txn. destruct (ref_exists _ _); [discriminate|]. destruct (id_exists _ _) eqn:E; [discriminate|].
  destruct (get_bal _ _); [|discriminate]. destruct (get_bal _ _); [|discriminate]. intros [= <-] N. simpl. constructor; [|exact N].
  apply id_exists_in. exact E.
Qed.
Lemma inserts_uids ts b : forall l l', insert_txns ts b l = Ok l' -> NoDup (map (fun r => t_id (r_t r)) l) -> NoDup (map (fun r => t_id (r_t r)) l').
Proof.
  induction ts as [|[k t] r IH]; intros l l' H N; simpl in H; [congruence|].
  destruct (insert_txn k t b l) as [l1|] eqn:E; [|discriminate]. apply (IH _ _ H). eapply insert_uids; eauto.
Qed.
Lemma exec_uids n o s : uids s -> uids (fst (exec n o s)).
Proof.
  unfold uids. destruct o; simpl; auto.
  - unfold create_balance. destruct (get_bal _ _); [auto|]. destruct (_ && _); auto.
  - destruct (lock_owner _ _); auto.
  - destruct (lock_owner _ _) as [m|]; [destruct (Nat.eqb m n)|]; auto.
  - destruct (insert_txn _ _ _ _) eqn:E; [|auto]. simpl. eapply insert_uids; eauto.
  - unfold persist_single. destruct (update_balance _ _ _) as [b1|]; [|auto]. destruct (update_balance _ _ b1) as [b2|]; [|auto].
    destruct (insert_txn _ _ _ _) eqn:E; [|auto]. simpl. eapply insert_uids; eauto.
  - unfold persist_batch. destruct (update_balance_set _ _ _) as [b|]; [|auto].
    destruct (insert_txns _ _ _) eqn:E; [|auto]. simpl. eapply inserts_uids; eauto.
Qed.
Lemma others_uids s s' : others s s' -> uids s -> uids s'.
Proof. induction 1 as [q|m o q q' Ho Hs IH|l q q' Hs IH|l q q' Hs IH]; auto. intros U. apply IH, exec_uids, U. Qed.
Lemma among_uids n {A} (p : prog A) s r s' own : among n p s r s' own -> uids s ->
  uids s' /\ forall x, In x own -> uids (fst x).
Proof.
  revert s own. induction p as [a|o k IH]; intros s own; simpl.
  - intros (H & _ & ->) U. split; [eapply others_uids; eauto|]. intros x [].
  - intros [(H & _ & ->)|(s1 & rest & H & -> & H3)] U; [split; [eapply others_uids; eauto|intros x []]|].
    pose proof (others_uids _ _ H U) as U1. destruct (IH _ _ _ H3 (exec_uids n o s1 U1)) as [U2 U3]. split; [exact U2|].
    intros x [<-|Hx]; auto.
Qed.
Lemma get_row_unique l h t : NoDup (map (fun r => t_id (r_t r)) l) -> In h l -> get_row (t_id (r_t h)) l = Some t -> t = r_t h.
Proof.
  induction l as [|r l IH]; intros N I G; [destruct I|]. simpl in N. inversion N as [|? ? N1 N2]; subst. simpl in G.
  destruct I as [->|I]; [rewrite String.eqb_refl in G; congruence|].
  destruct (String.eqb_spec (t_id (r_t r)) (t_id (r_t h))) as [E|_]; [|auto].
  exfalso. apply N1. rewrite E. apply (in_map (fun r => t_id (r_t r))). exact I.
Qed.

Theorem bulk_voids n cfg e ts s er report s' own :
  uids s -> Forall unsplit ts ->
  among n (bulk_report cfg e ts true true true) s (Some (Err er, report)) s' own -> Forall succeeded report ->
  forall x h, In x own -> s_txns (snd x) = h :: s_txns (fst x) -> t_status (r_t h) = SInflight ->
  (exists v, In v (s_txns s') /\ t_status (r_t v) = SVoid /\ t_parent (r_t v) = t_id (r_t h))
  \/ exists x', In x' own /\ t_precise (r_t h) < total_committed (t_id (r_t h)) (s_txns (fst x')).
Proof.
  intros Un U H S x h Hx Rx Sh.
  unfold bulk_report in H. apply among_bind in H as [[E _]|(batch & s1 & o1 & o2 & -> & H1 & H)]; [discriminate|].
  assert (W1 : all_ops (writes (fun _ => False)) (fresh "bulk")) by (unfold fresh; wr).
  apply among_bind in H as [[E _]|(r & s2 & o3 & o4 & -> & H2 & H)]; [discriminate|].
  destruct r as [r|er']; [destruct H as (_ & E & _); discriminate|].
  apply among_bind in H as [[E _]|(rb & s3 & o5 & o6 & -> & H3 & H)]; [discriminate|].
  destruct H as (Ho & E & ->). injection E as -> ->. rewrite app_nil_r in Hx.
  unfold rollback_batch, inflight_action in H3.
  apply among_bind in H3 as [[E _]|(legs & s4 & o7 & o8 & -> & H4 & H5)]; [discriminate|]. cbn [String.eqb] in H5.
  apply in_app_iff in Hx as [Hx|Hx]; [exfalso; exact (among_writes n (fun _ => False) _ _ _ _ _ W1 H1 x h Hx Rx)|].
  apply in_app_iff in Hx as [Hx|Hx].
  - assert (Ep : t_parent (r_t h) = batch).
    { apply (among_writes n (fun t => t_parent t = batch) _ _ _ _ _ (wr_members _ cfg e batch true ts U (fun t H => H)) H2 x h Hx Rx). }
    assert (I2 : In h (s_txns s2)).
    { apply (among_own_rows _ _ _ _ _ _ H2 x Hx). rewrite Rx. left. reflexivity. }
    unfold act in H4. cbn [among] in H4. destruct H4 as [(_ & E & _)|(s5 & q & O5 & -> & O6 & E & ->)]; [discriminate|].
    injection E as ->. cbn [exec fst snd] in O6, H5.
    pose proof (listed (s_meta s5) batch (s_txns s5) h (others_rows _ _ O5 h I2) Sh Ep) as L.
    destruct (voided_leg _ _ _ _ _ _ _ _ H5 S L) as [(v & Iv & Ev)|(y & y' & o & I1 & I3 & Eo & Le)].
    + left. exists v. split; [apply (others_rows _ _ Ho), Iv|exact Ev].
    + right. exists y'. split; [apply in_or_app; right; apply in_or_app; right; apply in_or_app; left; apply in_or_app; right; exact I3|].
      destruct (among_uids _ _ _ _ _ _ H1 Un) as [U1 _]. destruct (among_uids _ _ _ _ _ _ H2 U1) as [U2 _].
      pose proof (others_uids _ _ O6 (others_uids _ _ O5 U2)) as U4.
      destruct (among_uids _ _ _ _ _ _ H5 U4) as [_ U5].
      simpl in Eo. rewrite (get_row_unique _ _ _ (U5 y I1)) with (2 := Eo) in Le; [exact Le|].
      apply (among_fst_rows _ _ _ _ _ _ H5 y I1), (others_rows _ _ O6), (others_rows _ _ O5), I2.
  - exfalso. apply in_app_iff in Hx as [Hx|Hx].
    + assert (W : all_ops (writes (fun _ => False)) (act (OInflightBy batch))) by wr.
      exact (among_writes n _ _ _ _ _ _ W H4 x h Hx Rx).
    + pose proof (among_writes n (fun t => t_status t = SVoid) _ _ _ _ _ (wr_voids _ cfg legs (fun t H => H)) H5 x h Hx Rx) as Q.
      simpl in Q. congruence.
Qed.
