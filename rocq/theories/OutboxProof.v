(** Every movement that touches fund lineage has exactly one outbox entry. *)
From Coq Require Import ZArith QArith List String Bool Permutation Lia.
From Verif Require Import Base MoneyModel SplitModel BalanceModel LedgerModel LedgerProgs ConcModel LedgerSpec
  ProvSpec OutboxSpec.
Import ListNotations.
Local Open Scope string_scope.
Open Scope Z_scope.

(** ** Programs whose answers come from states satisfying K *)
Section Alw.
Variable K : state -> Prop.
Variable ok : op -> Prop.

Definition answers (o : op) (x : resp o) : Prop := exists n s, K s /\ snd (exec n o s) = x.

Fixpoint alw {A} (p : prog A) (Q : A -> Prop) : Prop :=
  match p with
  | Ret a => Q a
  | Do o k => ok o /\ forall x, answers o x -> alw (k x) Q
  end.

Lemma alw_bind {A B} (p : prog A) (f : A -> prog B) M Q :
  alw p M -> (forall a, M a -> alw (f a) Q) -> alw (bind p f) Q.
Proof.
  intros Hp Hf. induction p as [a|o k IH]; simpl in *; [auto|].
  destruct Hp as [Ho Hk]. split; [exact Ho|]. intros x Hx. apply IH. apply Hk. exact Hx.
Qed.
Lemma alw_bindr {A B} (p : prog (res A)) (f : A -> prog (res B)) (M : A -> Prop) (Q : res B -> Prop) :
  alw p (fun r => match r with Ok a => M a | Err _ => True end) ->
  (forall a, M a -> alw (f a) Q) -> (forall e, Q (Err e)) -> alw (bindr p f) Q.
Proof. intros Hp Hf He. unfold bindr. eapply alw_bind; [exact Hp|]. intros [a|e] H; simpl; auto. Qed.
Lemma alw_post {A} (p : prog A) (Q Q' : A -> Prop) : (forall a, Q a -> Q' a) -> alw p Q -> alw p Q'.
Proof. intros H2. induction p as [a|o k IH]; simpl; [auto|]. intros [Ho Hk]. split; auto. Qed.
Lemma alw_true {A} (p : prog A) Q : alw p Q -> alw p (fun _ => True).
Proof. apply alw_post. auto. Qed.
Lemma alw_ok {A} (p : prog (res A)) : alw p (fun _ => True) -> alw p (fun r => match r with Ok _ => True | Err _ => True end).
Proof. apply alw_post. intros [?|?]; auto. Qed.
Lemma alw_act {A} o (f : resp o -> prog A) (Q : A -> Prop) :
  ok o -> (forall x, answers o x -> alw (f x) Q) -> alw (bind (act o) f) Q.
Proof. intros Ho Hf. simpl. auto. Qed.
End Alw.

(** ** The invariant, relative to what the final state will show *)
Section Out.
Variable cfg : config.
Variable T : string -> bool.
Variable F : list row.
Hypothesis Funiq : NoDup (map (fun r => t_id (r_t r)) F).

Definition due (r : row) : bool :=
  match r_kind r with KPost => true | KHold => String.eqb (t_parent (r_t r)) "" | _ => false end
  && (T (source r) || (negb (String.eqb (provider r) "") && T (destination r))).
Definition entry_for (r : row) : outbox_entry :=
  {| o_txn := t_id (r_t r); o_src := source r; o_dst := destination r; o_provider := provider r;
     o_credit := negb (String.eqb (provider r) "") && T (destination r); o_debit := T (source r);
     o_amount := amount r; o_inflight := match r_kind r with KHold => true | _ => false end |}.
Definition entries (r : row) : list outbox_entry := if due r then [entry_for r] else [].

(** A transaction on its way into the ledger. *)
Definition H (t : txn) : Prop :=
  t_id t <> "" /\ m_inflight (t_meta t) = t_inflight t /\ (t_status t = SQueued \/ t_status t = SScheduled).
(** An action on a hold. *)
Definition Ha (t : txn) : Prop :=
  t_id t <> "" /\ t_parent t <> "" /\ t_inflight t = false /\ m_inflight (t_meta t) = true
  /\ (t_status t = SCommit \/ t_status t = SVoid).

Definition row_fine (r : row) : Prop :=
  t_id (r_t r) <> "" /\ (t_status (r_t r) = SApplied -> m_inflight (t_meta (r_t r)) = false)
  /\ (t_status (r_t r) = SInflight -> m_inflight (t_meta (r_t r)) = true).
Definition job_fine (j : job) : Prop := H (j_txn j) /\ Forall H (j_legs j).
Definition meta_fine (x : string * meta) : Prop :=
  exists r, In r F /\ t_id (r_t r) = fst x /\ m_inflight (snd x) = m_inflight (t_meta (r_t r)).

Record fwd (s : state) : Prop := {
  f_queue : Forall H (s_queue s);
  f_jobs : Forall job_fine (s_jobs s);
  f_rows : Forall row_fine (s_txns s);
  f_meta : Forall meta_fine (s_meta s);
  f_box : s_outbox s = flat_map entries (s_txns s) }.
Definition bwd (s : state) : Prop :=
  (forall b, In b (s_bals s) -> b_track b = T (b_id b)) /\ incl (s_txns s) F.
Definition K (s : state) : Prop := fwd s /\ bwd s.

Definition okop (o : op) : Prop :=
  match o with
  | OInsert t => t_id t <> "" /\ t_status t <> SApplied /\ t_status t <> SInflight
  | OPersist k t _ _ ob => k <> KNone /\ row_fine {| r_t := t; r_kind := k |} /\ opt_list ob = entries {| r_t := t; r_kind := k |}
  | OPersistBatch ts _ obs =>
      Forall (fun x => row_fine {| r_t := snd x; r_kind := fst x |}) ts
      /\ obs = flat_map (fun x => entries {| r_t := snd x; r_kind := fst x |}) ts
  | OEnqueue t => H t
  | OSpawn j => job_fine j
  | OSetMeta id m => meta_fine (id, m)
  | _ => True
  end.

Lemma persist_batch_rows ts ws obs s :
  (exists e, persist_batch ts ws obs s = (s, Err e)) \/
  exists b, persist_batch ts ws obs s = (set_db s b (rev (map (fun x => {| r_t := snd x; r_kind := fst x |}) ts) ++ s_txns s)%list (rev obs ++ s_outbox s)%list, Ok tt).
Proof.
  unfold persist_batch. destruct (update_balance_set _ _ _) as [b|]; [|left; eexists; reflexivity].
  destruct (insert_txns ts b (s_txns s)) as [l|e] eqn:E; [|left; eexists; reflexivity].
  right. exists b. assert (l = rev (map (fun x => {| r_t := snd x; r_kind := fst x |}) ts) ++ s_txns s)%list; [|subst; reflexivity].
  clear - E. revert l E. generalize (s_txns s). induction ts as [|[k t] r IH]; intros l0 l E; simpl in *; [inversion E; reflexivity|].
  destruct (insert_txn k t b l0) as [l1|e] eqn:E1; [|discriminate].
  rewrite (IH _ _ E). unfold insert_txn in E1.
  destruct (ref_exists _ _); [discriminate|]. destruct (id_exists _ _); [discriminate|].
  destruct (get_bal _ _); [|discriminate]. destruct (get_bal _ _); [|discriminate]. inversion E1; subst.
  rewrite <- app_assoc. reflexivity.
Qed.

Lemma persist_single_rows k t a b ob s :
  (exists e, persist_single k t a b ob s = (s, Err e)) \/
  exists bs, persist_single k t a b ob s = (set_db s bs ({| r_t := t; r_kind := k |} :: s_txns s) (opt_list ob ++ s_outbox s)%list, Ok tt).
Proof.
  unfold persist_single. destruct (update_balance _ _ _) as [b1|]; [|left; eexists; reflexivity].
  destruct (update_balance _ _ _) as [b2|]; [|left; eexists; reflexivity].
  destruct (insert_txn k t b2 (s_txns s)) as [l|e] eqn:E; [|left; eexists; reflexivity].
  right. exists b2. unfold insert_txn in E.
  destruct (ref_exists _ _); [discriminate|]. destruct (id_exists _ _); [discriminate|].
  destruct (get_bal _ _); [|discriminate]. destruct (get_bal _ _); [|discriminate]. inversion E; subst. reflexivity.
Qed.

Lemma fwd_same s s' : fwd s -> s_queue s' = s_queue s -> s_jobs s' = s_jobs s -> s_txns s' = s_txns s ->
  s_meta s' = s_meta s -> s_outbox s' = s_outbox s -> fwd s'.
Proof. intros [A B C D E] h1 h2 h3 h4 h5. constructor; rewrite ?h1, ?h2, ?h3, ?h4, ?h5; assumption. Qed.

Lemma exec_fwd n o s : fwd s -> okop o -> fwd (fst (exec n o s)).
Proof.
  intros J Ho. destruct o; simpl in *;
    try exact J; try (eapply fwd_same; [exact J|reflexivity..]).
  - unfold create_balance. destruct (get_bal _ _); [exact J|]. destruct (_ && _); [exact J|].
    eapply fwd_same; [exact J|reflexivity..].
  - destruct (lock_owner _ _); [exact J|]. eapply fwd_same; [exact J|reflexivity..].
  - destruct (lock_owner _ _); [|exact J]. destruct (Nat.eqb _ _); [|exact J]. eapply fwd_same; [exact J|reflexivity..].
  - destruct (insert_txn KNone t (s_bals s) (s_txns s)) as [l|e] eqn:E; [|exact J]. simpl.
    unfold insert_txn in E.
    destruct (ref_exists _ _); [discriminate|]. destruct (id_exists _ _); [discriminate|].
    destruct (get_bal _ _); [|discriminate]. destruct (get_bal _ _); [|discriminate]. inversion E; subst.
    destruct J as [A B C D G]. destruct Ho as (H1 & H2 & H3). constructor; simpl; auto.
    constructor; [|exact C]. split; [exact H1|]. split; intros Hx; contradiction.
  - destruct (persist_single_rows k t src dst ob s) as [[e ->]|[bs ->]]; [exact J|].
    destruct J as [A B C D G]. destruct Ho as (H1 & H2 & H3). constructor; simpl; auto.
    rewrite H3, G. reflexivity.
  - destruct (persist_batch_rows ts ws obs s) as [[e ->]|[bs ->]]; [exact J|].
    destruct J as [A B C D G]. destruct Ho as (H1 & H2). constructor; simpl; auto.
    + apply Forall_app. split; [|exact C]. apply Forall_rev, Forall_map. exact H1.
    + rewrite flat_map_app, G. f_equal. rewrite H2.
      clear. induction ts as [|x r IH]; [reflexivity|]. simpl. rewrite flat_map_app, rev_app_distr, IH. simpl. rewrite app_nil_r.
      unfold entries at 2 4. destruct (due _); reflexivity.
  - destruct J as [A B C D G]. constructor; simpl; auto.
  - destruct J as [A B C D G]. constructor; simpl; auto.
  - destruct J as [A B C D G]. constructor; simpl; auto.
Qed.

(** ** Reads *)
Notation aw := (alw K okop).
Notation reads := (answers K).

Lemma meta_flag s r : K s -> In r (s_txns s) -> m_inflight (meta_of (s_meta s) (r_t r)) = m_inflight (t_meta (r_t r)).
Proof.
  intros [[_ _ _ D _] [_ Hi]] Hr. apply Hi in Hr. revert D. generalize (s_meta s). intros l D.
  induction l as [|[i m] q IH]; simpl; [reflexivity|]. inversion D as [|? ? Hm Hq]; subst.
  destruct (String.eqb_spec i (t_id (r_t r))) as [->|]; [|auto].
  destruct Hm as (r' & Hr' & Hid & Hf). simpl in *. rewrite Hf.
  assert (r' = r); [|subst; reflexivity].
  clear - Funiq Hr Hr' Hid. induction F as [|x l IH]; [destruct Hr|]. simpl in *. inversion Funiq as [|? ? Hn Hd]; subst.
  destruct Hr as [->|Hr], Hr' as [->|Hr']; auto.
  - exfalso. apply Hn. rewrite <- Hid. apply in_map_iff. eauto.
  - exfalso. apply Hn. rewrite Hid. apply in_map_iff. eauto.
Qed.

(** What a row shows when it is read back. *)
Definition seen_fine (t : txn) : Prop :=
  t_id t <> "" /\ t_inflight t = false /\ (t_status t = SApplied -> m_inflight (t_meta t) = false)
  /\ (t_status t = SInflight -> m_inflight (t_meta t) = true).

Lemma view_fine s r : K s -> In r (s_txns s) -> seen_fine (db_view (meta_of (s_meta s) (r_t r)) (r_t r)).
Proof.
  intros HK Hr. pose proof (meta_flag s r HK Hr) as Hm. destruct HK as [[_ _ C _ _] _].
  rewrite Forall_forall in C. destruct (C r Hr) as (H1 & H2 & H3). unfold seen_fine. simpl. rewrite Hm. auto.
Qed.
Lemma get_row_some id l t : get_row id l = Some t -> exists r, In r l /\ r_t r = t.
Proof.
  induction l as [|x r IH]; simpl; [discriminate|]. destruct (String.eqb _ _).
  - intros E. inversion E. eauto.
  - intros E. destruct (IH E) as (y & Hy & Hy'). eauto.
Qed.

Lemma rd_txn id x : reads (OGetTxn id) x -> match x with Some t => seen_fine t | None => True end.
Proof.
  intros (n & s & HK & <-). simpl. destruct (get_row id (s_txns s)) as [t|] eqn:E; [|exact Logic.I].
  apply get_row_some in E as (r & Hr & <-). exact (view_fine s r HK Hr).
Qed.
Lemma rd_siblings p sel x : reads (OSiblings p sel) x -> Forall (fun t => seen_fine t /\ t_status t = SQueued) x.
Proof.
  intros (n & s & HK & <-). simpl. induction sel as [|i r IH]; simpl; [constructor|].
  destruct (get_row i (s_txns s)) as [t|] eqn:E; [|exact IH].
  destruct (is_stuck (s_txns s) t && p t) eqn:E2; [|exact IH]. constructor; [|exact IH].
  apply get_row_some in E as (q & Hq & <-). split; [exact (view_fine s q HK Hq)|].
  apply andb_prop in E2 as [E2 _]. unfold is_stuck in E2. apply andb_prop in E2 as [E2 _]. simpl.
  destruct (t_status (r_t q)); simpl in E2; congruence.
Qed.
Lemma rd_queue id x : reads (OFromQueue id) x -> match x with Some t => H t | None => True end.
Proof.
  intros (n & s & [[A _ _ _ _] _] & <-). simpl. revert A. induction (s_queue s) as [|t r IH]; intros A; simpl; [exact Logic.I|].
  inversion A as [|? ? A1 A2]; subst. destruct (String.eqb _ _); [exact A1|exact (IH A2)].
Qed.

Definition truthful (b : balance) : Prop := b_track b = T (b_id b).
Lemma rd_bal id x : reads (OGetBal id) x -> match x with Some b => truthful b | None => True end.
Proof.
  intros (n & s & [_ [B _]] & <-). simpl. induction (s_bals s) as [|b r IH]; simpl; [exact Logic.I|].
  destruct (String.eqb _ _); [apply B; left; reflexivity|]. apply IH. intros; apply B; right; assumption.
Qed.
Lemma rd_ind i c x : reads (OGetInd i c) x -> match x with Some b => truthful b | None => True end.
Proof.
  intros (n & s & [_ [B _]] & <-). simpl. induction (s_bals s) as [|b r IH]; simpl; [exact Logic.I|].
  destruct (_ && _); [apply B; left; reflexivity|]. apply IH. intros; apply B; right; assumption.
Qed.
Lemma rd_bals ids x : reads (OGetBals ids) x -> Forall truthful x.
Proof.
  intros (n & s & HK & <-). simpl. induction ids as [|i r IH]; simpl; [constructor|].
  pose proof (rd_bal i _ (ex_intro _ n (ex_intro _ s (conj HK eq_refl)))) as Hb. simpl in Hb.
  destruct (get_bal i (s_bals s)); [constructor; auto|exact IH].
Qed.

(** ** Programs *)
Ltac triv := first [exact Logic.I | discriminate | solve [auto]].
Ltac go := simpl; split; [exact Logic.I|intros].

Lemma w_unlock ks : aw (unlock_keys ks) (fun _ => True).
Proof. induction ks as [|k r IH]; simpl; [exact Logic.I|]. split; [exact Logic.I|]. intros x _. exact IH. Qed.
Lemma w_lock ks got : aw (lock_keys ks got) (fun _ => True).
Proof.
  revert got. induction ks as [|k r IH]; intros got; cbn [lock_keys]; [exact Logic.I|].
  apply alw_act; [exact Logic.I|]. intros [|] _; [apply IH|].
  eapply alw_bind; [apply w_unlock|]. intros _ _. exact Logic.I.
Qed.
Lemma w_wait n ks : aw (wait_lock n ks) (fun _ => True).
Proof.
  induction n as [|n IH]; cbn [wait_lock]; (eapply alw_bind; [apply w_lock|]); intros [|] _; try exact Logic.I. exact IH.
Qed.
Lemma w_fresh p : p <> "" -> aw (fresh p) (fun x => x <> "").
Proof. intros Hp. unfold fresh. apply alw_act; [exact Logic.I|]. intros u _. simpl. destruct p; [congruence|]. simpl. discriminate. Qed.
Lemma w_choose r : aw (choose_ref r) (fun _ => True).
Proof. unfold choose_ref. destruct (String.eqb _ _); [|exact Logic.I]. eapply alw_true, w_fresh; discriminate. Qed.
Definition okb (r : res balance) : Prop := match r with Ok b => truthful b | Err _ => True end.
Lemma w_get_balance id : aw (get_balance cfg id) okb.
Proof.
  unfold get_balance. apply alw_act; [exact Logic.I|]. intros x Hx. apply rd_bal in Hx. destruct x as [b|]; [|exact Logic.I].
  destruct (c_queued cfg); [|exact Hx]. apply alw_act; [exact Logic.I|]. intros q _. exact Hx.
Qed.
Lemma w_get_or_create ind cur : aw (get_or_create cfg ind cur) okb.
Proof.
  unfold get_or_create.
  assert (Hfin : forall b, truthful b -> aw (if c_queued cfg then get_balance cfg (b_id b) else Ret (Ok b)) okb).
  { intros b Hb. destruct (c_queued cfg); [apply w_get_balance|exact Hb]. }
  apply alw_act; [exact Logic.I|]. intros x Hx. apply rd_ind in Hx. destruct x as [b|]; [apply Hfin, Hx|].
  eapply alw_bind; [apply w_fresh; discriminate|]. intros id _.
  apply alw_act; [exact Logic.I|]. intros r _.
  assert (Hagain : aw (bind (act (OGetInd ind cur)) (fun b => match b with Some b => if c_queued cfg then get_balance cfg (b_id b) else Ret (Ok b) | None => Ret (Err EBalanceNotFound) end)) okb).
  { apply alw_act; [exact Logic.I|]. intros y Hy. apply rd_ind in Hy. destruct y as [b|]; [apply Hfin, Hy|exact Logic.I]. }
  destruct r as [?|e]; [exact Hagain|]. destruct e; try exact Logic.I; exact Hagain.
Qed.
Lemma w_get_end e cur : aw (get_end cfg e cur) okb.
Proof. unfold get_end. destruct (starts_with_at e); [apply w_get_or_create|apply w_get_balance]. Qed.
Lemma w_resolve e cur : aw (resolve_id cfg e cur) (fun _ => True).
Proof.
  unfold resolve_id. destruct (starts_with_at e); [|exact Logic.I].
  eapply alw_bindr with (M := truthful); [|intros; exact Logic.I|auto].
  eapply alw_post; [|apply w_get_or_create]. intros [b|]; auto.
Qed.

Lemma precision_keeps t : let t' := apply_precision_txn t in
  t_id t' = t_id t /\ t_parent t' = t_parent t /\ t_src t' = t_src t /\ t_dst t' = t_dst t /\ t_status t' = t_status t
  /\ t_inflight t' = t_inflight t /\ t_meta t' = t_meta t.
Proof. unfold apply_precision_txn. destruct (apply_precision _ _ _) as [[p a] q]. simpl. auto 10. Qed.

Lemma cb_keeps b x y : b_id (compute_balance b x) = b_id b /\ b_track (compute_balance b x) = b_track b
  /\ b_id (add_debit b y x) = b_id b /\ b_track (add_debit b y x) = b_track b
  /\ b_id (add_credit b y x) = b_id b /\ b_track (add_credit b y x) = b_track b.
Proof. unfold compute_balance, add_debit, add_credit. destruct x; simpl; auto 10. Qed.

Lemma apply_keeps t src dst t1 src' dst' : apply_to_balances t src dst = Ok (t1, src', dst') ->
  (t1 = t \/ t1 = apply_precision_txn t) /\ b_id src' = b_id src /\ b_track src' = b_track src
  /\ b_id dst' = b_id dst /\ b_track dst' = b_track dst.
Proof.
  unfold apply_to_balances, update_balances, commit_inflight_debit, commit_inflight_credit, rollback_inflight_debit, rollback_inflight_credit.
  intros E.
  destruct (t_status t);
  repeat match type of E with
  | match (if ?c then _ else _) with _ => _ end = _ => destruct c; [discriminate|]
  | match ?x with Ok _ => _ | Err _ => _ end = _ => destruct x as [?|?]; [|discriminate]
  end; inversion E; subst; split; auto; unfold compute_balance, add_debit, add_credit, with_counters;
  try destruct (t_inflight _); simpl; auto.
Qed.

(** What [prepare_outbox] produces is what the stored row is due. *)
Lemma prepared t src dst k :
  H t \/ Ha t -> k = kind_of t -> truthful src -> truthful dst ->
  let t2 := update_details t src dst in
  row_fine {| r_t := clear_terminal t2; r_kind := k |}
  /\ opt_list (prepare_outbox t2 src dst) = entries {| r_t := clear_terminal t2; r_kind := k |} /\ k <> KNone.
Proof.
  intros Ht -> Hs Hd t2. unfold truthful in *. subst t2. unfold update_details.
  destruct Ht as [(H1 & H2 & H3)|(H1 & H2 & H3 & H4 & H5)].
  - assert (Hk : kind_of t = if t_inflight t then KHold else KPost) by (unfold kind_of; destruct H3 as [-> | ->]; reflexivity).
    assert (Hf : final_status t = if t_inflight t then SInflight else SApplied)
      by (unfold final_status; destruct H3 as [-> | ->]; destruct (t_inflight t); reflexivity).
    rewrite Hk. unfold prepare_outbox, clear_terminal, entries, due, entry_for, source, destination, provider, amount, row_fine.
    cbn [t_status with_status]. rewrite Hf.
    destruct (t_inflight t) eqn:Ei; cbn [status_eqb orb negb t_parent t_meta t_id t_src t_dst with_status with_ends r_t r_kind m_inflight m_provider with_flags clear_meta_inflight t_precise t_inflight t_status].
    + split; [rewrite ?H2; repeat split; auto; discriminate|]. split; [|discriminate].
      rewrite H2, andb_true_r. destruct (String.eqb (t_parent t) ""); cbn [negb andb]; [|reflexivity].
      rewrite Hs, Hd. destruct (T (b_id src)), (negb (String.eqb (m_provider (t_meta t)) "")), (T (b_id dst)); cbn; rewrite ?Ei; reflexivity.
    + split; [rewrite ?H2; repeat split; auto; discriminate|]. split; [|discriminate].
      rewrite H2, andb_false_r. cbn [andb].
      rewrite Hs, Hd. destruct (T (b_id src)), (negb (String.eqb (m_provider (t_meta t)) "")), (T (b_id dst)); cbn; rewrite ?Ei; reflexivity.
  - assert (Hp : negb (String.eqb (t_parent t) "") = true) by (destruct (String.eqb_spec (t_parent t) ""); [contradiction|reflexivity]).
    unfold prepare_outbox, clear_terminal, entries, due, row_fine, kind_of.
    cbn [t_status with_status]. unfold final_status. rewrite H3.
    destruct H5 as [-> | ->]; cbn [status_eqb orb negb t_parent t_meta t_id t_src t_dst with_status with_ends r_t r_kind m_inflight with_flags clear_meta_inflight andb].
    + rewrite Hp, H4. cbn. repeat split; auto; discriminate.
    + cbn. repeat split; auto; discriminate.
Qed.

Lemma H_ends t a b : H t -> H (with_ends t a b).
Proof. exact (fun h => h). Qed.
Lemma Ha_ends t a b : Ha t -> Ha (with_ends t a b).
Proof. exact (fun h => h). Qed.
Lemma H_prec t : H t -> H (apply_precision_txn t).
Proof. intros (A & B & C). destruct (precision_keeps t) as (E1 & _ & _ & _ & E5 & E6 & E7). unfold H. rewrite E1, E5, E6, E7. auto. Qed.
Lemma Ha_prec t : Ha t -> Ha (apply_precision_txn t).
Proof. intros (A & B & C & D & E). destruct (precision_keeps t) as (E1 & E2 & _ & _ & E5 & E6 & E7). unfold Ha. rewrite E1, E2, E5, E6, E7. auto. Qed.

Lemma w_record_locked t : H t \/ Ha t -> aw (record_locked cfg t) (fun _ => True).
Proof.
  intros Ht. unfold record_locked. apply alw_act; [exact Logic.I|]. intros [|] _; [exact Logic.I|].
  eapply alw_bindr with (M := truthful); [apply w_get_end| |auto]. intros src Hs.
  eapply alw_bindr with (M := truthful); [apply w_get_end| |auto]. intros dst Hd.
  cbv zeta. destruct (apply_to_balances _ src dst) as [[[t1 src'] dst']|e] eqn:E; [|exact Logic.I].
  destruct (t_precise _ =? 0); [exact Logic.I|]. apply apply_keeps in E as (Et & I1 & I2 & I3 & I4).
  assert (Ht1 : H t1 \/ Ha t1).
  { assert (Ht0 : H (with_ends t (b_id src) (b_id dst)) \/ Ha (with_ends t (b_id src) (b_id dst))).
    { destruct Ht as [Ht|Ht]; [left; apply H_ends|right; apply Ha_ends]; exact Ht. }
    destruct Et as [-> | ->]; [exact Ht0|]. destruct Ht0; [left; apply H_prec|right; apply Ha_prec]; assumption. }
  destruct (prepared t1 src' dst' _ Ht1 eq_refl) as (P1 & P2 & P3); [unfold truthful; rewrite I1, I2; exact Hs|unfold truthful; rewrite I3, I4; exact Hd|].
  apply alw_act; [exact (conj P3 (conj P1 P2))|]. intros [x|e] _; exact Logic.I.
Qed.
Lemma w_record_single t : H t \/ Ha t -> aw (record_single cfg t) (fun _ => True).
Proof.
  intros Ht. unfold record_single.
  eapply alw_bindr with (M := fun _ => True); [apply alw_ok, w_resolve| |auto]. intros s _.
  eapply alw_bindr with (M := fun _ => True); [apply alw_ok, w_resolve| |auto]. intros d _.
  eapply alw_bind; [apply w_wait|]. intros [|] _; [|exact Logic.I].
  eapply alw_bind; [apply w_record_locked|]. { destruct Ht; [left; apply H_ends|right; apply Ha_ends]; assumption. }
  intros r _. eapply alw_bind; [apply w_unlock|]. intros _ _. exact Logic.I.
Qed.

Lemma w_with_lock k {A} (p : prog (res A)) : aw p (fun _ => True) -> aw (with_lock k p) (fun _ => True).
Proof.
  intros Hp. unfold with_lock. apply alw_act; [exact Logic.I|]. intros [|] _; [|exact Logic.I].
  eapply alw_bind; [exact Hp|]. intros r _. apply alw_act; [exact Logic.I|]. intros x _. exact Logic.I.
Qed.
Definition held_fine (t : txn) : Prop := t_id t <> "" /\ t_inflight t = false /\ m_inflight (t_meta t) = true.
Lemma w_fetch id : aw (fetch_inflight id) (fun r => match r with Ok t => held_fine t | Err _ => True end).
Proof.
  unfold fetch_inflight. apply alw_act; [exact Logic.I|]. intros x Hx. apply rd_txn in Hx. destruct x as [t|]; [|exact Logic.I].
  destruct (negb (is_inflight t)) eqn:E; [exact Logic.I|]. apply alw_act; [exact Logic.I|]. intros [|] _; [exact Logic.I|].
  destruct Hx as (H1 & H2 & H3 & H4). split; [exact H1|]. split; [exact H2|].
  apply negb_false_iff in E. unfold is_inflight in E. apply orb_prop in E as [E|E].
  - apply H4. destruct (t_status t); try discriminate; reflexivity.
  - apply andb_prop in E as [_ E]. exact E.
Qed.
Lemma w_commit id a ref : aw (commit cfg id a ref) (fun _ => True).
Proof.
  unfold commit. apply w_with_lock. eapply alw_bindr with (M := held_fine); [apply w_fetch| |auto]. intros t (H1 & H2 & H3).
  apply alw_act; [exact Logic.I|]. intros c _. destruct (commit_amount _ _ _) as [[p q]|e]; [|exact Logic.I].
  eapply alw_bind; [apply w_fresh; discriminate|]. intros nid Hn. eapply alw_bind; [apply w_choose|]. intros nref _.
  apply w_record_single. right. unfold Ha. simpl. auto 10.
Qed.
Lemma w_void id ref : aw (void cfg id ref) (fun _ => True).
Proof.
  unfold void. apply w_with_lock. eapply alw_bindr with (M := held_fine); [apply w_fetch| |auto]. intros t (H1 & H2 & H3).
  apply alw_act; [exact Logic.I|]. intros c _. cbv zeta. destruct (_ =? 0); [exact Logic.I|].
  eapply alw_bind; [apply w_fresh; discriminate|]. intros nid Hn. eapply alw_bind; [apply w_choose|]. intros nref _.
  apply w_record_single. right. apply Ha_prec. unfold Ha. simpl. auto 10.
Qed.

(** A transaction before its id and status are set. *)
Definition pre (t : txn) : Prop :=
  (t_status t = SQueued \/ t_status t = SScheduled \/ t_status t = SNone)
  /\ (t_inflight t = false -> m_inflight (t_meta t) = false).
Lemma H_pre t : H t -> pre t.
Proof. intros (A & B & C). split; [tauto|]. intros E. congruence. Qed.
Lemma metadata_keeps t : t_id (set_metadata t) = t_id t /\ t_status (set_metadata t) = t_status t
  /\ t_inflight (set_metadata t) = t_inflight t
  /\ m_inflight (t_meta (set_metadata t)) = t_inflight t || m_inflight (t_meta t).
Proof.
  destruct (precision_keeps t) as (E1 & _ & _ & _ & E5 & E6 & E7). unfold set_metadata. simpl. rewrite E1, E5, E6, E7. auto.
Qed.
Definition almost (t : txn) : Prop :=
  (t_status t = SQueued \/ t_status t = SScheduled \/ t_status t = SNone) /\ m_inflight (t_meta t) = t_inflight t.
Lemma pre_almost t : pre t -> almost (set_metadata t).
Proof.
  intros [A B]. destruct (metadata_keeps t) as (_ & E2 & E3 & E4). unfold almost. rewrite E2, E3, E4. split; [exact A|].
  destruct (t_inflight t); [reflexivity|]. simpl. auto.
Qed.
Lemma w_ensure t : almost t -> aw (ensure_id t) (fun t' => almost t' /\ t_id t' <> "").
Proof.
  intros Ht. unfold ensure_id. destruct (String.eqb_spec (t_id t) ""); [|exact (conj Ht n)].
  eapply alw_bind; [apply w_fresh; discriminate|]. intros id Hi. split; [exact Ht|exact Hi].
Qed.
Lemma status_H t : almost t -> t_id t <> "" -> H (set_status t).
Proof.
  intros [A B] C. unfold set_status. destruct (t_sched t); [repeat split; auto|].
  destruct A as [A|[A|A]]; rewrite A; repeat split; auto.
Qed.
Lemma w_queue_copy t ref : H t -> aw (queue_copy t ref) H.
Proof.
  intros (A & B & C). unfold queue_copy. eapply alw_bind; [apply w_fresh; discriminate|]. intros id Hi. repeat split; auto.
Qed.
Lemma w_prepare t : H t -> aw (prepare_for_queue cfg t) (fun x => H (fst x)).
Proof.
  intros Ht. unfold prepare_for_queue.
  assert (Hm : H (set_metadata (set_status t))).
  { destruct Ht as (A & B & C). destruct (metadata_keeps (set_status t)) as (E1 & E2 & E3 & E4). unfold H. rewrite E1, E2, E3, E4.
    unfold set_status. destruct (t_sched t); simpl; [rewrite B, orb_diag; auto|].
    destruct C as [C|C]; rewrite C; simpl; rewrite B, orb_diag; auto. }
  eapply alw_bind with (M := H).
  { unfold ensure_id. destruct (String.eqb_spec (t_id (set_metadata (set_status t))) ""); [destruct Hm; contradiction|exact Hm]. }
  intros t1 Ht1. eapply alw_bind; [apply w_get_end|]. intros [src|e] _; [|exact Ht1]. cbv zeta.
  eapply alw_bind; [apply w_get_end|]. intros [dst|e] _; exact Ht1.
Qed.
Lemma H_ins t : H t -> okop (OInsert t).
Proof. intros (A & _ & C). simpl. split; [exact A|]. destruct C as [-> | ->]; split; discriminate. Qed.
Lemma w_process_single t ref : H t ->
  aw (process_single cfg t ref) (fun x => H (fst x) /\ match snd x with Ok q => H q | Err _ => True end).
Proof.
  intros Ht. unfold process_single. eapply alw_bind with (M := fun x : txn * res unit => H (fst x)).
  { destruct (t_sources t), (t_dests t); try exact Ht. apply w_prepare, Ht. }
  intros [t1 [x|e]] H1; simpl in H1; [|exact (conj H1 Logic.I)].
  apply alw_act; [apply H_ins, H1|]. intros [y|e] _; [|exact (conj H1 Logic.I)].
  eapply alw_bind; [apply w_queue_copy, H1|]. intros q Hq. exact (conj H1 Hq).
Qed.
Lemma w_process_split legs : Forall H legs ->
  aw (process_split cfg legs) (fun r => match r with Ok qs => Forall H qs | Err _ => True end).
Proof.
  induction legs as [|l r IH]; intros Hl; cbn [process_split]; [constructor|]. inversion Hl as [|? ? H0 Hr]; subst.
  eapply alw_bind; [apply w_prepare, H0|]. intros [l1 [x|e]] H1; simpl in H1; [|exact Logic.I].
  apply alw_act; [apply H_ins, H1|]. intros [y|e] _; [|exact Logic.I].
  eapply alw_bind; [apply w_queue_copy, H1|]. intros q Hq.
  eapply alw_bindr with (M := Forall H); [apply IH, Hr| |auto]. intros qs Hqs. constructor; auto.
Qed.
Lemma w_enqueue l : Forall H l -> aw (enqueue_all l) (fun _ => True).
Proof.
  induction l as [|t r IH]; intros Hl; cbn [enqueue_all]; [exact Logic.I|]. inversion Hl; subst.
  apply alw_act; [assumption|]. intros _ _. apply IH. assumption.
Qed.
Lemma update_split_H i legs p r : Forall H legs -> Forall H (update_split i legs p r).
Proof. revert i. induction legs as [|l q IH]; intros i Hl; [constructor|]. inversion Hl; subst. constructor; auto. Qed.
Lemma w_async j : job_fine j -> aw (async_job cfg j) (fun _ => True).
Proof.
  intros [Ht Hl]. unfold async_job. destruct (j_legs j) as [|l ls] eqn:E.
  - eapply alw_bind; [apply w_process_single, Ht|]. intros [t [q|e]] [H1 H2]; apply w_enqueue; constructor; auto.
  - eapply alw_bind; [apply w_process_split, update_split_H, Hl|]. intros [qs|e] Hq; apply w_enqueue; auto.
Qed.
Lemma w_make_legs t i m : H t -> aw (make_legs t i m) (Forall H).
Proof.
  intros (A & B & C). revert i. induction m as [|[who p] r IH]; intros i; cbn [make_legs]; [constructor|].
  eapply alw_bind; [apply w_fresh; discriminate|]. intros id Hi. cbv zeta.
  eapply alw_bind; [apply IH|]. intros ls Hls. constructor; [|exact Hls].
  destruct (t_sources t); repeat split; auto.
Qed.
Lemma w_split e t : H t -> aw (split_txn e t) (fun r => match r with Ok ls => Forall H ls | Err _ => True end).
Proof.
  intros Ht. unfold split_txn. destruct (calculate_distributions _ _ _ _ _); [|exact Logic.I].
  eapply alw_bind; [apply w_make_legs, Ht|]. intros ls Hls. exact Hls.
Qed.
Lemma w_queue_async t legs ref id : H t -> Forall H legs -> aw (queue_async t legs ref id) (fun _ => True).
Proof.
  intros Ht Hl. unfold queue_async. apply alw_act; [|intros _ _; exact Logic.I].
  split; simpl; [exact Ht|]. apply Forall_map. exact Hl.
Qed.
Lemma w_queue_nosplit t : pre t -> aw (queue_nosplit cfg t) (fun _ => True).
Proof.
  intros Ht. unfold queue_nosplit. cbv zeta. eapply alw_bind; [apply w_ensure, pre_almost, Ht|]. intros t1 [H1 H2].
  pose proof (status_H t1 H1 H2) as Hs. destruct (calculate_distributions _ _ _ _ _); [|exact Logic.I].
  destruct (t_skipq (set_status t1)); [|apply w_queue_async; auto].
  eapply alw_bindr with (M := fun _ => True); [apply alw_ok, w_record_single; left; exact Hs| |auto]. intros x _. exact Logic.I.
Qed.
Lemma w_refund id skipq upd : (forall m, m_inflight (upd m) = m_inflight m) -> aw (refund cfg id skipq upd) (fun _ => True).
Proof.
  intros Hu. unfold refund. apply w_with_lock.
  eapply alw_bindr with (M := fun t => t_status t = SApplied -> m_inflight (t_meta t) = false).
  - unfold refund_original. apply alw_act; [exact Logic.I|]. intros x Hx. apply rd_txn in Hx.
    destruct x as [t|]; [exact (proj1 (proj2 (proj2 Hx)))|]. apply alw_act; [exact Logic.I|]. intros y Hy. apply rd_queue in Hy.
    destruct y as [t|]; [|exact Logic.I]. destruct Hy as (_ & _ & [C|C]); intros E; congruence.
  - intros t Ht. destruct (t_status t) eqn:Es; try exact Logic.I;
      (apply alw_act; [exact Logic.I|]; intros [|] _; [exact Logic.I|];
       eapply alw_bind; [apply w_fresh; discriminate|]; intros nid Hn; apply w_queue_nosplit;
       split; [right; right; reflexivity|]; unfold prepare_refund; rewrite Es; simpl; rewrite ?Hu; auto; discriminate).
  - auto.
Qed.
Lemma w_for_each {A B} (f : A -> prog B) l : (forall x, aw (f x) (fun _ => True)) -> aw (for_each f l) (fun _ => True).
Proof.
  intros Hf. induction l as [|x r IH]; cbn [for_each]; [exact Logic.I|].
  eapply alw_bind; [apply Hf|]. intros y _. eapply alw_bind; [exact IH|]. intros ys _. exact Logic.I.
Qed.
Lemma w_inflight_action p v a i : aw (inflight_action cfg p v a i) (fun _ => True).
Proof.
  unfold inflight_action. apply alw_act; [exact Logic.I|]. intros legs _. apply w_for_each. intros l.
  destruct (negb _); [exact Logic.I|]. cbv zeta. destruct v; [apply w_void|apply w_commit].
Qed.
Lemma w_refund_batch p s : aw (refund_batch cfg p s) (fun _ => True).
Proof. unfold refund_batch. apply alw_act; [exact Logic.I|]. intros ts _. apply w_for_each. intros t. apply w_refund. auto. Qed.
Lemma w_rollback b i : aw (rollback_batch cfg b i) (fun _ => True).
Proof. unfold rollback_batch. destruct i; [apply w_inflight_action|apply w_refund_batch]. Qed.
Lemma w_record_legs legs id : Forall H legs -> aw (record_legs cfg legs id) (fun _ => True).
Proof.
  induction legs as [|l r IH]; intros Hl; cbn [record_legs]; [exact Logic.I|]. inversion Hl; subst.
  eapply alw_bind; [apply w_record_single; left; assumption|]. intros [x|e] _; [apply IH; assumption|].
  destruct (t_atomic l); [|exact Logic.I]. eapply alw_bind; [apply w_rollback|]. intros _ _. exact Logic.I.
Qed.
Lemma w_queue_transaction e t : pre t -> aw (queue_transaction cfg e t) (fun _ => True).
Proof.
  intros Ht. unfold queue_transaction.
  assert (Hgo : aw (bind (ensure_id (set_metadata t)) (fun t0 =>
      let t1 := set_status t0 in
      bindr (split_txn e t1) (fun legs =>
        if t_skipq t1 then
          bindr (match legs with [] => bindr (record_single cfg t1) (fun _ => Ret (Ok tt)) | _ => record_legs cfg legs (t_id t1) end)
            (fun _ => Ret (Ok (with_status t1 (if t_inflight t1 then SInflight else SApplied))))
        else queue_async t1 legs (t_ref t) (t_id t1)))) (fun _ => True)).
  { eapply alw_bind; [apply w_ensure, pre_almost, Ht|]. intros t1 [H1 H2]. cbv zeta.
    pose proof (status_H t1 H1 H2) as Hs.
    eapply alw_bindr with (M := Forall H); [apply w_split, Hs| |auto]. intros legs Hl.
    destruct (t_skipq (set_status t1)); [|apply w_queue_async; auto].
    eapply alw_bindr with (M := fun _ => True); [|intros x _; exact Logic.I|auto]. apply alw_ok.
    destruct legs as [|l ls]; [|apply w_record_legs, Hl].
    eapply alw_bindr with (M := fun _ => True); [apply alw_ok, w_record_single; left; exact Hs|intros x _; exact Logic.I|auto]. }
  destruct (t_sources t), (t_dests t); try exact Hgo. apply w_queue_nosplit, Ht.
Qed.
Definition newcomer (t : txn) : Prop :=
  (t_status t = SQueued \/ t_status t = SScheduled \/ t_status t = SNone) /\ m_inflight (t_meta t) = false.
Lemma w_process_bulk e ts b i s : Forall newcomer ts -> aw (process_bulk cfg e ts b i s) (fun _ => True).
Proof.
  induction ts as [|t r IH]; intros Hl; cbn [process_bulk]; [exact Logic.I|]. inversion Hl as [|? ? [H1 H2] Hr]; subst.
  cbv zeta. eapply alw_bind; [apply w_queue_transaction|]. { split; simpl; auto. }
  intros [x|er] _; [apply IH, Hr|exact Logic.I].
Qed.
Lemma w_bulk e ts a i s : Forall newcomer ts -> aw (bulk cfg e ts a i s) (fun _ => True).
Proof.
  intros Ht. unfold bulk. eapply alw_bind; [apply w_fresh; discriminate|]. intros b _.
  eapply alw_bind; [apply w_process_bulk, Ht|]. intros [x|er] _; [exact Logic.I|].
  destruct a; [|exact Logic.I]. eapply alw_bind; [apply w_rollback|]. intros _ _. exact Logic.I.
Qed.
Lemma w_reject t : t_id t <> "" -> aw (reject cfg t) (fun _ => True).
Proof.
  intros Hi. unfold reject. cbv zeta. apply alw_act; [simpl; split; [exact Hi|split; discriminate]|]. intros [x|e] _; [|exact Logic.I].
  change (t_atomic (with_status t SRejected)) with (t_atomic t). destruct (t_atomic t); [|exact Logic.I].
  destruct (String.eqb _ _); [exact Logic.I|]. eapply alw_bind; [apply w_rollback|]. intros _ _. exact Logic.I.
Qed.
Lemma restore_H t : seen_fine t -> t_status t = SQueued -> H (restore_flags t).
Proof. intros (A & B & _) C. unfold H. simpl. rewrite B, orb_false_r. auto. Qed.
Lemma w_copies sibs : Forall (fun t => seen_fine t /\ t_status t = SQueued) sibs -> aw (copies sibs) (Forall H).
Proof.
  induction sibs as [|x r IH]; intros Hl; cbn [copies]; [constructor|]. inversion Hl as [|? ? [H1 H2] Hr]; subst.
  cbv zeta. destruct (can_coalesce_original (restore_flags x)); [|apply IH, Hr].
  eapply alw_bind; [apply w_queue_copy, restore_H; auto|]. intros c Hc.
  eapply alw_bind; [apply IH, Hr|]. intros cs Hcs. constructor; auto.
Qed.
Lemma w_build_batch t scs sel : H t -> aw (build_batch t scs sel) (Forall H).
Proof.
  intros Ht. induction scs as [|sc r IH]; cbn [build_batch]; [constructor|].
  apply alw_act; [exact Logic.I|]. intros sibs Hs. apply rd_siblings in Hs.
  eapply alw_bind; [apply w_copies, Hs|]. intros [|c cs] Hc; [exact IH|]. constructor; auto.
Qed.
Definition okbs (r : res (list balance)) : Prop := match r with Ok l => Forall truthful l | Err _ => True end.
Lemma w_load_each ids : aw (load_each cfg ids) okbs.
Proof.
  induction ids as [|i r IH]; cbn [load_each]; [constructor|].
  eapply alw_bindr with (M := truthful); [apply w_get_balance| |intros e; exact Logic.I]. intros b Hb.
  eapply alw_bindr with (M := Forall truthful); [exact IH| |intros e; exact Logic.I]. intros bs Hbs. constructor; auto.
Qed.
Lemma w_load ids : aw (load_balances cfg ids) okbs.
Proof.
  unfold load_balances. destruct (c_queued cfg); [apply w_load_each|].
  apply alw_act; [exact Logic.I|]. intros bs Hb. apply rd_bals in Hb. destruct (forallb _ _); [exact Hb|exact Logic.I].
Qed.
Lemma get_truthful id m b : Forall truthful m -> get_bal id m = Some b -> truthful b.
Proof.
  induction m as [|x r IH]; simpl; intros Hm E; [discriminate|]. inversion Hm; subst.
  destruct (String.eqb _ _); [congruence|auto].
Qed.
Lemma put_truthful b m : Forall truthful m -> truthful b -> Forall truthful (put_bal b m).
Proof.
  intros Hm Hb. induction m as [|x r IH]; simpl; [constructor|]. inversion Hm; subst. destruct (String.eqb _ _); constructor; auto.
Qed.
Lemma truthful_db b p i : truthful b -> truthful (compute_balance (add_debit b p i) i).
Proof. unfold truthful. destruct (cb_keeps (add_debit b p i) i p) as (-> & -> & _). destruct (cb_keeps b i p) as (_ & _ & -> & -> & _). auto. Qed.
Lemma truthful_cr b p i : truthful b -> truthful (compute_balance (add_credit b p i) i).
Proof. unfold truthful. destruct (cb_keeps (add_credit b p i) i p) as (-> & -> & _). destruct (cb_keeps b i p) as (_ & _ & _ & _ & -> & ->). auto. Qed.

Lemma w_member t m k t' ob m' : H t -> Forall truthful m -> prepare_member t m = Ok (k, t', ob, m') ->
  Forall truthful m' /\ row_fine {| r_t := t'; r_kind := k |} /\ opt_list ob = entries {| r_t := t'; r_kind := k |}.
Proof.
  intros Ht Hm. unfold prepare_member. cbv zeta.
  destruct (update_shared _ m) as [[f1 m1]|e] eqn:E; [|discriminate].
  assert (Hf : f1 = apply_precision_txn (with_status t (final_status t)) /\ Forall truthful m1).
  { unfold update_shared in E. destruct (get_bal _ m) as [src|] eqn:Es in E; [|discriminate].
    destruct (get_bal _ m) as [d0|] in E; [|discriminate]. cbv zeta in E.
    match type of E with match ?x with _ => _ end = _ => destruct x as [v|v]; [|discriminate] end.
    match type of E with match ?x with _ => _ end = _ => destruct x as [v2|v2]; [|discriminate] end.
    match type of E with match ?x with _ => _ end = _ => destruct x as [dst|] eqn:Ed; [|discriminate] end.
    inversion E; subst. split; [reflexivity|].
    assert (Hm1 : Forall truthful (put_bal (compute_balance (add_debit src (t_precise (apply_precision_txn (with_status t (final_status t)))) (t_inflight (apply_precision_txn (with_status t (final_status t))))) (t_inflight (apply_precision_txn (with_status t (final_status t))))) m)).
    { apply put_truthful; [exact Hm|]. apply truthful_db. eapply get_truthful; [exact Hm|exact Es]. }
    apply put_truthful; [exact Hm1|]. apply truthful_cr. eapply get_truthful; [exact Hm1|exact Ed]. }
  destruct Hf as [-> Hm1].
  clear E. match goal with |- match ?x with _ => _ end = _ -> _ => destruct x as [src|] eqn:Es; [|discriminate] end.
  match goal with |- match ?x with _ => _ end = _ -> _ => destruct x as [dst|] eqn:Ed; [|discriminate] end.
  match goal with |- (if ?x then _ else _) = _ -> _ => destruct x; [discriminate|] end. intros E2. inversion E2; subst. split; [exact Hm1|].
  pose proof (get_truthful _ _ _ Hm1 Es) as Hts. pose proof (get_truthful _ _ _ Hm1 Ed) as Htd.
  set (g := apply_precision_txn t).
  assert (Hg : H g) by (apply H_prec, Ht).
  assert (Egen : forall s : status, apply_precision_txn (with_status t s) = with_status g s).
  { intros s. unfold g, apply_precision_txn. simpl. destruct (apply_precision _ _ _) as [[p a] q]. reflexivity. }
  assert (Efin : final_status t = if t_inflight t then SInflight else SApplied).
  { destruct Ht as (_ & _ & [C|C]); unfold final_status; rewrite C; destruct (t_inflight t); reflexivity. }
  assert (Ei : t_inflight g = t_inflight t) by (apply (precision_keeps t)).
  assert (Esg : t_status g = t_status t) by (apply (precision_keeps t)).
  assert (Efg : final_status g = final_status t) by (unfold final_status; rewrite Ei, Esg; reflexivity).
  assert (Eud : update_details (apply_precision_txn (with_status t (final_status t))) src dst = update_details g src dst).
  { rewrite Egen. unfold update_details. rewrite Efg.
    assert (Ef2 : final_status (with_status g (final_status t)) = final_status t).
    { unfold final_status at 1. simpl. rewrite Ei, Efin. destruct (t_inflight t); reflexivity. }
    rewrite Ef2. reflexivity. }
  rewrite Eud.
  assert (Ek : kind_of (with_status t (final_status t)) = kind_of g).
  { unfold kind_of. simpl. rewrite Efin, Ei, Esg. destruct Ht as (_ & _ & [C|C]); rewrite C; destruct (t_inflight t); reflexivity. }
  rewrite Ek. destruct (prepared g src dst _ (or_introl Hg) eq_refl Hts Htd) as (P1 & P2 & _). exact (conj P1 P2).
Qed.

Definition members_ok (x : list (kind * txn) * list outbox_entry * list balance) : Prop :=
  let '(ks, obs, _) := x in
  Forall (fun x => row_fine {| r_t := snd x; r_kind := fst x |}) ks
  /\ obs = flat_map (fun x => entries {| r_t := snd x; r_kind := fst x |}) ks.
Lemma w_members ts ex seen m : Forall H ts -> Forall truthful m ->
  aw (prepare_members cfg ts ex seen m) (fun r => match r with Ok x => members_ok x | Err _ => True end).
Proof.
  revert seen m. induction ts as [|t r IH]; intros seen m Ht Hm; cbn [prepare_members]; [split; [constructor|reflexivity]|].
  inversion Ht as [|? ? H0 Hr]; subst.
  destruct (String.eqb (t_ref t) ""); [exact Logic.I|].
  destruct (mem_string _ _ || mem_string _ _); [exact Logic.I|].
  eapply alw_bind with (M := fun _ => True).
  { destruct (c_refcheck cfg); [exact Logic.I|]. simpl. split; [exact Logic.I|auto]. }
  intros [|] _; [exact Logic.I|].
  destruct (prepare_member t m) as [[[[k t'] ob] m']|e] eqn:Em; [|exact Logic.I].
  destruct (w_member _ _ _ _ _ _ H0 Hm Em) as (M1 & M2 & M3).
  eapply alw_bindr with (M := members_ok); [apply IH; auto| |auto].
  intros [[ks obs] m''] [Hk ->]. split; [constructor; auto|]. simpl. rewrite M3. reflexivity.
Qed.
Lemma w_batch_locked ids ts : Forall H ts -> aw (batch_locked cfg ids ts) (fun _ => True).
Proof.
  intros Ht. unfold batch_locked.
  eapply alw_bindr with (M := Forall truthful); [apply w_load| |auto]. intros m Hm.
  eapply alw_bind with (M := fun _ => True).
  { destruct (c_refcheck cfg); [|exact Logic.I]. simpl. split; [exact Logic.I|auto]. }
  intros ex _. eapply alw_bindr with (M := members_ok); [apply w_members; auto| |auto].
  intros [[ks obs] m'] Hk. simpl. split; [exact Hk|auto].
Qed.
Lemma w_persist_batch ts : Forall H ts -> aw (persist_queued_batch cfg ts) (fun _ => True).
Proof.
  intros Ht. unfold persist_queued_batch. destruct ts as [|t r]; [exact Logic.I|]. destruct (negb _); [exact Logic.I|].
  cbv zeta. eapply alw_bind; [apply w_wait|]. intros [|] _; [|exact Logic.I].
  eapply alw_bind; [apply w_batch_locked, Ht|]. intros x _. eapply alw_bind; [apply w_unlock|]. intros _ _. exact Logic.I.
Qed.
Lemma w_try_batch f sel t : H t -> aw (try_batch cfg f sel t) (fun _ => True).
Proof.
  intros Ht. unfold try_batch. destruct (negb (can_coalesce t)); [exact Logic.I|]. destruct (negb _); [exact Logic.I|].
  eapply alw_bind; [apply w_build_batch, Ht|]. intros [|b bs] Hb; [exact Logic.I|].
  eapply alw_bind; [apply w_persist_batch, Hb|]. intros r _. exact Logic.I.
Qed.
Lemma w_process_queued h sel t : H t -> aw (process_queued cfg h sel t) (fun _ => True).
Proof.
  intros Ht. unfold process_queued. eapply alw_bind; [apply w_try_batch, Ht|]. intros [|] _; [exact Logic.I|].
  apply w_record_single. left. exact Ht.
Qed.
Lemma w_worker h s1 s2 r t : H t -> aw (worker cfg h s1 s2 r t) (fun _ => True).
Proof.
  intros Ht. unfold worker. eapply alw_bind; [apply w_try_batch, Ht|]. intros h1 _.
  eapply alw_bind with (M := fun _ => True).
  { destruct h; [apply w_try_batch, Ht|exact Logic.I]. }
  intros [|] _; [exact Logic.I|].
  eapply alw_bind; [apply w_process_queued, Ht|]. intros [x|e] _; [exact Logic.I|].
  destruct (worker_verdict cfg e r); try exact Logic.I.
  eapply alw_bind; [apply w_reject, Ht|]. intros [x|e'] _; exact Logic.I.
Qed.
Lemma w_recover h sel ex sk id : aw (recover cfg h sel ex sk id) (fun _ => True).
Proof.
  unfold recover. apply alw_act; [exact Logic.I|]. intros ts Hts. apply rd_siblings in Hts.
  destruct ts as [|t r]; [exact Logic.I|]. inversion Hts as [|? ? [H1 H2] _]; subst.
  assert (Hg : H (restore_flags (apply_precision_txn t))).
  { destruct (precision_keeps t) as (E1 & _ & _ & _ & E5 & E6 & E7). apply restore_H.
    - unfold seen_fine. rewrite E1, E5, E6, E7. exact H1.
    - rewrite E5. exact H2. }
  cbv zeta. set (t1 := restore_flags (apply_precision_txn t)) in *.
  destruct ex.
  + eapply alw_bind; [apply w_queue_copy, Hg|]. intros c Hc.
    eapply alw_bind; [apply w_reject, Hc|]. intros [x|e] _; [exact Logic.I|destruct e; exact Logic.I].
  + destruct (t_atomic t1 && sk); [exact Logic.I|].
    eapply alw_bind; [apply w_queue_copy, Hg|]. intros c Hc.
    eapply alw_bind; [apply w_process_queued, Hc|]. intros [x|e] _; [exact Logic.I|destruct e; exact Logic.I].
Qed.

Lemma w_done {A} (p : prog A) : aw p (fun _ => True) -> aw (done p) (fun _ => True).
Proof. intros Hp. unfold done. eapply alw_bind; [exact Hp|]. intros _ _. exact Logic.I. Qed.

Definition request_fine (r : request) : Prop :=
  match r with
  | RQueue _ t => newcomer t
  | RBulk _ ts _ _ _ => Forall newcomer ts
  | RRefund _ _ upd => forall m, m_inflight (upd m) = m_inflight m
  | RSetMeta id m => meta_fine (id, m)
  | RWorker _ _ _ _ t => H t
  | RJob j => job_fine j
  | _ => True
  end.
Lemma w_request r : request_fine r -> aw (prog_of cfg r) (fun _ => True).
Proof.
  intros Hr. destruct r; simpl in Hr; cbn [prog_of].
  - destruct Hr. apply w_done, w_queue_transaction. split; auto.
  - apply w_done, w_bulk, Hr.
  - apply w_done, w_commit.
  - apply w_done, w_void.
  - apply w_done, w_inflight_action.
  - apply w_done, w_refund, Hr.
  - apply w_done, w_refund_batch.
  - apply w_done. unfold new_balance. eapply alw_bind; [apply w_fresh; discriminate|]. intros id _.
    apply alw_act; [exact Logic.I|]. intros [x|e] _; exact Logic.I.
  - apply alw_act; [exact Logic.I|]. intros x _. exact Logic.I.
  - apply alw_act; [exact Hr|]. intros x _. exact Logic.I.
  - apply w_done, w_worker, Hr.
  - apply w_async, Hr.
  - apply w_done, w_recover.
Qed.
End Out.

(** ** What only grows *)
Definition grows (s s' : state) : Prop :=
  incl (s_txns s) (s_txns s')
  /\ forall b, In b (s_bals s) -> exists b', In b' (s_bals s') /\ b_id b' = b_id b /\ b_track b' = b_track b.
Definition unique (s : state) : Prop :=
  NoDup (map (fun r => t_id (r_t r)) (s_txns s)) /\ NoDup (map b_id (s_bals s)).

Definition key (b : balance) := (b_id b, b_track b).
Lemma recon_key l b : key (recon_trigger l b) = key b.
Proof. unfold recon_trigger. destruct (b_recon b); reflexivity. Qed.
Lemma update_keys rows w l l' : update_balance rows w l = Some l' -> map key l' = map key l.
Proof.
  revert l'. induction l as [|b r IH]; intros l' E; simpl in E; [discriminate|].
  destruct (String.eqb _ _).
  - destruct (_ =? _); [|discriminate]. inversion E; subst. simpl. rewrite recon_key. reflexivity.
  - destruct (update_balance rows w r) as [r'|]; [|discriminate]. inversion E; subst. simpl. rewrite (IH _ eq_refl). reflexivity.
Qed.
Lemma update_set_keys rows ws l l' : update_balance_set rows ws l = Some l' -> map key l' = map key l.
Proof.
  revert l. induction ws as [|w r IH]; intros l E; simpl in E; [congruence|].
  destruct (update_balance rows w l) as [l1|] eqn:E1; [|discriminate]. rewrite (IH _ E). eapply update_keys; eauto.
Qed.
Lemma reconcile_keys id rows l : map key (reconcile_balance id rows l) = map key l.
Proof.
  induction l as [|b r IH]; simpl; [reflexivity|]. destruct (String.eqb _ _); simpl; [rewrite recon_key; reflexivity|rewrite IH; reflexivity].
Qed.
Lemma insert_ids k t bals l l' : insert_txn k t bals l = Ok l' ->
  l' = {| r_t := t; r_kind := k |} :: l /\ ~ In (t_id t) (map (fun r => t_id (r_t r)) l).
Proof.
  unfold insert_txn. destruct (ref_exists _ _); [discriminate|]. destruct (id_exists _ _) eqn:E; [discriminate|].
  destruct (get_bal _ _); [|discriminate]. destruct (get_bal _ _); [|discriminate]. intros X. inversion X; subst.
  split; [reflexivity|]. intros Hi. apply in_map_iff in Hi as (r & Hr & Hr').
  assert (id_exists (t_id t) l = true); [|congruence]. apply existsb_exists. exists r. split; [exact Hr'|]. apply String.eqb_eq. exact Hr.
Qed.
Lemma inserts_ids ts bals l l' : insert_txns ts bals l = Ok l' ->
  NoDup (map (fun r => t_id (r_t r)) l) -> NoDup (map (fun r => t_id (r_t r)) l') /\ incl l l'.
Proof.
  revert l. induction ts as [|[k t] r IH]; intros l E Hn; simpl in E; [inversion E; subst; split; [exact Hn|apply incl_refl]|].
  destruct (insert_txn k t bals l) as [l1|] eqn:E1; [|discriminate]. apply insert_ids in E1 as [-> Hi].
  destruct (IH _ E) as [A B]; [constructor; auto|]. split; [exact A|]. intros x Hx. apply B. right. exact Hx.
Qed.

Lemma keys_grow s s' : map key (s_bals s') = map key (s_bals s) ->
  (forall b, In b (s_bals s) -> exists b', In b' (s_bals s') /\ b_id b' = b_id b /\ b_track b' = b_track b)
  /\ (NoDup (map b_id (s_bals s)) -> NoDup (map b_id (s_bals s'))).
Proof.
  intros E. split.
  - intros b Hb. assert (In (key b) (map key (s_bals s'))) by (rewrite E; apply in_map; exact Hb).
    apply in_map_iff in H0 as (b' & Hk & Hb'). exists b'. inversion Hk. auto.
  - assert (E2 : map b_id (s_bals s') = map b_id (s_bals s)).
    { assert (X : forall l, map b_id l = map fst (map key l)) by (intros l; rewrite map_map; reflexivity).
      rewrite !X, E. reflexivity. }
    rewrite E2. auto.
Qed.

Lemma grows_refl s : grows s s.
Proof. split; [apply incl_refl|]. intros b Hb. exists b. auto. Qed.
Lemma frame_grows s s' : s_txns s' = s_txns s -> s_bals s' = s_bals s -> unique s -> grows s s' /\ unique s'.
Proof. intros E1 E2 U. unfold grows, unique. rewrite E1, E2. split; [|exact U]. split; [apply incl_refl|]. intros b Hb. exists b. auto. Qed.

Lemma exec_grows n o s : unique s -> grows s (fst (exec n o s)) /\ unique (fst (exec n o s)).
Proof.
  intros U. destruct o; simpl; try (apply frame_grows; [reflexivity|reflexivity|exact U]);
    try (split; [apply grows_refl|exact U]).
  - unfold create_balance. destruct (get_bal (b_id (fresh_balance id ind cur recon track)) (s_bals s)) as [b0|] eqn:Eg; [split; [apply grows_refl|exact U]|].
    destruct (_ && _); [split; [apply grows_refl|exact U]|]. simpl. split.
    + split; [apply incl_refl|]. intros b Hb. exists b. simpl. auto.
    + destruct U as [U1 U2]. split; [exact U1|]. simpl. constructor; [|exact U2].
      intros Hi. apply in_map_iff in Hi as (b & Hb & Hb'). simpl in *. clear - Eg Hb Hb'.
      induction (s_bals s) as [|x r IH]; [destruct Hb'|]. simpl in Eg. destruct (String.eqb_spec (b_id x) id); [discriminate|].
      destruct Hb' as [->|Hb']; [contradiction|auto].
  - destruct (lock_owner _ _); apply frame_grows; try reflexivity; exact U.
  - destruct (lock_owner _ _); [destruct (Nat.eqb _ _)|]; apply frame_grows; try reflexivity; exact U.
  - destruct (insert_txn KNone t (s_bals s) (s_txns s)) as [l|e] eqn:E; [|split; [apply grows_refl|exact U]]. simpl.
    apply insert_ids in E as [-> Hi]. destruct U as [U1 U2]. split.
    + split; [intros x Hx; right; exact Hx|]. intros b Hb. exists b. auto.
    + split; [constructor; auto|exact U2].
  - unfold persist_single. destruct (update_balance _ _ _) as [b1|] eqn:E1; [|split; [apply grows_refl|exact U]].
    destruct (update_balance _ dst b1) as [b2|] eqn:E2; [|split; [apply grows_refl|exact U]].
    destruct (insert_txn k t b2 (s_txns s)) as [l|e] eqn:E; [|split; [apply grows_refl|exact U]]. simpl.
    apply insert_ids in E as [-> Hi]. apply update_keys in E1, E2. rewrite E1 in E2.
    destruct (keys_grow s (set_db s b2 ({| r_t := t; r_kind := k |} :: s_txns s) (opt_list ob ++ s_outbox s)%list) E2) as [G1 G2].
    destruct U as [U1 U2]. split; [split; [intros x Hx; right; exact Hx|exact G1]|].
    split; [constructor; auto|apply G2, U2].
  - unfold persist_batch. destruct (update_balance_set _ _ _) as [b|] eqn:E1; [|split; [apply grows_refl|exact U]].
    destruct (insert_txns ts b (s_txns s)) as [l|e] eqn:E; [|split; [apply grows_refl|exact U]]. simpl.
    destruct U as [U1 U2]. destruct (inserts_ids _ _ _ _ E U1) as [N1 N2]. apply update_set_keys in E1.
    destruct (keys_grow s (set_db s b l (rev obs ++ s_outbox s)%list) E1) as [G1 G2].
    split; [split; [exact N2|exact G1]|split; [exact N1|apply G2, U2]].
  - destruct (keys_grow s (set_bals s (reconcile_balance id (s_txns s) (s_bals s)))) as [G1 G2]; [apply reconcile_keys|].
    destruct U as [U1 U2]. split; [split; [apply incl_refl|exact G1]|split; [exact U1|apply G2, U2]].
Qed.
Lemma grows_bwd T F s s' : grows s s' -> bwd T F s' -> bwd T F s.
Proof.
  intros [G1 G2] [B1 B2]. split; [|intros x Hx; apply B2, G1, Hx].
  intros b Hb. destruct (G2 b Hb) as (b' & Hb' & E1 & E2). rewrite <- E2, <- E1. apply B1, Hb'.
Qed.
Lemma step_grows cfg y e y' : unique (y_st y) -> step cfg y e y' -> grows (y_st y) (y_st y') /\ unique (y_st y').
Proof.
  intros U Hs. destruct e as [r|n|n|k]; simpl in Hs.
  - destruct r; try (destruct Hs as [_ ->]; split; [apply grows_refl|exact U]).
    destruct Hs as (l1 & l2 & _ & ->). apply frame_grows; try reflexivity. exact U.
  - destruct (nth_error (y_thr y) n) as [[a|o k]|]; [destruct Hs| |destruct Hs]. subst y'. apply exec_grows, U.
  - subst y'. split; [apply grows_refl|exact U].
  - subst y'. apply frame_grows; try reflexivity. exact U.
Qed.
Lemma reach_unique cfg ok u y : steps cfg ok (init_sys u) y -> unique (y_st y).
Proof.
  intros Hs. remember (init_sys u) as y0 eqn:E. induction Hs as [y|y1 y2 y3 e Hs IH Ho He]; subst; [split; constructor|].
  eapply step_grows; [apply IH; reflexivity|exact He].
Qed.

Lemma nth_set_nth {A} n m (x : A) l z : nth_error (set_nth m x l) n = Some z -> z = x \/ nth_error l n = Some z.
Proof.
  revert n m. induction l as [|a r IH]; intros [|n] [|m]; simpl; intros E; auto.
  - left. congruence.
  - destruct (IH _ _ E); auto.
Qed.
Lemma nth_snoc {A} (l : list A) x n z : nth_error (l ++ [x]) n = Some z -> z = x \/ nth_error l n = Some z.
Proof.
  revert n. induction l as [|a r IH]; intros [|n]; simpl; intros E; auto; [left; congruence|destruct n; discriminate].
Qed.

(** ** Every reachable state *)
Theorem outbox_inv cfg (ok : sys -> event -> Prop) u y T F :
  (forall y e, ok y e -> no_spoof y e) -> steps cfg ok (init_sys u) y ->
  NoDup (map (fun r => t_id (r_t r)) F) -> bwd T F (y_st y) ->
  fwd T F (y_st y) /\ forall n p, nth_error (y_thr y) n = Some p -> alw (K T F) (okop T F) p (fun _ => True).
Proof.
  intros Hok Hs HF. remember (init_sys u) as y0 eqn:E. induction Hs as [y|y1 y2 y3 e Hs IH Ho He]; intros HB; subst.
  { split; [constructor; simpl; constructor|]. intros [|n] p Hn; discriminate. }
  pose proof (reach_unique _ _ _ _ Hs) as U. destruct (step_grows _ _ _ _ U He) as [Hg _].
  pose proof (grows_bwd _ _ _ _ Hg HB) as HB2. destruct (IH eq_refl HB2) as [Hf Ht].
  apply Hok in Ho. clear IH.
  destruct e as [r|n|n|k]; simpl in He.
  - assert (Hreq : request_fine F r).
    { destruct r; simpl in *; auto.
      - destruct He as [(_ & _ & A & _) _]. split; [auto|apply Ho].
      - destruct He as [A _]. rewrite Forall_forall in *. intros t Hin. split; [right; right; apply (A t Hin)|apply (Ho t Hin)].
      - destruct Ho as (r & Hr & Hid & [Hf1 _]). exists r. split; [apply HB2, Hr|]. auto.
      - destruct He as [A _]. destruct Hf as [Q _ _ _ _]. rewrite Forall_forall in Q. apply Q, A.
      - destruct He as (l1 & l2 & El & _). destruct Hf as [_ Q _ _ _]. rewrite El in Q. apply Forall_app in Q as [_ Q]. inversion Q; assumption. }
    assert (Hthr : y_thr y3 = (y_thr y2 ++ [prog_of cfg r])%list) by (destruct r; destruct He as [_ ->] || destruct He as (l1 & l2 & _ & ->); reflexivity).
    split.
    + destruct r; try (destruct He as [_ ->]; exact Hf). destruct He as (l1 & l2 & El & ->). simpl.
      destruct Hf as [A B C D G]. constructor; simpl; auto. rewrite El in B. apply Forall_app in B as [B1 B2]. apply Forall_app. split; [exact B1|inversion B2; assumption].
    + intros n p Hn. rewrite Hthr in Hn. apply nth_snoc in Hn as [->|Hn]; [|eapply Ht; eauto].
      apply w_request; [exact HF|exact Hreq].
  - destruct (nth_error (y_thr y2) n) as [[a|o k]|] eqn:En; [destruct He| |destruct He]. subst y3. cbn [y_st y_thr] in *.
    destruct (Ht _ _ En) as [Hop Hk].
    split; [apply exec_fwd; assumption|].
    intros m p Hm. apply nth_set_nth in Hm as [->|Hm]; [|eapply Ht; eauto].
    apply Hk. exists n, (y_st y2). split; [exact (conj Hf HB2)|reflexivity].
  - subst y3. cbn [y_st y_thr] in *. split; [exact Hf|]. intros m p Hm. apply nth_set_nth in Hm as [->|Hm]; [exact Logic.I|eapply Ht; eauto].
  - subst y3. cbn [y_st y_thr] in *. split; [eapply fwd_same; [exact Hf|reflexivity..]|exact Ht].
Qed.

(** ** In terms of the specification *)
Definition flag_of (s : state) (id : string) : bool :=
  match get_bal id (s_bals s) with Some b => b_track b | None => false end.
Lemma flag_tracked s id : unique s -> (flag_of s id = true <-> tracked s id).
Proof.
  intros [_ U]. unfold flag_of, tracked. revert U. induction (s_bals s) as [|x r IH]; intros U; simpl.
  - split; [discriminate|intros (b & [] & _)].
  - inversion U as [|? ? Hn Hd]; subst. destruct (String.eqb_spec (b_id x) id) as [E|E].
    + split; [intros Ht; exists x; auto|]. intros (b & [->|Hb] & Hid & Ht); [exact Ht|].
      exfalso. apply Hn. rewrite E, <- Hid. apply in_map. exact Hb.
    + rewrite (IH Hd). split; intros (b & Hb & Hid & Ht); exists b; (split; [|auto]); [right; exact Hb|].
      destruct Hb as [->|Hb]; [contradiction|exact Hb].
Qed.
Lemma flag_bwd s : unique s -> bwd (flag_of s) (s_txns s) s.
Proof.
  intros U. split; [|apply incl_refl]. intros b Hb. destruct (b_track b) eqn:E.
  - symmetry. apply flag_tracked; [exact U|]. exists b. auto.
  - destruct (flag_of s (b_id b)) eqn:E2; [|reflexivity]. apply flag_tracked in E2; [|exact U].
    destruct E2 as (b' & Hb' & Hid & Ht). destruct U as [_ U].
    assert (b' = b); [|congruence]. clear - U Hb Hb' Hid. induction (s_bals s) as [|x r IH]; [destruct Hb|].
    simpl in U. inversion U as [|? ? Hn Hd]; subst. destruct Hb as [->|Hb], Hb' as [->|Hb']; auto.
    + exfalso. apply Hn. rewrite <- Hid. apply in_map, Hb'.
    + exfalso. apply Hn. rewrite Hid. apply in_map, Hb.
Qed.

Lemma due_iff s r : unique s ->
  (due (flag_of s) r = true <->
   (r_kind r = KPost \/ (r_kind r = KHold /\ t_parent (r_t r) = "")) /\ touches_lineage s r).
Proof.
  intros U. unfold due, touches_lineage. rewrite andb_true_iff, orb_true_iff, andb_true_iff, negb_true_iff.
  rewrite !flag_tracked by exact U. rewrite String.eqb_neq.
  assert (E : match r_kind r with KPost => true | KHold => String.eqb (t_parent (r_t r)) "" | _ => false end = true
     <-> (r_kind r = KPost \/ (r_kind r = KHold /\ t_parent (r_t r) = ""))).
  { destruct (r_kind r); rewrite ?String.eqb_eq; intuition congruence. }
  rewrite E. tauto.
Qed.
Lemma entry_describes s r : unique s -> describes s (entry_for (flag_of s) r) r.
Proof.
  intros U. unfold describes, entry_for. cbn. repeat (split; [reflexivity|]).
  rewrite andb_true_iff, negb_true_iff, String.eqb_neq, !flag_tracked by exact U.
  split; [destruct (r_kind r); split; congruence|]. tauto.
Qed.

Lemma filter_entries T l r : NoDup (map (fun r => t_id (r_t r)) l) -> In r l ->
  filter (fun o => String.eqb (o_txn o) (t_id (r_t r))) (flat_map (entries T) l) = entries T r.
Proof.
  assert (Hnone : forall l id, ~ In id (map (fun r => t_id (r_t r)) l) -> filter (fun o => String.eqb (o_txn o) id) (flat_map (entries T) l) = []).
  { intros q id. induction q as [|x q IH]; simpl; intros Hn; [reflexivity|]. rewrite filter_app, IH by tauto.
    unfold entries. destruct (due T x); simpl; [|reflexivity]. destruct (String.eqb_spec (t_id (r_t x)) id); [tauto|reflexivity]. }
  induction l as [|x q IH]; intros Hn Hr; [destruct Hr|]. simpl in Hn. inversion Hn as [|? ? Hx Hq]; subst. simpl. rewrite filter_app.
  destruct Hr as [->|Hr].
  - rewrite Hnone by exact Hx. rewrite app_nil_r. unfold entries. destruct (due T r); simpl; rewrite ?String.eqb_refl; reflexivity.
  - rewrite IH by auto. assert (E : filter (fun o => String.eqb (o_txn o) (t_id (r_t r))) (entries T x) = []); [|rewrite E; reflexivity].
    unfold entries. destruct (due T x); simpl; [|reflexivity]. destruct (String.eqb_spec (t_id (r_t x)) (t_id (r_t r))) as [E|]; [|reflexivity].
    exfalso. apply Hx. rewrite E. apply in_map_iff. eauto.
Qed.

Theorem outbox_box cfg u y : steps cfg no_spoof (init_sys u) y ->
  s_outbox (y_st y) = flat_map (entries (flag_of (y_st y))) (s_txns (y_st y)).
Proof.
  intros Hs. pose proof (reach_unique _ _ _ _ Hs) as U.
  destruct (outbox_inv cfg no_spoof u y (flag_of (y_st y)) (s_txns (y_st y)) (fun _ _ h => h) Hs (proj1 U) (flag_bwd _ U)) as [[_ _ _ _ G] _].
  exact G.
Qed.
Theorem one_entry cfg u y : steps cfg no_spoof (init_sys u) y -> forall r, In r (s_txns (y_st y)) ->
  r_kind r = KPost \/ (r_kind r = KHold /\ t_parent (r_t r) = "") -> touches_lineage (y_st y) r ->
  exists o, entries_of (y_st y) r = [o] /\ describes (y_st y) o r.
Proof.
  intros Hs r Hr Hk Ht. pose proof (reach_unique _ _ _ _ Hs) as U.
  pose proof (f_equal (filter (fun o => String.eqb (o_txn o) (t_id (r_t r)))) (outbox_box cfg u y Hs)) as P.
  rewrite (filter_entries _ _ r (proj1 U) Hr) in P. unfold entries in P.
  rewrite (proj2 (due_iff _ r U) (conj Hk Ht)) in P.
  exists (entry_for (flag_of (y_st y)) r). split; [exact P|apply entry_describes, U].
Qed.
Theorem no_stray cfg u y : steps cfg no_spoof (init_sys u) y -> forall o, In o (s_outbox (y_st y)) ->
  exists r, In r (s_txns (y_st y)) /\ describes (y_st y) o r /\ touches_lineage (y_st y) r
  /\ (r_kind r = KPost \/ (r_kind r = KHold /\ t_parent (r_t r) = "")).
Proof.
  intros Hs o Ho. pose proof (reach_unique _ _ _ _ Hs) as U.
  rewrite (outbox_box cfg u y Hs) in Ho. apply in_flat_map in Ho as (r & Hr & Ho).
  unfold entries in Ho. destruct (due (flag_of (y_st y)) r) eqn:E; [|destruct Ho]. destruct Ho as [<-|[]].
  apply due_iff in E as [E1 E2]; [|exact U]. exists r. split; [exact Hr|]. split; [apply entry_describes, U|]. auto.
Qed.
(** The outbox lists its entries in the order of the journal. *)
Theorem journal_order cfg u y : steps cfg no_spoof (init_sys u) y -> exists keep,
  map o_txn (s_outbox (y_st y)) = map (fun r => t_id (r_t r)) (filter keep (s_txns (y_st y))).
Proof.
  intros Hs. exists (due (flag_of (y_st y))). rewrite (outbox_box cfg u y Hs). generalize (flag_of (y_st y)). intros T.
  induction (s_txns (y_st y)) as [|r q IH]; [reflexivity|]. simpl. rewrite map_app, IH. unfold entries.
  destruct (due T r); reflexivity.
Qed.
