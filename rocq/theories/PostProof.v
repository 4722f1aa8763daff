(** Proof that posting, committing and voiding are all-or-nothing. *)
From Coq Require Import ZArith QArith List String Bool Lia.
From Verif Require Import Base MoneyModel SplitModel BalanceModel LedgerModel LedgerProgs PostSpec LedgerInv LedgerPure LedgerSafe.
Import ListNotations.
Open Scope Z_scope.

Lemma traces_bind n {A B} (p : prog A) (f : A -> prog B) tr r :
  traces n (bind p f) tr r ->
  (r = None /\ traces n p tr None)
  \/ exists tr1 tr2 a, tr = (tr1 ++ tr2)%list /\ traces n p tr1 (Some a) /\ traces n (f a) tr2 r.
Proof.
  revert tr r. induction p as [a|o k IH]; intros tr r H; simpl in H.
  - right. exists [], tr, a. simpl. auto.
  - destruct H as [[-> ->]|(s & tr' & -> & H)].
    + left. simpl. auto.
    + destruct (IH _ _ _ H) as [[-> H1]|(tr1 & tr2 & a & -> & H1 & H2)].
      * left. split; [reflexivity|]. simpl. right. exists s, tr'. auto.
      * right. exists ((s, fst (exec n o s)) :: tr1), tr2, a. split; [reflexivity|]. split; [|exact H2].
        simpl. right. exists s, tr1. auto.
Qed.

(** Operations that never touch money. *)
Definition harmless (o : op) : Prop := forall n s, untouched (s, fst (exec n o s)).

Lemma untouched_refl s s' : s_txns s' = s_txns s -> s_bals s' = s_bals s -> untouched (s, s').
Proof. intros H1 H2. split; [exact H1|]. exists []. simpl. auto. Qed.

Lemma quiet_traces n {A} (p : prog A) tr r : all_ops harmless p -> traces n p tr r -> Forall untouched tr.
Proof.
  revert tr. induction p as [a|o k IH]; intros tr Hq H; simpl in *.
  - destruct H as [-> _]. constructor.
  - destruct Hq as [Ho Hk]. destruct H as [[-> _]|(s & tr' & -> & H)]; constructor; auto. eapply IH; eauto.
Qed.

Ltac harm := intros ? ?; apply untouched_refl; reflexivity.
Lemma h_fresh : harmless OFresh. Proof. harm. Qed.
Lemma h_getbal i : harmless (OGetBal i). Proof. harm. Qed.
Lemma h_getind i c : harmless (OGetInd i c). Proof. harm. Qed.
Lemma h_queued i : harmless (OQueued i). Proof. harm. Qed.
Lemma h_ref r : harmless (ORefExists r). Proof. harm. Qed.
Lemma h_gettxn i : harmless (OGetTxn i). Proof. harm. Qed.
Lemma h_voided i : harmless (OVoided i). Proof. harm. Qed.
Lemma h_committed i : harmless (OCommitted i). Proof. harm. Qed.
Lemma h_lock k : harmless (OLock k).
Proof. intros n s. simpl. destruct (lock_owner _ _); apply untouched_refl; reflexivity. Qed.
Lemma h_unlock k : harmless (OUnlock k).
Proof.
  intros n s. simpl. destruct (lock_owner _ _) as [o|]; [destruct (Nat.eqb o n)|]; apply untouched_refl; reflexivity.
Qed.
Lemma h_create i ind c r t : harmless (OCreateBal i ind c r t).
Proof.
  intros n s. simpl. unfold create_balance. destruct (get_bal _ _); [apply untouched_refl; reflexivity|].
  destruct (_ && _); [apply untouched_refl; reflexivity|].
  split; [reflexivity|]. exists [fresh_balance i ind c r t]. split; [reflexivity|].
  constructor; [simpl; lia|constructor].
Qed.

Lemma q_bindr {A B} ok (p : prog (res A)) (f : A -> prog (res B)) :
  all_ops ok p -> (forall x, all_ops ok (f x)) -> all_ops ok (bindr p f).
Proof. intros Hp Hf. apply all_ops_bind; [exact Hp|]. intros [x|e]; [apply Hf|exact Logic.I]. Qed.

Lemma q_get_balance cfg id : all_ops harmless (get_balance cfg id).
Proof.
  unfold get_balance. apply all_ops_bind; [simpl; auto using h_getbal|]. intros [b|]; [|exact Logic.I].
  destruct (c_queued cfg); [|exact Logic.I]. simpl. auto using h_queued.
Qed.

Lemma q_get_or_create cfg i c : all_ops harmless (get_or_create cfg i c).
Proof.
  assert (Hf : forall b : balance, all_ops harmless (if c_queued cfg then get_balance cfg (b_id b) else Ret (Ok b))).
  { intros b. destruct (c_queued cfg); [apply q_get_balance|exact Logic.I]. }
  assert (Ha : all_ops harmless (bind (act (OGetInd i c)) (fun b => match b with
       | Some b => if c_queued cfg then get_balance cfg (b_id b) else Ret (Ok b)
       | None => Ret (Err EBalanceNotFound) end))).
  { apply all_ops_bind; [simpl; auto using h_getind|]. intros [b|]; [apply Hf|exact Logic.I]. }
  unfold get_or_create. apply all_ops_bind; [simpl; auto using h_getind|]. intros [b|]; [apply Hf|].
  apply all_ops_bind; [simpl; auto using h_fresh|]. intros id.
  apply all_ops_bind; [simpl; auto using h_create|]. intros [x|e]; [exact Ha|].
  destruct e; try exact Ha; exact Logic.I.
Qed.

Lemma q_get_end cfg e c : all_ops harmless (get_end cfg e c).
Proof. unfold get_end. destruct (starts_with_at e); [apply q_get_or_create|apply q_get_balance]. Qed.

Lemma q_resolve cfg e c : all_ops harmless (resolve_id cfg e c).
Proof.
  unfold resolve_id. destruct (starts_with_at e); [|exact Logic.I].
  apply q_bindr; [apply q_get_or_create|]. intros b. exact Logic.I.
Qed.

Lemma q_unlock ks : all_ops harmless (unlock_keys ks).
Proof. induction ks as [|k r IH]; [exact Logic.I|]. simpl. split; [apply h_unlock|]. auto. Qed.
Lemma q_lock ks got : all_ops harmless (lock_keys ks got).
Proof.
  revert got. induction ks as [|k r IH]; intros got; [exact Logic.I|]. simpl. split; [apply h_lock|].
  intros [|]; auto. apply all_ops_bind; [apply q_unlock|]. intros _. exact Logic.I.
Qed.
Lemma q_wait n ks : all_ops harmless (wait_lock n ks).
Proof.
  induction n as [|n IH]; simpl; (apply all_ops_bind; [apply q_lock|]); intros [|]; auto; exact Logic.I.
Qed.

(** ** The one operation that moves money *)
Lemma update_balance_touch rows w l l' :
  update_balance rows w l = Some l' ->
  map b_id l' = map b_id l /\
  (forall id b, get_bal id l = Some b ->
     exists b', get_bal id l' = Some b' /\ (if String.eqb id (b_id w) then b_ver b' = b_ver b + 1 /\ b_ver b = b_ver w else b' = b)).
Proof.
  revert l'. induction l as [|x r IH]; intros l' H; simpl in H; [discriminate|].
  assert (Hid : forall y : balance, b_id (recon_trigger rows (upd_row x w)) = b_id x /\ b_ver (recon_trigger rows (upd_row x w)) = b_ver x + 1).
  { intros _. unfold recon_trigger. destruct (b_recon _); simpl; auto. }
  destruct (Hid x) as [Hi Hv]. clear Hid.
  destruct (String.eqb_spec (b_id x) (b_id w)) as [E|E].
  - destruct (b_ver x =? b_ver w) eqn:Ev; [|discriminate]. apply Z.eqb_eq in Ev. inversion H; subst. clear H. split.
    + simpl. rewrite Hi. reflexivity.
    + intros id b Hb. cbn [get_bal] in *. rewrite Hi.
      destruct (String.eqb_spec (b_id x) id) as [E'|E'].
      * inversion Hb; subst b. exists (recon_trigger rows (upd_row x w)). split; [reflexivity|].
        rewrite <- E', E, String.eqb_refl. rewrite Hv. auto.
      * exists b. split; [exact Hb|]. destruct (String.eqb_spec id (b_id w)); [congruence|reflexivity].
  - destruct (update_balance rows w r) as [r'|] eqn:Er; [|discriminate]. inversion H; subst. clear H.
    destruct (IH _ eq_refl) as [I1 I2]. split; [simpl; congruence|].
    intros id b Hb. simpl in *. destruct (String.eqb_spec (b_id x) id) as [E'|E'].
    + inversion Hb; subst b. exists x. split; [reflexivity|].
      destruct (String.eqb_spec id (b_id w)); [congruence|reflexivity].
    + apply I2. exact Hb.
Qed.

Lemma persist_outcome n k t src dst ob s :
  t_src t = b_id src -> t_dst t = b_id dst ->
  match snd (exec n (OPersist k t src dst ob) s) with
  | Ok _ => posted t (s, fst (exec n (OPersist k t src dst ob) s))
  | Err _ => untouched (s, fst (exec n (OPersist k t src dst ob) s))
  end.
Proof.
  intros Hs Hd. simpl. unfold persist_single.
  destruct (update_balance (s_txns s) src (s_bals s)) as [b1|] eqn:E1; [|apply untouched_refl; reflexivity].
  destruct (update_balance (s_txns s) dst b1) as [b2|] eqn:E2; [|apply untouched_refl; reflexivity].
  destruct (insert_txn k t b2 (s_txns s)) as [l|] eqn:E3; [|apply untouched_refl; reflexivity].
  simpl. destruct (update_balance_touch _ _ _ _ E1) as [A1 A2]. destruct (update_balance_touch _ _ _ _ E2) as [B1 B2].
  unfold insert_txn in E3. destruct (ref_exists _ _); [discriminate|]. destruct (id_exists _ _); [discriminate|].
  rewrite Hs, Hd in E3.
  destruct (get_bal (b_id src) b2) as [x1|] eqn:G1; [|discriminate].
  destruct (get_bal (b_id dst) b2) as [x2|] eqn:G2; [|discriminate]. inversion E3; subst. clear E3.
  split; [eexists; split; [|reflexivity]; reflexivity|]. split; [simpl; congruence|].
  intros id b Hb. simpl in *. rewrite Hs, Hd.
  destruct (A2 _ _ Hb) as (b' & Hb' & Hv). destruct (B2 _ _ Hb') as (b'' & Hb'' & Hv').
  exists b''. split; [exact Hb''|].
  destruct (String.eqb_spec id (b_id src)) as [Ea|Ea], (String.eqb_spec id (b_id dst)) as [Eb|Eb];
    try (destruct Hv as [Hv _]); try (destruct Hv' as [Hv' _]); subst; split; try lia; try contradiction; auto; congruence.
Qed.

(** ** Posting *)
Lemma aon_quiet tr (r : option (res txn)) :
  Forall untouched tr -> (forall t, r = Some (Ok t) -> t_precise t = 0) -> all_or_nothing tr r.
Proof. intros H1 H2. left. auto. Qed.

Lemma aon_app tr1 tr2 r : Forall untouched tr1 -> all_or_nothing tr2 r -> all_or_nothing (tr1 ++ tr2) r.
Proof.
  intros H [[H1 H2]|(a & x & b & t & -> & H1 & H2 & H3 & H4)].
  - left. split; [apply Forall_app; auto|exact H2].
  - right. exists (tr1 ++ a)%list, x, b, t. rewrite <- app_assoc. split; [reflexivity|].
    split; [apply Forall_app; auto|auto].
Qed.

(** A quiet beginning. *)
Lemma aon_bind {A} n (p : prog A) (f : A -> prog (res txn)) :
  all_ops harmless p -> (forall a tr r, traces n (f a) tr r -> all_or_nothing tr r) ->
  forall tr r, traces n (bind p f) tr r -> all_or_nothing tr r.
Proof.
  intros Hp Hf tr r H. apply traces_bind in H as [[-> H]|(tr1 & tr2 & a & -> & H1 & H2)].
  - apply aon_quiet; [eapply quiet_traces; eauto|discriminate].
  - apply aon_app; [eapply quiet_traces; eauto|eapply Hf; eauto].
Qed.

Lemma aon_bindr {A} n (p : prog (res A)) (f : A -> prog (res txn)) :
  all_ops harmless p -> (forall a tr r, traces n (f a) tr r -> all_or_nothing tr r) ->
  forall tr r, traces n (bindr p f) tr r -> all_or_nothing tr r.
Proof.
  intros Hp Hf. apply aon_bind; [exact Hp|]. intros [a|e]; [apply Hf|].
  intros tr r [-> [-> | ->]]; apply aon_quiet; try constructor; discriminate.
Qed.

(** A quiet ending that passes the result on. *)
Lemma aon_end {A} n (p : prog (res txn)) (q : prog A) :
  (forall tr r, traces n p tr r -> all_or_nothing tr r) -> all_ops harmless q ->
  forall tr r, traces n (bind p (fun x => bind q (fun _ => Ret x))) tr r -> all_or_nothing tr r.
Proof.
  intros Hp Hq tr r H. apply traces_bind in H as [[-> H]|(tr1 & tr2 & a & -> & H1 & H2)]; [apply Hp; exact H|].
  specialize (Hp _ _ H1).
  assert (Hq2 : Forall untouched tr2 /\ (r = None \/ r = Some a)).
  { apply traces_bind in H2 as [[-> H2]|(t1 & t2 & b & -> & H2 & [-> H3])].
    - split; [eapply quiet_traces; eauto|auto].
    - rewrite app_nil_r. split; [eapply quiet_traces; eauto|]. tauto. }
  destruct Hq2 as [Hq2 Hr].
  destruct Hp as [[P1 P2]|(x1 & x & x2 & t & -> & P1 & P2 & P3 & P4)].
  - left. split; [apply Forall_app; auto|]. intros t E. apply P2. destruct Hr as [-> | ->]; [discriminate|congruence].
  - right. exists x1, x, (x2 ++ tr2)%list, t. split; [rewrite <- app_assoc; reflexivity|].
    split; [exact P1|]. split; [exact P2|]. split; [apply Forall_app; auto|].
    destruct P4 as [P4|P4]; [discriminate|]. destruct Hr as [-> | ->]; auto.
Qed.

Lemma aon_err n e tr r : traces n (Ret (Err e)) tr r -> all_or_nothing tr r.
Proof. intros [-> [-> | ->]]; apply aon_quiet; try constructor; discriminate. Qed.

Lemma record_locked_aon cfg n t tr r : traces n (record_locked cfg t) tr r -> all_or_nothing tr r.
Proof.
  revert tr r. unfold record_locked. apply aon_bind; [simpl; auto using h_ref|].
  intros [|]; [apply aon_err|].
  apply aon_bindr; [apply q_get_end|]. intros src. apply aon_bindr; [apply q_get_end|]. intros dst.
  destruct (apply_to_balances (with_ends t (b_id src) (b_id dst)) src dst) as [[[t1 src'] dst']|e] eqn:Ea;
    [|apply aon_err].
  set (t2 := update_details t1 src' dst').
  destruct (t_precise t2 =? 0) eqn:Ez.
  - apply Z.eqb_eq in Ez. intros tr r [-> [-> | ->]]; apply aon_quiet; try constructor; try discriminate.
    intros t' E. inversion E; subst. exact Ez.
  - intros tr r H. cbv zeta in H.
    pose proof (clear_terminal_fields t2) as Hc. cbv zeta in Hc.
    destruct Hc as (C1 & C2 & C3 & C4 & _).
    set (t3 := clear_terminal t2) in *. set (ob := prepare_outbox t2 src' dst') in *.
    destruct H as [[-> ->]|(s & tr' & -> & H)]; [apply aon_quiet; [constructor|discriminate]|].
    pose proof (persist_outcome n (kind_of t1) t3 src' dst' ob s C3 C4) as Ho.
    set (o := OPersist (kind_of t1) t3 src' dst' ob) in *.
    destruct (snd (exec n o s)) as [v|e] eqn:Ex.
    + destruct H as [-> H]. right. exists [], (s, fst (exec n o s)), [], t3.
      split; [reflexivity|]. split; [constructor|]. split; [exact Ho|]. split; [constructor|]. tauto.
    + destruct H as [-> H]. apply aon_quiet; [constructor; [exact Ho|constructor]|].
      intros t' E. destruct H as [-> | ->]; discriminate.
Qed.

Lemma record_single_aon cfg n t tr r : traces n (record_single cfg t) tr r -> all_or_nothing tr r.
Proof.
  revert tr r. unfold record_single.
  apply aon_bindr; [apply q_resolve|]. intros a. apply aon_bindr; [apply q_resolve|]. intros b.
  apply aon_bind; [apply q_wait|]. intros [|]; [|apply aon_err].
  apply aon_end; [intros tr r; apply record_locked_aon|apply q_unlock].
Qed.

Lemma with_lock_aon n k (p : prog (res txn)) :
  (forall tr r, traces n p tr r -> all_or_nothing tr r) ->
  forall tr r, traces n (with_lock k p) tr r -> all_or_nothing tr r.
Proof.
  intros Hp. unfold with_lock. apply aon_bind; [simpl; auto using h_lock|]. intros [|]; [|apply aon_err].
  apply aon_end; [exact Hp|simpl; auto using h_unlock].
Qed.

Lemma q_fetch id : all_ops harmless (fetch_inflight id).
Proof.
  unfold fetch_inflight. apply all_ops_bind; [simpl; auto using h_gettxn|]. intros [t|]; [|exact Logic.I].
  destruct (negb (is_inflight t)); [exact Logic.I|].
  apply all_ops_bind; [simpl; auto using h_voided|]. intros [|]; exact Logic.I.
Qed.
Lemma q_fresh p : all_ops harmless (fresh p).
Proof. simpl. auto using h_fresh. Qed.
Lemma q_choose r : all_ops harmless (choose_ref r).
Proof. unfold choose_ref. destruct (String.eqb r ""); [apply q_fresh|exact Logic.I]. Qed.

Lemma commit_aon cfg n id a ref tr r : traces n (commit cfg id a ref) tr r -> all_or_nothing tr r.
Proof.
  revert tr r. unfold commit. apply with_lock_aon. apply aon_bindr; [apply q_fetch|]. intros t.
  apply aon_bind; [simpl; auto using h_committed|]. intros c.
  destruct (commit_amount _ _ _) as [[p q]|e]; [|apply aon_err].
  apply aon_bind; [apply q_fresh|]. intros nid. apply aon_bind; [apply q_choose|]. intros nref.
  intros tr r. apply record_single_aon.
Qed.

Lemma void_aon cfg n id ref tr r : traces n (void cfg id ref) tr r -> all_or_nothing tr r.
Proof.
  revert tr r. unfold void. apply with_lock_aon. apply aon_bindr; [apply q_fetch|]. intros t.
  apply aon_bind; [simpl; auto using h_committed|]. intros c.
  destruct (_ =? 0); [apply aon_err|].
  apply aon_bind; [apply q_fresh|]. intros nid. apply aon_bind; [apply q_choose|]. intros nref.
  intros tr r. apply record_single_aon.
Qed.

(** ** A used reference *)
Definition refused (tr : list (state * state)) (r : option (res txn)) : Prop :=
  Forall untouched tr /\ (r = None \/ exists e, r = Some (Err e)).
Definition uses (ref : string) (x : state * state) : Prop :=
  exists w, In w (s_txns (fst x)) /\ t_ref (r_t w) = ref.

Lemma refused_bind {A} n ref (p : prog A) (f : A -> prog (res txn)) :
  all_ops harmless p ->
  (forall a tr r, Forall (uses ref) tr -> traces n (f a) tr r -> refused tr r) ->
  forall tr r, Forall (uses ref) tr -> traces n (bind p f) tr r -> refused tr r.
Proof.
  intros Hp Hf tr r Hu H. apply traces_bind in H as [[-> H]|(tr1 & tr2 & a & -> & H1 & H2)].
  - split; [eapply quiet_traces; eauto|auto].
  - apply Forall_app in Hu as [_ Hu]. destruct (Hf _ _ _ Hu H2) as [X Y].
    split; [apply Forall_app; split; [eapply quiet_traces; eauto|exact X]|exact Y].
Qed.

Lemma refused_bindr {A} n ref (p : prog (res A)) (f : A -> prog (res txn)) :
  all_ops harmless p ->
  (forall a tr r, Forall (uses ref) tr -> traces n (f a) tr r -> refused tr r) ->
  forall tr r, Forall (uses ref) tr -> traces n (bindr p f) tr r -> refused tr r.
Proof.
  intros Hp Hf. apply refused_bind; [exact Hp|]. intros [a|e]; [apply Hf|].
  intros tr r _ [-> [-> | ->]]; (split; [constructor|eauto]).
Qed.

Lemma record_locked_refused cfg n t tr r :
  Forall (uses (t_ref t)) tr -> traces n (record_locked cfg t) tr r -> refused tr r.
Proof.
  intros Hu H. unfold record_locked in H.
  destruct H as [[-> ->]|(s & tr' & -> & H)]; [split; auto|].
  inversion Hu as [|? ? (w & Hw & Hr) _]; subst. simpl in Hw.
  cbn [exec fst snd] in *.
  assert (E : ref_exists (t_ref t) (s_txns s) = true).
  { apply existsb_exists. exists w. split; [exact Hw|]. apply String.eqb_eq; exact Hr. }
  rewrite E in H. destruct H as [-> [-> | ->]]; (split; [|eauto]);
    (constructor; [|constructor]); (split; [reflexivity|]; exists []; split; [reflexivity|constructor]).
Qed.

Lemma record_single_refused cfg n t tr r :
  Forall (uses (t_ref t)) tr -> traces n (record_single cfg t) tr r -> refused tr r.
Proof.
  revert tr r. unfold record_single.
  apply refused_bindr; [apply q_resolve|]. intros a. apply refused_bindr; [apply q_resolve|]. intros b.
  apply refused_bind; [apply q_wait|].
  intros [|]; [|intros tr r _ [-> [-> | ->]]; (split; [constructor|eauto])].
  intros tr r Hu H. apply traces_bind in H as [[-> H]|(tr1 & tr2 & x & -> & H1 & H2)].
  - exact (record_locked_refused _ _ (with_ends t a b) _ _ Hu H).
  - apply Forall_app in Hu as [Hu1 Hu2].
    destruct (record_locked_refused _ _ (with_ends t a b) _ _ Hu1 H1) as [X [Y|(e & Y)]]; [discriminate|]. inversion Y; subst.
    apply traces_bind in H2 as [[-> H2]|(t1 & t2 & z & -> & H2 & [-> H3])].
    + split; [apply Forall_app; split; [exact X|eapply quiet_traces; [apply q_unlock|eauto]]|auto].
    + rewrite app_nil_r. split; [apply Forall_app; split; [exact X|eapply quiet_traces; [apply q_unlock|eauto]]|].
      destruct H3 as [-> | ->]; eauto.
Qed.
