(** A coalesced batch is posted as a whole or not at all, and as if one by one. *)
From Coq Require Import ZArith List String Bool Lia.
From Verif Require Import LedgerInv LedgerSafe.
From Verif Require Import Base MoneyModel BalanceModel LedgerModel LedgerProgs BatchSpec.
Import ListNotations.
Local Open Scope string_scope.
Open Scope Z_scope.

(** ** Rows that keep their version keep their contents *)
Definition tame (l : list balance) : Prop :=
  NoDup (map b_id l)
  /\ Forall (fun b => b_recon b = false /\ b_queued b = None /\ starts_with_at (b_id b) = false) l.
Definition keeps (l l' : list balance) : Prop :=
  forall id b, get_bal id l = Some b -> exists b', get_bal id l' = Some b' /\ b_ver b <= b_ver b'
    /\ (b_ver b = b_ver b' -> b' = b).
Lemma keeps_refl l : keeps l l.
Proof. intros id b H. exists b. split; [exact H|]. split; [lia|reflexivity]. Qed.
Lemma keeps_trans l1 l2 l3 : keeps l1 l2 -> keeps l2 l3 -> keeps l1 l3.
Proof.
  intros H1 H2 id b E. destruct (H1 id b E) as (b1 & E1 & V1 & S1). destruct (H2 id b1 E1) as (b2 & E2 & V2 & S2).
  exists b2. split; [exact E2|]. split; [lia|]. intros V. rewrite S2 by lia. apply S1. lia.
Qed.
Lemma tame_get l id b : tame l -> get_bal id l = Some b ->
  b_recon b = false /\ b_queued b = None /\ starts_with_at id = false.
Proof.
  intros [_ F] E. rewrite Forall_forall in F. destruct (F b (get_bal_in _ _ _ E)) as (H1 & H2 & H3).
  rewrite (get_bal_id _ _ _ E) in H3. auto.
Qed.
Lemma tame_of l l' : map b_id l' = map b_id l -> NoDup (map b_id l) ->
  (forall id b, get_bal id l' = Some b -> b_recon b = false /\ b_queued b = None /\ starts_with_at id = false) -> tame l'.
Proof.
  intros Em Hn Hg. assert (Hn' : NoDup (map b_id l')) by (rewrite Em; exact Hn). split; [exact Hn'|].
  apply Forall_forall. intros b Hb. apply (Hg (b_id b) b). apply get_bal_nodup; assumption.
Qed.
Lemma update_tame rows w l l' : tame l -> update_balance rows w l = Some l' ->
  tame l' /\ keeps l l' /\ exists b, get_bal (b_id w) l = Some b /\ b_ver b = b_ver w
  /\ forall id, get_bal id l' = if String.eqb (b_id w) id then Some (upd_row b w) else get_bal id l.
Proof.
  intros T E. destruct (update_balance_some _ _ _ _ E) as (b & Hb & Hv & Hm & Hg).
  destruct (tame_get _ _ _ T Hb) as (R & Q & A).
  assert (Et : recon_trigger rows (upd_row b w) = upd_row b w) by (unfold recon_trigger; simpl; rewrite R; reflexivity).
  rewrite Et in Hg. split; [|split].
  - apply (tame_of l l' Hm (proj1 T)). intros id x Hx. rewrite Hg in Hx.
    destruct (String.eqb_spec (b_id w) id) as [<-|N]; [|eapply tame_get; eauto].
    injection Hx as <-. simpl. auto.
  - intros id x Hx. rewrite Hg. destruct (String.eqb_spec (b_id w) id) as [<-|N]; [|exists x; split; [exact Hx|split; [lia|reflexivity]]].
    exists (upd_row b w). split; [reflexivity|]. rewrite Hb in Hx. injection Hx as <-. simpl. split; [lia|lia].
  - exists b. auto.
Qed.
Lemma update_set_tame rows ws l l' : tame l -> update_balance_set rows ws l = Some l' -> tame l' /\ keeps l l'.
Proof.
  revert l. induction ws as [|w r IH]; simpl; intros l T E.
  - injection E as <-. split; [exact T|apply keeps_refl].
  - destruct (update_balance rows w l) as [l1|] eqn:E1; [|discriminate].
    destruct (update_tame _ _ _ _ T E1) as (T1 & K1 & _). destruct (IH l1 T1 E) as (T2 & K2).
    split; [exact T2|eapply keeps_trans; eauto].
Qed.

Definition goes (s s' : state) : Prop := keeps (s_bals s) (s_bals s').
Lemma exec_tame n o s : ordinary o -> tame (s_bals s) -> tame (s_bals (fst (exec n o s))) /\ goes s (fst (exec n o s)).
Proof.
  intros Ho T. unfold goes.
  destruct o; simpl; try (split; [exact T|apply keeps_refl]).
  - unfold create_balance. cbn [b_id b_ind b_cur fresh_balance].
    destruct (get_bal id (s_bals s)) eqn:E; [split; [exact T|apply keeps_refl]|].
    destruct (_ && _); [split; [exact T|apply keeps_refl]|]. simpl. destruct Ho as [-> Ha]. destruct T as [Tn Tf]. split.
    + split; [|constructor; [simpl; auto|exact Tf]]. simpl. constructor; [|exact Tn]. apply get_bal_none. exact E.
    + intros i b Hb. exists b. simpl. destruct (String.eqb_spec id i) as [<-|N]; [congruence|].
      split; [exact Hb|]. split; [lia|reflexivity].
  - destruct (lock_owner _ _); (split; [exact T|apply keeps_refl]).
  - destruct (lock_owner _ _); [destruct (Nat.eqb _ _)|]; (split; [exact T|apply keeps_refl]).
  - destruct (insert_txn _ _ _ _); (split; [exact T|apply keeps_refl]).
  - unfold persist_single. destruct (update_balance _ src _) as [b1|] eqn:E1; [|split; [exact T|apply keeps_refl]].
    destruct (update_balance _ dst b1) as [b2|] eqn:E2; [|split; [exact T|apply keeps_refl]].
    destruct (insert_txn _ _ _ _); [|split; [exact T|apply keeps_refl]]. simpl.
    destruct (update_tame _ _ _ _ T E1) as (T1 & K1 & _). destruct (update_tame _ _ _ _ T1 E2) as (T2 & K2 & _).
    split; [exact T2|eapply keeps_trans; eauto].
  - unfold persist_batch. destruct (update_balance_set _ ws _) as [b1|] eqn:E1; [|split; [exact T|apply keeps_refl]].
    destruct (insert_txns _ _ _); [|split; [exact T|apply keeps_refl]]. simpl. eapply update_set_tame; eauto.
  - destruct Ho.
Qed.
Lemma others_tame s s' : others s s' -> tame (s_bals s) -> tame (s_bals s') /\ goes s s'.
Proof.
  induction 1 as [s|m o s s' Ho Hs IH|l s s' Hs IH|l s s' Hs IH]; intros T.
  - split; [exact T|apply keeps_refl].
  - destruct (exec_tame m o s Ho T) as [T1 K1]. destruct (IH T1) as [T2 K2]. split; [exact T2|eapply keeps_trans; eauto].
  - apply IH, T.
  - apply IH, T.
Qed.
Lemma others_trans s s1 s2 : others s s1 -> others s1 s2 -> others s s2.
Proof.
  intros H1 H2. induction H1 as [s|m o s s' Ho Hs IH|l s s' Hs IH|l s s' Hs IH]; [exact H2|..].
  - eapply os_op; [exact Ho|apply IH, H2].
  - eapply os_locks, IH, H2.
  - eapply os_jobs, IH, H2.
Qed.

(** ** Programs *)
Fixpoint all_ops (P : op -> Prop) {A} (p : prog A) : Prop :=
  match p with Ret _ => True | Do o k => P o /\ forall x, all_ops P (k x) end.
Lemma all_ops_bind (P : op -> Prop) {A B} (p : prog A) (f : A -> prog B) :
  all_ops P p -> (forall a, all_ops P (f a)) -> all_ops P (bind p f).
Proof. intros Hp Hf. induction p as [a|o k IH]; simpl in *; [apply Hf|]. destruct Hp as [Ho Hk]. split; auto. Qed.
Lemma all_ops_bindr (P : op -> Prop) {A B} (p : prog (res A)) (f : A -> prog (res B)) :
  all_ops P p -> (forall a, all_ops P (f a)) -> all_ops P (bindr p f).
Proof. intros Hp Hf. apply all_ops_bind; [exact Hp|]. intros [a|e]; [apply Hf|exact Logic.I]. Qed.
Lemma all_ops_act (P : op -> Prop) o : P o -> all_ops P (act o).
Proof. intros H. split; [exact H|]. intros x. exact Logic.I. Qed.
Lemma all_ops_impl (P Q : op -> Prop) {A} (p : prog A) : (forall o, P o -> Q o) -> all_ops P p -> all_ops Q p.
Proof. intros H. induction p as [a|o k IH]; simpl; [auto|]. intros [H1 H2]. split; auto. Qed.

Lemma among_bind n {A B} (p : prog A) (f : A -> prog B) s r s' own : among n (bind p f) s r s' own ->
  (r = None /\ among n p s None s' own)
  \/ exists a s1 o1 o2, own = (o1 ++ o2)%list /\ among n p s (Some a) s1 o1 /\ among n (f a) s1 r s' o2.
Proof.
  revert s own. induction p as [a|o k IH]; intros s own; simpl.
  - intros H. right. exists a, s, [], own. split; [reflexivity|]. split; [|exact H].
    split; [constructor|]. auto.
  - intros [(H1 & H2 & H3)|(s1 & rest & H1 & H2 & H3)].
    + left. split; [exact H2|]. left. auto.
    + destruct (IH _ _ _ H3) as [[-> H]|(a & s2 & o1 & o2 & -> & Hp & Hf)].
      * left. split; [reflexivity|]. right. exists s1, rest. auto.
      * right. exists a, s2, ((s1, fst (exec n o s1)) :: o1), o2. split; [exact H2|]. split; [|exact Hf].
        right. exists s1, o1. auto.
Qed.
Lemma among_bindr n {A B} (p : prog (res A)) (f : A -> prog (res B)) s r s' own : among n (bindr p f) s r s' own ->
  (r = None /\ among n p s None s' own)
  \/ (exists a s1 o1 o2, own = (o1 ++ o2)%list /\ among n p s (Some (Ok a)) s1 o1 /\ among n (f a) s1 r s' o2)
  \/ (exists e s1, r = Some (Err e) /\ among n p s (Some (Err e)) s1 own /\ others s1 s').
Proof.
  intros H. apply among_bind in H as [H|(a & s1 & o1 & o2 & E & Hp & Hf)]; [left; exact H|right].
  destruct a as [a|e]; [left; exists a, s1, o1, o2; auto|right]. destruct Hf as (Ho & -> & ->).
  rewrite app_nil_r in E. subst. exists e, s1. auto.
Qed.
Lemma among_tame n {A} (p : prog A) s r s' own : all_ops ordinary p -> among n p s r s' own -> tame (s_bals s) ->
  tame (s_bals s') /\ goes s s'.
Proof.
  revert s own. induction p as [a|o k IH]; intros s own Hp; simpl.
  - intros (Ho & _ & _). apply others_tame, Ho.
  - intros [(H1 & _ & _)|(s1 & rest & H1 & _ & H3)] T; [apply (others_tame _ _ H1 T)|].
    destruct (others_tame _ _ H1 T) as [T1 K1]. destruct Hp as [Ho Hk].
    destruct (exec_tame n o s1 Ho T1) as [T2 K2]. destruct (IH _ _ _ (Hk _) H3 T2) as [T3 K3].
    split; [exact T3|]. unfold goes in *. eapply keeps_trans; [exact K1|eapply keeps_trans; eauto].
Qed.

(** Operations that touch neither balances nor rows nor outbox. *)
Definition silent (o : op) : Prop :=
  match o with OCreateBal _ _ _ _ _ | OInsert _ | OPersist _ _ _ _ _ | OPersistBatch _ _ _ | OReconcile _ => False | _ => True end.
Lemma silent_ordinary o : silent o -> ordinary o.
Proof. destruct o; simpl; tauto. Qed.
Lemma silent_quiet n o s : silent o -> quiet (s, fst (exec n o s)).
Proof.
  intros H. unfold quiet. destruct o; simpl in *; try tauto; auto.
  - destruct (lock_owner _ _); auto.
  - destruct (lock_owner _ _); [destruct (Nat.eqb _ _)|]; auto.
Qed.
Lemma among_quiet n {A} (p : prog A) s r s' own : all_ops silent p -> among n p s r s' own -> Forall quiet own.
Proof.
  revert s own. induction p as [a|o k IH]; intros s own Hp; simpl.
  - intros (_ & _ & ->). constructor.
  - intros [(_ & _ & ->)|(s1 & rest & _ & -> & H3)]; [constructor|]. destruct Hp as [Ho Hk].
    constructor; [apply silent_quiet, Ho|eapply IH; eauto].
Qed.
Lemma silent_unlock ks : all_ops silent (unlock_keys ks).
Proof. induction ks as [|k r IH]; simpl; auto. Qed.
Lemma silent_lock ks got : all_ops silent (lock_keys ks got).
Proof.
  revert got. induction ks as [|k r IH]; intros got; simpl; [auto|]. split; [exact Logic.I|]. intros [|]; [apply IH|].
  apply all_ops_bind; [apply silent_unlock|]. intros a. exact Logic.I.
Qed.
Lemma silent_wait n ks : all_ops silent (wait_lock n ks).
Proof.
  induction n as [|n IH]; simpl; (apply all_ops_bind; [apply silent_lock|]; intros [|]); simpl; auto.
Qed.
Lemma silent_members cfg ts ex seen m : all_ops silent (prepare_members cfg ts ex seen m).
Proof.
  revert seen m. induction ts as [|t r IH]; intros seen m; simpl; [auto|].
  destruct (String.eqb _ _); [exact Logic.I|]. destruct (_ || _); [exact Logic.I|].
  apply all_ops_bind; [destruct (c_refcheck cfg); [exact Logic.I|apply all_ops_act; exact Logic.I]|].
  intros [|]; [exact Logic.I|]. destruct (prepare_member t m) as [[[[k t'] ob] m']|e]; [|exact Logic.I].
  apply all_ops_bindr; [apply IH|]. intros [[ks obs] m'']. exact Logic.I.
Qed.

(** ** Running alone *)
Lemma run_bind n {A B} (p : prog A) (f : A -> prog B) s :
  run n (bind p f) s = run n (f (snd (run n p s))) (fst (run n p s)).
Proof. revert s. induction p as [a|o k IH]; intros s; simpl; [reflexivity|]. destruct (exec n o s) as [s1 x]. apply IH. Qed.

Lemma set_locks_same s : set_locks s (s_locks s) = s.
Proof. destruct s; reflexivity. Qed.
Lemma owner_none k l : lock_owner k l = None -> del_lock k l = l.
Proof.
  induction l as [|[k' o] r IH]; simpl; [reflexivity|]. destruct (String.eqb k k'); [discriminate|]. intros H. rewrite IH by exact H. reflexivity.
Qed.
Lemma del_in k l x : In x (del_lock k l) -> In x l /\ fst x <> k.
Proof.
  induction l as [|[k' o] r IH]; simpl; [tauto|]. destruct (String.eqb_spec k k') as [<-|N].
  - intros H. destruct (IH H). auto.
  - intros [<-|H]; [split; [auto|simpl; congruence]|]. destruct (IH H). auto.
Qed.
Lemma owner_mine k l o : Forall (fun x : string * nat => snd x = 0%nat) l -> lock_owner k l = Some o -> o = 0%nat.
Proof.
  induction 1 as [|[k' o'] r H _ IH]; simpl; [discriminate|]. destruct (String.eqb k k'); [|exact IH]. intros [= <-]. exact H.
Qed.
Lemma unlock_run ks s : Forall (fun x : string * nat => snd x = 0%nat) (s_locks s) ->
  exists l, run 0 (unlock_keys ks) s = (set_locks s l, tt) /\ forall x, In x l -> In x (s_locks s) /\ ~ In (fst x) ks.
Proof.
  revert s. induction ks as [|k r IH]; intros s F; simpl.
  - exists (s_locks s). rewrite set_locks_same. split; [reflexivity|]. auto.
  - assert (E : exists l1, fst (exec 0 (OUnlock k) s) = set_locks s l1 /\ forall x, In x l1 -> In x (s_locks s) /\ fst x <> k).
    { simpl. destruct (lock_owner k (s_locks s)) as [o|] eqn:E.
      - rewrite (owner_mine _ _ _ F E). simpl. exists (del_lock k (s_locks s)). split; [reflexivity|]. apply del_in.
      - exists (s_locks s). rewrite set_locks_same. split; [reflexivity|]. intros x Hx. split; [exact Hx|].
        rewrite <- (owner_none _ _ E) in Hx. apply del_in in Hx. tauto. }
    destruct E as (l1 & E & H1).
    assert (Er : run 0 (unlock_keys (k :: r)) s = run 0 (unlock_keys r) (fst (exec 0 (OUnlock k) s))).
    { cbn [unlock_keys bind act run]. destruct (exec 0 (OUnlock k) s). reflexivity. }
    simpl unlock_keys in Er. simpl in Er |- *. rewrite Er. simpl in E. rewrite E.
    destruct (IH (set_locks s l1)) as (l & El & Hl).
    { simpl. rewrite Forall_forall in F |- *. intros x Hx. apply F, H1, Hx. }
    exists l. split; [exact El|]. intros x Hx. destruct (Hl x Hx) as [Hx1 Hx2]. destruct (H1 x Hx1) as [Hx3 Hx4].
    split; [exact Hx3|]. intros [Hx5|Hx5]; congruence.
Qed.
Lemma owner_absent k l : ~ In k (map fst l) -> lock_owner k l = None.
Proof.
  induction l as [|[k' o] r IH]; simpl; [reflexivity|]. intros H. destruct (String.eqb_spec k k'); [subst; tauto|]. tauto.
Qed.
Lemma lock_run ks : forall got s, NoDup ks -> (forall k, In k ks -> ~ In k (map fst (s_locks s))) ->
  exists l, run 0 (lock_keys ks got) s = (set_locks s (l ++ s_locks s), true)
    /\ Forall (fun x => snd x = 0%nat /\ In (fst x) ks) l.
Proof.
  induction ks as [|k r IH]; intros got s Hn Hd.
  - exists []. split; [|constructor]. change ([] ++ s_locks s)%list with (s_locks s). rewrite set_locks_same. reflexivity.
  - cbn [lock_keys bind act run exec]. rewrite (owner_absent k) by (apply Hd; left; reflexivity). cbn [fst snd].
    inversion Hn as [|? ? Hk Hr]; subst.
    destruct (IH (k :: got) (set_locks s ((k, 0%nat) :: s_locks s)) Hr) as (l & E & F).
    { simpl. intros k' Hk' [->|H]; [tauto|]. apply (Hd k'); [right; exact Hk'|exact H]. }
    exists (l ++ [(k, 0%nat)])%list. split.
    + simpl in E |- *. rewrite E, <- app_assoc. reflexivity.
    + apply Forall_app. split; [|constructor; [simpl; auto|constructor]].
      eapply Forall_impl; [|exact F]. simpl. tauto.
Qed.

(** A post that finds its balances and an unused reference and id goes through. *)
Lemma single_goes cfg t s src dst t1 src' dst' b1 b2 :
  c_queued cfg = false -> s_locks s = [] ->
  starts_with_at (t_src t) = false -> starts_with_at (t_dst t) = false ->
  ref_exists (t_ref t) (s_txns s) = false ->
  get_bal (t_src t) (s_bals s) = Some src -> get_bal (t_dst t) (s_bals s) = Some dst ->
  apply_to_balances t src dst = Ok (t1, src', dst') ->
  let t2 := update_details t1 src' dst' in
  let t3 := clear_terminal t2 in
  t_precise t2 <> 0 -> t_ref t3 = t_ref t -> id_exists (t_id t3) (s_txns s) = false ->
  update_balance (s_txns s) src' (s_bals s) = Some b1 -> update_balance (s_txns s) dst' b1 = Some b2 ->
  get_bal (t_src t3) b2 <> None -> get_bal (t_dst t3) b2 <> None ->
  run 0 (record_single cfg t) s =
    (set_db s b2 ({| r_t := t3; r_kind := kind_of t1 |} :: s_txns s) (opt_list (prepare_outbox t2 src' dst') ++ s_outbox s), Ok t3).
Proof.
  intros Q L As Ad R Gs Gd Ea t2 t3 Hp Hr Hi U1 U2 G1 G2.
  unfold record_single, resolve_id. rewrite As, Ad. cbn [bindr bind].
  assert (Et : with_ends t (t_src t) (t_dst t) = t) by (destruct t; reflexivity). rewrite Et.
  rewrite run_bind.
  set (ks := lock_set [t_src t; t_dst t]).
  assert (Hw : exists l, run 0 (wait_lock (c_lock_attempts cfg) ks) s = (set_locks s l, true)
                         /\ Forall (fun x => snd x = 0%nat /\ In (fst x) ks) l).
  { destruct (lock_run ks [] s) as (l & E & F); [apply lock_set_nodup|rewrite L; simpl; tauto|].
    exists l. rewrite L, app_nil_r in E. split; [|exact F].
    destruct (c_lock_attempts cfg); cbn [wait_lock]; rewrite run_bind, E; reflexivity. }
  destruct Hw as (l & Ew & Fl). rewrite Ew. cbn [fst snd]. rewrite run_bind.
  assert (Er : run 0 (record_locked cfg t) (set_locks s l) =
    (set_locks (set_db s b2 ({| r_t := t3; r_kind := kind_of t1 |} :: s_txns s) (opt_list (prepare_outbox t2 src' dst') ++ s_outbox s)) l, Ok t3)).
  { unfold record_locked. cbn [bind act run exec]. change (s_txns (set_locks s l)) with (s_txns s). rewrite R.
    unfold get_end, get_balance. rewrite As, Ad, Q. cbn [bind bindr act run exec]. change (s_bals (set_locks s l)) with (s_bals s).
    rewrite Gs. cbn [bind]. cbn [run exec]. change (s_bals (set_locks s l)) with (s_bals s). rewrite Gd. cbn [bind].
    rewrite (get_bal_id _ _ _ Gs), (get_bal_id _ _ _ Gd), Et, Ea. fold t2. cbv zeta.
    apply Z.eqb_neq in Hp. rewrite Hp. fold t3. cbn [bind run exec].
    unfold persist_single. change (s_txns (set_locks s l)) with (s_txns s). change (s_bals (set_locks s l)) with (s_bals s).
    rewrite U1, U2. unfold insert_txn. rewrite Hr, R, Hi.
    destruct (get_bal (t_src t3) b2); [|congruence]. destruct (get_bal (t_dst t3) b2); [|congruence]. reflexivity. }
  rewrite Er. cbn [fst snd]. rewrite run_bind.
  destruct (unlock_run (rev ks) (set_locks (set_db s b2 ({| r_t := t3; r_kind := kind_of t1 |} :: s_txns s) (opt_list (prepare_outbox t2 src' dst') ++ s_outbox s)) l)) as (l2 & E2 & H2).
  { simpl. eapply Forall_impl; [|exact Fl]. simpl. tauto. }
  rewrite E2. cbn [fst snd]. assert (l2 = []) as ->.
  { destruct l2 as [|x q]; [reflexivity|]. destruct (H2 x (or_introl eq_refl)) as [Hx1 Hx2]. simpl in Hx1.
    rewrite Forall_forall in Fl. destruct (Fl x Hx1) as [_ Hx3]. exfalso. apply Hx2. rewrite <- in_rev. exact Hx3. }
  rewrite <- L. reflexivity.
Qed.

(** ** One member of a batch, posted alone *)
Definition reversion (w : balance) (v : Z) : balance :=
  {| b_id := b_id w; b_ind := b_ind w; b_cur := b_cur w; b_bal := b_bal w; b_cr := b_cr w; b_db := b_db w;
     b_ibal := b_ibal w; b_icr := b_icr w; b_idb := b_idb w; b_queued := b_queued w; b_ver := v;
     b_recon := b_recon w; b_track := b_track w |}.
Definition debited (w : balance) (a : Z) (i : bool) : balance := compute_balance (add_debit w a i) i.
Definition credited (w : balance) (a : Z) (i : bool) : balance := compute_balance (add_credit w a i) i.
Lemma debited_reversion w v a i : debited (reversion w v) a i = reversion (debited w a i) v.
Proof. destruct i; reflexivity. Qed.
Lemma credited_reversion w v a i : credited (reversion w v) a i = reversion (credited w a i) v.
Proof. destruct i; reflexivity. Qed.
(** Only counters changed. *)
Definition counted (w w' : balance) : Prop := exists a b c d e f, w' = with_counters w a b c d e f.
Lemma counted_refl w : counted w w.
Proof. exists (b_bal w), (b_cr w), (b_db w), (b_ibal w), (b_icr w), (b_idb w). destruct w; reflexivity. Qed.
Lemma counted_trans w1 w2 w3 : counted w1 w2 -> counted w2 w3 -> counted w1 w3.
Proof. intros (a & b & c & d & e & f & ->) (a' & b' & c' & d' & e' & f' & ->). exists a', b', c', d', e', f'. reflexivity. Qed.
Lemma debited_counted w a i : counted w (debited w a i).
Proof. destruct i; eexists _, _, _, _, _, _; reflexivity. Qed.
Lemma credited_counted w a i : counted w (credited w a i).
Proof. destruct i; eexists _, _, _, _, _, _; reflexivity. Qed.
Lemma counted_upd w w' v v' : counted w w' -> b_queued w = None -> upd_row (reversion w v) (reversion w' v') = reversion w' (v + 1).
Proof. intros (a & b & c & d & e & f & ->) Hq. unfold upd_row, reversion, with_counters. simpl. rewrite Hq. reflexivity. Qed.

Lemma get_put id b l : get_bal id (put_bal b l) =
  if String.eqb (b_id b) id then (match get_bal id l with Some _ => Some b | None => None end) else get_bal id l.
Proof.
  induction l as [|x r IH]; simpl.
  - destruct (String.eqb _ _); reflexivity.
  - destruct (String.eqb_spec (b_id x) (b_id b)) as [E|E]; simpl.
    + rewrite E. destruct (String.eqb_spec (b_id b) id); reflexivity.
    + rewrite IH. destruct (String.eqb_spec (b_id x) id) as [E1|E1]; [|reflexivity].
      destruct (String.eqb_spec (b_id b) id); [congruence|reflexivity].
Qed.
Lemma put_ids b l : map b_id (put_bal b l) = map b_id l.
Proof. induction l as [|x r IH]; simpl; [reflexivity|]. destruct (String.eqb_spec (b_id x) (b_id b)); simpl; congruence. Qed.

Definition moved (t : txn) : txn := apply_precision_txn (with_status t (final_status t)).
Lemma member_inv t m k t' ob m' : t_status t = SQueued -> t_src t <> t_dst t ->
  prepare_member t m = Ok (k, t', ob, m') ->
  exists ws wd,
    get_bal (t_src t) m = Some ws /\ get_bal (t_dst t) m = Some wd
    /\ (let f := moved t in
        let s1 := debited ws (t_precise f) (t_inflight t) in let d1 := credited wd (t_precise f) (t_inflight t) in
        validate_txn f = Ok tt /\ can_process f ws = Ok tt /\ t_precise f <> 0
        /\ k = kind_of t /\ t' = clear_terminal (with_status f (final_status f))
        /\ ob = prepare_outbox (with_status f (final_status f)) s1 d1
        /\ m' = put_bal d1 (put_bal s1 m)).
Proof.
  intros Hq Hne. unfold prepare_member, update_shared. cbv zeta. fold (moved t).
  assert (E1 : t_src (moved t) = t_src t) by (unfold moved, apply_precision_txn; destruct (apply_precision _ _ _) as [[? ?] ?]; reflexivity).
  assert (E2 : t_dst (moved t) = t_dst t) by (unfold moved, apply_precision_txn; destruct (apply_precision _ _ _) as [[? ?] ?]; reflexivity).
  assert (E3 : t_inflight (moved t) = t_inflight t) by (unfold moved, apply_precision_txn; destruct (apply_precision _ _ _) as [[? ?] ?]; reflexivity).
  assert (Ek : kind_of (with_status t (final_status t)) = kind_of t).
  { unfold kind_of, final_status. simpl. rewrite Hq. destruct (t_inflight t); reflexivity. }
  rewrite ?E1, ?E2, ?E3. change (t_src (with_status t (final_status t))) with (t_src t). change (t_dst (with_status t (final_status t))) with (t_dst t).
  destruct (get_bal (t_src t) m) as [ws|] eqn:Es; [|discriminate].
  destruct (get_bal (t_dst t) m) as [wd|] eqn:Ed; [|discriminate].
  destruct (validate_txn (moved t)) as [[]|] eqn:Ev; [|discriminate].
  destruct (can_process (moved t) ws) as [[]|] eqn:Ec; [|discriminate].
  fold (debited ws (t_precise (moved t)) (t_inflight t)).
  assert (I1 : b_id (debited ws (t_precise (moved t)) (t_inflight t)) = t_src t).
  { destruct (t_inflight t); simpl; apply (get_bal_id _ _ _ Es). }
  assert (I2 : b_id (credited wd (t_precise (moved t)) (t_inflight t)) = t_dst t).
  { destruct (t_inflight t); simpl; apply (get_bal_id _ _ _ Ed). }
  rewrite get_put, I1. destruct (String.eqb_spec (t_src t) (t_dst t)) as [E|_]; [contradiction|].
  rewrite Ed. fold (credited wd (t_precise (moved t)) (t_inflight t)).
  rewrite E1, E2, !get_put, !I1, !I2, !String.eqb_refl, ?Es, ?Ed.
  destruct (String.eqb_spec (t_dst t) (t_src t)) as [E|_]; [congruence|].
  destruct (String.eqb_spec (t_src t) (t_dst t)) as [E|_]; [congruence|].
  unfold update_details. rewrite I1, I2.
  assert (Ew : with_ends (moved t) (t_src t) (t_dst t) = moved t).
  { rewrite <- E1, <- E2. destruct (moved t); reflexivity. }
  rewrite Ew. change (t_precise (with_status (moved t) (final_status (moved t)))) with (t_precise (moved t)).
  destruct (Z.eqb_spec (t_precise (moved t)) 0) as [E0|E0]; [discriminate|].
  intros E. exists ws, wd. split; [reflexivity|]. split; [reflexivity|].
  injection E as <- <- <- <-. repeat split; try assumption; try reflexivity.
Qed.

Definition sim (l0 m l : list balance) : Prop := forall id,
  match get_bal id m with
  | Some w => b_queued w = None /\ exists v, get_bal id l = Some (reversion w v)
  | None => get_bal id l = get_bal id l0
  end.

Lemma apply_queued t src dst : t_status t = SQueued ->
  validate_txn (moved t) = Ok tt -> can_process (moved t) src = Ok tt ->
  apply_to_balances t src dst =
    Ok (apply_precision_txn t, debited src (t_precise (moved t)) (t_inflight t), credited dst (t_precise (moved t)) (t_inflight t))
  /\ t_status (apply_precision_txn t) = SQueued
  /\ with_status (apply_precision_txn t) (final_status (apply_precision_txn t)) = with_status (moved t) (final_status (moved t))
  /\ t_src (apply_precision_txn t) = t_src t /\ t_dst (apply_precision_txn t) = t_dst t
  /\ t_inflight (apply_precision_txn t) = t_inflight t
  /\ t_precise (apply_precision_txn t) = t_precise (moved t).
Proof.
  intros Hq. unfold apply_to_balances. rewrite Hq. unfold update_balances, moved, apply_precision_txn, debited, credited, validate_txn, can_process.
  cbn [t_precise t_amount t_prec with_status].
  destruct (apply_precision (t_precise t) (t_amount t) (t_prec t)) as [[p a] pr]. simpl.
  intros -> ->. rewrite Hq. split; [reflexivity|]. split; [reflexivity|]. split; [|auto].
  unfold final_status, with_money, with_status. simpl. rewrite Hq. destruct (t_inflight t); reflexivity.
Qed.

Lemma clear_src t : t_src (clear_terminal t) = t_src t. Proof. unfold clear_terminal. destruct (t_status t); reflexivity. Qed.
Lemma clear_dst t : t_dst (clear_terminal t) = t_dst t. Proof. unfold clear_terminal. destruct (t_status t); reflexivity. Qed.
Lemma clear_ref t : t_ref (clear_terminal t) = t_ref t. Proof. unfold clear_terminal. destruct (t_status t); reflexivity. Qed.
Lemma moved_ref t : t_ref (moved t) = t_ref t.
Proof. unfold moved, apply_precision_txn. destruct (apply_precision _ _ _) as [[? ?] ?]. reflexivity. Qed.
Lemma moved_src t : t_src (moved t) = t_src t.
Proof. unfold moved, apply_precision_txn. destruct (apply_precision _ _ _) as [[? ?] ?]. reflexivity. Qed.
Lemma moved_dst t : t_dst (moved t) = t_dst t.
Proof. unfold moved, apply_precision_txn. destruct (apply_precision _ _ _) as [[? ?] ?]. reflexivity. Qed.

Lemma update_current rows w l b : tame l -> get_bal (b_id w) l = Some b -> b_ver b = b_ver w ->
  exists l', update_balance rows w l = Some l'.
Proof.
  intros _. induction l as [|x r IH]; simpl; [discriminate|].
  destruct (String.eqb (b_id x) (b_id w)).
  - intros [= <-] ->. rewrite Z.eqb_refl. eauto.
  - intros E V. destruct (IH E V) as (l' & ->). eauto.
Qed.

Lemma can_process_reversion t w v : can_process t (reversion w v) = can_process t w.
Proof. reflexivity. Qed.
Lemma prepare_outbox_reversion t a va b vb : prepare_outbox t (reversion a va) (reversion b vb) = prepare_outbox t a b.
Proof. reflexivity. Qed.

Lemma member_single cfg t m k t' ob m' l0 s :
  c_queued cfg = false -> s_locks s = [] -> tame (s_bals s) -> sim l0 m (s_bals s) ->
  t_status t = SQueued -> t_src t <> t_dst t ->
  prepare_member t m = Ok (k, t', ob, m') ->
  ref_exists (t_ref t') (s_txns s) = false -> id_exists (t_id t') (s_txns s) = false ->
  exists s', run 0 (record_single cfg t) s = (s', Ok t') /\ s_locks s' = [] /\ tame (s_bals s') /\ sim l0 m' (s_bals s')
    /\ s_txns s' = {| r_t := t'; r_kind := k |} :: s_txns s /\ s_outbox s' = (opt_list ob ++ s_outbox s)%list.
Proof.
  intros Q L T S Hq Hne Hm Hr Hi. apply member_inv in Hm as (ws & wd & Es & Ed & Ev & Ec & Hp & -> & -> & -> & ->); [|assumption|assumption].
  pose proof (S (t_src t)) as S1. rewrite Es in S1. destruct S1 as (Q1 & v1 & G1).
  pose proof (S (t_dst t)) as S2. rewrite Ed in S2. destruct S2 as (Q2 & v2 & G2).
  destruct (tame_get _ _ _ T G1) as (_ & _ & A1). destruct (tame_get _ _ _ T G2) as (_ & _ & A2).
  destruct (apply_queued t (reversion ws v1) (reversion wd v2) Hq Ev Ec) as (Ea & Est & Ew & Esr & Eds & Ein & Epr).
  rewrite debited_reversion, credited_reversion in Ea.
  set (s1 := debited ws (t_precise (moved t)) (t_inflight t)) in *. set (d1 := credited wd (t_precise (moved t)) (t_inflight t)) in *.
  assert (I1 : b_id s1 = t_src t) by (unfold s1; destruct (t_inflight t); simpl; apply (get_bal_id _ _ _ Es)).
  assert (I2 : b_id d1 = t_dst t) by (unfold d1; destruct (t_inflight t); simpl; apply (get_bal_id _ _ _ Ed)).
  destruct (update_current (s_txns s) (reversion s1 v1) (s_bals s) (reversion ws v1) T) as (b1 & U1); [simpl; rewrite I1; exact G1|reflexivity|].
  destruct (update_tame _ _ _ _ T U1) as (T1 & _ & x1 & X1 & _ & B1). simpl in X1, B1. rewrite I1 in X1, B1. rewrite G1 in X1. injection X1 as <-.
  rewrite (counted_upd ws s1) in B1 by (try assumption; apply debited_counted).
  assert (G2' : get_bal (t_dst t) b1 = Some (reversion wd v2)).
  { rewrite B1. destruct (String.eqb_spec (t_src t) (t_dst t)); [contradiction|exact G2]. }
  destruct (update_current (s_txns s) (reversion d1 v2) b1 (reversion wd v2) T1) as (b2 & U2); [simpl; rewrite I2; exact G2'|reflexivity|].
  destruct (update_tame _ _ _ _ T1 U2) as (T2 & _ & x2 & X2 & _ & B2). simpl in X2, B2. rewrite I2 in X2, B2. rewrite G2' in X2. injection X2 as <-.
  rewrite (counted_upd wd d1) in B2 by (try assumption; apply credited_counted).
  assert (Et2 : update_details (apply_precision_txn t) (reversion s1 v1) (reversion d1 v2) = with_status (moved t) (final_status (moved t))).
  { unfold update_details. cbn [b_id reversion]. rewrite I1, I2.
    assert (E : with_ends (apply_precision_txn t) (t_src t) (t_dst t) = apply_precision_txn t).
    { rewrite <- Esr, <- Eds. destruct (apply_precision_txn t); reflexivity. }
    rewrite E. exact Ew. }
  assert (Ek : kind_of (apply_precision_txn t) = kind_of t) by (unfold kind_of; rewrite Est, Hq, Ein; reflexivity).
  assert (Er : ref_exists (t_ref t) (s_txns s) = false).
  { rewrite clear_ref in Hr. simpl in Hr. rewrite moved_ref in Hr. exact Hr. }
  pose proof (single_goes cfg t s _ _ _ _ _ b1 b2 Q L A1 A2 Er G1 G2 Ea) as R. cbv zeta in R. rewrite Et2, Ek in R.
  eexists. split; [apply R|].
  - exact Hp.
  - rewrite clear_ref. simpl. apply moved_ref.
  - exact Hi.
  - exact U1.
  - exact U2.
  - rewrite clear_src. simpl. rewrite moved_src, B2, B1, String.eqb_refl. destruct (String.eqb _ _); discriminate.
  - rewrite clear_dst. simpl. rewrite moved_dst, B2, String.eqb_refl. discriminate.
  - simpl. split; [exact L|]. split; [exact T2|]. split; [|split; [reflexivity|rewrite prepare_outbox_reversion; reflexivity]].
    intros id. rewrite !get_put, I1, I2, B2, B1. specialize (S id).
    destruct (String.eqb_spec (t_dst t) id) as [<-|N2].
    + destruct (String.eqb_spec (t_src t) (t_dst t)) as [|_]; [contradiction|]. rewrite Ed. split; [|eauto].
      unfold d1. destruct (t_inflight t); exact Q2.
    + destruct (String.eqb_spec (t_src t) id) as [<-|N1]; [|exact S]. rewrite Es. split; [|eauto].
      unfold s1. destruct (t_inflight t); exact Q1.
Qed.

(** ** The whole batch *)
Inductive prepared : list txn -> list balance -> list (kind * txn) -> list outbox_entry -> list balance -> Prop :=
| pr_nil m : prepared [] m [] [] m
| pr_cons t r m k t' ob m1 ks obs m2 : prepare_member t m = Ok (k, t', ob, m1) -> prepared r m1 ks obs m2 ->
    prepared (t :: r) m ((k, t') :: ks) (opt_list ob ++ obs) m2.
Lemma members_prepared n cfg ts : forall ex seen m s x s' own,
  among n (prepare_members cfg ts ex seen m) s (Some (Ok x)) s' own -> prepared ts m (fst (fst x)) (snd (fst x)) (snd x).
Proof.
  induction ts as [|t r IH]; intros ex seen m s x s' own; simpl.
  - intros (_ & E & _). injection E as ->. simpl. constructor.
  - destruct (String.eqb _ _); [intros (_ & E & _); discriminate|]. destruct (_ || _); [intros (_ & E & _); discriminate|].
    intros H. apply among_bind in H as [[E _]|(u & s1 & o1 & o2 & _ & _ & H)]; [discriminate|].
    destruct u; [destruct H as (_ & E & _); discriminate|].
    destruct (prepare_member t m) as [[[[k t'] ob] m']|e] eqn:Em; [|destruct H as (_ & E & _); discriminate].
    apply among_bindr in H as [[E _]|[(a & s2 & o3 & o4 & _ & H & H')|(e & s2 & E & _)]]; [discriminate| |discriminate].
    apply IH in H. destruct a as [[ks obs] m'']. destruct H' as (_ & E & _). injection E as ->. simpl in *.
    econstructor; eauto.
Qed.
Lemma prepared_counted ts m ks obs m' : prepared ts m ks obs m' ->
  Forall (fun t => t_status t = SQueued /\ t_src t <> t_dst t) ts ->
  map b_id m' = map b_id m
  /\ forall id w', get_bal id m' = Some w' -> exists w, get_bal id m = Some w /\ counted w w'.
Proof.
  induction 1 as [m|t r m k t' ob m1 ks obs m2 Hm Hp IH]; intros F.
  - split; [reflexivity|]. intros id w H. exists w. split; [exact H|apply counted_refl].
  - inversion F as [|? ? [Hq Hne] F']; subst. destruct (IH F') as [E1 C1].
    apply member_inv in Hm as (ws & wd & Es & Ed & _ & _ & _ & _ & _ & _ & ->); [|assumption|assumption].
    rewrite !put_ids in E1. split; [exact E1|]. intros id w' Hw'. destruct (C1 id w' Hw') as (w & Hw & Cw).
    rewrite !get_put in Hw.
    assert (I1 : forall a i, b_id (debited ws a i) = t_src t) by (intros a []; simpl; apply (get_bal_id _ _ _ Es)).
    assert (I2 : forall a i, b_id (credited wd a i) = t_dst t) by (intros a []; simpl; apply (get_bal_id _ _ _ Ed)).
    rewrite I1, I2 in Hw. destruct (String.eqb_spec (t_dst t) id) as [<-|N2].
    + destruct (String.eqb_spec (t_src t) (t_dst t)) as [|_]; [contradiction|]. rewrite Ed in Hw. injection Hw as <-.
      exists wd. split; [exact Ed|eapply counted_trans; [apply credited_counted|exact Cw]].
    + destruct (String.eqb_spec (t_src t) id) as [<-|N1].
      * rewrite Es in Hw. injection Hw as <-. exists ws. split; [exact Es|eapply counted_trans; [apply debited_counted|exact Cw]].
      * exists w. auto.
Qed.

Lemma prepared_run cfg l0 bals ts m ks obs m' : prepared ts m ks obs m' -> forall s rows,
  c_queued cfg = false -> Forall (fun t => t_status t = SQueued /\ t_src t <> t_dst t) ts ->
  s_locks s = [] -> tame (s_bals s) -> sim l0 m (s_bals s) -> insert_txns ks bals (s_txns s) = Ok rows ->
  exists s' rs, run 0 (for_each (record_single cfg) ts) s = (s', rs) /\ List.length rs = List.length ts
    /\ Forall (fun r => is_ok r = true) rs /\ sim l0 m' (s_bals s') /\ s_txns s' = rows /\ s_outbox s' = (rev obs ++ s_outbox s)%list.
Proof.
  induction 1 as [m|t r m k t' ob m1 ks obs m2 Hm Hp IH]; intros s rows Q F L T S Hi.
  - simpl in Hi. injection Hi as <-. exists s, []. simpl. auto 8.
  - inversion F as [|? ? [Hq Hne] F']; subst. simpl in Hi. unfold insert_txn in Hi.
    destruct (ref_exists (t_ref t') (s_txns s)) eqn:E1; [discriminate|].
    destruct (id_exists (t_id t') (s_txns s)) eqn:E2; [discriminate|].
    destruct (get_bal (t_src t') bals); [|discriminate]. destruct (get_bal (t_dst t') bals); [|discriminate].
    destruct (member_single cfg t m k t' ob m1 l0 s Q L T S Hq Hne Hm E1 E2) as (s1 & R1 & L1 & T1 & S1 & X1 & O1).
    rewrite <- X1 in Hi. destruct (IH s1 rows Q F' L1 T1 S1 Hi) as (s2 & rs & R2 & N2 & F2 & S2 & X2 & O2).
    exists s2, (Ok t' :: rs). cbn [for_each]. rewrite run_bind, R1. cbn [fst snd]. rewrite run_bind, R2. cbn [fst snd run].
    split; [reflexivity|]. split; [simpl; congruence|]. split; [constructor; [reflexivity|exact F2]|]. split; [exact S2|]. split; [exact X2|].
    rewrite O2, O1, rev_app_distr, app_assoc. f_equal. f_equal. destruct ob; reflexivity.
Qed.

Lemma get_get_bals ids l id : In id ids -> get_bal id (get_bals ids l) = get_bal id l.
Proof.
  induction ids as [|i r IH]; simpl; [tauto|]. intros H.
  destruct (get_bal i l) as [b|] eqn:E; simpl.
  - rewrite (get_bal_id _ _ _ E). destruct (String.eqb_spec i id) as [<-|N]; [congruence|]. apply IH. destruct H; [contradiction|assumption].
  - destruct H as [->|H]; [|apply IH, H]. rewrite E. apply get_bal_none. intros Hin. apply in_map_iff in Hin as (y & Ey & Hy).
    apply get_bals_in in Hy as [Hy _]. apply get_bal_none in E. apply E. rewrite <- Ey. apply in_map. exact Hy.
Qed.

Lemma persist_as_one cfg sl ids before after ts ks obs m' :
  c_queued cfg = false -> ts <> [] -> NoDup ids ->
  Forall (fun t => t_status t = SQueued /\ t_src t <> t_dst t) ts ->
  tame (s_bals sl) -> tame (s_bals before) -> goes sl before ->
  prepared ts (get_bals ids (s_bals sl)) ks obs m' ->
  persist_batch ks m' obs before = (after, Ok tt) ->
  exists alone results, one_by_one cfg ts before = (alone, results)
       /\ List.length results = List.length ts /\ Forall (fun r => is_ok r = true) results
       /\ same_books alone after.
Proof.
  intros Q Hts Nd F Tl Tb G Hp Ep. set (m := get_bals ids (s_bals sl)) in *.
  destruct (prepared_counted _ _ _ _ _ Hp F) as [Em Cm].
  unfold persist_batch in Ep. destruct (update_balance_set _ m' _) as [b|] eqn:Eu; [|discriminate].
  destruct (insert_txns ks b (s_txns before)) as [rows|] eqn:Ei; [|discriminate].
  assert (Ea : after = set_db before b rows (rev obs ++ s_outbox before)) by congruence.
  assert (Nm : NoDup (map b_id m)) by (apply get_bals_nodup, Nd).
  assert (Nm' : NoDup (map b_id m')) by (rewrite Em; exact Nm).
  assert (Gm : forall id w, get_bal id m = Some w -> get_bal id (s_bals sl) = Some w).
  { intros id w Hw. pose proof (get_bal_in _ _ _ Hw) as Hin. pose proof (get_bal_id _ _ _ Hw) as Hid.
    apply get_bals_in in Hin as [H1 H2]. rewrite <- Hid. apply get_bal_nodup; [apply Tl|exact H1]. }
  destruct (update_set_some (s_txns before) m' (s_bals before) b) as (_ & Hw & Ho & _); [| | |exact Eu|].
  { intros x Hx. destruct Tb as [_ Fb]. rewrite Forall_forall in Fb. apply Fb, Hx. }
  { apply Tb. }
  { intros w' Hw'. destruct (Cm (b_id w') w' (get_bal_nodup _ _ Nm' Hw')) as (w & Ew & a1 & a2 & a3 & a4 & a5 & a6 & ->).
    destruct (G _ _ (Gm _ _ Ew)) as (y & Ey & Vy & _). exists y. split; [exact Ey|]. simpl. exact Vy. }
  assert (Sx : forall id w', get_bal id m' = Some w' -> exists w, get_bal id m = Some w /\ get_bal id (s_bals before) = Some w
                 /\ b_queued w = None /\ counted w w' /\ get_bal id b = Some (upd_row w w')).
  { intros id w' Hw'. destruct (Cm id w' Hw') as (w & Ew & Cw). exists w. split; [exact Ew|].
    pose proof (get_bal_id _ _ _ Hw') as Hid. destruct (Hw w' (get_bal_in _ _ _ Hw')) as (x & Hx & Vx & Bx). rewrite Hid in Hx, Bx.
    destruct (G _ _ (Gm _ _ Ew)) as (y & Ey & Vy & Sy). rewrite Hx in Ey. injection Ey as <-.
    assert (x = w) as ->. { apply Sy. destruct Cw as (a1 & a2 & a3 & a4 & a5 & a6 & ->). simpl in Vx. congruence. }
    split; [exact Hx|]. split; [apply (tame_get _ _ _ Tb Hx)|]. split; [exact Cw|exact Bx]. }
  assert (Dom : forall id, get_bal id m' = None -> get_bal id m = None).
  { intros id Hn. apply get_bal_none in Hn. rewrite Em in Hn. apply get_bal_none. exact Hn. }
  assert (S0 : sim (s_bals before) m (s_bals before)).
  { intros id. destruct (get_bal id m) as [w|] eqn:Ew; [|reflexivity].
    destruct (get_bal id m') as [w'|] eqn:Ew'; [|rewrite (Dom _ Ew') in Ew; discriminate].
    destruct (Sx _ _ Ew') as (w1 & E1 & E2 & E3 & _). rewrite Ew in E1. injection E1 as <-. split; [exact E3|].
    exists (b_ver w). rewrite E2. destruct w; reflexivity. }
  destruct (prepared_run cfg (s_bals before) b ts m ks obs m' Hp (set_locks before []) rows Q F eq_refl Tb S0 Ei)
    as (alone & rs & R & Nr & Fr & Sr & Xr & Or).
  exists alone, rs. split; [exact R|]. split; [exact Nr|]. split; [exact Fr|]. rewrite Ea. split; [|split; [exact Xr|exact Or]].
  intros id. simpl. specialize (Sr id). destruct (get_bal id m') as [w'|] eqn:Ew'.
  - destruct Sr as (_ & v & ->). destruct (Sx _ _ Ew') as (w & _ & _ & E3 & Cw & ->).
    destruct Cw as (a1 & a2 & a3 & a4 & a5 & a6 & ->). simpl. unfold unversioned, reversion, upd_row. simpl. rewrite E3. reflexivity.
  - rewrite Sr, Ho; [reflexivity|]. apply get_bal_none. exact Ew'.
Qed.

Lemma moved_parent t : t_parent (moved t) = t_parent t /\ t_id (moved t) = t_id t /\ t_inflight (moved t) = t_inflight t /\ t_status (moved t) = final_status t.
Proof. unfold moved, apply_precision_txn. destruct (apply_precision _ _ _) as [[? ?] ?]. simpl. auto. Qed.
Lemma clear_rest t : t_parent (clear_terminal t) = t_parent t /\ t_id (clear_terminal t) = t_id t /\ t_status (clear_terminal t) = t_status t.
Proof. unfold clear_terminal. destruct (t_status t) eqn:E; simpl; auto. Qed.
Lemma member_keys t m k t' ob m' : t_status t = SQueued -> prepare_member t m = Ok (k, t', ob, m') ->
  t_ref t' = t_ref t /\ t_id t' = t_id t /\ t_parent t' = t_parent t /\ t_src t' = t_src t /\ t_dst t' = t_dst t
  /\ t_status t' = (if t_inflight t then SInflight else SApplied).
Proof.
  intros Hq. unfold prepare_member, update_shared. cbv zeta. fold (moved t).
  destruct (get_bal (t_src (with_status t (final_status t))) m) as [ws|] eqn:Es; [|discriminate].
  destruct (get_bal (t_dst (with_status t (final_status t))) m) as [wd|] eqn:Ed; [|discriminate].
  destruct (validate_txn (moved t)) as [[]|]; [|discriminate].
  destruct (can_process (moved t) ws) as [[]|]; [|discriminate].
  destruct (get_bal (t_dst (moved t)) _) as [d|] eqn:Ed1; [|discriminate].
  destruct (get_bal (t_src (moved t)) (put_bal _ _)) as [a|] eqn:Ea; [|discriminate].
  destruct (get_bal (t_dst (moved t)) (put_bal _ (put_bal _ _))) as [b|] eqn:Eb; [|discriminate].
  destruct (t_precise _ =? 0); [discriminate|]. intros E. injection E as _ <- _ _.
  rewrite clear_ref, clear_src, clear_dst. destruct (clear_rest (update_details (moved t) a b)) as (-> & -> & ->).
  unfold update_details. cbn [t_ref t_id t_parent t_src t_dst t_status with_status with_ends].
  rewrite (get_bal_id _ _ _ Ea), (get_bal_id _ _ _ Eb), moved_ref, moved_src, moved_dst.
  destruct (moved_parent t) as (-> & -> & E1 & E2). repeat (split; [reflexivity|]).
  unfold final_status at 1. rewrite E1, E2. unfold final_status. rewrite Hq. destruct (t_inflight t); reflexivity.
Qed.
Lemma prepared_keys ts m ks obs m' : prepared ts m ks obs m' -> Forall (fun t => t_status t = SQueued) ts ->
  Forall2 (fun t r => t_ref (r_t r) = t_ref t /\ t_id (r_t r) = t_id t /\ t_parent (r_t r) = t_parent t
                              /\ t_src (r_t r) = t_src t /\ t_dst (r_t r) = t_dst t
                              /\ t_status (r_t r) = (if t_inflight t then SInflight else SApplied)) ts (map mkrow ks).
Proof.
  induction 1 as [m|t r m k t' ob m1 ks obs m2 Hm Hp IH]; intros F; [constructor|].
  inversion F; subst. simpl. constructor; [|auto]. simpl. eapply member_keys; eauto.
Qed.

(** What a run of a batch does, in one statement. *)
Definition persisted (ids : list string) (ts : list txn) (own : list (state * state)) : Prop :=
  exists o1 sl before after o2 ks obs m',
       own = (o1 ++ (before, after) :: o2)%list /\ Forall quiet o1 /\ Forall quiet o2
       /\ tame (s_bals sl) /\ tame (s_bals before) /\ goes sl before
       /\ prepared ts (get_bals ids (s_bals sl)) ks obs m' /\ persist_batch ks m' obs before = (after, Ok tt).
Lemma persisted_app ids ts own o1 o2 : Forall quiet o1 -> Forall quiet o2 -> persisted ids ts own ->
  persisted ids ts (o1 ++ own ++ o2)%list.
Proof.
  intros Q1 Q2 (p1 & sl & before & after & p2 & ks & obs & m' & -> & A1 & A2 & A).
  exists (o1 ++ p1)%list, sl, before, after, (p2 ++ o2)%list, ks, obs, m'.
  split; [rewrite <- !app_assoc; reflexivity|]. split; [apply Forall_app; auto|]. split; [apply Forall_app; auto|]. exact A.
Qed.
Lemma goes_trans s1 s2 s3 : goes s1 s2 -> goes s2 s3 -> goes s1 s3.
Proof. apply keeps_trans. Qed.
Lemma locked_run n cfg ids ts s r s' own :
  c_queued cfg = false -> tame (s_bals s) -> among n (batch_locked cfg ids ts) s r s' own ->
  (Forall quiet own /\ r <> Some (Ok tt)) \/ (persisted ids ts own /\ (r = None \/ r = Some (Ok tt))).
Proof.
  intros Q T. unfold batch_locked, load_balances. rewrite Q. intros H.
  apply among_bindr in H as [[-> H]|[(m & s1 & o1 & o2 & -> & H1 & H)|(e & s1 & -> & H & _)]].
  - left. split; [|discriminate]. eapply among_quiet; [|exact H]. split; [exact Logic.I|]. intros x. simpl. destruct (forallb _ _); exact Logic.I.
  - apply among_bind in H1 as [[E _]|(bs & s2 & p1 & p2 & -> & H1 & H2)]; [discriminate|].
    assert (p2 = [] /\ bs = m /\ others s2 s1) as (-> & -> & Os).
    { destruct (forallb _ _) in H2; destruct H2 as (Ho & E & ->); [injection E as ->; auto|discriminate]. }
    simpl in H1. destruct H1 as [(_ & E & _)|(sl & rest & O1 & -> & O2 & E & ->)]; [discriminate|]. injection E as ->.
    destruct (others_tame _ _ O1 T) as [Tl _].
    destruct (others_tame _ _ O2 Tl) as [T2 G2]. destruct (others_tame _ _ Os T2) as [T3 G3].
    pose proof (goes_trans _ _ _ G2 G3) as G. clear O1 O2 Os H2 T2 G2 G3.
    assert (Qf : Forall quiet (([(sl, sl)] ++ []) ++ [])%list) by (repeat constructor). simpl app in *.
    apply among_bind in H as [[-> H]|(ex & s4 & q1 & q2 & -> & H1 & H)].
    { left. split; [|discriminate]. constructor; [repeat split|]. eapply among_quiet; [|exact H].
      destruct (c_refcheck cfg); simpl; auto. }
    assert (So : all_ops silent (if c_refcheck cfg then act (ORefsExist (map t_ref ts)) else Ret [])) by (destruct (c_refcheck cfg); simpl; auto).
    destruct (among_tame _ _ _ _ _ _ (all_ops_impl _ _ _ silent_ordinary So) H1 T3) as [T4 G4].
    pose proof (among_quiet _ _ _ _ _ _ So H1) as Q4. pose proof (goes_trans _ _ _ G G4) as G5. clear H1 G G4.
    apply among_bindr in H as [[-> H]|[(x & s5 & q3 & q4 & -> & H1 & H)|(e & s5 & -> & H & _)]].
    + left. split; [|discriminate]. constructor; [repeat split|]. apply Forall_app. split; [exact Q4|]. eapply among_quiet; [apply silent_members|exact H].
    + destruct (among_tame _ _ _ _ _ _ (all_ops_impl _ _ _ silent_ordinary (silent_members _ _ _ _ _)) H1 T4) as [T6 G6].
      pose proof (among_quiet _ _ _ _ _ _ (silent_members _ _ _ _ _) H1) as Q6. apply members_prepared in H1.
      destruct x as [[ks obs] m']. simpl in H1. pose proof (goes_trans _ _ _ G5 G6) as G7.
      simpl in H. destruct H as [(_ & -> & ->)|(before & rest & O1 & -> & O2 & -> & ->)].
      * left. rewrite app_nil_r. split; [|discriminate]. constructor; [repeat split|]. apply Forall_app. auto.
      * destruct (others_tame _ _ O1 T6) as [T8 G8]. pose proof (goes_trans _ _ _ G7 G8) as G9.
        destruct (persist_batch ks m' obs before) as [after res] eqn:Ep. cbn [fst snd]. destruct res as [[]|e].
        -- right. split; [|auto]. exists ((sl, sl) :: q1 ++ q3)%list, sl, before, after, [], ks, obs, m'.
           split; [simpl; rewrite <- app_assoc; reflexivity|]. split; [constructor; [repeat split|apply Forall_app; auto]|].
           split; [constructor|]. auto.
        -- left. split; [|discriminate].
           assert (after = before) as ->.
           { unfold persist_batch in Ep. destruct (update_balance_set _ _ _); [destruct (insert_txns _ _ _)|]; congruence. }
           constructor; [repeat split|]. repeat (apply Forall_app; split; auto). repeat constructor.
    + left. split; [|discriminate]. constructor; [repeat split|]. apply Forall_app. split; [exact Q4|]. eapply among_quiet; [apply silent_members|exact H].
  - left. split; [|discriminate]. eapply among_quiet; [|exact H]. split; [exact Logic.I|]. intros x. simpl. destruct (forallb _ _); exact Logic.I.
Qed.
Lemma batch_run n cfg ts s r s' own :
  c_queued cfg = false -> tame (s_bals s) -> ts <> [] ->
  among n (persist_queued_batch cfg ts) s r s' own ->
  (Forall quiet own /\ option_map is_ok r <> Some true)
  \/ (exists ids, NoDup ids /\ persisted ids ts own) /\ option_map is_ok r <> Some false.
Proof.
  intros Q T Hts. destruct ts as [|t ts]; [congruence|]. unfold persist_queued_batch. clear Hts.
  destruct (negb _). { intros (_ & -> & ->). left. split; [constructor|discriminate]. }
  cbv zeta. set (ids := lock_set (batch_ids (t :: ts))). intros H.
  apply among_bind in H as [[-> H]|(ok & s1 & o1 & o2 & -> & H1 & H)].
  { left. split; [|discriminate]. eapply among_quiet; [|exact H]. apply silent_wait. }
  pose proof (among_quiet _ _ _ _ _ _ (silent_wait _ _) H1) as Q1.
  destruct (among_tame _ _ _ _ _ _ (all_ops_impl _ _ _ silent_ordinary (silent_wait _ _)) H1 T) as [T1 _].
  destruct ok; [|destruct H as (_ & -> & ->); left; rewrite app_nil_r; split; [exact Q1|discriminate]].
  apply among_bind in H as [[-> H]|(x & s2 & o3 & o4 & -> & H2 & H)].
  - apply locked_run in H as [[H _]|[H _]]; [| |exact Q|exact T1].
    + left. split; [apply Forall_app; auto|discriminate].
    + right. split; [|discriminate]. exists ids. split; [apply lock_set_nodup|].
      pose proof (persisted_app _ _ _ _ [] Q1 ltac:(constructor) H) as P. rewrite app_nil_r in P. exact P.
  - assert (Q4 : Forall quiet o4 /\ (r = None \/ r = Some x)).
    { apply among_bind in H as [[-> H]|(y & s3 & o5 & o6 & -> & H3 & H)].
      - split; [eapply among_quiet; [apply silent_unlock|exact H]|auto].
      - destruct H as (_ & -> & ->). rewrite app_nil_r. split; [eapply among_quiet; [apply silent_unlock|exact H3]|auto]. }
    destruct Q4 as [Q4 Er].
    apply locked_run in H2 as [[H2 Hx]|[H2 Hx]]; [| |exact Q|exact T1].
    + left. split; [repeat (apply Forall_app; split; auto)|]. destruct Er as [->| ->]; [discriminate|].
      simpl. destruct x as [[]|]; [congruence|discriminate].
    + right. split; [exists ids; split; [apply lock_set_nodup|]; apply persisted_app; auto|].
      destruct Hx as [Hx|Hx]; [discriminate|]. injection Hx as ->. destruct Er as [->| ->]; discriminate.
Qed.

Theorem batch_at_once n cfg ts s r s' own :
  c_queued cfg = false -> tidy s -> ts <> [] -> Forall (fun t => t_status t = SQueued) ts ->
  among n (persist_queued_batch cfg ts) s r s' own -> recorded_at_once ts (option_map is_ok r) own.
Proof.
  intros Q T Hts F H. apply batch_run in H as [H|[(ids & Nd & o1 & sl & before & after & o2 & ks & obs & m' & -> & A1 & A2 & A3 & A4 & A5 & A6 & A7) Hr]];
    [left; exact H| |exact Q|exact T|exact Hts].
  right. exists o1, before, after, o2, (map mkrow ks). repeat (split; [assumption || reflexivity|]).
  split; [|eapply prepared_keys; eauto]. unfold persist_batch in A7.
  destruct (update_balance_set _ _ _); [|discriminate]. destruct (insert_txns _ _ _) eqn:Ei; [|discriminate].
  apply insert_txns_ok in Ei as [-> _]. injection A7 as <-. reflexivity.
Qed.
Theorem batch_as_one_by_one n cfg ts s r s' own :
  c_queued cfg = false -> tidy s -> ts <> [] -> Forall (fun t => t_status t = SQueued /\ t_src t <> t_dst t) ts ->
  among n (persist_queued_batch cfg ts) s r s' own -> none_or_all cfg ts (option_map is_ok r) own.
Proof.
  intros Q T Hts F H. apply batch_run in H as [H|[(ids & Nd & o1 & sl & before & after & o2 & ks & obs & m' & -> & A1 & A2 & A3 & A4 & A5 & A6 & A7) Hr]];
    [left; exact H| |exact Q|exact T|exact Hts].
  right. destruct (persist_as_one cfg sl ids before after ts ks obs m' Q Hts Nd F A3 A4 A5 A6 A7) as (alone & rs & B1 & B2 & B3 & B4).
  exists o1, before, after, o2, alone, rs. repeat (split; [assumption || reflexivity|]). exact B4.
Qed.
