(** Commits and voids stay within their hold in every execution in which no lock
    expires under a live owner. *)
From Coq Require Import ZArith QArith List String Bool Lia.
From Verif Require Import Base MoneyModel SplitModel BalanceModel LedgerModel LedgerProgs
  ConcModel ConcLogic LedgerSpec BudgetSpec Always LedgerInv LedgerPure LedgerSafe.
Import ListNotations.
Open Scope Z_scope.

Definition ckey (h : string) : string := ("inflight-commit:" ++ h)%string.
Arguments ckey : simpl never.
Definition owns (n : nat) (k : string) (s : state) : Prop := lock_owner k (s_locks s) = Some n.

Lemma NoDup_map_inv_eq {A B} (f : A -> B) l x y :
  NoDup (map f l) -> In x l -> In y l -> f x = f y -> x = y.
Proof.
  induction l as [|a r IH]; simpl; [contradiction|]. intros Hnd Hx Hy E. inversion Hnd as [|? ? H1 H2]; subst.
  destruct Hx as [->|Hx], Hy as [->|Hy]; auto.
  - exfalso. apply H1. rewrite E. apply in_map; exact Hy.
  - exfalso. apply H1. rewrite <- E. apply in_map; exact Hx.
Qed.

(** ** Locks *)
Lemma owner_del_other k k' l : k <> k' -> lock_owner k' (del_lock k l) = lock_owner k' l.
Proof.
  intros H. induction l as [|[a o] r IH]; simpl; [reflexivity|].
  destruct (String.eqb_spec k a) as [->|Ha]; simpl.
  - destruct (String.eqb_spec k' a) as [->|_]; [contradiction|exact IH].
  - destruct (String.eqb k' a); auto.
Qed.

(** Ids of balances, as generated. *)
Definition bln_id (s : string) : Prop := exists u, s = ("bln_" ++ u)%string.
Lemma bln_plain s : bln_id s -> starts_with_at s = false.
Proof. intros [u ->]. reflexivity. Qed.
Lemma bln_ckey s h : bln_id s -> s <> ckey h.
Proof. intros [u ->]. discriminate. Qed.

(** ** Relation and invariant *)
Definition relB (n : nat) (s s' : state) : Prop :=
  (forall k, owns n k s -> owns n k s') /\
  exists l, s_txns s' = (l ++ s_txns s)%list /\
    forall h, owns n (ckey h) s -> Forall (fun r => ~ is_action h r) l.

Definition invB (s : state) : Prop :=
  actions_in_order (s_txns s) /\ forall b, In b (s_bals s) -> bln_id (b_id b).

Definition opreB (n : nat) (o : op) (s : state) : Prop :=
  match o with
  | OPersist k t _ _ _ =>
    match k with
    | KCommit | KVoid => owns n (ckey (t_parent t)) s /\ action_in_order (s_txns s) {| r_t := t; r_kind := k |}
    | KNone => False
    | _ => True
    end
  | OPersistBatch ts _ _ => Forall (fun x => fst x = KPost \/ fst x = KHold) ts
  | OCreateBal id _ _ _ _ => bln_id id
  | _ => True
  end.

Lemma relB_refl n s : relB n s s.
Proof. split; auto. exists []. split; auto. Qed.

Lemma relB_frame n s s' : s_locks s' = s_locks s -> s_txns s' = s_txns s -> relB n s s'.
Proof. intros H1 H2. split; [unfold owns; rewrite H1; auto|]. exists []. rewrite H2. auto. Qed.

Lemma update_balance_ids rows w l l' : update_balance rows w l = Some l' -> map b_id l' = map b_id l.
Proof. intros H. destruct (update_balance_some _ _ _ _ H) as (b & _ & _ & H1 & _). exact H1. Qed.

Lemma update_set_ids rows ws l l' : update_balance_set rows ws l = Some l' -> map b_id l' = map b_id l.
Proof.
  revert l. induction ws as [|w r IH]; intros l; simpl; [intros H; inversion H; reflexivity|].
  destruct (update_balance rows w l) as [l1|] eqn:E; [|discriminate]. intros H.
  rewrite (IH _ H). eapply update_balance_ids; eauto.
Qed.

Lemma plain_ids (l l' : list balance) :
  map b_id l' = map b_id l -> (forall b, In b l -> bln_id (b_id b)) ->
  forall b, In b l' -> bln_id (b_id b).
Proof.
  intros E H b Hb. apply (in_map b_id) in Hb. rewrite E in Hb. apply in_map_iff in Hb as (b0 & E0 & Hb0).
  rewrite <- E0. auto.
Qed.

Lemma actions_app l j :
  Forall (fun r => r_kind r <> KCommit /\ r_kind r <> KVoid) l -> actions_in_order j -> actions_in_order (l ++ j).
Proof.
  induction l as [|r l IH]; intros HF Hj; simpl; [exact Hj|]. inversion HF as [|? ? [H1 H2] Hl]; subst.
  split; [intros [H|H]; contradiction|auto].
Qed.

Lemma not_action r : r_kind r <> KCommit -> r_kind r <> KVoid -> forall h, ~ is_action h r.
Proof. intros H1 H2 h [[H|H] _]; contradiction. Qed.

Lemma batch_presB n ts ws obs s :
  invB s ->
  (Forall (fun x => fst x = KPost \/ fst x = KHold) ts
   \/ exists k t, ts = [(k, t)] /\ opreB n (OPersist k t (fresh_balance "" "" "" false false) (fresh_balance "" "" "" false false) None) s) ->
  invB (fst (persist_batch ts ws obs s)) /\ forall m, m <> n -> relB m s (fst (persist_batch ts ws obs s)).
Proof.
  intros [HA HB] Ht. unfold persist_batch.
  destruct (update_balance_set _ _ _) as [b|] eqn:Eu; [|simpl; split; [split; auto|intros; apply relB_refl]].
  destruct (insert_txns ts b (s_txns s)) as [l|] eqn:Ei; [|simpl; split; [split; auto|intros; apply relB_refl]].
  destruct (insert_txns_ok _ _ _ _ Ei) as (El & _). simpl.
  assert (Hids : forall x, In x b -> bln_id (b_id x)).
  { apply (plain_ids (s_bals s)); [eapply update_set_ids; eauto|exact HB]. }
  destruct Ht as [Ht|(k & t & -> & Ht)].
  - assert (Hk : Forall (fun r => r_kind r <> KCommit /\ r_kind r <> KVoid) (rev (map mkrow ts))).
    { apply Forall_rev. apply Forall_forall. intros r Hr. apply in_map_iff in Hr as (x & <- & Hx).
      rewrite Forall_forall in Ht. destruct (Ht x Hx) as [E|E]; unfold mkrow; simpl; rewrite E; split; discriminate. }
    split; [split; [simpl; rewrite El; apply actions_app; auto|exact Hids]|].
    intros m Hm. split; [auto|]. simpl. exists (rev (map mkrow ts)). split; [exact El|].
    intros h _. eapply Forall_impl; [|exact Hk]. intros r [H1 H2]. apply not_action; auto.
  - simpl in El. split.
    + split; [simpl; rewrite El; simpl; split; [|exact HA]|exact Hids].
      simpl in Ht. unfold mkrow; simpl. intros [->| ->]; apply Ht.
    + intros m Hm. split; [auto|]. simpl. exists [mkrow (k, t)]. split; [exact El|].
      intros h Ho. constructor; [|constructor]. intros [[Hk|Hk] Hp]; unfold mkrow in *; simpl in *; subst;
        destruct Ht as [Ht _]; unfold owns in *; rewrite Ho in Ht; inversion Ht; subst; contradiction.
Qed.

Lemma exec_presB n o s :
  invB s -> opreB n o s -> invB (fst (exec n o s)) /\ forall m, m <> n -> relB m s (fst (exec n o s)).
Proof.
  intros HI Hp. pose proof HI as [HA HB].
  assert (Hsame : forall s', s_txns s' = s_txns s -> s_bals s' = s_bals s -> s_locks s' = s_locks s ->
                  invB s' /\ forall m, m <> n -> relB m s s').
  { intros s' H1 H2 H3. split; [split; [rewrite H1|rewrite H2]; auto|]. intros. apply relB_frame; auto. }
  destruct o; simpl; try (apply Hsame; reflexivity).
  - unfold create_balance. destruct (get_bal _ _); [apply Hsame; reflexivity|].
    destruct (_ && _); [apply Hsame; reflexivity|]. simpl. split.
    + split; [exact HA|]. simpl. intros b [<-|Hb]; [exact Hp|auto].
    + intros. apply relB_frame; reflexivity.
  - destruct (lock_owner k (s_locks s)) eqn:E; [apply Hsame; reflexivity|]. simpl.
    split; [split; auto|]. intros m Hm. split; [|exists []; split; auto]. unfold owns. simpl. intros k' Hk'.
    destruct (String.eqb_spec k' k) as [->|_]; [congruence|exact Hk'].
  - destruct (lock_owner k (s_locks s)) as [x|] eqn:E; [|apply Hsame; reflexivity].
    destruct (Nat.eqb_spec x n) as [->|Hx]; [|apply Hsame; reflexivity]. simpl.
    split; [split; auto|]. intros m Hm. split; [|exists []; split; auto]. unfold owns. simpl. intros k' Hk'.
    rewrite owner_del_other; [exact Hk'|]. intros <-. congruence.
  - destruct (insert_txn _ _ _ _) as [l|] eqn:E; [|apply Hsame; reflexivity].
    destruct (insert_txn_ok _ _ _ _ _ E) as (-> & _). simpl. split.
    + split; [|exact HB]. simpl. split; [intros [H|H]; discriminate|exact HA].
    + intros m Hm. split; [auto|]. exists [mkrow (KNone, t)]. split; [reflexivity|].
      intros h _. constructor; [|constructor]. apply not_action; discriminate.
  - rewrite persist_single_batch. apply batch_presB; auto. right. exists k, t. split; auto.
  - apply batch_presB; auto.
  - (* OReconcile *) split; [|intros; apply relB_frame; reflexivity]. split; [exact HA|]. simpl.
    apply (plain_ids (s_bals s)); [|exact HB].
    clear. generalize (s_txns s). intros rows. induction (s_bals s) as [|b r IH]; simpl; [reflexivity|].
    destruct (String.eqb (b_id b) id); simpl; [|congruence]. f_equal.
Qed.

Section B.
Variable cfg : config.
Definition JB (s : state) : Prop := tt_inv s /\ inv cfg s.
Definition sB {A} n P (p : prog A) Q := safe JB invB relB n P p Q.
Local Notation stab := (stable JB invB relB).

Lemma sB_do {A} n (P : state -> Prop) o (k : resp o -> prog A) Q (R : resp o -> state -> Prop) :
  (forall s, inv cfg s -> invB s -> P s -> opreB n o s) ->
  (forall s, inv cfg s -> invB s -> P s -> inv cfg (fst (exec n o s)) -> R (snd (exec n o s)) (fst (exec n o s))) ->
  (forall x, stab n (R x)) -> (forall x, sB n (R x) (k x) Q) -> sB n P (Do o k) Q.
Proof.
  intros Ho HR Hs Hk. simpl. exists R. split; [|split; auto].
  intros s [_ Hj] Hi Hp [_ Hj']. destruct (exec_presB n o s Hi (Ho s Hj Hi Hp)) as [H1 H2]. auto.
Qed.

(** ** Programs without conditions on the state *)
Definition freeB (o : op) : Prop := forall n s, opreB n o s.

Definition yB {A} (p : prog A) (Q : A -> Prop) : Prop := forall n, sB n (fun _ => True) p (fun a _ => Q a).

Lemma stab_pure n (c : Prop) : stab n (fun _ => c).
Proof. intros s s' _ _ _ _ _ H. exact H. Qed.

Lemma yB_always {A} (p : prog A) Q : always freeB p Q -> yB p Q.
Proof.
  intros H n. unfold sB. induction p as [a|o k IH]; simpl in H.
  - simpl. auto.
  - destruct H as [Ho Hk]. apply (sB_do n (fun _ => True) o k _ (fun x _ => possible o x)).
    + intros. apply Ho.
    + intros s _ _ _ _. exists n, s. reflexivity.
    + intros x. apply stab_pure.
    + intros x. apply (safe_pre _ _ _ n _ (fun s => True /\ possible o x)); [auto|].
      apply safe_pure. intros Hx. apply IH. apply Hk. exact Hx.
Qed.

Lemma yB_bind {A B} (p : prog A) (M : A -> Prop) (f : A -> prog B) (Q : B -> Prop) :
  yB p M -> (forall a, M a -> yB (f a) Q) -> yB (bind p f) Q.
Proof.
  intros Hp Hf n. eapply safe_bind; [apply Hp|]. intros a.
  apply (safe_pre _ _ _ n _ (fun s => True /\ M a)); [auto|]. apply safe_pure. intros Ha. apply Hf. exact Ha.
Qed.

Lemma yB_bindr {A B} (p : prog (res A)) (M : A -> Prop) (f : A -> prog (res B)) (Q : res B -> Prop) :
  yB p (fun r => match r with Ok a => M a | Err _ => True end) ->
  (forall a, M a -> yB (f a) Q) -> (forall e, Q (Err e)) -> yB (bindr p f) Q.
Proof.
  intros Hp Hf He. unfold bindr. eapply yB_bind; [exact Hp|]. intros [a|e] Ha; [auto|].
  apply yB_always. simpl. auto.
Qed.

Lemma yB_ret {A} (a : A) (Q : A -> Prop) : Q a -> yB (Ret a) Q.
Proof. intros H. apply yB_always. exact H. Qed.

Lemma yB_post {A} (p : prog A) (Q Q' : A -> Prop) : (forall a, Q a -> Q' a) -> yB p Q -> yB p Q'.
Proof. intros H Hp n. eapply safe_post; [|apply Hp]. auto. Qed.

Lemma yB_act {A} o (f : resp o -> prog A) Q : freeB o -> (forall x, possible o x -> yB (f x) Q) -> yB (bind (act o) f) Q.
Proof.
  intros Ho Hf. eapply yB_bind with (M := possible o); [|exact Hf].
  apply yB_always. simpl. auto.
Qed.

Ltac fr := intros ? ?; exact Logic.I.

Lemma at_fresh p : always freeB (fresh p) (fun s => exists u, s = (p ++ "_" ++ u)%string).
Proof. simpl. split; [fr|]. intros x _. eauto. Qed.

Lemma at_get_balance id : always freeB (get_balance cfg id)
  (fun r => match r with Ok b => b_id b = id | Err _ => True end).
Proof.
  unfold get_balance. apply always_act; [fr|]. intros [b|] (n & s & Hx); simpl in Hx; [|exact Logic.I].
  apply get_bal_id in Hx. destruct (c_queued cfg); simpl; auto. split; [fr|]. auto.
Qed.

Lemma at_get_or_create ind cur : always freeB (get_or_create cfg ind cur) (fun _ => True).
Proof.
  assert (Hf : forall b, always freeB (if c_queued cfg then get_balance cfg (b_id b) else Ret (Ok b)) (fun _ => True)).
  { intros b. destruct (c_queued cfg); [|exact Logic.I]. eapply always_post; [|apply at_get_balance]. auto. }
  unfold get_or_create. apply always_act; [fr|]. intros [b|] _; [apply Hf|].
  eapply always_bind; [apply at_fresh|]. intros id (u & ->).
  apply always_act; [intros n s; exists u; reflexivity|].
  assert (Ha : always freeB (bind (act (OGetInd ind cur)) (fun b => match b with
             | Some b => if c_queued cfg then get_balance cfg (b_id b) else Ret (Ok b)
             | None => Ret (Err EBalanceNotFound) end)) (fun _ => True)).
  { apply always_act; [fr|]. intros [b|] _; [apply Hf|exact Logic.I]. }
  intros [v|e] _; [exact Ha|]. destruct e; try exact Ha; exact Logic.I.
Qed.

Lemma at_get_end e cur : always freeB (get_end cfg e cur)
  (fun r => match r with Ok b => starts_with_at e = false -> b_id b = e | Err _ => True end).
Proof.
  unfold get_end. destruct (starts_with_at e).
  - eapply always_post; [|apply at_get_or_create]. intros [b|]; auto. discriminate.
  - eapply always_post; [|apply at_get_balance]. intros [b|]; auto.
Qed.

Lemma at_resolve e cur : always freeB (resolve_id cfg e cur) (fun _ => True).
Proof.
  unfold resolve_id. destruct (starts_with_at e); [|simpl; auto].
  eapply always_bindr with (M := fun _ => True); [|intros; simpl; auto|auto].
  eapply always_post; [|apply at_get_or_create]. intros [b|]; auto.
Qed.

Lemma at_unlock ks : always freeB (unlock_keys ks) (fun _ => True).
Proof. induction ks as [|k r IH]; simpl; auto. split; [fr|]. intros _ _. exact IH. Qed.
Lemma at_lock ks got : always freeB (lock_keys ks got) (fun _ => True).
Proof.
  revert got. induction ks as [|k r IH]; intros got; simpl; auto. split; [fr|].
  intros [|] _; auto. eapply always_bind; [apply at_unlock|]. simpl; auto.
Qed.
Lemma at_wait n ks : always freeB (wait_lock n ks) (fun _ => True).
Proof.
  induction n as [|n IH]; simpl; (eapply always_bind; [apply at_lock|]; intros [|] _; simpl; auto).
Qed.

Definition plain_status (t : txn) : Prop := t_status t <> SCommit /\ t_status t <> SVoid.

Lemma kind_plain t : plain_status t -> kind_of t = KPost \/ kind_of t = KHold.
Proof.
  intros [H1 H2]. unfold kind_of. destruct (t_status t); try contradiction; destruct (t_inflight t); auto.
Qed.

Lemma freeB_persist k t a b ob : k = KPost \/ k = KHold -> freeB (OPersist k t a b ob).
Proof. intros [->| ->] n s; exact Logic.I. Qed.

Lemma apply_status t src dst t1 src' dst' :
  apply_to_balances t src dst = Ok (t1, src', dst') -> t_status t1 = t_status t.
Proof. intros H. apply apply_keys in H. tauto. Qed.

Lemma at_record_locked t : plain_status t -> always freeB (record_locked cfg t) (fun _ => True).
Proof.
  intros Ht. unfold record_locked. apply always_act; [fr|]. intros [|] _; [exact Logic.I|].
  eapply always_bindr with (M := fun _ => True); [|intros src _|auto].
  { eapply always_post; [|apply at_get_end]. intros [b|]; auto. }
  eapply always_bindr with (M := fun _ => True); [|intros dst _|auto].
  { eapply always_post; [|apply at_get_end]. intros [b|]; auto. }
  destruct (apply_to_balances _ _ _) as [[[t1 src'] dst']|e] eqn:Ea; [|exact Logic.I].
  destruct (_ =? 0); [exact Logic.I|].
  apply always_act; [|intros [u|e] _; exact Logic.I].
  apply freeB_persist, kind_plain. unfold plain_status. rewrite (apply_status _ _ _ _ _ _ Ea). exact Ht.
Qed.

Lemma at_record_single t : plain_status t -> always freeB (record_single cfg t) (fun _ => True).
Proof.
  intros Ht. unfold record_single.
  eapply always_bindr with (M := fun _ => True); [|intros a _|auto].
  { eapply always_post; [|apply at_resolve]. intros [x|e]; auto. }
  eapply always_bindr with (M := fun _ => True); [|intros b _|auto].
  { eapply always_post; [|apply at_resolve]. intros [x|e]; auto. }
  eapply always_bind; [apply at_wait|]. intros [|] _; [|exact Logic.I].
  eapply always_bind; [apply at_record_locked; exact Ht|]. intros r _.
  eapply always_bind; [apply at_unlock|]. intros _ _. exact Logic.I.
Qed.

Lemma yB_single t : plain_status t -> yB (record_single cfg t) (fun _ => True).
Proof. intros H. apply yB_always, at_record_single, H. Qed.

(** ** Commit and void *)
(** Facts about the hold [h] that its lock protects. *)
Definition steady (h : string) (P : state -> Prop) : Prop :=
  forall s s' l, s_txns s' = (l ++ s_txns s)%list -> Forall (fun r => ~ is_action h r) l -> P s -> P s'.

Definition mild (h : string) (o : op) : Prop := freeB o /\ o <> OUnlock (ckey h).

Lemma mild_step n h o s :
  invB s -> mild h o -> owns n (ckey h) s ->
  owns n (ckey h) (fst (exec n o s)) /\
  exists l, s_txns (fst (exec n o s)) = (l ++ s_txns s)%list /\ Forall (fun r => ~ is_action h r) l.
Proof.
  intros HI [Hf Hne] Ho.
  assert (Hsame : forall s', s_txns s' = s_txns s -> s_locks s' = s_locks s ->
                  owns n (ckey h) s' /\ exists l, s_txns s' = (l ++ s_txns s)%list /\ Forall (fun r => ~ is_action h r) l).
  { intros s' H1 H2. split; [unfold owns; rewrite H2; exact Ho|]. exists []. split; [exact H1|constructor]. }
  assert (Hb : forall ts ws obs, Forall (fun x => fst x = KPost \/ fst x = KHold) ts ->
     let s' := fst (persist_batch ts ws obs s) in
     owns n (ckey h) s' /\ exists l, s_txns s' = (l ++ s_txns s)%list /\ Forall (fun r => ~ is_action h r) l).
  { intros ts ws obs Ht. unfold persist_batch.
    destruct (update_balance_set _ _ _) as [b|]; [|apply Hsame; reflexivity].
    destruct (insert_txns ts b (s_txns s)) as [l|] eqn:Ei; [|apply Hsame; reflexivity].
    destruct (insert_txns_ok _ _ _ _ Ei) as (El & _). simpl. split; [exact Ho|].
    exists (rev (map mkrow ts)). split; [exact El|]. apply Forall_rev. apply Forall_forall. intros r Hr.
    apply in_map_iff in Hr as (x & <- & Hx). rewrite Forall_forall in Ht.
    destruct (Ht x Hx) as [E|E]; apply not_action; unfold mkrow; simpl; rewrite E; discriminate. }
  destruct o; try (apply Hsame; reflexivity); cbn [exec].
  - unfold create_balance. destruct (get_bal _ _); [apply Hsame; reflexivity|].
    destruct (_ && _); apply Hsame; reflexivity.
  - destruct (lock_owner k (s_locks s)) eqn:E; [apply Hsame; reflexivity|]. simpl.
    split; [|exists []; split; auto]. unfold owns in *. cbn [s_locks set_locks lock_owner].
    destruct (String.eqb_spec (ckey h) k) as [e|_]; [rewrite e in Ho; congruence|exact Ho].
  - destruct (lock_owner k (s_locks s)) as [x|] eqn:E; [|apply Hsame; reflexivity].
    destruct (Nat.eqb x n); [|apply Hsame; reflexivity]. simpl.
    split; [|exists []; split; auto]. unfold owns in *. cbn [s_locks set_locks]. rewrite owner_del_other; [exact Ho|intros ->; apply Hne; reflexivity].
  - destruct (insert_txn _ _ _ _) as [l|] eqn:E; [|apply Hsame; reflexivity].
    destruct (insert_txn_ok _ _ _ _ _ E) as (-> & _). simpl. split; [exact Ho|].
    exists [mkrow (KNone, t)]. split; [reflexivity|]. constructor; [|constructor]. apply not_action; discriminate.
  - rewrite persist_single_batch. apply Hb. constructor; [|constructor]. simpl.
    destruct k; auto; exfalso; pose proof (Hf n (set_locks s [])) as H2; simpl in H2; destruct H2; discriminate.
  - apply Hb. exact (Hf n s).
Qed.

Lemma stab_steady n h P : steady h P -> stab n (fun s => owns n (ckey h) s /\ P s).
Proof.
  intros HP s s' _ _ _ _ [H1 (l & H2 & H3)] [Ho Hp]. split; [auto|]. eapply HP; eauto.
Qed.

Lemma keep_act {A} n h P o (f : resp o -> prog A) Q (R : resp o -> state -> Prop) :
  steady h P -> mild h o -> (forall x, steady h (R x)) ->
  (forall s, inv cfg s -> P s -> R (snd (exec n o s)) s) ->
  (forall x, sB n (fun s => owns n (ckey h) s /\ (P s /\ R x s)) (f x) Q) ->
  sB n (fun s => owns n (ckey h) s /\ P s) (bind (act o) f) Q.
Proof.
  intros HP Ho HR Hx Hf.
  apply (sB_do n _ o _ _ (fun x s => owns n (ckey h) s /\ (P s /\ R x s))).
  - intros s _ _ _. apply Ho.
  - intros s Hj Hi [How Hp] _. destruct (mild_step n h o s Hi Ho How) as (H1 & l & H2 & H3).
    split; [exact H1|]. split; [eapply HP; eauto|]. eapply HR; eauto.
  - intros x. apply stab_steady. intros s s' l H1 H2 [H3 H4]. split; [eapply HP; eauto|eapply HR; eauto].
  - exact Hf.
Qed.

Lemma keep {A} n h P (p : prog A) Q :
  steady h P -> always (mild h) p Q ->
  sB n (fun s => owns n (ckey h) s /\ P s) p (fun a s => (owns n (ckey h) s /\ P s) /\ Q a).
Proof.
  intros HP. unfold sB. induction p as [a|o k IH]; simpl always; intros H.
  - simpl. auto.
  - destruct H as [Ho Hk].
    apply (sB_do n _ o k _ (fun x s => (owns n (ckey h) s /\ P s) /\ possible o x)).
    + intros s _ _ _. apply Ho.
    + intros s Hj Hi [How Hp] _. destruct (mild_step n h o s Hi Ho How) as (H1 & l & H2 & H3).
      split; [split; [exact H1|eapply HP; eauto]|]. exists n, s. reflexivity.
    + intros x s s' A1 A2 A3 A4 A5 [A6 A7]. split; [|exact A7].
      exact (stab_steady n h P HP s s' A1 A2 A3 A4 A5 A6).
    + intros x. apply safe_pure. intros Hx. apply IH. apply Hk. exact Hx.
Qed.

Lemma keep_bind {A B} n h P (p : prog A) (f : A -> prog B) (M : A -> Prop) Q :
  steady h P -> always (mild h) p M ->
  (forall a, M a -> sB n (fun s => owns n (ckey h) s /\ P s) (f a) Q) ->
  sB n (fun s => owns n (ckey h) s /\ P s) (bind p f) Q.
Proof.
  intros HP Hp Hf. eapply safe_bind; [apply (keep n h P p M HP Hp)|].
  intros a. apply safe_pure. intros Ha. exact (Hf a Ha).
Qed.

Lemma keep_bindr {A B} n h P (p : prog (res A)) (f : A -> prog (res B)) (M : A -> Prop) (Q : res B -> state -> Prop) :
  steady h P -> always (mild h) p (fun r => match r with Ok a => M a | Err _ => True end) ->
  (forall a, M a -> sB n (fun s => owns n (ckey h) s /\ P s) (f a) Q) ->
  (forall e s, Q (Err e) s) ->
  sB n (fun s => owns n (ckey h) s /\ P s) (bindr p f) Q.
Proof.
  intros HP Hp Hf He. unfold bindr. eapply keep_bind; [exact HP|exact Hp|]. intros [a|e] Ha; [auto|].
  apply safe_ret. auto.
Qed.

Ltac ml := split; [fr|discriminate].

Lemma ml_fresh h p : always (mild h) (fresh p) (fun _ => True).
Proof. simpl. split; [ml|auto]. Qed.
Lemma ml_choose h r : always (mild h) (choose_ref r) (fun _ => True).
Proof. unfold choose_ref. destruct (String.eqb r ""); [apply ml_fresh|exact Logic.I]. Qed.
Lemma ml_get_balance h id : always (mild h) (get_balance cfg id)
  (fun r => match r with Ok b => b_id b = id | Err _ => True end).
Proof.
  unfold get_balance. apply always_act; [ml|]. intros [b|] (n & s & Hx); simpl in Hx; [|exact Logic.I].
  apply get_bal_id in Hx. destruct (c_queued cfg); simpl; auto. split; [ml|]. auto.
Qed.
Lemma ml_unlock h ks : (forall k, In k ks -> k <> ckey h) -> always (mild h) (unlock_keys ks) (fun _ => True).
Proof.
  induction ks as [|k r IH]; intros H; simpl; auto. split.
  - split; [fr|]. intros E. inversion E. apply (H k); simpl; auto.
  - intros _ _. apply IH. intros; apply H; simpl; auto.
Qed.
Lemma ml_lock h ks got :
  (forall k, In k ks -> k <> ckey h) -> (forall k, In k got -> k <> ckey h) ->
  always (mild h) (lock_keys ks got) (fun _ => True).
Proof.
  revert got. induction ks as [|k r IH]; intros got H1 H2; simpl; auto. split; [ml|].
  intros [|] _.
  - apply IH; [intros; apply H1; simpl; auto|]. intros x [<-|Hx]; [apply H1; simpl; auto|auto].
  - eapply always_bind; [apply ml_unlock; exact H2|]. simpl; auto.
Qed.
Lemma ml_wait h n ks : (forall k, In k ks -> k <> ckey h) -> always (mild h) (wait_lock n ks) (fun _ => True).
Proof.
  intros H. induction n as [|n IH]; simpl;
    (eapply always_bind; [apply ml_lock; [exact H|intros k []]|]; intros [|] _; simpl; auto).
Qed.

(** The hold a commit or void works on. *)
Definition hold_row (id : string) (t : txn) (s : state) : Prop :=
  exists r, In r (s_txns s) /\ t_id (r_t r) = id /\ t_id t = id
    /\ t_src t = source r /\ t_dst t = destination r /\ t_cur t = t_cur (r_t r) /\ t_precise t = amount r
    /\ t_inflight t = false /\ 0 <= t_prec t.
Definition not_voided (id : string) (s : state) : Prop :=
  forall v, In v (s_txns s) -> t_parent (r_t v) = id -> r_kind v <> KVoid.
Definition knows_committed (id : string) (c : Z) (s : state) : Prop :=
  only_commits id (s_txns s) -> c = committed id (s_txns s).

Lemma committed_app id l j :
  committed id (l ++ j) = committed id l + committed id j.
Proof. apply sumz_app. Qed.

Lemma committed_none id l : Forall (fun r => ~ is_action id r) l -> committed id l = 0.
Proof.
  intros H. apply sumz_zero. intros r Hr. rewrite Forall_forall in H. specialize (H r Hr).
  destruct (r_kind r) eqn:E; auto. destruct (String.eqb_spec (t_parent (r_t r)) id); auto.
  exfalso. apply H. split; auto.
Qed.

Lemma steady_hold id t : steady id (hold_row id t).
Proof.
  intros s s' l H1 _ (r & Hr & H). exists r. split; [rewrite H1; apply in_or_app; auto|exact H].
Qed.
Lemma steady_not_voided id : steady id (not_voided id).
Proof.
  intros s s' l H1 H2 H v Hv Hp. rewrite H1 in Hv. apply in_app_or in Hv as [Hv|Hv]; [|eauto].
  rewrite Forall_forall in H2. intros E. apply (H2 v Hv). split; auto.
Qed.
Lemma only_commits_app id l j : only_commits id (l ++ j) -> only_commits id j.
Proof. intros H r Hr. apply H. apply in_or_app; auto. Qed.
Lemma steady_committed id c : steady id (knows_committed id c).
Proof.
  intros s s' l H1 H2 H Ho. rewrite H1 in *. rewrite committed_app, (committed_none _ _ H2).
  rewrite H; [reflexivity|]. eapply only_commits_app; eauto.
Qed.
Lemma steady_and id P Q : steady id P -> steady id Q -> steady id (fun s => P s /\ Q s).
Proof. intros HP HQ s s' l H1 H2 [H3 H4]. split; [eapply HP|eapply HQ]; eauto. Qed.
Lemma steady_pure id (c : Prop) : steady id (fun _ => c).
Proof. intros s s' l _ _ H. exact H. Qed.

Lemma total_is_committed id j :
  Forall (fun r => good_kt (r_kind r) (r_t r)) j -> only_commits id j ->
  total_committed id j = committed id j.
Proof.
  intros HF Ho. apply sumz_ext. intros r Hr. rewrite Forall_forall in HF.
  destruct (HF r Hr) as [Hk _]. specialize (Ho r Hr).
  destruct (String.eqb_spec (t_parent (r_t r)) id) as [E|E]; simpl; [|destruct (r_kind r); reflexivity].
  specialize (Ho E). unfold amount.
  destruct (r_kind r); simpl in Hk; try contradiction; try (rewrite Hk; reflexivity).
  destruct Hk as [Hk|[Hk|Hk]]; rewrite Hk; reflexivity.
Qed.

(** What is committed never exceeds the hold. *)
Lemma budget j h :
  actions_in_order j -> NoDup (map (fun r => t_id (r_t r)) j) -> In h j ->
  0 <= amount h -> only_commits (t_id (r_t h)) j ->
  0 <= committed (t_id (r_t h)) j <= amount h.
Proof.
  intros HA Hnd Hh Hpos Ho.
  induction j as [|r j IH]; [contradiction|].
  destruct HA as [Hr HA]. simpl in Hnd. inversion Hnd as [|? ? Hni Hnd']; subst.
  destruct (in_dec string_dec (t_id (r_t h)) (map (fun r => t_id (r_t r)) j)) as [Hin|Hin].
  - assert (Hhj : In h j).
    { destruct Hh as [->|Hh]; [contradiction|exact Hh]. }
    assert (Hoj : only_commits (t_id (r_t h)) j) by (intros x Hx; apply Ho; simpl; auto).
    specialize (IH HA Hnd' Hhj Hoj). unfold committed in *. simpl.
    destruct (r_kind r) eqn:Ek; try lia.
    destruct (String.eqb_spec (t_parent (r_t r)) (t_id (r_t h))) as [E|E]; [|lia].
    destruct (Hr (or_introl eq_refl)) as (h' & H1 & H2 & _ & _ & _ & _ & H3).
    assert (Hsame : h' = h).
    { apply (NoDup_map_inv_eq (fun r => t_id (r_t r)) j); auto. congruence. }
    subst h'. rewrite E in H3. destruct (H3 Hpos Hoj) as [H4 _]. unfold committed in H4. lia.
  - assert (Hz : committed (t_id (r_t h)) j = 0).
    { clear - HA Hin. induction j as [|x j IH]; [reflexivity|]. destruct HA as [Hx HA].
      unfold committed in *. simpl in *. rewrite IH; [|exact HA|tauto].
      destruct (r_kind x) eqn:Ek; auto. destruct (String.eqb_spec (t_parent (r_t x)) (t_id (r_t h))) as [E|E]; auto.
      destruct (Hx (or_introl eq_refl)) as (h' & H1 & H2 & _). exfalso. apply Hin. right.
      rewrite <- E, <- H2. apply in_map_iff. exists h'. auto. }
    unfold committed in *. simpl. rewrite Hz. destruct (r_kind r) eqn:Ek; try lia.
    destruct (String.eqb_spec (t_parent (r_t r)) (t_id (r_t h))) as [E|E]; [|lia].
    destruct (Hr (or_introl eq_refl)) as (h' & H1 & H2 & _). exfalso. apply Hin.
    rewrite <- E, <- H2. apply in_map_iff. exists h'. auto.
Qed.

Lemma resolve_plain e cur : bln_id e -> resolve_id cfg e cur = Ret (Ok e).
Proof. intros H. unfold resolve_id. rewrite (bln_plain _ H). reflexivity. Qed.
Lemma end_plain e cur : bln_id e -> get_end cfg e cur = get_balance cfg e.
Proof. intros H. unfold get_end. rewrite (bln_plain _ H). reflexivity. Qed.

Definition action_cond (id : string) (t : txn) (P : state -> Prop) : Prop :=
  forall s r, inv cfg s -> invB s -> P s ->
    t_parent (r_t r) = id -> source r = t_src t -> destination r = t_dst t -> t_cur (r_t r) = t_cur t ->
    r_kind r = kind_of t -> (0 < t_precise t -> amount r = t_precise t) ->
    action_in_order (s_txns s) r.

Lemma sB_locked_action n id t P :
  steady id P -> (t_status t = SCommit \/ t_status t = SVoid) -> t_parent t = id ->
  bln_id (t_src t) -> bln_id (t_dst t) -> action_cond id t P ->
  sB n (fun s => owns n (ckey id) s /\ P s) (record_locked cfg t) (fun _ _ => True).
Proof.
  intros HP Hst Hpar Hsrc Hdst Hact. unfold record_locked.
  eapply keep_bind with (M := fun _ => True); [exact HP|simpl; split; [ml|auto]|].
  intros [|] _; [apply safe_ret; auto|].
  rewrite (end_plain _ _ Hsrc), (end_plain _ _ Hdst).
  eapply keep_bindr; [exact HP|apply ml_get_balance| |auto]. intros src Es.
  eapply keep_bindr; [exact HP|apply ml_get_balance| |auto]. intros dst Ed.
  destruct (apply_to_balances _ _ _) as [[[t1 src'] dst']|e] eqn:Ea; [|apply safe_ret; auto].
  destruct (_ =? 0); [apply safe_ret; auto|].
  destruct (apply_keys _ _ _ _ _ _ Ea) as (K1 & K2 & _ & K4 & _ & K6 & K7 & _ & _ & _ & _ & K12).
  simpl in K4, K6, K7.
  match goal with |- sB _ _ (bind (act ?o) _) _ =>
    apply (sB_do n _ o _ _ (fun _ _ => True)); [| | |intros [u|e]; apply safe_ret; auto] end; auto; [|intros x; apply stab_pure].
  intros s Hj Hi [How Hp].
  set (t2 := update_details t1 src' dst').
  assert (Hc : t_parent (clear_terminal t2) = id /\ t_src (clear_terminal t2) = t_src t
     /\ t_dst (clear_terminal t2) = t_dst t /\ t_cur (clear_terminal t2) = t_cur t1
     /\ t_precise (clear_terminal t2) = t_precise t1).
  { assert (Hd : b_id src' = t_src t /\ b_id dst' = t_dst t).
    { destruct K1 as [K1 _], K2 as [K2 _]. split; congruence. }
    destruct Hd as [Hd1 Hd2].
    unfold clear_terminal. destruct (t_status t2); simpl; rewrite ?Hd1, ?Hd2, ?K4; auto. }
  destruct Hc as (C1 & C2 & C3 & C4 & C5).
  assert (Hcur : t_cur t1 = t_cur t).
  { destruct K12 as [->| ->]; [|reflexivity].
    match goal with |- t_cur (apply_precision_txn ?x) = _ => pose proof (apply_precision_fields x) end. simpl in H. tauto. }
  assert (Hpr : 0 < t_precise t -> t_precise t1 = t_precise t).
  { intros Hpos. destruct K12 as [->| ->]; [|reflexivity]. unfold apply_precision_txn, apply_precision. simpl.
    apply Z.ltb_lt in Hpos. rewrite Hpos. reflexivity. }
  assert (Hk : kind_of t1 = kind_of t).
  { unfold kind_of. rewrite K6, K7. destruct Hst as [->| ->]; reflexivity. }
  assert (Hgo : action_in_order (s_txns s) {| r_t := clear_terminal t2; r_kind := kind_of t1 |}).
  { apply Hact; auto; unfold source, destination, amount; simpl; congruence || (intros; rewrite C5; auto). }
  assert (Hown : owns n (ckey (t_parent (clear_terminal t2))) s) by (rewrite C1; exact How).
  assert (Hne : kind_of t1 <> KNone).
  { rewrite Hk. unfold kind_of. destruct Hst as [->| ->]; discriminate. }
  clear - Hgo Hown Hne. cbn [opreB]. destruct (kind_of t1); auto.
Qed.

Lemma lock_set_bln id a b k : bln_id a -> bln_id b -> In k (lock_set [a; b]) -> k <> ckey id.
Proof.
  intros Ha Hb Hk. apply lock_set_in in Hk as [[<-|[<-|[]]] _]; apply bln_ckey; assumption.
Qed.

Lemma sB_record_action n id t P :
  steady id P -> (t_status t = SCommit \/ t_status t = SVoid) -> t_parent t = id ->
  bln_id (t_src t) -> bln_id (t_dst t) -> action_cond id t P ->
  sB n (fun s => owns n (ckey id) s /\ P s) (record_single cfg t) (fun _ _ => True).
Proof.
  intros HP Hst Hpar Hsrc Hdst Hact. unfold record_single.
  rewrite (resolve_plain _ _ Hsrc), (resolve_plain _ _ Hdst).
  cbn [bindr bind].
  eapply keep_bind; [exact HP|apply ml_wait; intros k Hk; eapply lock_set_bln; [| |exact Hk]; assumption|].
  intros [|] _; [|apply safe_ret; auto].
  eapply safe_bind.
  - apply sB_locked_action with (id := id); auto.
  - intros r.
    pose proof (yB_always (bind (unlock_keys (rev (lock_set [t_src t; t_dst t]))) (fun _ => Ret r)) (fun _ => True)) as H.
    apply H. eapply always_bind; [apply at_unlock|]. intros _ _. exact Logic.I.
Qed.

(** What a commit or void knows when it starts to record. *)
Definition knows (id : string) (t : txn) (c : Z) (s : state) : Prop :=
  (hold_row id t s /\ not_voided id s) /\ knows_committed id c s.

Lemma steady_knows id t c : steady id (knows id t c).
Proof.
  apply steady_and; [apply steady_and|]; [apply steady_hold|apply steady_not_voided|apply steady_committed].
Qed.

Lemma knows_bln id t c s : inv cfg s -> invB s -> knows id t c s -> bln_id (t_src t) /\ bln_id (t_dst t).
Proof.
  intros HI [_ HB] [[(r & Hr & _ & _ & E1 & E2 & _) _] _].
  pose proof (i_ends _ _ HI) as He. rewrite Forall_forall in He. destruct (He r Hr) as [H1 H2].
  rewrite E1, E2. split.
  - apply in_map_iff in H1 as (b & Eb & Hb). rewrite <- Eb. auto.
  - apply in_map_iff in H2 as (b & Eb & Hb). rewrite <- Eb. auto.
Qed.

Lemma knows_action id t c t' k :
  t_src t' = t_src t -> t_dst t' = t_dst t -> t_cur t' = t_cur t ->
  kind_of t' = k ->
  (forall left, left = t_precise t - c -> 0 <= left ->
     0 < t_precise t' <= left /\ (k = KVoid -> t_precise t' = left)) ->
  action_cond id t' (knows id t c).
Proof.
  intros E1 E2 E3 Ek Hm s r HI [HA _] [[(h & Hh & I1 & I2 & I3 & I4 & I5 & I6 & _) Hnv] Hc] R1 R2 R3 R4 R5 R6.
  exists h. rewrite R1. split; [exact Hh|]. split; [congruence|]. split; [congruence|]. split; [congruence|].
  split; [congruence|]. split; [exact Hnv|]. intros Hpos Ho.
  pose proof (budget (s_txns s) h HA (i_ids _ _ HI) Hh Hpos) as Hbud. rewrite I1 in Hbud. specialize (Hbud Ho).
  specialize (Hc Ho). destruct (Hm (t_precise t - c) eq_refl) as [M1 M2]; [lia|].
  rewrite R6 by lia. split; [lia|]. intros Hv. rewrite R5, Ek in Hv. rewrite (M2 Hv). lia.
Qed.

Lemma get_row_id id l t : get_row id l = Some t -> t_id t = id.
Proof.
  induction l as [|x r IH]; simpl; [discriminate|].
  destruct (String.eqb_spec (t_id (r_t x)) id) as [E|E]; auto. intros H; inversion H; subst; auto.
Qed.

Lemma parent_void_false id l :
  Forall (fun r => good_kt (r_kind r) (r_t r)) l -> parent_void id l = false ->
  forall v, In v l -> t_parent (r_t v) = id -> r_kind v <> KVoid.
Proof.
  intros HF Hp v Hv E Ek. rewrite Forall_forall in HF. destruct (HF v Hv) as [Hk _]. rewrite Ek in Hk. simpl in Hk.
  assert (H : parent_void id l = true); [|congruence]. unfold parent_void. apply existsb_exists. exists v.
  split; [exact Hv|]. rewrite E, Hk, String.eqb_refl. reflexivity.
Qed.

Lemma sB_fetch n id :
  sB n (fun s => owns n (ckey id) s /\ True) (fetch_inflight id)
    (fun r s => match r with Ok t => owns n (ckey id) s /\ (hold_row id t s /\ not_voided id s) | Err _ => True end).
Proof.
  unfold fetch_inflight.
  apply (keep_act n id (fun _ => True) (OGetTxn id) _ _
          (fun x s => match x with Some t => hold_row id t s | None => True end)).
  - apply steady_pure.
  - ml.
  - intros [t|]; [apply steady_hold|apply steady_pure].
  - intros s HI _. simpl. destruct (get_row id (s_txns s)) as [t|] eqn:E; [|exact Logic.I].
    destruct (get_row_in _ _ _ E) as (r & Hr & Er). pose proof (get_row_id _ _ _ E) as Ei.
    pose proof (i_rows _ _ HI) as Hrows. rewrite Forall_forall in Hrows. destruct (Hrows r Hr) as [_ Hpr].
    exists r. rewrite Er in *. unfold source, destination, amount. rewrite Er. simpl. repeat split; auto.
  - intros [t|]; [|apply safe_ret; auto].
    apply (safe_pre _ _ _ n _ (fun s => owns n (ckey id) s /\ hold_row id t s)); [intros s _ _ (H1 & _ & H2); auto|].
    destruct (negb (is_inflight t)); [apply safe_ret; auto|].
    apply (keep_act n id (hold_row id t) (OVoided id) _ _ (fun x s => x = false -> not_voided id s)).
    + apply steady_hold.
    + ml.
    + intros x s s' l H1 H2 H3 Hx. eapply steady_not_voided; eauto.
    + intros s HI _ Hx. simpl in Hx. exact (parent_void_false _ _ (i_rows _ _ HI) Hx).
    + intros [|]; apply safe_ret; auto. intros s _ _ (H1 & H2 & H3). auto.
Qed.

Lemma sB_known n id (f : txn -> prog (res txn)) (g : txn -> Z -> prog (res txn)) :
  (forall t, f t = bind (act (OCommitted (t_id t))) (g t)) ->
  (forall t c, t_id t = id -> bln_id (t_src t) -> bln_id (t_dst t) -> t_inflight t = false ->
     sB n (fun s => owns n (ckey id) s /\ knows id t c s) (g t c) (fun _ _ => True)) ->
  sB n (fun s => owns n (ckey id) s /\ True) (bindr (fetch_inflight id) f) (fun _ _ => True).
Proof.
  intros Ef Hg. unfold bindr. eapply safe_bind; [apply sB_fetch|].
  intros [t|e]; [|apply safe_ret; auto]. rewrite Ef.
  apply (safe_pre _ _ _ n _ (fun s => (owns n (ckey id) s /\ (hold_row id t s /\ not_voided id s)) /\ (t_id t = id /\ t_inflight t = false))).
  { intros s _ _ (H1 & H2 & H3). split; [auto|]. destruct H2 as (r & _ & _ & H & _ & _ & _ & _ & H' & _). auto. }
  apply safe_pure. intros [Ei Einf].
  apply (keep_act n id (fun s => hold_row id t s /\ not_voided id s) (OCommitted (t_id t)) _ _ (fun c s => knows_committed id c s)).
  - apply steady_and; [apply steady_hold|apply steady_not_voided].
  - ml.
  - intros c. apply steady_committed.
  - intros s HI _ Ho. simpl. rewrite Ei. apply total_is_committed; [apply (i_rows _ _ HI)|exact Ho].
  - intros c.
    apply (safe_pre _ _ _ n _ (fun s => (owns n (ckey id) s /\ knows id t c s) /\ (bln_id (t_src t) /\ bln_id (t_dst t)))).
    { intros s [_ Hj] Hi (H1 & H2 & H3). assert (K : knows id t c s) by (split; auto).
      split; [split; [exact H1|exact K]|]. eapply knows_bln; eauto. }
    apply safe_pure. intros [B1 B2]. apply Hg; auto.
Qed.

Lemma yB_with_lock id (p : prog (res txn)) :
  (forall n, sB n (fun s => owns n (ckey id) s /\ True) p (fun _ _ => True)) ->
  yB (with_lock (ckey id) p) (fun _ => True).
Proof.
  intros Hp n. unfold with_lock.
  apply (sB_do n _ (OLock (ckey id)) _ _ (fun x s => x = true -> owns n (ckey id) s)).
  - intros; exact Logic.I.
  - intros s _ _ _ _. cbn [exec]. unfold owns. destruct (lock_owner (ckey id) (s_locks s)) eqn:E; [discriminate|].
    intros _. cbn [fst s_locks set_locks lock_owner]. rewrite String.eqb_refl. reflexivity.
  - intros x s s' _ _ _ _ [H1 _] H Hx. auto.
  - intros [|]; [|apply safe_ret; auto].
    apply (safe_pre _ _ _ n _ (fun s => owns n (ckey id) s /\ True)); [auto|].
    eapply safe_bind; [apply Hp|]. intros r.
    pose proof (yB_always (bind (act (OUnlock (ckey id))) (fun _ => Ret r)) (fun _ => True)) as H.
    apply H. apply always_act; [fr|]. intros; exact Logic.I.
Qed.

Lemma commit_amount_ok t a left p q :
  commit_amount t a left = Ok (p, q) -> 0 <= left -> 0 < p <= left.
Proof.
  unfold commit_amount. destruct (Z.eqb_spec left 0); [discriminate|].
  destruct (Z.ltb_spec a 0); [discriminate|]. destruct (Z.eqb_spec a 0).
  - intros H1 H2. inversion H1; subst. lia.
  - destruct (Z.ltb_spec (t_precise t) a); [discriminate|]. destruct (Z.ltb_spec left a); [discriminate|].
    intros Hx Hy. inversion Hx; subst. lia.
Qed.

Lemma yB_commit id a ref : yB (commit cfg id a ref) (fun _ => True).
Proof.
  unfold commit. apply yB_with_lock. intros n.
  eapply sB_known; [intros t; reflexivity|]. intros t c Ei B1 B2 Einf. cbv beta.
  destruct (commit_amount t a (t_precise t - c)) as [[p q]|e] eqn:Ec; [|apply safe_ret; auto].
  eapply keep_bind; [apply steady_knows|apply ml_fresh|]. intros nid _.
  eapply keep_bind; [apply steady_knows|apply ml_choose|]. intros nref _.
  apply sB_record_action; auto; [apply steady_knows|].
  eapply knows_action; try reflexivity. intros left -> Hl.
  pose proof (commit_amount_ok _ _ _ _ _ Ec Hl). simpl. split; [lia|discriminate].
Qed.

Lemma yB_void id ref : yB (void cfg id ref) (fun _ => True).
Proof.
  unfold void. apply yB_with_lock. intros n.
  eapply sB_known; [intros t; reflexivity|]. intros t c Ei B1 B2 Einf. cbv beta zeta.
  destruct (Z.eqb_spec (t_precise t - c) 0) as [E|E]; [apply safe_ret; auto|].
  eapply keep_bind; [apply steady_knows|apply ml_fresh|]. intros nid _.
  eapply keep_bind; [apply steady_knows|apply ml_choose|]. intros nref _.
  match goal with |- sB _ _ (record_single _ (apply_precision_txn ?x)) _ =>
    pose proof (apply_precision_fields x) as (F1 & F2 & F3 & F4 & F5 & F6 & F7 & F8 & _) end.
  simpl in F1, F2, F3, F4, F5, F6, F7, F8.
  apply sB_record_action.
  - apply steady_knows.
  - right. rewrite F7. reflexivity.
  - rewrite F2. exact Ei.
  - rewrite F3. exact B1.
  - rewrite F4. exact B2.
  - eapply knows_action; [rewrite F3; reflexivity|rewrite F4; reflexivity|rewrite F6; reflexivity|
      unfold kind_of; rewrite F7; reflexivity|].
    intros left -> Hl. unfold apply_precision_txn, apply_precision. simpl.
    destruct (Z.ltb_spec 0 (t_precise t - c)); simpl; lia.
Qed.

(** ** Queueing *)
Lemma set_status_plain t : plain_status t -> plain_status (set_status t).
Proof.
  intros [H1 H2]. unfold plain_status, set_status.
  destruct (t_sched t); [split; discriminate|]. destruct (t_status t) eqn:E; simpl; rewrite ?E; split; congruence.
Qed.
Lemma set_metadata_plain t : plain_status t -> plain_status (set_metadata t).
Proof.
  intros H. unfold plain_status. destruct (set_metadata_status t) as [E _]. rewrite E. exact H.
Qed.

Lemma at_ensure t (Pt : txn -> Prop) :
  Pt t -> (forall id, Pt (with_keys t id (t_parent t) (t_ref t))) -> always freeB (ensure_id t) Pt.
Proof.
  intros H1 H2. unfold ensure_id. destruct (String.eqb (t_id t) ""); [|exact H1].
  eapply always_bind; [apply at_fresh|]. intros id _. apply H2.
Qed.

Lemma at_ensure_plain t : plain_status t -> always freeB (ensure_id t) plain_status.
Proof. intros H. apply at_ensure; auto. Qed.

Lemma at_prepare t : plain_status t -> always freeB (prepare_for_queue cfg t) (fun x => plain_status (fst x)).
Proof.
  intros H. unfold prepare_for_queue.
  eapply always_bind; [apply at_ensure_plain, set_metadata_plain, set_status_plain, H|]. intros t1 Ht1.
  eapply always_bind; [apply at_get_end|]. intros [src|e] _; [|exact Ht1].
  eapply always_bind; [apply at_get_end|]. intros [dst|e] _; exact Ht1.
Qed.

Lemma at_copy t ref : plain_status t -> always freeB (queue_copy t ref) plain_status.
Proof. intros H. unfold queue_copy. eapply always_bind; [apply at_fresh|]. intros id _. exact H. Qed.

Lemma at_process_single t ref : plain_status t ->
  always freeB (process_single cfg t ref)
    (fun x => plain_status (fst x) /\ match snd x with Ok q => plain_status q | Err _ => True end).
Proof.
  intros H. unfold process_single.
  eapply always_bind with (M := fun x => plain_status (fst x)).
  { destruct (t_sources t); [destruct (t_dests t)|]; try exact H. apply at_prepare, H. }
  intros [t1 [u|e]] Ht1; simpl in Ht1; [|simpl; auto].
  apply always_act; [fr|]. intros [v|e] _; [|simpl; auto].
  eapply always_bind; [apply at_copy; exact Ht1|]. intros q Hq. simpl. auto.
Qed.

Lemma at_process_split legs : Forall plain_status legs -> always freeB (process_split cfg legs) (fun _ => True).
Proof.
  induction legs as [|l r IH]; intros H; cbn [process_split]; [exact Logic.I|].
  inversion H as [|? ? Hl Hr]; subst.
  eapply always_bind; [apply at_prepare, Hl|]. intros [l1 [u|e]] Hl1; [|exact Logic.I].
  apply always_act; [fr|]. intros [v|e] _; [|exact Logic.I].
  eapply always_bind; [apply at_copy; exact Hl1|]. intros q Hq.
  eapply always_bindr with (M := fun _ => True); [|intros; exact Logic.I|auto].
  eapply always_post; [|apply IH; exact Hr]. intros [x|e]; auto.
Qed.

Lemma at_enqueue l : always freeB (enqueue_all l) (fun _ => True).
Proof.
  induction l as [|t r IH]; cbn [enqueue_all]; [exact Logic.I|].
  apply always_act; [fr|]. intros _ _. exact IH.
Qed.

Lemma good_plain t : good_q t -> plain_status t.
Proof. intros [[H|H] _]; unfold plain_status; rewrite H; split; discriminate. Qed.
Lemma raw_plain t : raw t -> plain_status t.
Proof. intros [[H|[H|H]] _]; unfold plain_status; rewrite H; split; discriminate. Qed.

Lemma update_split_plain i legs p r : Forall plain_status legs -> Forall plain_status (update_split i legs p r).
Proof.
  revert i. induction legs as [|l q IH]; intros i H; simpl; [constructor|].
  inversion H; subst. constructor; auto.
Qed.

Lemma at_async_job j : good_job j -> always freeB (async_job cfg j) (fun _ => True).
Proof.
  intros [Ht Hl]. unfold async_job. destruct (j_legs j) as [|l0 ls] eqn:E.
  - eapply always_bind; [apply at_process_single, good_plain, Ht|]. intros [t [q|e]] _; apply at_enqueue.
  - eapply always_bind; [apply at_process_split, update_split_plain; eapply Forall_impl; [|exact Hl]; apply good_plain|].
    intros [qs|e] _; apply at_enqueue.
Qed.

Lemma at_make_legs t i m : plain_status t -> always freeB (make_legs t i m) (Forall plain_status).
Proof.
  intros H. revert i. induction m as [|[who p] r IH]; intros i; cbn [make_legs]; [constructor|].
  eapply always_bind; [apply at_fresh|]. intros id _.
  eapply always_bind; [apply IH|]. intros ls Hls. constructor; auto. destruct (t_sources t); exact H.
Qed.

Lemma at_split e t : plain_status t ->
  always freeB (split_txn e t) (fun r => match r with Ok ls => Forall plain_status ls | Err _ => True end).
Proof.
  intros H. unfold split_txn. destruct (calculate_distributions _ _ _ _ _); [|exact Logic.I].
  eapply always_bind; [apply at_make_legs; exact H|]. intros ls Hls. exact Hls.
Qed.

Lemma at_queue_async t legs ref id : always freeB (queue_async t legs ref id) (fun _ => True).
Proof. unfold queue_async. apply always_act; [fr|]. intros; exact Logic.I. Qed.

Lemma at_queue_nosplit t : plain_status t -> always freeB (queue_nosplit cfg t) (fun _ => True).
Proof.
  intros H. unfold queue_nosplit.
  eapply always_bind; [apply at_ensure_plain, set_metadata_plain, H|]. intros t1 Ht1.
  apply set_status_plain in Ht1. set (t2 := set_status t1) in *.
  destruct (calculate_distributions _ _ _ _ _); [|exact Logic.I].
  destruct (t_skipq t2); [|apply at_queue_async].
  eapply always_bindr with (M := fun _ => True); [|intros; exact Logic.I|auto].
  eapply always_post; [|apply at_record_single; exact Ht1]. intros [x|e]; auto.
Qed.

Lemma at_with_lock k {A} (p : prog (res A)) :
  always freeB p (fun _ => True) -> always freeB (with_lock k p) (fun _ => True).
Proof.
  intros Hp. unfold with_lock. apply always_act; [fr|]. intros [|] _; [|exact Logic.I].
  eapply always_bind; [exact Hp|]. intros r _. apply always_act; [fr|]. intros; exact Logic.I.
Qed.

Lemma at_refund id skipq upd : always freeB (refund cfg id skipq upd) (fun _ => True).
Proof.
  unfold refund. apply at_with_lock.
  eapply always_bindr with (M := fun _ => True); [|intros t _|auto].
  - unfold refund_original. apply always_act; [fr|]. intros [t|] _; [exact Logic.I|].
    apply always_act; [fr|]. intros [t|] _; exact Logic.I.
  - assert (Hgo : always freeB (bind (act (ORefunded (t_id t) (t_src t) (t_dst t))) (fun done =>
        if done then Ret (Err EAlreadyRefunded)
        else bind (fresh "txn") (fun nid => queue_nosplit cfg (prepare_refund t nid skipq upd)))) (fun _ => True)).
    { apply always_act; [fr|]. intros [|] _; [exact Logic.I|].
      eapply always_bind; [apply at_fresh|]. intros nid _.
      apply at_queue_nosplit. split; discriminate. }
    destruct (t_status t); try exact Logic.I; exact Hgo.
Qed.

Lemma yB_for_each {A B} (f : A -> prog B) l :
  (forall x, yB (f x) (fun _ => True)) -> yB (for_each f l) (fun _ => True).
Proof.
  intros Hf. induction l as [|x r IH]; cbn [for_each]; [apply yB_ret; exact Logic.I|].
  eapply yB_bind; [apply Hf|]. intros y _. eapply yB_bind; [exact IH|]. intros ys _. apply yB_ret; exact Logic.I.
Qed.

Lemma yB_inflight_action p v a i : yB (inflight_action cfg p v a i) (fun _ => True).
Proof.
  unfold inflight_action. apply yB_act; [fr|]. intros legs _. apply yB_for_each. intros l.
  destruct (negb (is_inflight l)); [apply yB_ret; exact Logic.I|]. destruct v; [apply yB_void|apply yB_commit].
Qed.

Lemma yB_refund_batch p s : yB (refund_batch cfg p s) (fun _ => True).
Proof.
  unfold refund_batch. apply yB_act; [fr|]. intros ts _. apply yB_for_each. intros t. apply yB_always, at_refund.
Qed.

Lemma yB_rollback b i : yB (rollback_batch cfg b i) (fun _ => True).
Proof. unfold rollback_batch. destruct i; [apply yB_inflight_action|apply yB_refund_batch]. Qed.

Lemma yB_record_legs legs id : Forall plain_status legs -> yB (record_legs cfg legs id) (fun _ => True).
Proof.
  induction legs as [|l r IH]; intros H; cbn [record_legs]; [apply yB_ret; exact Logic.I|].
  inversion H; subst. eapply yB_bind; [apply yB_single; assumption|].
  intros [x|e] _; [apply IH; assumption|]. destruct (t_atomic l); [|apply yB_ret; exact Logic.I].
  eapply yB_bind; [apply yB_rollback|]. intros _ _. apply yB_ret; exact Logic.I.
Qed.

Lemma yB_queue_transaction e t : plain_status t -> yB (queue_transaction cfg e t) (fun _ => True).
Proof.
  intros H. unfold queue_transaction.
  assert (Hsplit : yB (
    bind (ensure_id (set_metadata t)) (fun t0 =>
    let t1 := set_status t0 in
    bindr (split_txn e t1) (fun legs =>
    if t_skipq t1 then
      bindr (match legs with
             | [] => bindr (record_single cfg t1) (fun _ => Ret (Ok tt))
             | _ => record_legs cfg legs (t_id t1)
             end) (fun _ => Ret (Ok (with_status t1 (if t_inflight t1 then SInflight else SApplied))))
    else queue_async t1 legs (t_ref t) (t_id t1)))) (fun _ => True)).
  { eapply yB_bind; [apply yB_always, at_ensure_plain, set_metadata_plain, H|]. intros t0 Ht0.
    apply set_status_plain in Ht0. cbv zeta. set (t1 := set_status t0) in *.
    eapply yB_bindr; [apply yB_always, at_split; exact Ht0| |auto]. intros legs Hl.
    destruct (t_skipq t1); [|apply yB_always, at_queue_async].
    eapply yB_bindr with (M := fun _ => True); [|intros; apply yB_ret; exact Logic.I|auto].
    destruct legs as [|l0 ls].
    - eapply yB_bindr with (M := fun _ => True); [|intros; apply yB_ret; exact Logic.I|auto].
      eapply yB_post; [|apply yB_single, Ht0]. intros [x|er]; auto.
    - eapply yB_post; [|apply yB_record_legs; exact Hl]. intros [x|er]; auto. }
  destruct (t_sources t); [destruct (t_dests t)|]; try exact Hsplit. apply yB_always, at_queue_nosplit; exact H.
Qed.

Lemma yB_process_bulk e ts b i s : Forall plain_status ts -> yB (process_bulk cfg e ts b i s) (fun _ => True).
Proof.
  induction ts as [|t r IH]; intros H; cbn [process_bulk]; [apply yB_ret; exact Logic.I|].
  inversion H; subst. eapply yB_bind; [apply yB_queue_transaction; assumption|].
  intros [x|er] _; [apply IH; assumption|apply yB_ret; exact Logic.I].
Qed.

Lemma yB_bulk e ts a i s : Forall plain_status ts -> yB (bulk cfg e ts a i s) (fun _ => True).
Proof.
  intros H. unfold bulk. eapply yB_bind; [apply yB_always, at_fresh|]. intros b _.
  eapply yB_bind; [apply yB_process_bulk; exact H|].
  intros [x|er] _; [apply yB_ret; exact Logic.I|]. destruct a; [|apply yB_ret; exact Logic.I].
  eapply yB_bind; [apply yB_rollback|]. intros _ _. apply yB_ret; exact Logic.I.
Qed.

(** ** The worker *)
Lemma yB_reject t : yB (reject cfg t) (fun _ => True).
Proof.
  unfold reject. apply yB_act; [fr|]. intros [x|e] _; [|apply yB_ret; exact Logic.I].
  change (t_atomic (with_status t SRejected)) with (t_atomic t). destruct (t_atomic t); [|apply yB_ret; exact Logic.I].
  destruct (String.eqb _ _); [apply yB_ret; exact Logic.I|].
  eapply yB_bind; [apply yB_rollback|]. intros _ _. apply yB_ret; exact Logic.I.
Qed.

Lemma at_copies sibs : Forall (fun t => t_status t = SQueued) sibs -> always freeB (copies sibs) (Forall plain_status).
Proof.
  induction sibs as [|x r IH]; intros H; cbn [copies]; [constructor|]. inversion H as [|? ? Hx Hr]; subst.
  destruct (can_coalesce_original (restore_flags x)); [|apply IH; exact Hr].
  eapply always_bind with (M := plain_status).
  { apply at_copy. unfold plain_status. simpl. rewrite Hx. split; discriminate. }
  intros c Hc. eapply always_bind; [apply IH; exact Hr|]. intros cs Hcs. constructor; auto.
Qed.

Lemma at_build_batch t scs sel : plain_status t -> always freeB (build_batch t scs sel) (Forall plain_status).
Proof.
  intros H. induction scs as [|sc r IH]; cbn [build_batch]; [constructor|].
  apply always_act; [fr|]. intros sibs Hs. apply possible_siblings in Hs.
  eapply always_bind; [apply at_copies; exact Hs|]. intros [|c cs] Hcs; [exact IH|]. constructor; auto.
Qed.

Lemma at_load_each ids : always freeB (load_each cfg ids) (fun _ => True).
Proof.
  induction ids as [|i r IH]; cbn [load_each]; [exact Logic.I|].
  eapply always_bindr with (M := fun _ => True); [|intros b _|auto].
  { eapply always_post; [|apply at_get_balance]. intros [x|]; auto. }
  eapply always_bindr with (M := fun _ => True); [|intros; exact Logic.I|auto].
  eapply always_post; [|exact IH]. intros [x|]; auto.
Qed.
Lemma at_load ids : always freeB (load_balances cfg ids) (fun _ => True).
Proof.
  unfold load_balances. destruct (c_queued cfg); [apply at_load_each|].
  apply always_act; [fr|]. intros bs _. destruct (forallb _ _); exact Logic.I.
Qed.

Lemma member_plain t m k t' ob m' :
  plain_status t -> prepare_member t m = Ok (k, t', ob, m') -> k = KPost \/ k = KHold.
Proof.
  intros H. unfold prepare_member. destruct (update_shared _ _) as [[f1 m1]|]; [|discriminate].
  destruct (get_bal _ _); [|discriminate]. destruct (get_bal _ _); [|discriminate].
  destruct (_ =? 0); [discriminate|]. intros E. inversion E; subst. apply kind_plain.
  destruct H as [H1 H2]. unfold plain_status. simpl. unfold final_status.
  destruct (t_inflight t); [split; discriminate|]. destruct (t_status t); try contradiction; split; discriminate.
Qed.

Lemma at_prepare_members ts ex seen m : Forall plain_status ts ->
  always freeB (prepare_members cfg ts ex seen m)
    (fun r => match r with Ok (ks, _, _) => Forall (fun x => fst x = KPost \/ fst x = KHold) ks | Err _ => True end).
Proof.
  revert seen m. induction ts as [|t r IH]; intros seen m H; cbn [prepare_members]; [constructor|].
  inversion H as [|? ? Ht Hr]; subst.
  destruct (String.eqb (t_ref t) ""); [exact Logic.I|].
  destruct (mem_string _ _ || mem_string _ _); [exact Logic.I|].
  eapply always_bind with (M := fun _ => True).
  { destruct (c_refcheck cfg); [exact Logic.I|]. simpl. split; [fr|auto]. }
  intros [|] _; [exact Logic.I|].
  destruct (prepare_member t m) as [[[[k t'] ob] m']|e] eqn:Em; [|exact Logic.I].
  eapply always_bindr with (M := fun x => let '(ks, _, _) := x in Forall (fun x => fst x = KPost \/ fst x = KHold) ks).
  - eapply always_post; [|apply IH; exact Hr]. intros [[[ks obs] m'']|e]; auto.
  - intros [[ks obs] m''] Hk. constructor; auto. eapply member_plain; eauto.
  - auto.
Qed.

Lemma at_batch_locked ids ts : Forall plain_status ts -> always freeB (batch_locked cfg ids ts) (fun _ => True).
Proof.
  intros H. unfold batch_locked.
  eapply always_bindr with (M := fun _ => True); [|intros m _|auto].
  { eapply always_post; [|apply at_load]. intros [x|]; auto. }
  eapply always_bind with (M := fun _ => True).
  { destruct (c_refcheck cfg); [|exact Logic.I]. simpl. split; [fr|auto]. }
  intros ex _.
  eapply always_bindr with (M := fun x => let '(ks, _, _) := x in Forall (fun x => fst x = KPost \/ fst x = KHold) ks).
  - eapply always_post; [|apply at_prepare_members; exact H]. intros [[[ks obs] m'']|e]; auto.
  - intros [[ks obs] m'] Hk. simpl. split; [|auto]. intros n s. exact Hk.
  - auto.
Qed.

Lemma at_persist_batch ts : Forall plain_status ts -> always freeB (persist_queued_batch cfg ts) (fun _ => True).
Proof.
  intros H. unfold persist_queued_batch. destruct ts as [|t r]; [exact Logic.I|].
  destruct (negb _); [exact Logic.I|].
  eapply always_bind; [apply at_wait|]. intros [|] _; [|exact Logic.I].
  eapply always_bind; [apply at_batch_locked; exact H|]. intros x _.
  eapply always_bind; [apply at_unlock|]. intros _ _. exact Logic.I.
Qed.

Lemma at_try_batch f sel t : plain_status t -> always freeB (try_batch cfg f sel t) (fun _ => True).
Proof.
  intros H. unfold try_batch. destruct (negb (can_coalesce t)); [exact Logic.I|].
  destruct (negb _); [exact Logic.I|].
  eapply always_bind; [apply at_build_batch; exact H|]. intros [|b bs] Hb; [exact Logic.I|].
  eapply always_bind; [apply at_persist_batch; exact Hb|]. intros r _. exact Logic.I.
Qed.

Lemma at_process_queued h sel t : plain_status t -> always freeB (process_queued cfg h sel t) (fun _ => True).
Proof.
  intros H. unfold process_queued. eapply always_bind; [apply at_try_batch; exact H|].
  intros [|] _; [exact Logic.I|]. apply at_record_single; exact H.
Qed.

Lemma yB_worker h s1 s2 r t : plain_status t -> yB (worker cfg h s1 s2 r t) (fun _ => True).
Proof.
  intros H. unfold worker. eapply yB_bind; [apply yB_always, at_try_batch, H|]. intros h1 _.
  eapply yB_bind with (M := fun _ => True).
  { destruct h; [apply yB_always, at_try_batch, H|apply yB_ret; exact Logic.I]. }
  intros [|] _; [apply yB_ret; exact Logic.I|].
  eapply yB_bind; [apply yB_always, at_process_queued; exact H|].
  intros [x|e] _; [apply yB_ret; exact Logic.I|].
  destruct (worker_verdict cfg e r); try (apply yB_ret; exact Logic.I).
  eapply yB_bind; [apply yB_reject|]. intros [x|e'] _; apply yB_ret; exact Logic.I.
Qed.

Lemma yB_recover h sel ex sk id : yB (recover cfg h sel ex sk id) (fun _ => True).
Proof.
  unfold recover. apply yB_act; [fr|]. intros ts Hts. apply possible_siblings in Hts.
  destruct ts as [|t r]; [apply yB_ret; exact Logic.I|]. inversion Hts as [|? ? Hs _]; subst.
  assert (Hg : plain_status (restore_flags (apply_precision_txn t))).
  { destruct (apply_precision_fields t) as (_ & _ & _ & _ & _ & _ & F7 & _).
    unfold plain_status. simpl. rewrite F7, Hs. split; discriminate. }
  set (t1 := restore_flags (apply_precision_txn t)) in *.
  assert (Hend : forall r : res txn, yB (match r with
      | Ok _ | Err EDupReference => Ret (Ok tt) | Err e => Ret (Err e) end) (fun _ : res unit => True)).
  { intros [x|e]; [|destruct e]; apply yB_ret; exact Logic.I. }
  destruct ex.
  + eapply yB_bind; [apply yB_always, at_copy; exact Hg|]. intros c Hc.
    eapply yB_bind; [apply yB_reject|]. intros r0 _. apply Hend.
  + destruct (t_atomic t1 && sk); [apply yB_ret; exact Logic.I|].
    eapply yB_bind; [apply yB_always, at_copy; exact Hg|]. intros c Hc.
    eapply yB_bind; [apply yB_always, at_process_queued; exact Hc|]. intros r0 _. apply Hend.
Qed.

Lemma at_new_balance i c r t : always freeB (new_balance i c r t) (fun _ => True).
Proof.
  unfold new_balance. eapply always_bind; [apply at_fresh|]. intros id (u & ->).
  apply always_act; [intros n s; exists u; reflexivity|]. intros [x|e] _; exact Logic.I.
Qed.

Lemma yB_done {A} (p : prog A) : yB p (fun _ => True) -> yB (done p) (fun _ => True).
Proof. intros H. unfold done. eapply yB_bind; [exact H|]. intros _ _. apply yB_ret; exact Logic.I. Qed.

Lemma yB_request r : good_request r -> yB (prog_of cfg r) (fun _ => True).
Proof.
  intros H. destruct r; simpl in *.
  - apply yB_done, yB_queue_transaction, raw_plain, H.
  - apply yB_done, yB_bulk. eapply Forall_impl; [|exact H]. apply raw_plain.
  - apply yB_done, yB_commit.
  - apply yB_done, yB_void.
  - apply yB_done, yB_inflight_action.
  - apply yB_done, yB_always, at_refund.
  - apply yB_done, yB_refund_batch.
  - apply yB_done, yB_always, at_new_balance.
  - apply yB_done, yB_always. simpl. split; [fr|auto].
  - apply yB_done, yB_always. simpl. split; [fr|auto].
  - apply yB_done, yB_worker, good_plain, H.
  - apply yB_always, at_async_job, H.
  - apply yB_done, yB_recover.
Qed.
End B.

Lemma expire_relB y k n p :
  polite y (EExpire k) -> nth_error (y_thr y) n = Some p -> p <> Ret tt ->
  relB n (y_st y) (set_locks (y_st y) (del_lock k (s_locks (y_st y)))).
Proof.
  intros Hp Hn Hne. split; [|exists []; split; auto].
  unfold owns. simpl. intros k' Hk'. destruct (string_dec k k') as [->|Hk]; [|rewrite owner_del_other; auto].
  exfalso. simpl in Hp. rewrite Hk' in Hp. destruct Hp as [Hp|Hp]; congruence.
Qed.

Theorem reachable_invB cfg (ok : sys -> event -> Prop) u y :
  (forall y e, ok y e -> no_recon_flag y e /\ polite y e) ->
  steps cfg ok (init_sys u) y -> inv cfg (y_st y) /\ invB (y_st y).
Proof.
  intros Hok Hs.
  set (I := fun s => inv cfg s /\ invB s).
  set (R := fun m s s' => rel m s s' /\ relB m s s').
  assert (H : sys_inv tt_inv I R y).
  { assert (H0 : sys_inv tt_inv I R (init_sys u)).
    { split; [exact Logic.I|]. split; [split; [apply inv_init|split; [exact Logic.I|intros b []]]|].
      intros n p Hn. destruct n; discriminate. }
    refine (adequacy tt_inv I R cfg ok _ _ _ _ _ _ H0 Hs).
    - intros s; exact Logic.I.
    - intros y0 r n y' (_ & [HI HB] & _) Ho Hst.
      pose proof (start_good cfg y0 r y' HI (proj1 (Hok _ _ Ho)) Hst) as Hg.
      pose proof (request_yields cfg r Hg n (fun _ => True) (lasting_pure True)) as H1.
      pose proof (yB_request cfg r Hg n) as H2.
      pose proof (safe_layer _ _ _ _ _ n _ _ _ _ _ H1 H2) as H3.
      exists (fun _ => True). split; [exact Logic.I|]. split; [intros ? ? ? ? ? ? ? ?; exact Logic.I|].
      refine (safe_pre _ _ _ n _ _ _ _ _ (safe_post _ _ _ n _ _ _ _ _ H3)).
      + intros s _ _ _. split; exact Logic.I.
      + intros a s _ _ _. exact Logic.I.
    - intros s j l1 l2 [HI HB] Hj. split; [split; [eapply inv_jobs; eauto|exact HB]|].
      intros n. split; [apply evolves_frame; reflexivity|apply relB_frame; reflexivity].
    - intros y0 k (_ & [HI HB] & _) Ho. split; [split; [apply inv_locks; exact HI|exact HB]|].
      intros n p Hn Hne. split; [apply evolves_frame; reflexivity|].
      eapply expire_relB; eauto. apply (Hok _ _ Ho). }
  apply H.
Qed.
