(** Every modelled request keeps the money invariant under arbitrary
    interleaving, crashes and lock expiry. *)
From Coq Require Import ZArith QArith List String Bool Lia Permutation.
From Verif Require Import Base MoneyModel SplitModel BalanceModel LedgerModel LedgerProgs
  ConcModel ConcLogic LedgerSpec LedgerInv LedgerPure.
Import ListNotations.
Open Scope Z_scope.

(** ** Small facts about lists of keys *)
Lemma insert_key_perm k l : Permutation (insert_key k l) (k :: l).
Proof.
  induction l as [|x r IH]; simpl; [reflexivity|].
  destruct (String.compare k x); try reflexivity.
  rewrite IH. apply perm_swap.
Qed.

Lemma sort_keys_perm l : Permutation (fold_right insert_key [] l) l.
Proof.
  induction l as [|x r IH]; simpl; [reflexivity|].
  rewrite insert_key_perm, IH. reflexivity.
Qed.

Lemma lock_set_nodup l : NoDup (lock_set l).
Proof.
  unfold lock_set. eapply Permutation_NoDup; [symmetry; apply sort_keys_perm|]. apply NoDup_nodup.
Qed.

Lemma lock_set_in l k : In k (lock_set l) <-> In k l /\ k <> EmptyString.
Proof.
  unfold lock_set. split.
  - intros H. eapply Permutation_in in H; [|apply sort_keys_perm].
    apply nodup_In in H. apply filter_In in H as [H1 H2]. split; auto.
    intros ->. discriminate.
  - intros [H1 H2]. eapply Permutation_in; [symmetry; apply sort_keys_perm|].
    apply nodup_In. apply filter_In. split; auto.
    destruct (String.eqb_spec k EmptyString); [contradiction|reflexivity].
Qed.

Section Safe.
Variable cfg : config.
Local Notation inv := (inv cfg).
Local Notation sf := (sf cfg).
Local Notation snap := (snap cfg).

Lemma sf_pre {A} n (P P' : state -> Prop) (p : prog A) Q :
  (forall s, P s -> P' s) -> sf n P' p Q -> sf n P p Q.
Proof. intros H. apply safe_pre. auto. Qed.

Lemma sf_post {A} n (P : state -> Prop) (p : prog A) (Q Q' : A -> state -> Prop) :
  (forall a s, Q a s -> Q' a s) -> sf n P p Q -> sf n P p Q'.
Proof. intros H. apply safe_post. auto. Qed.

Lemma sf_bind {A B} n (P : state -> Prop) (p : prog A) (f : A -> prog B) M Q :
  sf n P p M -> (forall a, sf n (M a) (f a) Q) -> sf n P (bind p f) Q.
Proof. apply safe_bind. Qed.

Lemma sf_ret {A} n (P : state -> Prop) (a : A) (Q : A -> state -> Prop) :
  (forall s, P s -> Q a s) -> sf n P (Ret a) Q.
Proof. intros H s _ _ HP. auto. Qed.

Lemma sf_pure {A} n (P : state -> Prop) (c : Prop) (p : prog A) Q :
  (c -> sf n P p Q) -> sf n (fun s => P s /\ c) p Q.
Proof. apply safe_pure. Qed.

Lemma sf_act {A} n P o (f : resp o -> prog A) Q :
  lasting P -> (forall s, inv s -> P s -> opre cfg o s) ->
  (forall x, sf n (fun s => P s /\ rfact cfg o x s) (f x) Q) -> sf n P (bind (act o) f) Q.
Proof. intros. simpl. apply sf_do; auto. Qed.

(** Operations that need nothing. *)
Definition free (o : op) : Prop := forall s, opre cfg o s.
Fixpoint all_ops {A} (ok : op -> Prop) (p : prog A) : Prop :=
  match p with Ret _ => True | Do o k => ok o /\ forall x, all_ops ok (k x) end.

Lemma all_ops_bind {A B} ok (p : prog A) (f : A -> prog B) :
  all_ops ok p -> (forall x, all_ops ok (f x)) -> all_ops ok (bind p f).
Proof. intros Hp Hf. induction p as [a|o k IH]; simpl in *; auto. destruct Hp. split; auto. Qed.

Lemma sf_free {A} n P (p : prog A) : lasting P -> all_ops free p -> sf n P p (fun _ => P).
Proof.
  intros HP. induction p as [a|o k IH]; simpl all_ops; intros H.
  - apply sf_ret. auto.
  - destruct H as [Ho Hk]. apply sf_do; auto.
    intros x. eapply sf_pre; [|apply IH; auto]. intros s [H _]. exact H.
Qed.

Lemma unlock_free ks : all_ops free (unlock_keys ks).
Proof. induction ks as [|k r IH]; simpl; auto. split; auto. intros s. exact Logic.I. Qed.
Lemma lock_free ks got : all_ops free (lock_keys ks got).
Proof.
  revert got. induction ks as [|k r IH]; intros got; simpl; auto. split; [intros s; exact Logic.I|].
  intros [|]; auto. apply all_ops_bind; [apply unlock_free|simpl; auto].
Qed.
Lemma wait_free n ks : all_ops free (wait_lock n ks).
Proof.
  induction n as [|n IH]; simpl; (apply all_ops_bind; [apply lock_free|intros [|]; simpl; auto]).
Qed.
Lemma fresh_free p : all_ops free (fresh p).
Proof. simpl. split; auto. intros s; exact Logic.I. Qed.
Lemma choose_ref_free r : all_ops free (choose_ref r).
Proof. unfold choose_ref. destruct (String.eqb r ""); [apply fresh_free|simpl; auto]. Qed.

Ltac last_tac :=
  repeat first [assumption | apply lasting_pure | apply lasting_snap | apply lasting_snaps
               | apply lasting_rfact | apply lasting_and].

(** Frame specifications: [p] keeps any lasting fact and adds [post]. *)
Definition adds {A} (p : prog A) (post : A -> state -> Prop) : Prop :=
  forall n P, lasting P -> sf n P p (fun x s => P s /\ post x s).

Lemma adds_bind {A B} (p : prog A) post (f : A -> prog B) n P Q :
  adds p post -> lasting P -> (forall x, sf n (fun s => P s /\ post x s) (f x) Q) -> sf n P (bind p f) Q.
Proof. intros Hp HP Hf. eapply sf_bind; [apply Hp; exact HP|exact Hf]. Qed.

Lemma adds_bindr {A B} (p : prog (res A)) post (f : A -> prog (res B)) n P (Q : res B -> state -> Prop) :
  adds p (fun r s => match r with Ok a => post a s | Err _ => True end) -> lasting P ->
  (forall x, sf n (fun s => P s /\ post x s) (f x) Q) ->
  (forall e s, P s -> Q (Err e) s) -> sf n P (bindr p f) Q.
Proof.
  intros Hp HP Hf He. unfold bindr. eapply adds_bind; [exact Hp|exact HP|].
  intros [x|e]; [apply Hf|]. apply sf_ret. intros s [H _]. auto.
Qed.

Lemma adds_free {A} (p : prog A) : all_ops free p -> adds p (fun _ _ => True).
Proof.
  intros H n P HP. eapply sf_post; [|apply sf_free; auto]. intros a s Hs. split; [exact Hs|exact Logic.I].
Qed.

Lemma adds_weaken {A} (p : prog A) (post post' : A -> state -> Prop) :
  (forall x s, post x s -> post' x s) -> adds p post -> adds p post'.
Proof.
  intros H Hp n P HP. eapply sf_post; [|apply Hp; exact HP]. intros a s [H1 H2]. split; auto.
Qed.

Lemma adds_ret {A} (a : A) (post : A -> state -> Prop) : (forall s, post a s) -> adds (Ret a) post.
Proof. intros H n P HP. apply sf_ret. auto. Qed.

(** Value-only specifications: no state in the postcondition. *)
Definition yields {A} (p : prog A) (post : A -> Prop) : Prop := adds p (fun x _ => post x).

Lemma yields_bind {A B} (p : prog A) (post : A -> Prop) (f : A -> prog B) (post' : B -> Prop) :
  yields p post -> (forall x, post x -> yields (f x) post') -> yields (bind p f) post'.
Proof.
  intros Hp Hf n P HP. eapply adds_bind; [exact Hp|exact HP|].
  intros x. apply (sf_pure n P (post x)). intros Hx. apply (Hf x Hx). exact HP.
Qed.

Lemma yields_bindr {A B} (p : prog (res A)) (post : A -> Prop) (f : A -> prog (res B)) (post' : res B -> Prop) :
  yields p (fun r => match r with Ok a => post a | Err _ => True end) ->
  (forall x, post x -> yields (f x) post') -> (forall e, post' (Err e)) -> yields (bindr p f) post'.
Proof.
  intros Hp Hf He. unfold bindr. eapply yields_bind; [exact Hp|].
  intros [x|e] Hx; [apply Hf; exact Hx|]. apply adds_ret. auto.
Qed.

Lemma yields_ret {A} (a : A) (post : A -> Prop) : post a -> yields (Ret a) post.
Proof. intros H. apply adds_ret. auto. Qed.

Lemma yields_free {A} (p : prog A) : all_ops free p -> yields p (fun _ => True).
Proof. apply adds_free. Qed.

Lemma yields_weaken {A} (p : prog A) (post post' : A -> Prop) :
  (forall x, post x -> post' x) -> yields p post -> yields p post'.
Proof. intros H. apply adds_weaken. auto. Qed.

Lemma yields_any {A} (p : prog A) (post : A -> Prop) : yields p post -> yields p (fun _ => True).
Proof. apply yields_weaken. auto. Qed.

(** An operation whose precondition holds outright. *)
Lemma yields_act {A} o (f : resp o -> prog A) (post : A -> Prop) :
  (forall s, opre cfg o s) -> (forall x, yields (f x) post) -> yields (bind (act o) f) post.
Proof.
  intros Ho Hf n P HP. apply sf_act; auto. intros x.
  eapply sf_pre; [|apply (Hf x); exact HP]. intros s [H _]; exact H.
Qed.

Lemma yields_act_pure {A} o (f : resp o -> prog A) (post : A -> Prop) (c : resp o -> Prop) :
  (forall s, opre cfg o s) -> (forall x s, rfact cfg o x s -> c x) ->
  (forall x, c x -> yields (f x) post) -> yields (bind (act o) f) post.
Proof.
  intros Ho Hc Hf n P HP. apply sf_act; auto. intros x.
  eapply sf_pre with (P' := fun s => P s /\ c x); [intros s [H1 H2]; split; [exact H1|eapply Hc; exact H2]|].
  apply (sf_pure n P (c x)). intros Hx. apply (Hf x Hx). exact HP.
Qed.

(** ** Reading balances *)
Definition snap_post (r : res balance) (s : state) : Prop :=
  match r with Ok b => snap b s | Err _ => True end.

Lemma get_balance_adds id :
  adds (get_balance cfg id) (fun r s => match r with Ok b => snap b s /\ b_id b = id | Err _ => True end).
Proof.
  intros n P HP. unfold get_balance. apply sf_act; [exact HP|intros; exact Logic.I|].
  intros [b|]; simpl rfact.
  - destruct (c_queued cfg) eqn:Eq.
    + apply sf_act.
      * intros s s' He [H1 [H2 H3]]. split; [eapply HP; eauto|]. split; auto. eapply snap_evolves; eauto.
      * intros; exact Logic.I.
      * intros q. apply sf_ret. simpl. intros s [[H1 (H2 & H3 & H4)] H5]. split; [exact H1|]. split; [|exact H3].
        destruct H2 as [(b0 & B1 & B2 & B3 & B4) _]. split; simpl; [|auto].
        exists b0. repeat split; auto.
    + apply sf_ret. intros s [H1 (H2 & H3 & _)]. auto.
  - apply sf_ret. intros s [H _]. auto.
Qed.

Lemma get_balance_snap id : adds (get_balance cfg id) snap_post.
Proof. eapply adds_weaken; [|apply get_balance_adds]. intros [b|e] s H; simpl; auto. apply H. Qed.

Lemma get_or_create_adds ind cur : adds (get_or_create cfg ind cur) snap_post.
Proof.
  assert (Hfin : forall n P b, lasting P ->
     sf n (fun s => P s /\ (snap b s /\ b_queued b = None))
        (if c_queued cfg then get_balance cfg (b_id b) else Ret (Ok b)) (fun r s => P s /\ snap_post r s)).
  { intros n P b HP. destruct (c_queued cfg).
    - eapply sf_pre; [|apply get_balance_snap; exact HP]. intros s [H _]; exact H.
    - apply sf_ret. intros s [H1 [H2 _]]. split; auto. }
  intros n P HP. unfold get_or_create. apply sf_act; [exact HP|intros; exact Logic.I|].
  intros [b|]; simpl rfact; [apply Hfin; exact HP|].
  eapply adds_bind; [apply adds_free, fresh_free|apply lasting_and; [exact HP|apply lasting_pure]|].
  intros id. apply sf_act; [last_tac|intros; reflexivity|].
  intros r.
  assert (Hagain : sf n P (bind (act (OGetInd ind cur)) (fun b => match b with
             | Some b => if c_queued cfg then get_balance cfg (b_id b) else Ret (Ok b)
             | None => Ret (Err EBalanceNotFound) end)) (fun r s => P s /\ snap_post r s)).
  { apply sf_act; [exact HP|intros; exact Logic.I|]. intros [b|]; simpl rfact; [apply Hfin; exact HP|].
    apply sf_ret. intros s [H _]. split; [exact H|exact Logic.I]. }
  eapply sf_pre with (P' := P); [intros s H; apply H|].
  destruct r as [u|e]; [exact Hagain|].
  destruct e; try exact Hagain; apply sf_ret; intros s H; split; auto; exact Logic.I.
Qed.

Lemma get_end_adds e cur : adds (get_end cfg e cur) snap_post.
Proof. unfold get_end. destruct (starts_with_at e); [apply get_or_create_adds|apply get_balance_snap]. Qed.

Lemma resolve_id_yields e cur : yields (resolve_id cfg e cur) (fun _ => True).
Proof.
  unfold resolve_id. destruct (starts_with_at e); [|apply yields_ret; exact Logic.I].
  eapply yields_bindr with (post := fun _ => True); [|intros; apply yields_ret; exact Logic.I|auto].
  eapply adds_weaken; [|apply get_or_create_adds]. intros [b|e'] s _; exact Logic.I.
Qed.

(** ** Posting *)
Lemma good_rec_ends t a b : good_rec t -> good_rec (with_ends t a b).
Proof. unfold good_rec. simpl. auto. Qed.

Lemma record_locked_yields t : good_rec t -> yields (record_locked cfg t) (fun _ => True).
Proof.
  intros Hg. unfold record_locked. apply yields_act; [intros; exact Logic.I|].
  intros [|]; [apply yields_ret; exact Logic.I|].
  intros n P HP.
  eapply adds_bindr with (post := snap); [apply get_end_adds|exact HP| |intros e s H; auto].
  intros src.
  eapply adds_bindr with (post := snap); [apply get_end_adds| | |intros e s [H _]; auto].
  { apply lasting_and; [exact HP|apply lasting_snap]. }
  intros dst.
  destruct (apply_to_balances (with_ends t (b_id src) (b_id dst)) src dst) as [[[t1 src'] dst']|e] eqn:Ea;
    [|apply sf_ret; intros s [[H _] _]; auto].
  destruct (t_precise (update_details t1 src' dst') =? 0) eqn:Ez; [apply sf_ret; intros s [[H _] _]; auto|].
  apply Z.eqb_neq in Ez. simpl in Ez.
  apply sf_act.
  - last_tac.
  - intros s HI [[_ H1] H2]. simpl.
    apply (snaps_opre cfg [src; dst]); auto.
    + intros b [<-|[<-|[]]]; assumption.
    + eapply single_batch_ok; [| | |exact Ea|exact Ez]; try reflexivity. apply good_rec_ends; exact Hg.
  - intros [u|e]; apply sf_ret; intros s [[[H _] _] _]; auto.
Qed.

Lemma record_single_yields t : good_rec t -> yields (record_single cfg t) (fun _ => True).
Proof.
  intros Hg. unfold record_single.
  eapply yields_bindr with (post := fun _ => True); [|intros a _|auto].
  { eapply yields_weaken; [|apply resolve_id_yields]. intros [x|e]; auto. }
  eapply yields_bindr with (post := fun _ => True); [|intros b _|auto].
  { eapply yields_weaken; [|apply resolve_id_yields]. intros [x|e]; auto. }
  eapply yields_bind; [apply yields_free, wait_free|]. intros [|] _; [|apply yields_ret; exact Logic.I].
  eapply yields_bind; [apply record_locked_yields, good_rec_ends, Hg|]. intros r _.
  eapply yields_bind; [apply yields_free, unlock_free|]. intros _ _. apply yields_ret; exact Logic.I.
Qed.

(** ** Commit, void *)
Lemma with_lock_yields k {A} (p : prog (res A)) : yields p (fun _ => True) -> yields (with_lock k p) (fun _ => True).
Proof.
  intros Hp. unfold with_lock. apply yields_act; [intros; exact Logic.I|].
  intros [|]; [|apply yields_ret; exact Logic.I].
  eapply yields_bind; [exact Hp|]. intros r _.
  apply yields_act; [intros; exact Logic.I|]. intros _. apply yields_ret; exact Logic.I.
Qed.

Lemma fetch_inflight_yields id :
  yields (fetch_inflight id) (fun r => match r with Ok t => 0 <= t_prec t | Err _ => True end).
Proof.
  unfold fetch_inflight.
  apply yields_act_pure with (c := fun x => match x with Some t => 0 <= t_prec t | None => True end).
  - intros; exact Logic.I.
  - intros [t|] s H; simpl in *; auto. apply H.
  - intros [t|] Ht; [|apply yields_ret; exact Logic.I].
    destruct (negb (is_inflight t)); [apply yields_ret; exact Logic.I|].
    apply yields_act; [intros; exact Logic.I|]. intros [|]; apply yields_ret; auto.
Qed.

Lemma commit_yields id a ref : yields (commit cfg id a ref) (fun _ => True).
Proof.
  unfold commit. apply with_lock_yields.
  eapply yields_bindr; [apply fetch_inflight_yields|intros t Ht|auto].
  apply yields_act; [intros; exact Logic.I|]. intros c.
  destruct (commit_amount t a (t_precise t - c)) as [[p q]|e]; [|apply yields_ret; exact Logic.I].
  eapply yields_bind; [apply yields_free, fresh_free|]. intros nid _.
  eapply yields_bind; [apply yields_free, choose_ref_free|]. intros nref _.
  apply record_single_yields. split; [right; auto|exact Ht].
Qed.

Lemma void_yields id ref : yields (void cfg id ref) (fun _ => True).
Proof.
  unfold void. apply with_lock_yields.
  eapply yields_bindr; [apply fetch_inflight_yields|intros t Ht|auto].
  apply yields_act; [intros; exact Logic.I|]. intros c.
  destruct (t_precise t - c =? 0); [apply yields_ret; exact Logic.I|].
  eapply yields_bind; [apply yields_free, fresh_free|]. intros nid _.
  eapply yields_bind; [apply yields_free, choose_ref_free|]. intros nref _.
  apply record_single_yields.
  match goal with |- good_rec (apply_precision_txn ?x) =>
    pose proof (apply_precision_fields x) as (F1 & F2 & F3 & F4 & F5 & F6 & F7 & F8 & _);
    pose proof (apply_precision_prec x) as Hp end.
  split; [right; rewrite F7, F8; auto|]. apply Hp. exact Ht.
Qed.

(** ** Queueing *)
(** Before setTransactionStatus: nothing but a sensible precision. *)
Definition raw (t : txn) : Prop :=
  (t_status t = SNone \/ t_status t = SQueued \/ t_status t = SScheduled) /\ 0 <= t_prec t.

Lemma good_raw t : good_q t -> raw t.
Proof. intros [[H|H] Hp]; split; auto. Qed.
Lemma good_q_rec t : good_q t -> good_rec t.
Proof. intros [H Hp]. split; auto. Qed.
Lemma good_q_row t : good_q t -> good_kt KNone t.
Proof. intros [[H|H] Hp]; split; simpl; auto. Qed.

Lemma set_status_good t : raw t -> good_q (set_status t).
Proof.
  intros [[H|[H|H]] Hp]; unfold set_status; destruct (t_sched t); try rewrite H; split; simpl; auto.
Qed.

Lemma set_metadata_status t : t_status (set_metadata t) = t_status t /\ (0 <= t_prec t -> 0 <= t_prec (set_metadata t)).
Proof.
  unfold set_metadata. simpl. split; [apply (apply_precision_fields t)|]. apply apply_precision_prec.
Qed.

Lemma set_metadata_raw t : raw t -> raw (set_metadata t).
Proof. intros [H Hp]. destruct (set_metadata_status t) as [E1 E2]. split; [rewrite E1; exact H|auto]. Qed.
Lemma set_metadata_good t : good_q t -> good_q (set_metadata t).
Proof. intros [H Hp]. destruct (set_metadata_status t) as [E1 E2]. split; [rewrite E1; exact H|auto]. Qed.

Lemma ensure_id_yields t (Pt : txn -> Prop) :
  Pt t -> (forall id, Pt (with_keys t id (t_parent t) (t_ref t))) -> yields (ensure_id t) Pt.
Proof.
  intros H1 H2. unfold ensure_id. destruct (String.eqb (t_id t) ""); [|apply yields_ret; exact H1].
  eapply yields_bind; [apply yields_free, fresh_free|]. intros id _. apply yields_ret. apply H2.
Qed.

Lemma ensure_good t : good_q t -> yields (ensure_id t) good_q.
Proof. intros H. apply ensure_id_yields; auto. Qed.
Lemma ensure_raw t : raw t -> yields (ensure_id t) raw.
Proof. intros H. apply ensure_id_yields; auto. Qed.

Lemma prepare_yields t : raw t -> yields (prepare_for_queue cfg t) (fun x => good_q (fst x)).
Proof.
  intros H. unfold prepare_for_queue.
  eapply yields_bind; [apply ensure_good, set_metadata_good, set_status_good, H|].
  intros t1 Ht1.
  eapply yields_bind with (post := fun _ => True).
  { eapply adds_weaken; [|apply get_end_adds]. auto. }
  intros [src|e] _; [|apply yields_ret; exact Ht1].
  eapply yields_bind with (post := fun _ => True).
  { eapply adds_weaken; [|apply get_end_adds]. auto. }
  intros [dst|e] _; apply yields_ret; exact Ht1.
Qed.

Lemma queue_copy_yields t ref : good_q t -> yields (queue_copy t ref) good_q.
Proof.
  intros H. unfold queue_copy. eapply yields_bind; [apply yields_free, fresh_free|].
  intros id _. apply yields_ret. exact H.
Qed.

Lemma process_single_yields t ref :
  good_q t -> yields (process_single cfg t ref)
    (fun x => good_q (fst x) /\ match snd x with Ok q => good_q q | Err _ => True end).
Proof.
  intros H. unfold process_single.
  eapply yields_bind with (post := fun x => good_q (fst x)).
  { destruct (t_sources t); [destruct (t_dests t)|]; try (apply yields_ret; exact H).
    apply prepare_yields, good_raw, H. }
  intros [t1 [u|e]] Ht1; simpl in Ht1; [|apply yields_ret; simpl; auto].
  apply yields_act; [intros s; apply good_q_row; exact Ht1|].
  intros [v|e]; [|apply yields_ret; simpl; auto].
  eapply yields_bind; [apply queue_copy_yields; exact Ht1|]. intros q Hq. apply yields_ret. simpl. auto.
Qed.

Lemma process_split_yields legs :
  Forall good_q legs ->
  yields (process_split cfg legs) (fun r => match r with Ok qs => Forall good_q qs | Err _ => True end).
Proof.
  induction legs as [|l r IH]; intros H; cbn [process_split]; [apply yields_ret; constructor|].
  inversion H as [|? ? Hl Hr]; subst.
  eapply yields_bind; [apply prepare_yields, good_raw, Hl|].
  intros [l1 [u|e]] Hl1; simpl in Hl1; [|apply yields_ret; exact Logic.I].
  apply yields_act; [intros s; apply good_q_row; exact Hl1|].
  intros [v|e]; [|apply yields_ret; exact Logic.I].
  eapply yields_bind; [apply queue_copy_yields; exact Hl1|]. intros q Hq.
  eapply yields_bindr; [apply IH; exact Hr| |auto].
  intros qs Hqs. apply yields_ret. constructor; auto.
Qed.

Lemma update_split_good i legs p r : Forall good_q legs -> Forall good_q (update_split i legs p r).
Proof.
  revert i. induction legs as [|l q IH]; intros i H; simpl; [constructor|].
  inversion H; subst. constructor; auto.
Qed.

Lemma enqueue_yields l : Forall good_q l -> yields (enqueue_all l) (fun _ => True).
Proof.
  induction l as [|t r IH]; intros H; cbn [enqueue_all]; [apply yields_ret; exact Logic.I|].
  inversion H; subst. apply yields_act; [intros s; assumption|]. intros _. apply IH; assumption.
Qed.

Definition good_job (j : job) : Prop := good_q (j_txn j) /\ Forall good_q (j_legs j).

Lemma async_job_yields j : good_job j -> yields (async_job cfg j) (fun _ => True).
Proof.
  intros [Ht Hl]. unfold async_job. destruct (j_legs j) as [|l0 ls].
  - eapply yields_bind; [apply process_single_yields; exact Ht|].
    intros [t [q|e]] [H1 H2]; apply enqueue_yields; auto.
  - eapply yields_bind; [apply process_split_yields, update_split_good; exact Hl|].
    intros [qs|e] Hq; apply enqueue_yields; auto.
Qed.

Lemma make_legs_yields t i m : good_q t -> yields (make_legs t i m) (Forall good_q).
Proof.
  intros H. revert i. induction m as [|[who p] r IH]; intros i; cbn [make_legs]; [apply yields_ret; constructor|].
  eapply yields_bind; [apply yields_free, fresh_free|]. intros id _.
  eapply yields_bind; [apply IH|]. intros ls Hls. apply yields_ret. constructor; auto.
  destruct (t_sources t); exact H.
Qed.

Lemma split_yields e t : good_q t ->
  yields (split_txn e t) (fun r => match r with Ok ls => Forall good_q ls | Err _ => True end).
Proof.
  intros H. unfold split_txn. destruct (calculate_distributions _ _ _ _ _); [|apply yields_ret; exact Logic.I].
  eapply yields_bind; [apply make_legs_yields; exact H|]. intros ls Hls. apply yields_ret. exact Hls.
Qed.

Lemma queue_async_yields t legs ref id :
  good_q t -> Forall good_q legs -> yields (queue_async t legs ref id) (fun _ => True).
Proof.
  intros H Hl. unfold queue_async. apply yields_act; [|intros _; apply yields_ret; exact Logic.I].
  intros s. simpl. split; [exact H|]. apply Forall_forall. intros x Hx.
  apply in_map_iff in Hx as (l & <- & Hl'). rewrite Forall_forall in Hl. exact (Hl l Hl').
Qed.

Lemma queue_nosplit_yields t : raw t -> yields (queue_nosplit cfg t) (fun _ => True).
Proof.
  intros H. unfold queue_nosplit.
  eapply yields_bind; [apply ensure_raw, set_metadata_raw, H|]. intros t1 Ht1.
  apply set_status_good in Ht1. set (t2 := set_status t1) in *.
  destruct (calculate_distributions _ _ _ _ _); [|apply yields_ret; exact Logic.I].
  destruct (t_skipq t2).
  - eapply yields_bindr with (post := fun _ => True); [|intros; apply yields_ret; exact Logic.I|auto].
    eapply yields_weaken; [|apply record_single_yields, good_q_rec, Ht1]. intros [x|e]; auto.
  - apply queue_async_yields; auto.
Qed.

(** ** Refunds *)
Lemma refund_yields id skipq upd : yields (refund cfg id skipq upd) (fun _ => True).
Proof.
  unfold refund. apply with_lock_yields.
  eapply yields_bindr with (post := fun t => 0 <= t_prec t); [|intros t Ht|auto].
  - unfold refund_original.
    apply yields_act_pure with (c := fun x => match x with Some t => 0 <= t_prec t | None => True end).
    + intros; exact Logic.I.
    + intros [t|] s H; simpl in *; auto. apply H.
    + intros [t|] Ht; [apply yields_ret; exact Ht|].
      apply yields_act_pure with (c := fun x => match x with Some t => 0 <= t_prec t | None => True end).
      * intros; exact Logic.I.
      * intros [t|] s H; simpl in *; auto. apply H.
      * intros [t|] Ht2; apply yields_ret; auto.
  - assert (Hgo : yields (bind (act (ORefunded (t_id t) (t_src t) (t_dst t))) (fun done =>
        if done then Ret (Err EAlreadyRefunded)
        else bind (fresh "txn") (fun nid => queue_nosplit cfg (prepare_refund t nid skipq upd)))) (fun _ => True)).
    { apply yields_act; [intros; exact Logic.I|]. intros [|]; [apply yields_ret; exact Logic.I|].
      eapply yields_bind; [apply yields_free, fresh_free|]. intros nid _.
      apply queue_nosplit_yields. split; [left; reflexivity|exact Ht]. }
    destruct (t_status t); try (apply yields_ret; exact Logic.I); exact Hgo.
Qed.

Lemma for_each_yields {A B} (f : A -> prog B) (Pa : A -> Prop) l :
  (forall x, Pa x -> yields (f x) (fun _ => True)) -> Forall Pa l -> yields (for_each f l) (fun _ => True).
Proof.
  intros Hf. induction l as [|x r IH]; intros H; cbn [for_each]; [apply yields_ret; exact Logic.I|].
  inversion H; subst. eapply yields_bind; [apply Hf; assumption|]. intros y _.
  eapply yields_bind; [apply IH; assumption|]. intros ys _. apply yields_ret; exact Logic.I.
Qed.

Lemma Forall_top {A} (l : list A) : Forall (fun _ => True) l.
Proof. induction l; constructor; auto. Qed.

Lemma inflight_action_yields p v a i : yields (inflight_action cfg p v a i) (fun _ => True).
Proof.
  unfold inflight_action. apply yields_act; [intros; exact Logic.I|]. intros legs.
  eapply for_each_yields with (Pa := fun _ => True); [|apply Forall_top]. intros l _.
  destruct (negb (is_inflight l)); [apply yields_ret; exact Logic.I|].
  destruct v; [apply void_yields|apply commit_yields].
Qed.

Lemma refund_batch_yields p s : yields (refund_batch cfg p s) (fun _ => True).
Proof.
  unfold refund_batch. apply yields_act; [intros; exact Logic.I|]. intros ts.
  eapply for_each_yields with (Pa := fun _ => True); [|apply Forall_top]. intros t _. apply refund_yields.
Qed.

Lemma rollback_yields b i : yields (rollback_batch cfg b i) (fun _ => True).
Proof. unfold rollback_batch. destruct i; [apply inflight_action_yields|apply refund_batch_yields]. Qed.

(** ** Queueing in full *)
Lemma record_legs_yields legs id : Forall good_q legs -> yields (record_legs cfg legs id) (fun _ => True).
Proof.
  induction legs as [|l r IH]; intros H; cbn [record_legs]; [apply yields_ret; exact Logic.I|].
  inversion H; subst. eapply yields_bind; [apply record_single_yields, good_q_rec; assumption|].
  intros [x|e] _; [apply IH; assumption|].
  destruct (t_atomic l); [|apply yields_ret; exact Logic.I].
  eapply yields_bind; [apply rollback_yields|]. intros _ _. apply yields_ret; exact Logic.I.
Qed.

Lemma queue_transaction_yields e t : raw t -> yields (queue_transaction cfg e t) (fun _ => True).
Proof.
  intros H. unfold queue_transaction.
  assert (Hsplit : yields (
    bind (ensure_id (set_metadata t)) (fun t0 =>
    let t1 := set_status t0 in
    bindr (split_txn e t1) (fun legs =>
    if t_skipq t1 then
      bindr (match legs with
             | [] => bindr (record_single cfg t1) (fun _ => Ret (Ok tt))
             | _ => record_legs cfg legs (t_id t1)
             end) (fun _ => Ret (Ok (with_status t1 (if t_inflight t1 then SInflight else SApplied))))
    else queue_async t1 legs (t_ref t) (t_id t1)))) (fun _ => True)).
  { eapply yields_bind; [apply ensure_raw, set_metadata_raw, H|]. intros t0 Ht0.
    apply set_status_good in Ht0. cbv zeta. set (t1 := set_status t0) in *.
    eapply yields_bindr; [apply split_yields; exact Ht0| |auto]. intros legs Hl.
    destruct (t_skipq t1); [|apply queue_async_yields; auto].
    eapply yields_bindr with (post := fun _ => True); [|intros; apply yields_ret; exact Logic.I|auto].
    destruct legs as [|l0 ls].
    - eapply yields_bindr with (post := fun _ => True); [|intros; apply yields_ret; exact Logic.I|auto].
      eapply yields_weaken; [|apply record_single_yields, good_q_rec, Ht0]. intros [x|er]; auto.
    - eapply yields_weaken; [|apply record_legs_yields; exact Hl]. intros [x|er]; auto. }
  destruct (t_sources t); [destruct (t_dests t)|]; try exact Hsplit. apply queue_nosplit_yields; exact H.
Qed.

Lemma process_bulk_yields e ts b i s : Forall raw ts -> yields (process_bulk cfg e ts b i s) (fun _ => True).
Proof.
  induction ts as [|t r IH]; intros H; cbn [process_bulk]; [apply yields_ret; exact Logic.I|].
  inversion H; subst. eapply yields_bind; [apply queue_transaction_yields; assumption|].
  intros [x|er] _; [apply IH; assumption|apply yields_ret; exact Logic.I].
Qed.

Lemma bulk_yields e ts a i s : Forall raw ts -> yields (bulk cfg e ts a i s) (fun _ => True).
Proof.
  intros H. unfold bulk. eapply yields_bind; [apply yields_free, fresh_free|]. intros b _.
  eapply yields_bind; [apply process_bulk_yields; exact H|].
  intros [x|er] _; [apply yields_ret; exact Logic.I|].
  destruct a; [|apply yields_ret; exact Logic.I].
  eapply yields_bind; [apply rollback_yields|]. intros _ _. apply yields_ret; exact Logic.I.
Qed.

(** ** The worker *)
Lemma reject_yields t : 0 <= t_prec t -> yields (reject cfg t) (fun _ => True).
Proof.
  intros H. unfold reject. apply yields_act; [intros s; split; simpl; auto|].
  intros [x|e]; [|apply yields_ret; exact Logic.I].
  change (t_atomic (with_status t SRejected)) with (t_atomic t). destruct (t_atomic t); [|apply yields_ret; exact Logic.I].
  destruct (String.eqb _ _); [apply yields_ret; exact Logic.I|].
  eapply yields_bind; [apply rollback_yields|]. intros _ _. apply yields_ret; exact Logic.I.
Qed.

Lemma can_coalesce_status t : can_coalesce_original t = true -> t_status t = SQueued.
Proof.
  unfold can_coalesce_original. destruct (t_status t); simpl; try discriminate. auto.
Qed.

Definition queued_t (t : txn) : Prop := t_status t = SQueued /\ 0 <= t_prec t.

Lemma copies_yields sibs :
  Forall (fun t => good_q t /\ t_status t = SQueued) sibs -> yields (copies sibs) (Forall queued_t).
Proof.
  induction sibs as [|x r IH]; intros H; cbn [copies]; [apply yields_ret; constructor|].
  inversion H as [|? ? Hx Hr]; subst. destruct Hx as [[_ Hp] Hs].
  destruct (can_coalesce_original (restore_flags x)); [|apply IH; exact Hr].
  eapply yields_bind with (post := queued_t).
  { unfold queue_copy. eapply yields_bind; [apply yields_free, fresh_free|].
    intros id _. apply yields_ret. split; assumption. }
  intros c Hc. eapply yields_bind; [apply IH; exact Hr|]. intros cs Hcs. apply yields_ret. constructor; auto.
Qed.

Lemma build_batch_yields t scs sel :
  queued_t t -> yields (build_batch t scs sel) (Forall queued_t).
Proof.
  intros H. induction scs as [|sc r IH]; cbn [build_batch]; [apply yields_ret; constructor|].
  apply yields_act_pure with (c := Forall (fun t => good_q t /\ t_status t = SQueued)).
  - intros; exact Logic.I.
  - intros x s Hx. exact Hx.
  - intros sibs Hs. eapply yields_bind; [apply copies_yields; exact Hs|].
    intros [|c cs] Hcs; [exact IH|]. apply yields_ret. constructor; auto.
Qed.

Lemma load_each_adds ids :
  adds (load_each cfg ids)
    (fun r s => match r with Ok bs => (forall b, In b bs -> snap b s) /\ map b_id bs = ids | Err _ => True end).
Proof.
  induction ids as [|i r IH]; intros n P HP; cbn [load_each].
  - apply sf_ret. intros s H. split; auto. split; [intros b []|reflexivity].
  - eapply adds_bindr with (post := fun b s => snap b s /\ b_id b = i); [apply get_balance_adds|exact HP| |auto].
    intros b.
    eapply adds_bindr with (post := fun bs s => (forall x, In x bs -> snap x s) /\ map b_id bs = r);
      [exact IH| | |intros e s [H _]; auto].
    { last_tac. }
    intros bs. apply sf_ret. intros s [[H1 [H2 H3]] [H4 H5]]. split; [exact H1|]. split.
    + intros x [<-|Hx]; auto.
    + simpl. congruence.
Qed.

Lemma load_balances_adds ids :
  NoDup ids ->
  adds (load_balances cfg ids)
    (fun r s => match r with Ok bs => (forall b, In b bs -> snap b s) /\ NoDup (map b_id bs) | Err _ => True end).
Proof.
  intros Hnd. unfold load_balances. destruct (c_queued cfg).
  - eapply adds_weaken; [|apply load_each_adds]. intros [bs|e] s H; auto. destruct H as [H1 H2].
    split; auto. rewrite H2. exact Hnd.
  - intros n P HP. apply sf_act; [exact HP|intros; exact Logic.I|]. intros bs.
    destruct (forallb _ ids); apply sf_ret; simpl; intros s [H1 (H2 & H3 & H4)]; split; auto.
Qed.

Lemma prepare_members_yields ts existing seen m :
  Forall queued_t ts ->
  yields (prepare_members cfg ts existing seen m)
    (fun r => match r with Ok (ks, obs, m') => batch_ok cfg m ks m' | Err _ => True end).
Proof.
  revert seen m. induction ts as [|t r IH]; intros seen m H; cbn [prepare_members];
    [apply yields_ret; apply batch_ok_nil|].
  inversion H as [|? ? [Ht1 Ht2] Hr]; subst.
  destruct (String.eqb (t_ref t) ""); [apply yields_ret; exact Logic.I|].
  destruct (mem_string _ _ || mem_string _ _); [apply yields_ret; exact Logic.I|].
  eapply yields_bind with (post := fun _ => True).
  { destruct (c_refcheck cfg); [apply yields_ret; exact Logic.I|].
    apply yields_free. simpl. split; auto. intros s; exact Logic.I. }
  intros [|] _; [apply yields_ret; exact Logic.I|].
  destruct (prepare_member t m) as [[[[k t'] ob] m']|e] eqn:Em; [|apply yields_ret; exact Logic.I].
  eapply yields_bindr with (post := fun x => let '(ks, obs, m'') := x in batch_ok cfg m' ks m'');
    [eapply yields_weaken; [|apply IH; exact Hr]; intros [[[ks obs] m'']|e]; auto| |auto].
  intros [[ks obs] m''] Hb. apply yields_ret.
  eapply batch_ok_cons; [|exact Hb]. eapply prepare_member_ok; eauto.
Qed.

Lemma batch_locked_yields ids ts :
  NoDup ids -> Forall queued_t ts -> yields (batch_locked cfg ids ts) (fun _ => True).
Proof.
  intros Hnd Hts n P HP. unfold batch_locked.
  eapply adds_bindr with (post := fun bs s => (forall b, In b bs -> snap b s) /\ NoDup (map b_id bs));
    [apply load_balances_adds; exact Hnd|exact HP| |auto].
  intros m.
  assert (HPm : lasting (fun s => P s /\ ((forall b, In b m -> snap b s) /\ NoDup (map b_id m)))).
  { last_tac. }
  eapply adds_bind with (post := fun _ _ => True); [|exact HPm|].
  { destruct (c_refcheck cfg); [apply adds_free; simpl; split; auto; intros s; exact Logic.I|].
    apply adds_ret; auto. }
  intros existing.
  eapply adds_bindr with (post := fun x _ => let '(ks, obs, m') := x in batch_ok cfg m ks m').
  - eapply adds_weaken; [|apply prepare_members_yields; exact Hts]. intros [[[ks obs] m']|e] s H; exact H.
  - apply lasting_and; [exact HPm|apply lasting_pure].
  - intros [[ks obs] m']. apply sf_do.
    + apply lasting_and; [apply lasting_and; [exact HPm|apply lasting_pure]|apply lasting_pure].
    + intros s HI [[[_ [Hm _]] _] Hb]. apply (snaps_opre cfg m); auto.
    + intros x. apply sf_ret. intros s [[[[H _] _] _] _]. auto.
  - intros e s [[H _] _]. auto.
Qed.

Lemma persist_queued_batch_yields ts : Forall queued_t ts -> yields (persist_queued_batch cfg ts) (fun _ => True).
Proof.
  intros H. unfold persist_queued_batch. destruct ts as [|t r]; [apply yields_ret; exact Logic.I|].
  destruct (negb _); [apply yields_ret; exact Logic.I|].
  eapply yields_bind; [apply yields_free, wait_free|]. intros [|] _; [|apply yields_ret; exact Logic.I].
  eapply yields_bind; [apply batch_locked_yields; [apply lock_set_nodup|exact H]|]. intros x _.
  eapply yields_bind; [apply yields_free, unlock_free|]. intros _ _. apply yields_ret; exact Logic.I.
Qed.

Lemma try_batch_yields f sel t : 0 <= t_prec t -> yields (try_batch cfg f sel t) (fun _ => True).
Proof.
  intros Hp. unfold try_batch. destruct (can_coalesce t) eqn:Ec; cbn [negb]; [|apply yields_ret; exact Logic.I].
  destruct (negb _); [apply yields_ret; exact Logic.I|].
  unfold can_coalesce in Ec. apply andb_prop in Ec as [_ Ec]. apply can_coalesce_status in Ec.
  eapply yields_bind; [apply build_batch_yields; split; assumption|].
  intros [|b bs] Hb; [apply yields_ret; exact Logic.I|].
  eapply yields_bind; [apply persist_queued_batch_yields; exact Hb|]. intros r _. apply yields_ret; exact Logic.I.
Qed.

Lemma process_queued_yields h sel t : good_q t -> yields (process_queued cfg h sel t) (fun _ => True).
Proof.
  intros H. unfold process_queued. eapply yields_bind; [apply try_batch_yields; apply H|].
  intros [|] _; [apply yields_ret; exact Logic.I|]. apply record_single_yields, good_q_rec, H.
Qed.

Lemma worker_yields h s1 s2 r t : good_q t -> yields (worker cfg h s1 s2 r t) (fun _ => True).
Proof.
  intros H. unfold worker. eapply yields_bind; [apply try_batch_yields; apply H|]. intros h1 _.
  eapply yields_bind with (post := fun _ => True).
  { destruct h; [apply try_batch_yields; apply H|apply yields_ret; exact Logic.I]. }
  intros [|] _; [apply yields_ret; exact Logic.I|].
  eapply yields_bind; [apply process_queued_yields; exact H|].
  intros [x|e] _; [apply yields_ret; exact Logic.I|].
  destruct (worker_verdict cfg e r); try (apply yields_ret; exact Logic.I).
  eapply yields_bind; [apply reject_yields; apply H|]. intros [x|e'] _; apply yields_ret; exact Logic.I.
Qed.

Lemma recover_yields h sel ex sk id : yields (recover cfg h sel ex sk id) (fun _ => True).
Proof.
  unfold recover.
  apply yields_act_pure with (c := Forall (fun t => good_q t /\ t_status t = SQueued)).
  - intros; exact Logic.I.
  - intros x s Hx; exact Hx.
  - intros [|t r] Hts; [apply yields_ret; exact Logic.I|].
    inversion Hts as [|? ? [[_ Hp] Hs] _]; subst.
    assert (Hg : good_q (restore_flags (apply_precision_txn t))).
    { destruct (apply_precision_fields t) as (_ & _ & _ & _ & _ & _ & F7 & _).
      split; [left; simpl; rewrite F7; exact Hs|]. apply (apply_precision_prec t Hp). }
    set (t1 := restore_flags (apply_precision_txn t)) in *.
    assert (Hend : forall r : res txn, yields (match r with
        | Ok _ | Err EDupReference => Ret (Ok tt) | Err e => Ret (Err e) end) (fun _ : res unit => True)).
    { intros [x|e]; [|destruct e]; apply yields_ret; exact Logic.I. }
    destruct ex.
    + eapply yields_bind; [apply queue_copy_yields; exact Hg|]. intros c Hc.
      eapply yields_bind; [apply reject_yields; apply Hc|]. intros r0 _. apply Hend.
    + destruct (t_atomic t1 && sk); [apply yields_ret; exact Logic.I|].
      eapply yields_bind; [apply queue_copy_yields; exact Hg|]. intros c Hc.
      eapply yields_bind; [apply process_queued_yields; exact Hc|]. intros r0 _. apply Hend.
Qed.

Lemma new_balance_yields i c t : yields (new_balance i c false t) (fun _ => True).
Proof.
  unfold new_balance. eapply yields_bind; [apply yields_free, fresh_free|]. intros id _.
  apply yields_act; [intros s; reflexivity|]. intros [x|e]; apply yields_ret; exact Logic.I.
Qed.

(** ** All requests *)
(** What a request must satisfy when it starts. *)
Definition good_request (r : request) : Prop :=
  match r with
  | RQueue _ t => raw t
  | RBulk _ ts _ _ _ => Forall raw ts
  | RWorker _ _ _ _ t => good_q t
  | RJob j => good_job j
  | RBalance _ _ recon _ => recon = false
  | _ => True
  end.

Lemma done_yields {A} (p : prog A) : yields p (fun _ => True) -> yields (done p) (fun _ => True).
Proof. intros H. unfold done. eapply yields_bind; [exact H|]. intros _ _. apply yields_ret; exact Logic.I. Qed.

Lemma request_yields r : good_request r -> yields (prog_of cfg r) (fun _ => True).
Proof.
  intros H. destruct r; simpl in *.
  - apply done_yields, queue_transaction_yields, H.
  - apply done_yields, bulk_yields, H.
  - apply done_yields, commit_yields.
  - apply done_yields, void_yields.
  - apply done_yields, inflight_action_yields.
  - apply done_yields, refund_yields.
  - apply done_yields, refund_batch_yields.
  - subst recon. apply done_yields, new_balance_yields.
  - apply done_yields, yields_free. simpl. split; auto. intros s; exact Logic.I.
  - apply done_yields, yields_free. simpl. split; auto. intros s; exact Logic.I.
  - apply done_yields, worker_yields, H.
  - apply async_job_yields, H.
  - apply done_yields, recover_yields.
Qed.

End Safe.

(** ** Reachable states *)
(** No balance is created with BLNK_RUN_RECONCILIATION already in its metadata
    (see the refuted theorem for what happens otherwise). *)
Definition no_recon_flag (y : sys) (e : event) : Prop :=
  match e with EStart (RBalance _ _ recon _) => recon = false | _ => True end.

Lemma api_raw t : api_txn t -> raw t.
Proof. intros (_ & _ & H & _ & _ & Hp & _). split; auto. Qed.

Lemma start_good cfg y r y' :
  inv cfg (y_st y) -> no_recon_flag y (EStart r) -> step cfg y (EStart r) y' -> good_request r.
Proof.
  intros HI Hr Hs. destruct r; simpl in *; auto.
  - apply api_raw. apply Hs.
  - destruct Hs as [Hs _]. eapply Forall_impl; [|exact Hs]. apply api_raw.
  - destruct Hs as [Hs _]. pose proof (i_queue _ _ HI) as H. rewrite Forall_forall in H. auto.
  - destruct Hs as (l1 & l2 & Hj & _). pose proof (i_jobs _ _ HI) as H. rewrite Hj in H.
    rewrite Forall_app in H. destruct H as [_ H]. inversion H; subst. assumption.
Qed.

Lemma inv_jobs cfg s l1 l2 j : inv cfg s -> s_jobs s = (l1 ++ j :: l2)%list -> inv cfg (set_jobs s (l1 ++ l2)).
Proof.
  intros HI Hj. constructor; simpl; try apply HI.
  pose proof (i_jobs _ _ HI) as H. rewrite Hj in H. apply Forall_app in H as [H1 H2].
  inversion H2; subst. apply Forall_app. auto.
Qed.

Lemma evolves_frame s s' : s_txns s' = s_txns s -> s_bals s' = s_bals s -> s_queue s' = s_queue s -> evolves s s'.
Proof.
  intros H1 H2 H3. split; [exists []; exact H1|]. rewrite H2, H3. split; [|apply incl_refl].
  intros id b Hb. exists b. repeat split; auto; lia.
Qed.

Lemma inv_locks cfg s l : inv cfg s -> inv cfg (set_locks s l).
Proof. intros HI. constructor; simpl; apply HI. Qed.

Lemma inv_init cfg u : inv cfg (init_state u).
Proof.
  constructor; simpl; try constructor; try contradiction.
Qed.

Theorem reachable_inv cfg (ok : sys -> event -> Prop) u y :
  (forall y e, ok y e -> no_recon_flag y e) ->
  steps cfg ok (init_sys u) y -> inv cfg (y_st y).
Proof.
  intros Hok Hs.
  assert (H : sys_inv tt_inv (inv cfg) rel y).
  { assert (H0 : sys_inv tt_inv (inv cfg) rel (init_sys u)).
    { split; [exact Logic.I|]. split; [apply inv_init|]. intros n p Hn. destruct n; discriminate. }
    refine (adequacy tt_inv (inv cfg) rel cfg ok _ _ _ _ _ _ H0 Hs).
    - intros s; exact Logic.I.
    - intros y0 r n y' (_ & HI & _) Ho Hst.
      pose proof (request_yields cfg r (start_good cfg y0 r y' HI (Hok _ _ Ho) Hst) n (fun _ => True)
                    (lasting_pure True)) as H.
      exists (fun _ => True). split; [exact Logic.I|]. split; [intros ? ? ? ? ? ? ? ?; exact Logic.I|].
      eapply safe_post; [|exact H]. auto.
    - intros s j l1 l2 HI Hj. split; [eapply inv_jobs; eauto|]. intros n. apply evolves_frame; reflexivity.
    - intros y0 k (_ & HI & _) _. split; [apply inv_locks; exact HI|]. intros. apply evolves_frame; reflexivity. }
  apply H.
Qed.
