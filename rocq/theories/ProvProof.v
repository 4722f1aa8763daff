(** Every program respects the provenance discipline of ProvInv. *)
From Coq Require Import ZArith QArith List String Bool Lia Permutation.
From Verif Require Import Base MoneyModel SplitModel BalanceModel LedgerModel LedgerProgs
  ConcModel ConcLogic LedgerSpec LedgerInv LedgerPure LedgerSafe ProvSpec ProvInv.
Import ListNotations.
Local Open Scope string_scope.
Open Scope list_scope.
Open Scope Z_scope.

Section P.
Variables (cfg : config) (u : nat -> string) (NS : Prop).
Hypothesis u_inj : forall i j, u i = u j -> i = j.
Local Notation sp := (ProvInv.sp cfg u NS).
Local Notation quiet := (ProvInv.quiet cfg u NS).
Local Notation orig_ok := (ProvInv.orig_ok NS).
Local Notation flags_ok := (ProvInv.flags_ok NS).
Local Notation pay_ok := (ProvInv.pay_ok NS).
Local Notation copy_of := (ProvInv.copy_of NS).
Local Notation hold_of := (ProvInv.hold_of NS).
Local Notation invC := (ProvInv.invC u NS).
Local Notation opok := (ProvInv.opok NS).
Local Notation freeC := (ProvInv.freeC NS).

Ltac fr := let s := fresh "s" in intros s; unfold ProvInv.opok, pubs, newtx; simpl; repeat split; intros; contradiction.
Ltac lastC_tac :=
  repeat first [ assumption | apply last_true | apply last_pub | apply last_orig | apply last_pay | apply last_row
               | apply last_queued | apply last_job | apply last_hold | apply last_pure
               | apply last_and | apply last_or | apply last_impl
               | (apply last_forall; intro) | (apply last_ex; intro) ].

Lemma sp_q {A B} zs xs (R : state -> Prop) (p : prog A) (M : A -> Prop) (f : A -> prog B) ys post :
  lastC R -> quiet p M -> (forall a, M a -> sp zs xs R (f a) ys post) -> sp zs xs R (bind p f) ys post.
Proof. apply sp_quiet. Qed.
Lemma sp_qr {A B} zs xs (R : state -> Prop) (p : prog (res A)) (M : A -> Prop) (f : A -> prog (res B)) post :
  lastC R -> quiet p (fun r => match r with Ok a => M a | Err _ => True end) ->
  (forall a, M a -> sp zs xs R (f a) (fun _ => []) post) ->
  (forall e s, inv cfg s -> invC s -> R s -> post (Err e) s) ->
  sp zs xs R (bindr p f) (fun _ => []) post.
Proof. apply sp_quietr. Qed.

(** A program whose own result does not matter. *)
Definition done_ok {A} (zs xs : list string) (pre : state -> Prop) (p : prog A) : Prop :=
  sp zs xs pre p (fun _ => []) (fun _ _ => True).
Lemma done_ret {A} zs xs pre (a : A) : done_ok zs xs pre (Ret a).
Proof. apply sp_ret; [auto|apply perm_none]. Qed.
Lemma done_quiet {A} (p : prog A) : done_ok [] [] (fun _ => True) p -> quiet p (fun _ => True).
Proof. intros H; exact H. Qed.

Lemma unlock_freeC ks : all_ops freeC (unlock_keys ks).
Proof. induction ks as [|k r IH]; simpl; auto. split; [fr|intros _; exact IH]. Qed.
Lemma lock_freeC ks got : all_ops freeC (lock_keys ks got).
Proof.
  revert got. induction ks as [|k r IH]; intros got; simpl; auto. split; [fr|].
  intros [|]; auto. apply all_ops_bind; [apply unlock_freeC|simpl; auto].
Qed.
Lemma wait_freeC n ks : all_ops freeC (wait_lock n ks).
Proof. induction n as [|n IH]; simpl; (apply all_ops_bind; [apply lock_freeC|intros [|]; simpl; auto]). Qed.
Lemma fresh_freeC p : all_ops freeC (fresh p).
Proof. simpl. split; [fr|auto]. Qed.
Lemma choose_ref_freeC r : all_ops freeC (choose_ref r).
Proof. unfold choose_ref. destruct (String.eqb r ""); [apply fresh_freeC|simpl; auto]. Qed.

Lemma q_free {A} (p : prog A) : all_ops freeC p -> quiet p (fun _ => True).
Proof. apply quiet_free; exact u_inj. Qed.

(** ** Balances *)
Lemma not_at_bln x : bln_id x -> starts_with_at x = false.
Proof. intros (b & ->). reflexivity. Qed.
Lemma get_bal_bln s id b : invC s -> get_bal id (s_bals s) = Some b -> bln_id id /\ b_id b = id.
Proof.
  intros HC H. pose proof (get_bal_in _ _ _ H) as Hb. pose proof (get_bal_id _ _ _ H) as E.
  split; [|exact E]. rewrite <- E. apply (c_bals _ _ _ HC); exact Hb.
Qed.
Lemma get_ind_In ind cur l b : get_bal_ind ind cur l = Some b -> In b l.
Proof.
  induction l as [|x r IH]; simpl; [discriminate|]. destruct (_ && _); intros H; [inversion H; auto|auto].
Qed.

Definition is_bal (id : string) (r : res balance) : Prop :=
  match r with Ok b => b_id b = id /\ bln_id id | Err _ => True end.

Lemma q_get_balance id : quiet (get_balance cfg id) (is_bal id).
Proof.
  unfold get_balance.
  eapply quiet_bind with (M := fun b => match b with Some b => b_id b = id /\ bln_id id | None => True end).
  - apply quiet_op; [exact u_inj|fr|]. intros n s _ HC. simpl.
    destruct (get_bal id (s_bals s)) as [b|] eqn:E; auto. destruct (get_bal_bln _ _ _ HC E); auto.
  - intros [b|] Hb; [|apply quiet_ret; exact Logic.I].
    destruct (c_queued cfg); [|apply quiet_ret; exact Hb].
    eapply quiet_bind with (M := fun _ => True); [apply quiet_op; [exact u_inj|fr|auto]|].
    intros q _. apply quiet_ret. exact Hb.
Qed.

Definition some_bal (r : res balance) : Prop := match r with Ok b => bln_id (b_id b) | Err _ => True end.

Lemma q_get_or_create ind cur : quiet (get_or_create cfg ind cur) some_bal.
Proof.
  unfold get_or_create.
  assert (Hg : quiet (act (OGetInd ind cur)) (fun b => match b with Some b => bln_id (b_id b) | None => True end)).
  { apply quiet_op; [exact u_inj|fr|]. intros n s _ HC. simpl.
    destruct (get_bal_ind ind cur (s_bals s)) as [b|] eqn:E; auto.
    apply (c_bals _ _ _ HC). eapply get_ind_In; eauto. }
  assert (Hf : forall b, bln_id (b_id b) ->
     quiet (if c_queued cfg then get_balance cfg (b_id b) else Ret (Ok b)) some_bal).
  { intros b Hb. destruct (c_queued cfg); [|apply quiet_ret; exact Hb].
    eapply quiet_weaken; [|apply q_get_balance]. intros [x|e]; simpl; auto. intros [-> H]; exact H. }
  eapply quiet_bind; [exact Hg|]. intros [b|] Hb; [apply Hf; exact Hb|].
  eapply quiet_bind with (M := bln_id).
  - unfold fresh. eapply quiet_bind; [apply q_free; simpl; split; [fr|auto]|].
    intros x _. apply quiet_ret. exists x. reflexivity.
  - intros id Hid. eapply quiet_bind with (M := fun _ => True).
    + apply quiet_op; [exact u_inj| |auto]. intros s. unfold ProvInv.opok, pubs, newtx; simpl.
      repeat split; intros; try contradiction. exact Hid.
    + intros r _. destruct r as [x|e]; [|destruct e; try (apply quiet_ret; exact Logic.I)];
        (eapply quiet_bind; [exact Hg|]; intros [b|] Hb'; [apply Hf; exact Hb'|apply quiet_ret; exact Logic.I]).
Qed.

Definition end_of (e : string) (id : string) : Prop := bln_id id /\ (starts_with_at e = false -> id = e).
Lemma q_get_end e cur : quiet (get_end cfg e cur) (fun r => match r with Ok b => end_of e (b_id b) | Err _ => True end).
Proof.
  unfold get_end, end_of. destruct (starts_with_at e).
  - eapply quiet_weaken; [|apply q_get_or_create]. intros [b|er]; simpl; auto. intros H; split; [exact H|discriminate].
  - eapply quiet_weaken; [|apply q_get_balance]. intros [b|er]; simpl; auto. intros [-> H]. auto.
Qed.
Lemma q_resolve e cur : quiet (resolve_id cfg e cur) (fun r => match r with Ok x => starts_with_at e = false -> x = e | Err _ => True end).
Proof.
  unfold resolve_id. destruct (starts_with_at e).
  - eapply quiet_bindr with (M := fun _ => True).
    + eapply quiet_weaken; [|apply q_get_or_create]. intros [b|er]; auto.
    + intros b _. apply quiet_ret. discriminate.
    + auto.
  - apply quiet_ret. auto.
Qed.

(** ** The same transaction, further along *)
Record sim (t t' : txn) : Prop := {
  m_parent : t_parent t' = t_parent t; m_ref : t_ref t' = t_ref t; m_cur : t_cur t' = t_cur t;
  m_infl : t_inflight t' = t_inflight t; m_all : t_allow t' = t_allow t; m_lim : t_limit t' = t_limit t;
  m_src : starts_with_at (t_src t) = false -> t_src t' = t_src t;
  m_dst : starts_with_at (t_dst t) = false -> t_dst t' = t_dst t;
  m_precise : 0 < t_precise t -> t_precise t' = t_precise t }.

Lemma sim_refl t : sim t t.
Proof. constructor; auto. Qed.
Lemma sim_trans a b c : sim a b -> sim b c -> sim a c.
Proof.
  intros [] []. constructor; try congruence.
  - intros H. rewrite <- (m_src0 H). apply m_src1. rewrite (m_src0 H). exact H.
  - intros H. rewrite <- (m_dst0 H). apply m_dst1. rewrite (m_dst0 H). exact H.
  - intros H. rewrite <- (m_precise0 H). apply m_precise1. rewrite (m_precise0 H). exact H.
Qed.
Lemma sim_whole t t' : sim t t' -> wholeb t' = true -> wholeb t = true.
Proof.
  intros [] . unfold wholeb. rewrite !andb_true_iff, !negb_true_iff, !String.eqb_neq. intros [H1 H2]. split.
  - intros E. apply H1. rewrite E in m_src0. auto.
  - intros E. apply H2. rewrite E in m_dst0. auto.
Qed.

Lemma orig_sim s t t' : inv cfg s -> invC s -> sim t t' -> t_inflight t' = t_inflight t -> orig_ok s t -> orig_ok s t'.
Proof.
  intros HI HC [] _. unfold ProvInv.orig_ok. rewrite m_parent0.
  intros [H|[H|[(o & Ho & H)|H]]]; auto. right; right; left. exists o. split; [exact Ho|].
  destruct (bln_whole cfg s o HI (c_bals _ _ _ HC) Ho) as [B1 B2].
  destruct H as [(A1 & A2 & A3 & A4 & A5 & A6 & A7 & A8 & A9)|(A1 & A2 & A3 & A4 & A5 & A6 & A7 & A8)].
  - left. unfold ProvInv.copy_of. rewrite m_parent0, m_ref0, m_cur0, m_infl0, m_all0, m_lim0.
    rewrite m_src0 by (rewrite A4; apply not_at_bln; exact B1).
    rewrite m_dst0 by (rewrite A5; apply not_at_bln; exact B2).
    repeat split; auto; try apply A8; auto. intros Hp. rewrite <- (A7 Hp). apply m_precise0. rewrite (A7 Hp). exact Hp.
  - right. unfold refund_of. rewrite m_parent0, m_ref0, m_cur0, m_infl0.
    rewrite m_src0 by (rewrite A4; apply not_at_bln; exact B2).
    rewrite m_dst0 by (rewrite A5; apply not_at_bln; exact B1).
    repeat split; auto. intros Hp. rewrite <- (A7 Hp). apply m_precise0. rewrite (A7 Hp). exact Hp.
Qed.

Lemma sim_precision t : sim t (apply_precision_txn t).
Proof.
  pose proof (apply_precision_fields t) as H. cbv zeta in H.
  destruct H as (F1 & F2 & F3 & F4 & F5 & F6 & F7 & F8 & F9 & F10 & F11 & F12 & F13 & F14 & F15 & F16).
  constructor; auto. intros Hp. unfold apply_precision_txn, apply_precision.
  destruct (0 <? t_precise t) eqn:E; [reflexivity|]. apply Z.ltb_ge in E. lia.
Qed.
Lemma sim_status t x : sim t (with_status t x).
Proof. constructor; auto. Qed.
Lemma sim_ends t a b : (starts_with_at (t_src t) = false -> a = t_src t) ->
  (starts_with_at (t_dst t) = false -> b = t_dst t) -> sim t (with_ends t a b).
Proof. constructor; auto. Qed.
Lemma sim_set_status t : sim t (set_status t).
Proof. unfold set_status. destruct (t_sched t); [apply sim_status|]. destruct (t_status t); try apply sim_refl. apply sim_status. Qed.
Lemma sim_set_metadata t : sim t (set_metadata t).
Proof. eapply sim_trans; [apply sim_precision|]. unfold set_metadata. constructor; auto. Qed.

(** ** Posting *)
Definition rec_pre (zs used : list string) (t : txn) (s : state) : Prop :=
  (wholeb t = true -> In (t_id t) used \/ pub (t_id t) s)
  /\ match t_status t with
     | SCommit | SVoid => hold_of s t /\ t_inflight t = false
     | _ => orig_ok s t \/ In (t_parent t) zs
     end.
Lemma last_rec zs used t : lastC (rec_pre zs used t).
Proof.
  unfold rec_pre. apply last_and; [apply last_impl, last_or; [apply last_pure|apply last_pub]|].
  destruct (t_status t); cbv iota; lastC_tac.
Qed.

Lemma krow_of t1 b1 b2 s :
  (match t_status t1 with SCommit | SVoid => hold_of s t1 /\ t_inflight t1 = false | _ => True end) ->
  krow NS s (kind_of t1) (clear_terminal (update_details t1 b1 b2)).
Proof.
  intros H. unfold kind_of, clear_terminal, update_details, final_status, krow.
  destruct (t_status t1) eqn:Es; destruct (t_inflight t1) eqn:Ei; simpl; auto;
    destruct H as [H1 H2]; try discriminate H2; (split; [exact H1|reflexivity]).
Qed.

Lemma done_record_locked zs used (R : state -> Prop) t :
  lastC R -> (forall s, inv cfg s -> invC s -> R s -> rec_pre zs used t s) ->
  done_ok zs used R (record_locked cfg t).
Proof.
  intros HR Hpre. unfold record_locked.
  eapply sp_q with (M := fun _ => True); [exact HR|apply q_free; simpl; split; [fr|auto]|].
  intros [|] _; [apply done_ret|].
  eapply sp_qr; [exact HR|apply q_get_end| |auto]. intros src [Bs Es].
  eapply sp_qr; [exact HR|apply q_get_end| |auto]. intros dst [Bd Ed].
  set (t0 := with_ends t (b_id src) (b_id dst)).
  destruct (apply_to_balances t0 src dst) as [[[t1 src'] dst']|e] eqn:Ea; [|apply done_ret].
  set (t2 := update_details t1 src' dst'). cbv zeta.
  destruct (t_precise t2 =? 0); [apply done_ret|].
  apply apply_keys in Ea as (Ks & Kd & K1 & K2 & K3 & K4 & K5 & K6 & K7 & K8 & _ & K10).
  pose proof (clear_terminal_fields t2) as Hc. cbv zeta in Hc.
  destruct Hc as (C1 & C2 & C3 & C4 & C5 & C6 & C7 & C8 & C9 & C10 & C11 & C12).
  set (t3 := clear_terminal t2) in *.
  assert (Hsrc : t_src t3 = b_id src) by (rewrite C3; unfold t2; simpl; apply Ks).
  assert (Hdst : t_dst t3 = b_id dst) by (rewrite C4; unfold t2; simpl; apply Kd).
  assert (H01 : sim t t1).
  { apply sim_trans with t0; [apply sim_ends; auto|]. destruct K10 as [-> | ->]; [apply sim_precision|apply sim_refl]. }
  assert (Hid : t_id t3 = t_id t) by (rewrite C1; unfold t2; simpl; rewrite K1; reflexivity).
  assert (Hpar : t_parent t3 = t_parent t) by (rewrite C2; unfold t2; simpl; rewrite K2; reflexivity).
  assert (Hst : t_status t1 = t_status t) by exact K4.
  assert (Hin1 : t_inflight t1 = t_inflight t) by exact K5.
  assert (Hw : wholeb t = true).
  { apply sim_whole with t3; [|apply bln_whole_t; congruence].
    constructor; try (intros; unfold t3, t2; simpl; congruence).
    - exact Hpar.
    - rewrite C5. apply H01.
    - rewrite C12. apply H01.
    - destruct (t_inflight t1) eqn:Ei.
      + unfold t3, t2, clear_terminal, update_details, final_status. rewrite Ei. simpl. congruence.
      + unfold t3, t2, clear_terminal, update_details, final_status. rewrite Ei. destruct (t_status t1); simpl; congruence.
    - rewrite C8. apply H01.
    - rewrite C9. apply H01.
    - intros H. rewrite Hsrc. auto.
    - intros H. rewrite Hdst. auto.
    - intros H. rewrite C7. apply H01. exact H. }
  assert (Hin3 : t_inflight t3 = t_inflight t).
  { unfold t3, t2, clear_terminal, update_details, final_status. rewrite Hin1.
    destruct (t_inflight t) eqn:Ei; [simpl; congruence|]. destruct (t_status t1); reflexivity. }
  assert (H3 : sim t t3).
  { constructor; auto.
    - rewrite C5. apply H01.
    - rewrite C12. apply H01.
    - rewrite C8. apply H01.
    - rewrite C9. apply H01.
    - intros H. rewrite Hsrc. auto.
    - intros H. rewrite Hdst. auto.
    - intros H. rewrite C7. apply H01. exact H. }
  change used with (used ++ []) at 1 || idtac.
  eapply sp_bind with (ys := fun _ => []) (M := fun _ _ => True).
  - apply sp_op; [exact u_inj| |auto|intros; apply last_true].
    intros s HI HC HRs. destruct (Hpre s HI HC HRs) as [P1 P2]. unfold ProvInv.opok, pubs, newtx. simpl.
    assert (Hwid : wid t3 = [t_id t]).
    { unfold wid. rewrite bln_whole_t by congruence. rewrite Hid. reflexivity. }
    rewrite Hwid. simpl. repeat split; try (intros; contradiction).
    + intros x [<-|[]]. apply P1; exact Hw.
    + intros k x [E|[]]. inversion E; subst k x. rewrite Hpar.
      unfold kind_of, origk. rewrite Hst.
      destruct (t_status t) eqn:Es'; auto;
        (destruct P2 as [P2|P2]; [left|right; exact P2];
         assert (Ho : orig_ok s t3) by (eapply orig_sim; eauto; congruence);
         destruct (t_inflight t1); exact Ho).
    + intros k x [E|[]]. inversion E; subst k x. apply krow_of. rewrite Hst.
      destruct (t_status t); auto; destruct P2 as [P2 P3]; (split; [|congruence]);
        unfold ProvInv.hold_of in *; rewrite (m_parent _ _ H01); exact P2.
  - intros [x|e]; apply done_ret.
Qed.

Lemma rec_ends zs used t a b s :
  inv cfg s -> invC s -> sim t (with_ends t a b) -> rec_pre zs used t s -> rec_pre zs used (with_ends t a b) s.
Proof.
  intros HI HC Hs [H1 H2]. split.
  - intros Hw. apply H1. eapply sim_whole; eauto.
  - simpl. destruct (t_status t); auto; (destruct H2 as [H2|H2]; [left|right; exact H2]; eapply orig_sim; eauto).
Qed.

Lemma done_record_single zs used (R : state -> Prop) t :
  lastC R -> (forall s, inv cfg s -> invC s -> R s -> rec_pre zs used t s) ->
  done_ok zs used R (record_single cfg t).
Proof.
  intros HR Hpre. unfold record_single.
  eapply sp_qr; [exact HR|apply q_resolve| |auto]. intros a Ha.
  eapply sp_qr; [exact HR|apply q_resolve| |auto]. intros b Hb. cbv zeta.
  eapply sp_q with (M := fun _ => True); [exact HR|apply q_free, wait_freeC|]. intros [|] _; [|apply done_ret].
  eapply sp_bind with (ys := fun _ => []) (M := fun _ _ => True).
  - apply done_record_locked; [exact HR|]. intros s HI HC HRs. apply rec_ends; auto. apply sim_ends; auto.
  - intros r. eapply sp_q with (M := fun _ => True); [apply last_true|apply q_free, unlock_freeC|].
    intros _ _. apply done_ret.
Qed.

(** Rights already held or already public. *)
Lemma sp_cap {B} zs xs (R : state -> Prop) (f : string -> prog B) ys post :
  lastC R -> (forall id, id <> "" -> sp zs (id :: xs) R (f id) ys post) -> sp zs xs R (bind (fresh "txn") f) ys post.
Proof.
  intros HR Hf. change xs with ([] ++ xs).
  eapply sp_seq with (pre := fun _ => True) (ys := fun id => [id]) (M := fun id _ => id <> ""); auto.
  - eapply sp_zs; [|apply sp_fresh; exact u_inj]. intros x [].
  - intros id. simpl. apply sp_fact with (c := id <> ""); [intros s _ _ [_ H]; exact H|]. intros Hne.
    eapply sp_pre; [|apply (Hf id Hne)]. intros s _ _ [H _]; exact H.
Qed.

Lemma done_weak {A} zs xs ys (R : state -> Prop) (p : prog A) :
  (exists rest, Permutation xs (ys ++ rest)) -> done_ok zs ys R p -> done_ok zs xs R p.
Proof. intros Hp. apply sp_conseq; auto. intros a. apply perm_none. Qed.

(** ** Rows read back *)
Definition view_of (t : txn) (r : row) (m : meta) : Prop :=
  t_id t = t_id (r_t r) /\ t_parent t = t_parent (r_t r) /\ t_src t = source r /\ t_dst t = destination r
  /\ t_ref t = t_ref (r_t r) /\ t_cur t = t_cur (r_t r) /\ t_status t = t_status (r_t r)
  /\ t_precise t = amount r /\ t_inflight t = false /\ t_allow t = false /\ t_limit t = 0%Q
  /\ t_meta t = m /\ (NS -> same_flags m (t_meta (r_t r))).

Lemma meta_of_ok s r : inv cfg s -> invC s -> In r (s_txns s) -> NS ->
  same_flags (meta_of (s_meta s) (r_t r)) (t_meta (r_t r)).
Proof.
  intros HI HC Hr Hns. pose proof (c_meta _ _ _ HC) as Hm. induction (s_meta s) as [|[i m] l IH]; simpl.
  - split; reflexivity.
  - destruct (String.eqb i (t_id (r_t r))) eqn:E.
    + apply String.eqb_eq in E. destruct (Hm i m (or_introl eq_refl) Hns) as (r' & Hr' & E' & Hs).
      assert (r' = r).
      { pose proof (i_ids _ _ HI) as Hn.
        clear -Hn Hr Hr' E' E. induction (s_txns s) as [|x l IH]; [contradiction|].
        simpl in Hn. inversion Hn; subst. destruct Hr as [->|Hr], Hr' as [->|Hr']; auto.
        - exfalso. apply H1. rewrite <- E'. apply (in_map (fun r => t_id (r_t r))). exact Hr'.
        - exfalso. apply H1. rewrite E'. apply (in_map (fun r => t_id (r_t r))). exact Hr. }
      subst r'. exact Hs.
    + apply IH. intros i' m' Hi. apply Hm. right; exact Hi.
Qed.

Lemma get_row_In id l t : get_row id l = Some t -> exists r, In r l /\ r_t r = t /\ t_id t = id.
Proof.
  induction l as [|x r IH]; simpl; [discriminate|]. destruct (String.eqb (t_id (r_t x)) id) eqn:E.
  - intros H; inversion H; subst. apply String.eqb_eq in E. exists x. auto.
  - intros H. destruct (IH H) as (y & Hy & E'). exists y. auto.
Qed.

Definition seen (s : state) (t : txn) : Prop := exists r m, In r (s_txns s) /\ view_of t r m.
Lemma last_seen t : lastC (fun s => seen s t).
Proof. unfold seen. apply last_ex; intros r. apply last_ex; intros m. apply last_and; [apply last_row|apply last_pure]. Qed.

Lemma sp_get_txn id : sp [] [] (fun _ => True) (act (OGetTxn id)) (fun _ => [])
  (fun x s => match x with Some t => t_id t = id /\ seen s t | None => True end).
Proof.
  apply sp_op; [exact u_inj|intros s _ _ _; revert s; fr| |].
  - intros n s HI HC _ _ _. simpl. destruct (get_row id (s_txns s)) as [t|] eqn:E; auto.
    apply get_row_In in E as (r & Hr & <- & Hid). split; [exact Hid|].
    exists r, (meta_of (s_meta s) (r_t r)). split; [exact Hr|]. unfold view_of. simpl.
    repeat split; auto; intros; apply (meta_of_ok s r HI HC Hr); auto.
  - intros [t|]; [apply last_and; [apply last_pure|apply last_seen]|apply last_true].
Qed.

Lemma pick_seen s p sel : inv cfg s -> invC s ->
  Forall (fun t => seen s t /\ t_status t = SQueued) (pick_rows (s_meta s) p sel (s_txns s)).
Proof.
  intros HI HC. induction sel as [|i r IH]; simpl; [constructor|].
  destruct (get_row i (s_txns s)) as [t|] eqn:E; [|exact IH].
  destruct (is_stuck (s_txns s) t && p t) eqn:E2; [|exact IH]. constructor; [|exact IH].
  apply get_row_In in E as (x & Hx & <- & _). split.
  - exists x, (meta_of (s_meta s) (r_t x)). split; [exact Hx|]. unfold view_of. simpl.
    repeat split; auto; intros; apply (meta_of_ok s x HI HC Hx); auto.
  - apply andb_prop in E2 as [E2 _]. unfold is_stuck in E2. apply andb_prop in E2 as [E2 _]. simpl.
    destruct (t_status (r_t x)); simpl in E2; congruence.
Qed.
Lemma sp_siblings p sel : sp [] [] (fun _ => True) (act (OSiblings p sel)) (fun _ => [])
  (fun x s => Forall (fun t => seen s t /\ t_status t = SQueued) x).
Proof.
  apply sp_op; [exact u_inj|intros s _ _ _; revert s; fr| |].
  - intros n s HI HC _ _ _. simpl. apply pick_seen; auto.
  - intros x. apply (last_forall (fun t s => seen s t /\ t_status t = SQueued)).
    intros t. apply last_and; [apply last_seen|apply last_pure].
Qed.

Lemma row_kind s r : inv cfg s -> In r (s_txns s) -> kind_status (r_kind r) (t_status (r_t r)).
Proof. intros HI Hr. pose proof (i_rows _ _ HI) as H. rewrite Forall_forall in H. apply H; exact Hr. Qed.
Lemma row_C s r : invC s -> In r (s_txns s) -> row_ok NS s r.
Proof. intros HC Hr. pose proof (c_rows _ _ _ HC) as H. rewrite Forall_forall in H. apply H; exact Hr. Qed.

Lemma queued_flags s r : inv cfg s -> invC s -> In r (s_txns s) -> t_status (r_t r) = SQueued -> flags_ok (r_t r).
Proof.
  intros HI HC Hr E. pose proof (row_kind s r HI Hr) as Hk. destruct (row_C s r HC Hr) as [Hc _].
  rewrite E in Hk. destruct (r_kind r); simpl in Hk; try discriminate; try (destruct Hk; discriminate).
  simpl in Hc. apply Hc. rewrite E. discriminate.
Qed.

Lemma hold_seen s t : inv cfg s -> invC s -> seen s t -> is_inflight t = true ->
  forall t', t_parent t' = t_id t -> hold_of s t'.
Proof.
  intros HI HC (r & m & Hr & V1 & V2 & V3 & V4 & V5 & V6 & V7 & V8 & V9 & V10 & V11 & V12 & V13) Hi t' Hp.
  exists r. split; [exact Hr|]. split; [congruence|]. unfold is_inflight in Hi. rewrite V7 in Hi.
  apply orb_prop in Hi as [Hi|Hi].
  - left. destruct (t_status (r_t r)); simpl in Hi; congruence.
  - apply andb_prop in Hi as [H1 H2]. assert (E : t_status (r_t r) = SQueued) by (destruct (t_status (r_t r)); simpl in H1; congruence).
    right. split; [exact E|]. intros Hns. destruct (queued_flags s r HI HC Hr E Hns) as [F1 _].
    destruct (V13 Hns) as [F2 _]. congruence.
Qed.

(** ** Commit and void *)
Lemma sp_s {A B} zs G (R : state -> Prop) (p : prog A) (M : A -> state -> Prop) (f : A -> prog B) ys post :
  lastC R -> sp [] [] (fun _ => True) p (fun _ => []) M ->
  (forall a, sp zs G (fun s => R s /\ M a s) (f a) ys post) -> sp zs G R (bind p f) ys post.
Proof.
  intros HR Hp Hf. change G with ([] ++ G).
  eapply sp_seq with (pre := fun _ => True) (ys := fun _ => []); [exact HR| |auto|exact Hf].
  eapply sp_zs; [|exact Hp]. intros x [].
Qed.
Lemma sp_sr {A B} zs G (R : state -> Prop) (p : prog (res A)) (M : A -> state -> Prop) (f : A -> prog (res B)) :
  lastC R -> sp [] [] (fun _ => True) p (fun _ => []) (fun r s => match r with Ok a => M a s | Err _ => True end) ->
  (forall a, done_ok zs G (fun s => R s /\ M a s) (f a)) -> done_ok zs G R (bindr p f).
Proof.
  intros HR Hp Hf. unfold bindr. eapply sp_s; [exact HR|exact Hp|]. intros [a|e]; [apply Hf|apply done_ret].
Qed.
Lemma done_bind {A B} zs xs G (R : state -> Prop) (p : prog A) (f : A -> prog B) :
  lastC R -> done_ok zs xs R p -> (forall a, done_ok zs G R (f a)) -> done_ok zs (xs ++ G) R (bind p f).
Proof.
  intros HR Hp Hf. eapply sp_seq with (pre := R) (ys := fun _ => []) (M := fun _ _ => True); auto.
  intros a. simpl. eapply sp_pre; [|apply Hf]. intros s _ _ [H _]; exact H.
Qed.
Lemma done_then {A B} zs xs (R : state -> Prop) (p : prog A) (f : A -> prog B) :
  done_ok zs xs R p -> (forall a, quiet (f a) (fun _ => True)) -> done_ok zs xs R (bind p f).
Proof.
  intros Hp Hf. eapply sp_bind; [exact Hp|]. intros a. eapply sp_zs; [|apply Hf]. intros x [].
Qed.
Lemma done_of_quiet {A} zs xs R (p : prog A) M : quiet p M -> done_ok zs xs R p.
Proof.
  intros H. eapply sp_conseq with (xs' := []) (pre' := fun _ => True); [auto| | | |eapply sp_zs; [|exact H]].
  - apply perm_none.
  - auto.
  - intros a. apply perm_self.
  - intros x [].
Qed.

Lemma done_with_lock {A} zs xs R k (p : prog (res A)) : lastC R -> done_ok zs xs R p -> done_ok zs xs R (with_lock k p).
Proof.
  intros HR Hp. unfold with_lock.
  eapply sp_q with (M := fun _ => True); [exact HR|apply q_free; simpl; split; [fr|auto]|].
  intros [|] _; [|apply done_ret]. apply done_then; [exact Hp|]. intros a. apply q_free. simpl. split; [fr|auto].
Qed.

Lemma sp_fetch id : sp [] [] (fun _ => True) (fetch_inflight id) (fun _ => [])
  (fun r s => match r with Ok t => seen s t /\ is_inflight t = true | Err _ => True end).
Proof.
  unfold fetch_inflight. eapply sp_s; [apply last_true|apply sp_get_txn|]. intros [t|].
  2: { apply sp_ret; [auto|apply perm_self]. }
  destruct (is_inflight t) eqn:Ei; simpl negb; cbv iota.
  2: { apply sp_ret; [auto|apply perm_self]. }
  assert (HL : lastC (fun s => True /\ t_id t = id /\ seen s t)).
  { apply last_and; [apply last_true|apply last_and; [apply last_pure|apply last_seen]]. }
  eapply sp_q with (M := fun _ => True); [exact HL|apply q_free; simpl; split; [fr|auto]|].
  intros [|] _; (apply sp_ret; [|apply perm_self]); [auto|]. intros s _ _ (_ & _ & H). auto.
Qed.

Lemma done_commit id amount ref : done_ok [] [] (fun _ => True) (commit cfg id amount ref).
Proof.
  unfold commit. apply done_with_lock; [apply last_true|].
  eapply sp_sr; [apply last_true|apply sp_fetch|]. intros t.
  assert (HL : lastC (fun s => True /\ seen s t /\ is_inflight t = true)).
  { apply last_and; [apply last_true|apply last_and; [apply last_seen|apply last_pure]]. }
  eapply sp_q with (M := fun _ => True); [exact HL|apply q_free; simpl; split; [fr|auto]|]. intros c _.
  destruct (commit_amount t amount (t_precise t - c)) as [[p a]|e]; [|apply done_ret].
  apply sp_cap; [exact HL|]. intros nid _.
  eapply sp_q with (M := fun _ => True); [exact HL|apply q_free, choose_ref_freeC|]. intros nref _.
  apply done_record_single; [exact HL|]. intros s HI HC (_ & Hs & Hi). split; simpl.
  - intros _. left; left; reflexivity.
  - split; [|reflexivity]. eapply hold_seen; eauto.
Qed.

Lemma done_void id ref : done_ok [] [] (fun _ => True) (void cfg id ref).
Proof.
  unfold void. apply done_with_lock; [apply last_true|].
  eapply sp_sr; [apply last_true|apply sp_fetch|]. intros t.
  assert (HL : lastC (fun s => True /\ seen s t /\ is_inflight t = true)).
  { apply last_and; [apply last_true|apply last_and; [apply last_seen|apply last_pure]]. }
  eapply sp_q with (M := fun _ => True); [exact HL|apply q_free; simpl; split; [fr|auto]|]. intros c _. cbv zeta.
  destruct (t_precise t - c =? 0); [apply done_ret|].
  apply sp_cap; [exact HL|]. intros nid _.
  eapply sp_q with (M := fun _ => True); [exact HL|apply q_free, choose_ref_freeC|]. intros nref _.
  set (t0 := with_status _ _).
  pose proof (apply_precision_fields t0) as Hf. cbv zeta in Hf.
  destruct Hf as (F1 & F2 & F3 & F4 & F5 & F6 & F7 & F8 & F9 & F10 & F11 & F12 & F13 & F14 & F15 & F16).
  apply done_record_single; [exact HL|]. intros s HI HC (_ & Hs & Hi). split.
  - intros _. left; left. rewrite F1. reflexivity.
  - rewrite F7. simpl. split; [|rewrite F8; reflexivity]. eapply hold_seen; eauto.
Qed.

(** ** Queueing *)
Lemma flags_metadata t : flags_ok t -> flags_ok (set_metadata t).
Proof.
  intros H Hns. destruct (H Hns) as [H1 H2].
  pose proof (apply_precision_fields t) as Hf. cbv zeta in Hf.
  destruct Hf as (F1 & F2 & F3 & F4 & F5 & F6 & F7 & F8 & F9 & F10 & F11 & F12 & F13 & F14 & F15 & F16).
  unfold set_metadata. simpl. rewrite F14, F8, F9, H1, H2. split; apply orb_diag.
Qed.
Lemma flags_set_status t : flags_ok t -> flags_ok (set_status t).
Proof. intros H Hns. unfold set_status. destruct (t_sched t); [apply H; auto|]. destruct (t_status t); apply H; auto. Qed.
Lemma status_set_status t : t_status t = SQueued \/ t_status t = SScheduled \/ t_status t = SNone ->
  t_status (set_status t) = SQueued \/ t_status (set_status t) = SScheduled.
Proof.
  unfold set_status. destruct (t_sched t); simpl; [auto|]. intros [E|[E|E]]; rewrite E; simpl; auto.
Qed.
Lemma fields_metadata t :
  t_id (set_metadata t) = t_id t /\ t_status (set_metadata t) = t_status t
  /\ t_src (set_metadata t) = t_src t /\ t_dst (set_metadata t) = t_dst t.
Proof.
  pose proof (apply_precision_fields t) as Hf. cbv zeta in Hf.
  destruct Hf as (F1 & F2 & F3 & F4 & F5 & F6 & F7 & F8 & F9 & F10 & F11 & F12 & F13 & F14 & F15 & F16).
  unfold set_metadata. simpl. auto.
Qed.
Lemma fields_set_status t :
  t_id (set_status t) = t_id t /\ t_meta (set_status t) = t_meta t
  /\ t_src (set_status t) = t_src t /\ t_dst (set_status t) = t_dst t.
Proof. unfold set_status. destruct (t_sched t); simpl; auto. destruct (t_status t); simpl; auto. Qed.
Definition qst (t : txn) : Prop := t_status t = SQueued \/ t_status t = SScheduled.

Definition queue_ready (t t' : txn) : Prop :=
  sim t t' /\ t_id t' = t_id t /\ flags_ok t' /\ qst t'.

Lemma q_prepare t : t_id t <> "" -> flags_ok t -> qst t ->
  quiet (prepare_for_queue cfg t) (fun x => queue_ready t (fst x)).
Proof.
  intros Hid Hf Hq. unfold prepare_for_queue, ensure_id.
  set (t0 := set_metadata (set_status t)).
  assert (H0 : queue_ready t t0).
  { split; [|split; [|split]].
    - eapply sim_trans; [apply sim_set_status|apply sim_set_metadata].
    - unfold t0. destruct (fields_metadata (set_status t)) as [-> _]. apply fields_set_status.
    - apply flags_metadata, flags_set_status, Hf.
    - unfold qst, t0. destruct (fields_metadata (set_status t)) as (_ & -> & _).
      apply status_set_status. destruct Hq; auto. }
  destruct H0 as (S0 & I0 & F0 & Q0).
  assert (Hn : String.eqb (t_id t0) "" = false) by (rewrite I0; apply String.eqb_neq; exact Hid).
  rewrite Hn. cbn [bind].
  eapply quiet_bind; [apply q_get_end|]. intros [src|e] Hs; [|apply quiet_ret; split; auto].
  destruct Hs as [Bs Es]. cbv zeta.
  assert (H1 : queue_ready t (with_ends t0 (b_id src) (t_dst t0))).
  { split; [|split; [|split]]; auto. eapply sim_trans; [exact S0|apply sim_ends; auto]. }
  eapply quiet_bind; [apply q_get_end|]. intros [dst|e] Hd; [|apply quiet_ret; exact H1].
  destruct Hd as [Bd Ed]. simpl in Ed. apply quiet_ret. simpl.
  split; [|split; [|split]]; auto. eapply sim_trans; [exact S0|].
  apply sim_trans with (with_ends t0 (b_id src) (t_dst t0)); [apply sim_ends; auto|].
  constructor; auto.
Qed.

Lemma sp_insert zs used (R : state -> Prop) t :
  (forall s, inv cfg s -> invC s -> R s ->
     (wholeb t = true -> In (t_id t) used \/ pub (t_id t) s) /\ (orig_ok s t \/ In (t_parent t) zs)) ->
  (t_status t <> SRejected -> flags_ok t) ->
  sp zs used R (act (OInsert t)) (fun _ => [])
    (fun r s => match r with Ok _ => In {| r_t := t; r_kind := KNone |} (s_txns s) | Err _ => True end).
Proof.
  intros H Hf. apply sp_op; [exact u_inj| | |].
  - intros s HI HC HR. destruct (H s HI HC HR) as [H1 H2]. unfold ProvInv.opok, pubs, newtx. simpl.
    rewrite !app_nil_r. repeat split; try (intros; contradiction).
    + unfold wid. destruct (wholeb t); [|intros x []]. intros x [<-|[]]. auto.
    + intros k x [E|[]]. inversion E; subst. exact H2.
    + intros k x [E|[]]. inversion E; subst. exact Hf.
  - intros n s HI HC HR _ _. simpl. destruct (insert_txn KNone t (s_bals s) (s_txns s)) as [l|e] eqn:E; simpl; auto.
    apply insert_txn_ok in E as (-> & _). left; reflexivity.
  - intros [x|e]; [apply last_row|apply last_true].
Qed.

Lemma copy_pay s t id ref :
  In {| r_t := t; r_kind := KNone |} (s_txns s) -> qst t -> flags_ok t -> ref = t_ref t ->
  pay_ok s (with_keys t id (t_id t) (ref ++ "_q")).
Proof.
  intros Hin Hq Hf ->. split; [|exact Hf]. right; right; left. exists {| r_t := t; r_kind := KNone |}.
  split; [exact Hin|]. left. unfold ProvInv.copy_of, waiting, source, destination, amount. simpl. auto 20.
Qed.

Lemma sp_process_single (R : state -> Prop) t ref :
  lastC R -> t_id t <> "" -> qst t -> flags_ok t -> ref = t_ref t ->
  (forall s, inv cfg s -> invC s -> R s -> orig_ok s t /\ (wholeb t = true -> pub (t_id t) s)) ->
  sp [] [] R (process_single cfg t ref)
    (fun x => match snd x with Ok q => [t_id q] | Err _ => [] end)
    (fun x s => R s /\ match snd x with Ok q => pay_ok s q | Err _ => queue_ready t (fst x) end).
Proof.
  intros HR Hid Hq Hf Href HRs. unfold process_single.
  eapply sp_q with (M := fun x => queue_ready t (fst x)); [exact HR| |].
  { assert (Hself : queue_ready t t) by (split; [apply sim_refl|auto]).
    destruct (t_sources t); [|apply quiet_ret; exact Hself].
    destruct (t_dests t); [|apply quiet_ret; exact Hself]. apply q_prepare; auto. }
  intros [t1 [x|e]] H1; simpl in H1; [|apply sp_ret; [auto|apply perm_self]].
  destruct H1 as (S1 & I1 & F1 & Q1).
  change (@nil string) with (@nil string ++ @nil string).
  eapply sp_seq with (pre := R) (ys := fun _ => []); [exact HR|apply sp_insert with (R := R)| |].
  - intros s HI HC HRs'. destruct (HRs s HI HC HRs') as [O1 P1]. split.
    + intros Hw. right. rewrite I1. apply P1. eapply sim_whole; eauto.
    + left. eapply orig_sim; eauto. apply S1.
  - intros _. exact F1.
  - auto.
  - intros [x'|e]; simpl app.
    2: { apply sp_ret; [|apply perm_self]. intros s _ _ [A _]. simpl. split; [exact A|].
         split; [exact S1|auto]. }
    unfold queue_copy.
    assert (HL : lastC (fun s => R s /\ In {| r_t := t1; r_kind := KNone |} (s_txns s))).
    { apply last_and; [exact HR|apply last_row]. }
    eapply sp_bind with (ys := fun q => [t_id q]) (M := fun q s => R s /\ pay_ok s q).
    + apply sp_cap; [exact HL|]. intros id _. apply sp_ret; [|apply perm_self].
      intros s _ _ [A B]. split; [exact A|]. apply copy_pay; auto. rewrite Href. symmetry. apply S1.
    + intros q. apply sp_ret; [|apply perm_self]. auto.
Qed.

Lemma sp_process_split (R : state -> Prop) legs :
  lastC R ->
  Forall (fun l => t_id l <> "" /\ qst l /\ flags_ok l) legs ->
  (forall s, inv cfg s -> invC s -> R s -> Forall (fun l => orig_ok s l /\ pub (t_id l) s) legs) ->
  sp [] [] R (process_split cfg legs)
    (fun x => match x with Ok qs => map t_id qs | Err _ => [] end)
    (fun x s => R s /\ match x with Ok qs => Forall (pay_ok s) qs | Err _ => True end).
Proof.
  revert R. induction legs as [|l r IH]; intros R HR Hf HRs; cbn [process_split].
  { apply sp_ret; [auto|apply perm_self]. }
  inversion Hf as [|? ? (Hid & Hq & Hfl) Hfr]; subst.
  eapply sp_q with (M := fun x => queue_ready l (fst x)); [exact HR|apply q_prepare; auto|].
  intros [t1 [x|e]] H1; simpl in H1; [|apply sp_ret; [auto|apply perm_self]].
  destruct H1 as (S1 & I1 & F1 & Q1).
  change (@nil string) with (@nil string ++ @nil string).
  eapply sp_seq with (pre := R) (ys := fun _ => []); [exact HR|apply sp_insert with (R := R)| |].
  - intros s HI HC HRs'. pose proof (HRs s HI HC HRs') as H2. inversion H2 as [|? ? [O1 P1] _]; subst. split.
    + intros Hw. right. rewrite I1. exact P1.
    + left. eapply orig_sim; eauto. apply S1.
  - intros _. exact F1.
  - auto.
  - intros [x'|e]; simpl app.
    2: { apply sp_ret; [|apply perm_self]. intros s _ _ [A _]. auto. }
    unfold queue_copy.
    assert (HL : lastC (fun s => R s /\ In {| r_t := t1; r_kind := KNone |} (s_txns s))).
    { apply last_and; [exact HR|apply last_row]. }
    eapply sp_bind with (ys := fun q => [t_id q]) (M := fun q s => R s /\ pay_ok s q).
    + apply sp_cap; [exact HL|]. intros id _. apply sp_ret; [|apply perm_self].
      intros s _ _ [A B]. split; [exact A|]. apply copy_pay; auto.
    + intros q. assert (HL2 : lastC (fun s => R s /\ pay_ok s q)) by (apply last_and; [exact HR|apply last_pay]).
      unfold bindr. change [t_id q] with ([] ++ [t_id q]).
      eapply sp_seq with (pre := fun s => R s /\ pay_ok s q); [exact HL2|apply IH| |]; auto.
      * intros s HI HC [A _]. pose proof (HRs s HI HC A) as H2. inversion H2; subst; assumption.
      * intros [qs|e]; (apply sp_ret; [|]).
        -- intros s _ _ [[A B] [_ C]]. auto.
        -- exists []. rewrite app_nil_r. simpl. apply Permutation_sym, Permutation_cons_append.
        -- intros s _ _ [[A B] _]. auto.
        -- apply perm_none.
Qed.

Lemma done_enqueue_one zs used (R : state -> Prop) t :
  lastC R ->
  (forall s, inv cfg s -> invC s -> R s ->
     pay_ok s t /\ (wholeb t = true -> In (t_id t) used \/ pub (t_id t) s)) ->
  done_ok zs used R (act (OEnqueue t)).
Proof.
  intros HR H. apply sp_op; [exact u_inj| |auto|intros; apply last_true].
  intros s HI HC HRs. destruct (H s HI HC HRs) as [[O1 F1] P1]. unfold ProvInv.opok, pubs, newtx. simpl.
  rewrite !app_nil_r. refine (conj _ (conj _ (conj _ (conj _ (conj _ Logic.I))))); try (intros; contradiction).
  - unfold wid. destruct (wholeb t); [|intros x []]. intros x [<-|[]]. auto.
  - intros k x [E|[]]. inversion E; subst. auto.
  - intros x [<-|[]]. exact F1.
Qed.

Lemma done_enqueue_all zs (R : state -> Prop) l :
  lastC R -> (forall s, inv cfg s -> invC s -> R s -> Forall (pay_ok s) l) ->
  done_ok zs (map t_id l) R (enqueue_all l).
Proof.
  intros HR. induction l as [|t r IH]; intros H; cbn [enqueue_all map]; [apply done_ret|].
  change (t_id t :: map t_id r) with ([t_id t] ++ map t_id r).
  apply done_bind; [exact HR| |].
  - apply done_enqueue_one; [exact HR|]. intros s HI HC Hs. pose proof (H s HI HC Hs) as H2. inversion H2; subst.
    split; [assumption|]. intros _. left; left; reflexivity.
  - intros _. apply IH. intros s HI HC Hs. pose proof (H s HI HC Hs) as H2. inversion H2; assumption.
Qed.

Lemma job_facts s j : invC s -> In j (s_spawned s) ->
  job_ok NS s j /\ (forall x, In x (jids j) -> pub x s).
Proof.
  intros HC Hj. split.
  - pose proof (c_spawn _ _ _ HC) as H. rewrite Forall_forall in H. apply H; exact Hj.
  - intros x Hx. unfold pub, ids. rewrite !in_app_iff. right; right. apply in_flat_map. eauto.
Qed.

Lemma pub_not_empty s x : invC s -> pub x s -> x <> "".
Proof. intros HC Hp. destruct (c_pub _ _ _ HC x Hp) as (i & _ & ->). discriminate. Qed.

Lemma update_split_in i legs p r l' : In l' (update_split i legs p r) ->
  exists l ref, In l legs /\ l' = with_keys l (t_id l) p ref.
Proof.
  revert i. induction legs as [|l ls IH]; intros i; simpl; [contradiction|].
  intros [<-|H]; [eauto|]. destruct (IH _ H) as (x & ref & Hx & E). eauto.
Qed.

Lemma done_async_job j :
  good_job j -> done_ok [] [] (fun s => In j (s_spawned s)) (async_job cfg j).
Proof.
  intros [Gt Gl]. set (R := fun s => In j (s_spawned s)).
  assert (HR : lastC R) by apply last_job.
  unfold async_job. destruct (j_legs j) as [|l0 ls] eqn:El.
  - apply sp_fact with (c := j_ref j = t_ref (j_txn j) /\ flags_ok (j_txn j) /\ t_id (j_txn j) <> "").
    { intros s HI HC Hj. destruct (job_facts s j HC Hj) as [(J1 & J2 & J3) _].
      rewrite Forall_forall in J1. split; [apply J2|]. split; [apply (J1 (j_txn j)); left; reflexivity|apply J2]. }
    intros (Er & Ef & Hne).
    assert (HRs : forall s, inv cfg s -> invC s -> R s -> orig_ok s (j_txn j)
                    /\ (wholeb (j_txn j) = true -> pub (t_id (j_txn j)) s)).
    { intros s HI HC Hj. destruct (job_facts s j HC Hj) as [(J1 & J2 & J3) J4]. rewrite Forall_forall in J1.
      split; [apply (J1 (j_txn j)); left; reflexivity|]. intros Hw. apply J4. unfold jids. rewrite El. unfold wid.
      rewrite Hw. left; reflexivity. }
    eapply sp_bind; [apply sp_process_single with (R := R); auto; apply Gt|].
    intros [t' [q|e]]; cbn [snd fst].
    + change [t_id q] with (map t_id [q]). apply done_enqueue_all.
      * apply last_and; [exact HR|apply last_pay].
      * intros s _ _ [_ H]. constructor; auto.
    + apply sp_fact with (c := queue_ready (j_txn j) t'); [intros s _ _ [_ H]; exact H|].
      intros (S1 & I1 & F1 & Q1). eapply sp_pre with (pre' := R); [intros s _ _ [H _]; exact H|].
      apply done_then; [|intros a; apply quiet_ret; exact Logic.I].
      apply done_enqueue_one; [exact HR|]. intros s HI HC Hs. destruct (HRs s HI HC Hs) as [O1 P1]. split.
      * split; [|exact F1]. eapply orig_sim; eauto. apply S1.
      * intros Hw. right. rewrite I1. apply P1. eapply sim_whole; eauto.
  - set (legs := l0 :: ls) in *.
    apply sp_fact with (c := job_shape j /\ Forall flags_ok (j_txn j :: legs)
                        /\ Forall (fun l => t_id l <> "") legs).
    { intros s HI HC Hj. destruct (job_facts s j HC Hj) as [(J1 & J2 & J3) J4].
      split; [exact J2|]. unfold jtx in J1. rewrite El in J1. split.
      - eapply Forall_impl; [|exact J1]. intros t [_ H]; exact H.
      - apply Forall_forall. intros l Hl. apply (pub_not_empty s); [exact HC|]. apply J4.
        unfold jids. rewrite El. unfold legs in Hl. apply in_map. exact Hl. }
    intros ((Js1 & Jid & Js2) & Jf & Jn). rewrite El in Js2. destruct (Js2 ltac:(discriminate)) as [Jw Jp].
    inversion Jf as [|? ? Jf0 Jfl]; subst.
    eapply sp_bind; [apply sp_process_split with (R := R); [exact HR| |]|].
    + apply Forall_forall. intros l' Hl'. apply update_split_in in Hl' as (l & ref & Hl & ->).
      rewrite Forall_forall in Jn, Jfl, Gl. simpl. split; [apply Jn; exact Hl|]. split; [apply (Gl l Hl)|apply (Jfl l Hl)].
    + intros s HI HC Hj. destruct (job_facts s j HC Hj) as [(J1 & J2 & J3) J4].
      apply Forall_forall. intros l' Hl'. apply update_split_in in Hl' as (l & ref & Hl & ->). simpl. split.
      * right; right; right. simpl. apply J3. rewrite El. discriminate.
      * apply J4. unfold jids. rewrite El. fold legs. apply in_map. exact Hl.
    + intros [qs|e].
      * apply done_enqueue_all; [apply last_and; [exact HR|apply (last_forall (fun q s => pay_ok s q)); intros; apply last_pay]|].
        intros s _ _ [_ H]; exact H.
      * apply done_then; [|intros a; apply quiet_ret; exact Logic.I].
        apply done_enqueue_one; [apply last_and; [exact HR|apply last_true]|].
        intros s HI HC [Hj _]. destruct (job_facts s j HC Hj) as [(J1 & J2 & J3) J4]. rewrite Forall_forall in J1.
        split; [apply J1; left; reflexivity|]. intros Hw. congruence.
Qed.

(** ** Splits and new transactions *)
Definition leg_of (t l : txn) : Prop :=
  t_parent l = t_id t /\ t_meta l = t_meta t /\ t_inflight l = t_inflight t /\ t_allow l = t_allow t
  /\ t_status l = t_status t.

Lemma sp_make_legs t i m :
  sp [] [] (fun _ => True) (make_legs t i m) (map t_id) (fun ls _ => Forall (leg_of t) ls).
Proof.
  revert i. induction m as [|[who p] r IH]; intros i; cbn [make_legs].
  - apply sp_ret; [auto|apply perm_self].
  - apply sp_cap; [apply last_true|]. intros id _. change [id] with ([] ++ [id]).
    eapply sp_seq with (pre := fun _ => True); [apply last_true|apply IH|auto|].
    intros ls. apply sp_ret.
    + intros s _ _ [_ H]. constructor; [|exact H]. unfold leg_of. destruct (t_sources t); simpl; auto.
    + exists []. rewrite app_nil_r. destruct (t_sources t); simpl; apply Permutation_sym, Permutation_cons_append.
Qed.

Lemma sp_split e t :
  sp [] [] (fun _ => True) (split_txn e t) (fun r => match r with Ok ls => map t_id ls | Err _ => [] end)
    (fun r _ => match r with Ok ls => Forall (leg_of t) ls | Err _ => True end).
Proof.
  unfold split_txn. destruct (calculate_distributions _ _ _ _ _) as [m|]; [|apply sp_ret; [auto|apply perm_self]].
  eapply sp_bind; [apply sp_make_legs|]. intros ls. apply sp_ret; [auto|apply perm_self].
Qed.

Lemma done_queue_async zs used (R : state -> Prop) t legs ref id :
  lastC R -> (forall s, inv cfg s -> invC s -> R s -> orig_ok s t) -> flags_ok t -> ref = t_ref t -> t_id t <> "" ->
  (legs = [] -> wholeb t = true -> In (t_id t) used) ->
  (legs <> [] -> wholeb t = false /\ Forall (fun l => t_parent l = id /\ flags_ok l) legs
     /\ incl (map t_id legs) used /\ In id zs) ->
  done_ok zs used R (queue_async t legs ref id).
Proof.
  intros HR Ho Hf Hr Hid H0 H1. unfold queue_async. set (q := if contains_bulk _ then _ else _). cbv zeta.
  apply done_then; [|intros a; apply quiet_ret; exact Logic.I].
  apply sp_op; [exact u_inj| |auto|intros; apply last_true].
  intros s HI HC HRs. pose proof (Ho s HI HC HRs) as Ht.
  assert (Hlegs : forall l, In l legs -> t_parent l = id /\ flags_ok l /\ In id zs).
  { intros l Hl. assert (Hne : legs <> []) by (intros ->; contradiction).
    destruct (H1 Hne) as (_ & H2 & _ & H3). rewrite Forall_forall in H2. destruct (H2 l Hl). auto. }
  unfold ProvInv.opok, pubs, newtx. simpl. rewrite !app_nil_r.
  refine (conj _ (conj _ (conj _ (conj _ (conj _ Logic.I))))); try (intros; contradiction).
  - unfold jids. simpl. destruct legs as [|l0 ls]; simpl.
    + unfold wid. simpl. change (wholeb (with_qparent t q)) with (wholeb t).
      destruct (wholeb t) eqn:Hw; [|intros x []]. intros x [<-|[]]. left. apply H0; auto.
    + destruct (H1 ltac:(discriminate)) as (_ & _ & H2 & _). intros x Hx. left. apply H2. simpl.
      rewrite map_map in Hx. exact Hx.
  - intros k x [E|Hx].
    + inversion E; subst. left. exact Ht.
    + apply in_map_iff in Hx as (y & E & Hy). inversion E; subst. apply in_map_iff in Hy as (l & <- & Hl).
      destruct (Hlegs l Hl) as (A & B & C). right. simpl. rewrite A. exact C.
  - intros j [<-|[]]. split; [|split].
    + split; [exact Hr|]. split; [exact Hid|]. simpl. intros Hne.
      assert (Hne' : legs <> []) by (intros ->; apply Hne; reflexivity).
      destruct (H1 Hne') as (H2 & H3 & _). split; [exact H2|].
      apply Forall_forall. intros l Hl. apply in_map_iff in Hl as (l0 & <- & Hl). simpl. apply (Hlegs l0 Hl).
    + unfold jtx. simpl. constructor; [exact Hf|]. apply Forall_forall. intros l Hl.
      apply in_map_iff in Hl as (l0 & <- & Hl). apply (Hlegs l0 Hl).
    + simpl. intros Hne. assert (Hne' : legs <> []) by (intros ->; apply Hne; reflexivity). apply (H1 Hne').
Qed.

Definition idl (t : txn) : list string := if String.eqb (t_id t) "" then [] else [t_id t].
Lemma sp_ensure {B} zs xs (R : state -> Prop) t (f : txn -> prog B) ys post :
  lastC R ->
  (forall t', sim t t' -> t_status t' = t_status t -> t_meta t' = t_meta t -> t_src t' = t_src t ->
     t_dst t' = t_dst t -> t_id t' <> "" -> sp zs (t_id t' :: xs) R (f t') ys post) ->
  sp zs (idl t ++ xs) R (bind (ensure_id t) f) ys post.
Proof.
  intros HR H. unfold idl, ensure_id. destruct (String.eqb (t_id t) "") eqn:E.
  - simpl app. unfold fresh. change (bind ?p f) with (bind p f).
    eapply sp_bind with (ys := fun t' => t_id t' :: xs)
      (M := fun t' s => (sim t t' /\ t_status t' = t_status t /\ t_meta t' = t_meta t /\ t_src t' = t_src t
                        /\ t_dst t' = t_dst t /\ t_id t' <> "") /\ R s).
    + apply sp_cap; [exact HR|]. intros id Hid. apply sp_ret; [|apply perm_self].
      intros s _ _ Hs. simpl. split; [|exact Hs]. split; [constructor; auto|auto].
    + intros t'. eapply sp_fact; [intros s _ _ [A _]; exact A|]. intros (A1 & A2 & A3 & A4 & A5 & A6).
      eapply sp_pre; [|apply H; auto]. intros s _ _ [_ A]; exact A.
  - cbn [bind]. simpl app. apply H; auto; [apply sim_refl|]. apply String.eqb_neq; exact E.
Qed.

Lemma flags_carry t t' : flags_ok t -> sim t t' -> t_meta t' = t_meta t -> flags_ok t'.
Proof. intros H Hs Hm Hns. destruct (H Hns) as [A B]. rewrite Hm, (m_infl _ _ Hs), (m_all _ _ Hs). auto. Qed.

Definition fresh_status (t : txn) : Prop := t_status t = SQueued \/ t_status t = SScheduled \/ t_status t = SNone.

Lemma rec_pre_orig zs used t s : qst t -> (wholeb t = true -> In (t_id t) used \/ pub (t_id t) s) ->
  (orig_ok s t \/ In (t_parent t) zs) -> rec_pre zs used t s.
Proof. intros [E|E] H1 H2; split; auto; rewrite E; exact H2. Qed.

Lemma done_queue_nosplit zs (R : state -> Prop) t :
  lastC R -> (forall s, inv cfg s -> invC s -> R s -> orig_ok s t) -> flags_ok (set_metadata t) ->
  fresh_status t -> done_ok zs (idl t) R (queue_nosplit cfg t).
Proof.
  intros HR Ho Hf Hst. unfold queue_nosplit. cbv zeta.
  destruct (fields_metadata t) as (M1 & M2 & M3 & M4).
  replace (idl t) with (idl (set_metadata t) ++ []) by (rewrite app_nil_r; unfold idl; rewrite M1; reflexivity).
  apply sp_ensure; [exact HR|]. intros t1 S1 St1 Me1 Sr1 Ds1 Id1.
  destruct (fields_set_status t1) as (N1 & N2 & N3 & N4).
  set (t2 := set_status t1) in *.
  assert (S2 : sim t t2).
  { eapply sim_trans; [apply sim_set_metadata|]. eapply sim_trans; [exact S1|apply sim_set_status]. }
  assert (F2 : flags_ok t2).
  { eapply flags_carry; [exact Hf| |congruence]. eapply sim_trans; [exact S1|apply sim_set_status]. }
  assert (Q2 : qst t2) by (apply status_set_status; rewrite St1, M2; exact Hst).
  assert (O2 : forall s, inv cfg s -> invC s -> R s -> orig_ok s t2).
  { intros s HI HC Hs. eapply orig_sim; eauto. apply S2. }
  destruct (calculate_distributions _ _ _ _ _); [|apply done_ret].
  destruct (t_skipq t2).
  - unfold bindr. apply done_then; [|intros [x|e]; apply quiet_ret; exact Logic.I].
    apply done_record_single; [exact HR|]. intros s HI HC Hs. apply rec_pre_orig; auto.
    intros _. left; left. congruence.
  - apply done_queue_async; auto; try congruence.
    + symmetry. apply S2.
    + intros _ _. left. congruence.
Qed.

Lemma queue_find_in id l t : queue_find id l = Some t -> In t l.
Proof. induction l as [|x r IH]; simpl; [discriminate|]. destruct (String.eqb _ _); intros H; [inversion H; auto|auto]. Qed.

Lemma sp_refund_original id : sp [] [] (fun _ => True) (refund_original id) (fun _ => [])
  (fun r s => match r with Ok t => seen s t \/ qst t | Err _ => True end).
Proof.
  unfold refund_original. eapply sp_s; [apply last_true|apply sp_get_txn|]. intros [t|].
  - apply sp_ret; [|apply perm_self]. intros s _ _ (_ & _ & H). auto.
  - eapply sp_q with (M := fun q => match q with Some t => qst t | None => True end).
    + apply last_and; apply last_true.
    + apply quiet_op; [exact u_inj|fr|]. intros n s HI _. simpl.
      destruct (queue_find id (s_queue s)) as [t|] eqn:E; auto. apply queue_find_in in E.
      pose proof (i_queue _ _ HI) as Hq. rewrite Forall_forall in Hq. apply Hq; exact E.
    + intros [t|] Hq; (apply sp_ret; [auto|apply perm_self]).
Qed.

Lemma done_refund id skipq upd :
  (NS -> forall m, m_inflight (upd m) = m_inflight m) -> done_ok [] [] (fun _ => True) (refund cfg id skipq upd).
Proof.
  intros Hu. unfold refund. apply done_with_lock; [apply last_true|].
  eapply sp_sr; [apply last_true|apply sp_refund_original|]. intros t.
  set (R := fun s => True /\ (seen s t \/ qst t)).
  assert (HR : lastC R) by (apply last_and; [apply last_true|apply last_or; [apply last_seen|apply last_pure]]).
  assert (Hgo : t_status t = SApplied \/ t_status t = SVoid ->
    done_ok [] [] R (bind (act (ORefunded (t_id t) (t_src t) (t_dst t)))
      (fun d => if d then Ret (Err EAlreadyRefunded)
                else bind (fresh "txn") (fun nid => queue_nosplit cfg (prepare_refund t nid skipq upd))))).
  { intros Hst.
    assert (Hseen : forall s, R s -> seen s t).
    { intros s [_ [H|[H|H]]]; auto; exfalso; destruct Hst; congruence. }
    apply sp_fact with (c := NS -> m_inflight (t_meta t) = false).
    { intros s HI HC Hs Hns. destruct (Hseen s Hs) as (r & m & Hr & V).
      destruct V as (V1 & V2 & V3 & V4 & V5 & V6 & V7 & V8 & V9 & V10 & V11 & V12 & V13).
      destruct (V13 Hns) as [E _]. rewrite V12, E. pose proof (row_kind s r HI Hr) as Hk.
      destruct (row_C s r HC Hr) as [Hc _]. rewrite <- V7 in Hk.
      destruct (r_kind r); simpl in Hk, Hc; try apply Hc; exfalso; destruct Hst as [E'|E']; rewrite E' in Hk;
        try discriminate; destruct Hk as [Hk|[Hk|Hk]]; discriminate. }
    intros Hm.
    eapply sp_q with (M := fun _ => True); [exact HR|apply q_free; simpl; split; [fr|auto]|].
    intros [|] _; [apply done_ret|]. apply sp_cap; [exact HR|]. intros nid Hnid.
    set (t' := prepare_refund t nid skipq upd).
    replace [nid] with (idl t').
    2: { unfold idl. change (t_id t') with nid. destruct (String.eqb nid "") eqn:E; auto.
         apply String.eqb_eq in E. contradiction. }
    apply done_queue_nosplit; [exact HR| | |right; right; reflexivity].
    - intros s HI HC Hs. destruct (Hseen s Hs) as (r & m & Hr & V).
      destruct V as (V1 & V2 & V3 & V4 & V5 & V6 & V7 & V8 & V9 & V10 & V11 & V12 & V13).
      right; right; left. exists r. split; [exact Hr|]. right. unfold refund_of, t', prepare_refund. simpl.
      rewrite V1, V3, V4, V6, V7, V8. rewrite V7 in Hst. repeat split; auto.
    - intros Hns. pose proof (apply_precision_fields t') as Hf. cbv zeta in Hf.
      destruct Hf as (F1 & F2 & F3 & F4 & F5 & F6 & F7 & F8 & F9 & F10 & F11 & F12 & F13 & F14 & F15 & F16).
      unfold set_metadata. simpl. rewrite F14, F8, F9. unfold t', prepare_refund. simpl.
      rewrite (Hu Hns), (Hm Hns). split; [apply orb_false_r|reflexivity]. }
  destruct (t_status t) eqn:E; try apply done_ret; apply Hgo; auto.
Qed.

Lemma quiet_for_each {A B} (f : A -> prog B) l :
  (forall a, quiet (f a) (fun _ => True)) -> quiet (for_each f l) (fun _ => True).
Proof.
  intros H. induction l as [|x r IH]; cbn [for_each]; [apply quiet_ret; exact Logic.I|].
  eapply quiet_bind; [apply H|]. intros y _. eapply quiet_bind; [exact IH|]. intros ys _. apply quiet_ret; exact Logic.I.
Qed.

Lemma q_inflight_action p v a i : quiet (inflight_action cfg p v a i) (fun _ => True).
Proof.
  unfold inflight_action. eapply quiet_bind; [apply q_free; simpl; split; [fr|auto]|]. intros legs _.
  apply quiet_for_each. intros l. destruct (negb (is_inflight l)); [apply quiet_ret; exact Logic.I|]. cbv zeta.
  destruct v; [apply done_void|apply done_commit].
Qed.
Lemma q_refund_batch p skipq : quiet (refund_batch cfg p skipq) (fun _ => True).
Proof.
  unfold refund_batch. eapply quiet_bind; [apply q_free; simpl; split; [fr|auto]|]. intros ts _.
  apply quiet_for_each. intros t. apply done_refund. auto.
Qed.
Lemma q_rollback b i : quiet (rollback_batch cfg b i) (fun _ => True).
Proof. unfold rollback_batch. destruct i; [apply q_inflight_action|apply q_refund_batch]. Qed.

Lemma done_record_legs zs (R : state -> Prop) legs id :
  lastC R -> Forall (fun l => In (t_parent l) zs /\ qst l) legs ->
  done_ok zs (map t_id legs) R (record_legs cfg legs id).
Proof.
  intros HR. induction legs as [|l r IH]; intros H; cbn [record_legs map]; [apply done_ret|].
  inversion H as [|? ? [H1 H2] H3]; subst. change (t_id l :: map t_id r) with ([t_id l] ++ map t_id r).
  apply done_bind; [exact HR| |].
  - apply done_record_single; [exact HR|]. intros s HI HC Hs. apply rec_pre_orig; auto.
    intros _. left; left; reflexivity.
  - intros [x|e]; [apply IH; exact H3|]. destruct (t_atomic l); [|apply done_ret].
    apply done_of_quiet with (M := fun _ => True). eapply quiet_bind; [apply q_rollback|]. intros _ _. apply quiet_ret; exact Logic.I.
Qed.

Definition draft (t : txn) : Prop :=
  t_id t = "" /\ (t_parent t = "" \/ bulk_id (t_parent t)) /\ flags_ok (set_metadata t) /\ t_status t = SNone
  /\ ((t_sources t <> [] \/ t_dests t <> []) -> wholeb t = false).

Lemma q_queue_transaction e t : draft t -> quiet (queue_transaction cfg e t) (fun _ => True).
Proof.
  intros (Did & Dp & Df & Ds & Dw). unfold queue_transaction.
  assert (Ho : forall s, orig_ok s t) by (intros s; destruct Dp as [Dp|Dp]; [left|right; left]; exact Dp).
  assert (Hns : quiet (queue_nosplit cfg t) (fun _ => True)).
  { change (done_ok [] [] (fun _ => True) (queue_nosplit cfg t)).
    replace (@nil string) with (idl t) at 2 by (unfold idl; rewrite Did; reflexivity).
    apply done_queue_nosplit; auto; [apply last_true|right; right; exact Ds]. }
  match goal with |- quiet (match t_sources t with [] => match t_dests t with [] => _ | _ :: _ => ?X end | _ => _ end) _ =>
    assert (Hsp : (t_sources t <> [] \/ t_dests t <> []) -> quiet X (fun _ => True)) end.
  2: { destruct (t_sources t); [destruct (t_dests t)|]; [exact Hns|apply Hsp; right; discriminate|apply Hsp; left; discriminate]. }
  intros Hsplit. pose proof (Dw Hsplit) as Hw. cbv zeta.
  destruct (fields_metadata t) as (M1 & M2 & M3 & M4).
  change (done_ok [] [] (fun _ => True) (bind (ensure_id (set_metadata t)) (fun t1 =>
     bindr (split_txn e (set_status t1)) (fun legs =>
       if t_skipq (set_status t1)
       then bindr (match legs with [] => bindr (record_single cfg (set_status t1)) (fun _ => Ret (Ok tt))
                   | _ :: _ => record_legs cfg legs (t_id (set_status t1)) end)
              (fun _ => Ret (Ok (with_status (set_status t1) (if t_inflight (set_status t1) then SInflight else SApplied))))
       else queue_async (set_status t1) legs (t_ref t) (t_id (set_status t1)))))).
  replace (@nil string) with (idl (set_metadata t) ++ []) at 2 by (rewrite app_nil_r; unfold idl; rewrite M1, Did; reflexivity).
  apply sp_ensure; [apply last_true|]. intros t1 S1 St1 Me1 Sr1 Ds1 Id1.
  destruct (fields_set_status t1) as (N1 & N2 & N3 & N4).
  set (t2 := set_status t1) in *.
  assert (S2 : sim t t2).
  { eapply sim_trans; [apply sim_set_metadata|]. eapply sim_trans; [exact S1|apply sim_set_status]. }
  assert (F2 : flags_ok t2).
  { eapply flags_carry; [exact Df| |congruence]. eapply sim_trans; [exact S1|apply sim_set_status]. }
  assert (Q2 : qst t2) by (apply status_set_status; rewrite St1, M2; right; right; exact Ds).
  assert (O2 : forall s, orig_ok s t2).
  { intros s. destruct Dp as [Dp|Dp]; [left|right; left]; rewrite (m_parent _ _ S2); exact Dp. }
  assert (W2 : wholeb t2 = false).
  { unfold wholeb. rewrite N3, N4, Sr1, Ds1, M3, M4. exact Hw. }
  assert (I2 : t_id t2 <> "") by congruence.
  rewrite <- N1.
  unfold bindr at 1. change [t_id t2] with ([] ++ [t_id t2]).
  eapply sp_seq with (pre := fun _ => True); [apply last_true|apply sp_split|auto|].
  intros [legs|er]; [|apply done_ret].
  apply sp_fact with (c := Forall (leg_of t2) legs); [intros s _ _ [_ H]; exact H|]. intros Hlegs.
  eapply sp_conseq with (xs' := t_id t2 :: map t_id legs) (pre' := fun _ => True)
    (ys := fun _ => []) (post := fun _ _ => True);
    [auto|exists []; rewrite app_nil_r; apply Permutation_sym, Permutation_cons_append|auto|intros; apply perm_self|].
  apply sp_spend.
  assert (Hl : Forall (fun l => In (t_parent l) [t_id t2] /\ qst l) legs).
  { eapply Forall_impl; [|exact Hlegs]. intros l (L1 & L2 & L3 & L4 & L5).
    split; [left; congruence|unfold qst; rewrite L5; exact Q2]. }
  destruct (t_skipq t2).
  - unfold bindr at 1. apply done_then; [|intros [x|er]; apply quiet_ret; exact Logic.I].
    destruct legs as [|l0 ls]; [|apply done_record_legs; [apply last_true|exact Hl]].
    unfold bindr. apply done_then; [|intros [x|er]; apply quiet_ret; exact Logic.I].
    apply done_record_single; [apply last_true|]. intros s HI HC _. apply rec_pre_orig; auto. congruence.
  - apply done_queue_async; auto; [apply last_true|symmetry; apply S2|congruence|].
    intros _. split; [exact W2|]. split; [|split; [apply incl_refl|left; reflexivity]].
    eapply Forall_impl; [|exact Hlegs]. intros l (L1 & L2 & L3 & L4 & L5). split; [exact L1|].
    intros Hns'. destruct (F2 Hns') as [A B]. rewrite L2, L3, L4. auto.
Qed.

Definition bulk_member (t : txn) : Prop :=
  t_id t = "" /\ t_status t = SNone /\ (NS -> plain_meta (t_meta t))
  /\ ((t_sources t <> [] \/ t_dests t <> []) -> wholeb t = false).

Lemma plain_flags t : (NS -> plain_meta (t_meta t)) -> flags_ok (set_metadata t).
Proof.
  intros H Hns. destruct (H Hns) as [A B]. pose proof (apply_precision_fields t) as Hf. cbv zeta in Hf.
  destruct Hf as (F1 & F2 & F3 & F4 & F5 & F6 & F7 & F8 & F9 & F10 & F11 & F12 & F13 & F14 & F15 & F16).
  unfold set_metadata. simpl. rewrite F14, F8, F9, A, B. split; apply orb_false_r.
Qed.

Lemma q_process_bulk e ts batch infl skipq :
  bulk_id batch -> Forall bulk_member ts -> quiet (process_bulk cfg e ts batch infl skipq) (fun _ => True).
Proof.
  intros Hb. induction ts as [|t r IH]; intros H; cbn [process_bulk]; [apply quiet_ret; exact Logic.I|].
  inversion H as [|? ? (A1 & A2 & A3 & A4) A5]; subst.
  eapply quiet_bind; [apply q_queue_transaction|].
  - split; [exact A1|]. split; [right; exact Hb|]. split; [apply plain_flags; exact A3|]. split; [exact A2|exact A4].
  - intros [x|er] _; [apply IH; exact A5|apply quiet_ret; exact Logic.I].
Qed.

Lemma q_bulk e ts a i s : Forall bulk_member ts -> quiet (bulk cfg e ts a i s) (fun _ => True).
Proof.
  intros H. unfold bulk. eapply quiet_bind with (M := bulk_id).
  - unfold fresh. eapply quiet_bind; [apply q_free; simpl; split; [fr|auto]|].
    intros x _. apply quiet_ret. exists x. reflexivity.
  - intros b Hb. eapply quiet_bind; [apply q_process_bulk; auto|]. intros [x|er] _; [apply quiet_ret; exact Logic.I|].
    destruct a; [|apply quiet_ret; exact Logic.I].
    eapply quiet_bind; [apply q_rollback|]. intros _ _. apply quiet_ret; exact Logic.I.
Qed.

(** ** The queue worker *)
Lemma done_reject zs used (R : state -> Prop) t :
  (forall s, inv cfg s -> invC s -> R s ->
     (wholeb t = true -> In (t_id t) used \/ pub (t_id t) s) /\ orig_ok s t) ->
  done_ok zs used R (reject cfg t).
Proof.
  intros H. unfold reject. cbv zeta. eapply sp_bind; [apply sp_insert with (R := R)|].
  - intros s HI HC Hs. destruct (H s HI HC Hs) as [A B]. split; [exact A|left; exact B].
  - intros Hne. exfalso. apply Hne. reflexivity.
  - intros [x|er]; [|apply done_ret]. destruct (t_atomic _); [|apply done_ret].
    destruct (String.eqb _ _); [apply done_ret|].
    apply done_of_quiet with (M := fun _ => True). eapply quiet_bind; [apply q_rollback|]. intros _ _. apply quiet_ret; exact Logic.I.
Qed.

Lemma copy_seen s t t0 id : inv cfg s -> invC s -> seen s t -> t_status t = SQueued ->
  t0 = t \/ t0 = apply_precision_txn t ->
  orig_ok s (with_keys (restore_flags t0) id (t_id t0) (t_ref t0 ++ "_q")%string).
Proof.
  intros HI HC (r & m & Hr & V) Hst H0.
  destruct V as (V1 & V2 & V3 & V4 & V5 & V6 & V7 & V8 & V9 & V10 & V11 & V12 & V13).
  assert (Hc : orig_ok s (with_keys (restore_flags t) id (t_id t) (t_ref t ++ "_q")%string)).
  { right; right; left. exists r. split; [exact Hr|]. left. unfold ProvInv.copy_of. simpl.
    rewrite V7 in Hst. rewrite V1, V3, V4, V5, V6, V8, V9, V10, V11, V12, !orb_false_r.
    repeat split; auto; try (left; exact Hst);
      intros; destruct (V13 H) as [E1 E2]; destruct (queued_flags s r HI HC Hr Hst H) as [G1 G2]; congruence. }
  destruct H0 as [-> | ->]; [exact Hc|].
  pose proof (apply_precision_fields t) as Hf. cbv zeta in Hf.
  destruct Hf as (F1 & F2 & F3 & F4 & F5 & F6 & F7 & F8 & F9 & F10 & F11 & F12 & F13 & F14 & F15 & F16).
  eapply orig_sim; [exact HI|exact HC| | |exact Hc]; simpl.
  - destruct (sim_precision t). constructor; simpl; auto; try congruence;
      try (rewrite F14, F8; reflexivity); try (rewrite F14, F9; reflexivity).
  - rewrite F14, F8. reflexivity.
Qed.

Definition sib (s : state) (c : txn) : Prop := orig_ok s c /\ t_status c = SQueued.
Lemma last_sib c : lastC (fun s => sib s c).
Proof. apply last_and; [apply last_orig|apply last_pure]. Qed.
Lemma last_sibs cs : lastC (fun s => Forall (sib s) cs).
Proof. apply (last_forall (fun c s => sib s c)). intros; apply last_sib. Qed.

Lemma sp_copies (R : state -> Prop) sibs :
  lastC R -> (forall s, R s -> Forall (fun t => seen s t /\ t_status t = SQueued) sibs) ->
  sp [] [] R (copies sibs) (map t_id) (fun cs s => R s /\ Forall (sib s) cs).
Proof.
  intros HR. induction sibs as [|t r IH]; intros H; cbn [copies].
  { apply sp_ret; [auto|apply perm_self]. }
  assert (Hr : forall s, R s -> Forall (fun t => seen s t /\ t_status t = SQueued) r).
  { intros s Hs. pose proof (H s Hs) as H2. inversion H2; assumption. }
  specialize (IH Hr). cbv zeta. destruct (can_coalesce_original (restore_flags t)); [|exact IH].
  unfold queue_copy.
  eapply sp_bind with (ys := fun q => [t_id q]) (M := fun q s => R s /\ sib s q).
  - apply sp_cap; [exact HR|]. intros id _. apply sp_ret; [|apply perm_self].
    intros s HI HC Hs. pose proof (H s Hs) as H2. inversion H2 as [|? ? [A B] _]; subst.
    split; [exact Hs|]. split; [|exact B]. simpl. apply (copy_seen s t t id); auto.
  - intros q. change [t_id q] with ([] ++ [t_id q]).
    eapply sp_seq with (pre := R); [apply last_and; [exact HR|apply last_sib]|exact IH|intros s _ _ [A _]; exact A|].
    intros cs. apply sp_ret.
    + intros s _ _ [[A B] [_ C]]. auto.
    + exists []. rewrite app_nil_r. apply Permutation_sym, Permutation_cons_append.
Qed.

Lemma sp_build_batch leader scs sel :
  sp [] [] (fun _ => True) (build_batch leader scs sel)
    (fun b => match b with [] => [] | _ :: cs => map t_id cs end)
    (fun b s => match b with [] => True | l :: cs => l = leader /\ Forall (sib s) cs end).
Proof.
  induction scs as [|sc r IH]; cbn [build_batch]; [apply sp_ret; [auto|apply perm_self]|].
  eapply sp_s; [apply last_true|apply sp_siblings|]. intros sibs.
  eapply sp_bind; [apply sp_copies|].
  - apply last_and; [apply last_true|]. apply (last_forall (fun t s => seen s t /\ t_status t = SQueued)).
    intros t. apply last_and; [apply last_seen|apply last_pure].
  - intros s [_ H]. exact H.
  - intros [|c cs].
    + eapply sp_pre; [|exact IH]. intros; exact Logic.I.
    + apply sp_ret; [|apply perm_self]. intros s _ _ [_ H]. auto.
Qed.

Definition posted (t t' : txn) (k : kind) : Prop :=
  sim t t' /\ t_id t' = t_id t
  /\ ((k = KPost /\ t_inflight t' = false /\ m_inflight (t_meta t') = false) \/ (k = KHold /\ t_inflight t' = true)).

Lemma member_posted t m k t' ob m' :
  t_status t = SQueued -> prepare_member t m = Ok (k, t', ob, m') -> posted t t' k.
Proof.
  intros Hst. unfold prepare_member, update_shared. set (f := with_status t (final_status t)).
  destruct (get_bal (t_src f) m) as [src|] eqn:Es; [|discriminate].
  destruct (get_bal (t_dst f) m) as [dst0|] eqn:Ed; [|discriminate].
  set (f1 := apply_precision_txn f).
  destruct (validate_txn f1); [|discriminate]. destruct (can_process f1 src); [|discriminate].
  set (m1 := put_bal _ m). destruct (get_bal (t_dst f1) m1) as [d1|] eqn:Ed1; [|discriminate].
  set (m2 := put_bal _ m1).
  destruct (get_bal (t_src f1) m2) as [b1|] eqn:E1; [|discriminate].
  destruct (get_bal (t_dst f1) m2) as [b2|] eqn:E2; [|discriminate].
  set (f2 := update_details f1 b1 b2). cbv zeta. destruct (t_precise f2 =? 0); [discriminate|].
  intros H. inversion H; subst k t' ob m'. clear H.
  pose proof (apply_precision_fields f) as Hf. cbv zeta in Hf. fold f1 in Hf.
  destruct Hf as (F1 & F2 & F3 & F4 & F5 & F6 & F7 & F8 & F9 & F10 & F11 & F12 & F13 & F14 & F15 & F16).
  pose proof (clear_terminal_fields f2) as Hc. cbv zeta in Hc.
  destruct Hc as (C1 & C2 & C3 & C4 & C5 & C6 & C7 & C8 & C9 & C10 & C11 & C12).
  apply get_bal_id in E1. apply get_bal_id in E2.
  assert (Ei : t_inflight f1 = t_inflight t) by exact F8.
  assert (E3 : t_inflight (clear_terminal f2) = t_inflight t).
  { unfold clear_terminal, f2, update_details, final_status. rewrite Ei. destruct (t_inflight t) eqn:X; simpl; [congruence|].
    destruct (t_status f1); reflexivity. }
  split; [|split].
  - assert (S1 : sim t f1) by (eapply sim_trans; [apply sim_status|apply sim_precision]).
    destruct S1. constructor; auto.
    + rewrite C2. exact m_parent0.
    + rewrite C5. exact m_ref0.
    + rewrite C12. exact m_cur0.
    + rewrite C8. exact m_all0.
    + rewrite C9. exact m_lim0.
    + intros _. rewrite C3. unfold f2. simpl. rewrite E1, F3. reflexivity.
    + intros _. rewrite C4. unfold f2. simpl. rewrite E2, F4. reflexivity.
    + intros Hp. rewrite C7. apply m_precise0; exact Hp.
  - rewrite C1. unfold f2. simpl. rewrite F1. reflexivity.
  - unfold kind_of, f, final_status. simpl. rewrite Hst. rewrite E3. destruct (t_inflight t) eqn:X; [right; auto|left].
    split; [reflexivity|]. split; [reflexivity|].
    unfold clear_terminal, f2, update_details, final_status. rewrite Ei. destruct (t_status f1); reflexivity.
Qed.

Lemma q_load_each ids : quiet (load_each cfg ids) (fun _ => True).
Proof.
  induction ids as [|i r IH]; cbn [load_each]; [apply quiet_ret; exact Logic.I|].
  eapply quiet_bindr with (M := fun _ => True); [|intros b _|auto].
  - eapply quiet_weaken; [|apply q_get_balance]. intros [x|er]; auto.
  - eapply quiet_bindr with (M := fun _ => True); [|intros bs _; apply quiet_ret; exact Logic.I|auto].
    eapply quiet_weaken; [|exact IH]. intros [x|er]; auto.
Qed.
Lemma q_load ids : quiet (load_balances cfg ids) (fun _ => True).
Proof.
  unfold load_balances. destruct (c_queued cfg); [apply q_load_each|].
  eapply quiet_bind; [apply q_free; simpl; split; [fr|auto]|]. intros bs _.
  destruct (forallb _ ids); apply quiet_ret; exact Logic.I.
Qed.

Lemma q_prepare_members ts ex seen m :
  Forall (fun t => t_status t = SQueued) ts ->
  quiet (prepare_members cfg ts ex seen m)
    (fun r => match r with
              | Ok (ks, _, _) => forall k t', In (k, t') ks -> exists t, In t ts /\ posted t t' k
              | Err _ => True
              end).
Proof.
  revert seen m. induction ts as [|t r IH]; intros seen m H; cbn [prepare_members].
  { apply quiet_ret. intros k t' []. }
  inversion H; subst.
  destruct (String.eqb (t_ref t) ""); [apply quiet_ret; exact Logic.I|].
  destruct (_ || _); [apply quiet_ret; exact Logic.I|].
  eapply quiet_bind with (M := fun _ => True).
  { destruct (c_refcheck cfg); [apply quiet_ret; exact Logic.I|apply q_free; simpl; split; [fr|auto]]. }
  intros [|] _; [apply quiet_ret; exact Logic.I|].
  destruct (prepare_member t m) as [[[[k t'] ob] m']|er] eqn:E; [|apply quiet_ret; exact Logic.I].
  apply member_posted in E; [|assumption].
  unfold bindr. eapply quiet_bind; [apply IH; assumption|]. intros [[[ks obs] m'']|er] Hks; [|apply quiet_ret; exact Logic.I].
  apply quiet_ret. intros k0 t0 [E0|Hin].
  - inversion E0; subst. exists t. split; [left; reflexivity|exact E].
  - destruct (Hks k0 t0 Hin) as (x & Hx & Hp). exists x. split; [right; exact Hx|exact Hp].
Qed.

Lemma persist_batch_err ks ws obs s er : snd (persist_batch ks ws obs s) = Err er -> fst (persist_batch ks ws obs s) = s.
Proof.
  unfold persist_batch. destruct (update_balance_set _ _ _); [|auto]. destruct (insert_txns _ _ _); [discriminate|auto].
Qed.

Lemma sp_persist_batch zs used (R : state -> Prop) ks ws obs :
  lastC R -> (forall s, inv cfg s -> invC s -> R s -> opok zs used (OPersistBatch ks ws obs) s) ->
  sp zs used R (act (OPersistBatch ks ws obs)) (fun r => match r with Ok _ => [] | Err _ => used end) (fun _ s => R s).
Proof.
  intros HR Ho n P F Z HP Hz.
  exists (fun x s => (P s /\ R s) /\ caps u n ((match x with Ok _ => [] | Err _ => used end) ++ F) Z s). split; [|split].
  - intros s [_ HI] HC [[HPs Hpre] Hc] [_ HI'].
    destruct (execC cfg u NS u_inj n (OPersistBatch ks ws obs) s zs used F Z HI HC HI' Hz Hc (Ho s HI HC Hpre)) as (HC' & He & Hr & Hc').
    split; [exact HC'|]. split; [exact Hr|]. split; [split; [eapply HP; eauto|eapply HR; eauto]|].
    simpl in Hc' |- *. destruct (snd (persist_batch ks ws obs s)) as [x|er] eqn:E; [exact Hc'|].
    rewrite (persist_batch_err _ _ _ _ _ E). exact Hc.
  - intros x s s' _ _ _ _ Hr [[H1 H2] H3]. split; [split|].
    + eapply HP; [apply Hr|exact H1].
    + eapply HR; [apply Hr|exact H2].
    + eapply caps_rel; eauto.
  - intros x s _ _ H. exact H.
Qed.

Definition erred {A} (used : list string) (r : res A) : list string := match r with Ok _ => [] | Err _ => used end.

Lemma sp_batch_locked zs used (R : state -> Prop) ids ts :
  lastC R -> Forall (fun t => t_status t = SQueued) ts ->
  (forall s, inv cfg s -> invC s -> R s ->
     Forall (fun t => orig_ok s t /\ (wholeb t = true -> In (t_id t) used \/ pub (t_id t) s)) ts) ->
  sp zs used R (batch_locked cfg ids ts) (erred used) (fun _ s => R s).
Proof.
  intros HR Hst H. unfold batch_locked, bindr.
  eapply sp_q; [exact HR|apply q_load|]. intros [m|er] _; [|apply sp_ret; [auto|apply perm_self]].
  eapply sp_q with (M := fun _ => True); [exact HR| |].
  { destruct (c_refcheck cfg); [apply q_free; simpl; split; [fr|auto]|apply quiet_ret; exact Logic.I]. }
  intros ex _. eapply sp_q; [exact HR|apply q_prepare_members; exact Hst|].
  intros [[[ks obs] m']|er] Hks; [|apply sp_ret; [auto|apply perm_self]].
  apply sp_persist_batch; [exact HR|]. intros s HI HC Hs. pose proof (H s HI HC Hs) as Hts. rewrite Forall_forall in Hts.
  unfold ProvInv.opok, pubs, newtx. simpl. rewrite !app_nil_r.
  refine (conj _ (conj _ (conj _ (conj _ (conj _ Logic.I))))); try (intros; contradiction).
  - intros x Hx. apply in_flat_map in Hx as ([k t'] & Hin & Hx). destruct (Hks k t' Hin) as (t & Ht & Hp & Hid & _).
    unfold wid in Hx. simpl in Hx. destruct (wholeb t') eqn:Hw; [|contradiction]. destruct Hx as [<-|[]].
    rewrite Hid. apply (Hts t Ht). eapply sim_whole; eauto.
  - intros k t' Hin. destruct (Hks k t' Hin) as (t & Ht & Hp & Hid & Hk). left.
    assert (Ho : orig_ok s t') by (eapply orig_sim; [exact HI|exact HC|exact Hp|apply Hp|apply (Hts t Ht)]).
    destruct Hk as [(-> & _)|(-> & _)]; exact Ho.
  - intros k t' Hin. destruct (Hks k t' Hin) as (t & Ht & Hp & Hid & Hk).
    destruct Hk as [(-> & A & B)|(-> & A)]; simpl; auto.
Qed.

Lemma sp_persist_queued zs used (R : state -> Prop) ts :
  lastC R -> Forall (fun t => t_status t = SQueued) ts ->
  (forall s, inv cfg s -> invC s -> R s ->
     Forall (fun t => orig_ok s t /\ (wholeb t = true -> In (t_id t) used \/ pub (t_id t) s)) ts) ->
  sp zs used R (persist_queued_batch cfg ts) (erred used) (fun _ s => R s).
Proof.
  intros HR Hst H. unfold persist_queued_batch. destruct ts as [|t r]; [apply sp_ret; [auto|apply perm_none]|].
  destruct (negb _); [apply sp_ret; [auto|apply perm_self]|]. cbv zeta.
  eapply sp_q with (M := fun _ => True); [exact HR|apply q_free, wait_freeC|].
  intros [|] _; [|apply sp_ret; [auto|apply perm_self]].
  eapply sp_bind; [apply sp_batch_locked; eauto|]. intros x.
  eapply sp_q with (M := fun _ => True); [exact HR|apply q_free, unlock_freeC|]. intros _ _.
  apply sp_ret; [auto|apply perm_self].
Qed.

Lemma sp_try_batch zs ul (R : state -> Prop) force sel t :
  lastC R ->
  (forall s, inv cfg s -> invC s -> R s -> orig_ok s t /\ (wholeb t = true -> In (t_id t) ul \/ pub (t_id t) s)) ->
  sp zs ul R (try_batch cfg force sel t) (fun b => if b : bool then [] else ul) (fun _ s => R s).
Proof.
  intros HR H. unfold try_batch.
  destruct (can_coalesce t) eqn:Ec; simpl negb; cbv iota; [|apply sp_ret; [auto|apply perm_self]].
  destruct (negb _); [apply sp_ret; [auto|apply perm_self]|].
  assert (Hq : t_status t = SQueued).
  { unfold can_coalesce, can_coalesce_original in Ec. repeat rewrite andb_true_iff in Ec.
    destruct Ec as (_ & (((Ec & _) & _) & _) & _). destruct (t_status t); simpl in Ec; congruence. }
  change ul with ([] ++ ul) at 1.
  eapply sp_seq with (pre := fun _ => True); [exact HR|eapply sp_zs; [|apply sp_build_batch]; intros x []|auto|].
  intros [|l cs].
  { apply sp_ret; [intros s _ _ [A _]; exact A|apply perm_self]. }
  set (R2 := fun s => R s /\ l = t /\ Forall (sib s) cs).
  assert (HR2 : lastC R2) by (apply last_and; [exact HR|apply last_and; [apply last_pure|apply last_sibs]]).
  apply sp_fact with (c := l = t /\ Forall (fun c => t_status c = SQueued) cs).
  { intros s _ _ (_ & E & Hc). split; [exact E|]. eapply Forall_impl; [|exact Hc]. intros c [_ A]; exact A. }
  intros [-> Hcs].
  eapply sp_bind; [apply sp_persist_queued with (R := R2) (used := map t_id cs ++ ul); [exact HR2| |]|].
  - constructor; auto.
  - intros s HI HC (A & _ & B). constructor.
    + destruct (H s HI HC A) as [O1 P1]. split; [exact O1|]. intros Hw. destruct (P1 Hw); auto.
      left. apply in_or_app; auto.
    + apply Forall_forall. intros c Hc. rewrite Forall_forall in B. split; [apply (B c Hc)|].
      intros _. left. apply in_or_app; left. apply in_map. exact Hc.
  - intros [x|er]; simpl; (apply sp_ret; [intros s _ _ (A & _); exact A|]).
    + apply perm_self.
    + exists (map t_id cs). apply Permutation_app_comm.
Qed.

Lemma done_process_queued zs ul (R : state -> Prop) hot sel t :
  lastC R -> qst t ->
  (forall s, inv cfg s -> invC s -> R s -> orig_ok s t /\ (wholeb t = true -> In (t_id t) ul \/ pub (t_id t) s)) ->
  done_ok zs ul R (process_queued cfg hot sel t).
Proof.
  intros HR Hq H. unfold process_queued. eapply sp_bind; [apply sp_try_batch; eauto|].
  intros [|]; [apply done_ret|]. apply done_record_single; [exact HR|].
  intros s HI HC Hs. destruct (H s HI HC Hs) as [A B]. apply rec_pre_orig; auto.
Qed.

Lemma done_worker hot sel1 sel2 retry t :
  good_q t -> done_ok [] [] (fun s => In t (s_queue s)) (worker cfg hot sel1 sel2 retry t).
Proof.
  intros [Hq _]. set (R := fun s => In t (s_queue s)). assert (HR : lastC R) by apply last_queued.
  assert (H : forall s, inv cfg s -> invC s -> R s ->
     orig_ok s t /\ (wholeb t = true -> In (t_id t) [] \/ pub (t_id t) s)).
  { intros s HI HC Hs. split.
    - pose proof (c_queue _ _ _ HC) as Hc. rewrite Forall_forall in Hc. apply (Hc t Hs).
    - intros Hw. right. unfold pub, ids. rewrite !in_app_iff. right; left. apply in_flat_map. exists t.
      split; [exact Hs|]. unfold wid. rewrite Hw. left; reflexivity. }
  assert (Htry : forall f sel, sp [] [] R (try_batch cfg f sel t) (fun _ => []) (fun _ s => R s)).
  { intros f sel. eapply sp_conseq with (xs' := []) (pre' := R); [auto|apply perm_self|intros a s _ _ A; exact A| |apply sp_try_batch; eauto].
    intros [|]; apply perm_self. }
  unfold worker. eapply sp_bind; [apply Htry|]. intros h1.
  eapply sp_bind with (ys := fun _ => []) (M := fun _ s => R s).
  { destruct hot; [apply Htry|apply sp_ret; [auto|apply perm_self]]. }
  intros [|]; [apply done_ret|].
  change (@nil string) with (@nil string ++ @nil string) at 2.
  apply done_bind; [exact HR|apply done_process_queued; auto|].
  intros [x|er]; [apply done_ret|]. destruct (worker_verdict cfg er retry); try apply done_ret.
  apply done_then; [|intros [x|e']; apply quiet_ret; exact Logic.I].
  apply done_reject. intros s HI HC Hs. destruct (H s HI HC Hs); auto.
Qed.

Lemma q_recover hot sel ex skip id : quiet (recover cfg hot sel ex skip id) (fun _ => True).
Proof.
  unfold recover. change (done_ok [] [] (fun _ => True) (recover cfg hot sel ex skip id)). unfold recover.
  eapply sp_s; [apply last_true|apply sp_siblings|]. intros [|t r]; [apply done_ret|]. cbv zeta.
  set (t0 := restore_flags (apply_precision_txn t)).
  set (R := fun s => True /\ Forall (fun t => seen s t /\ t_status t = SQueued) (t :: r)).
  assert (HR : lastC R).
  { apply last_and; [apply last_true|]. apply (last_forall (fun t s => seen s t /\ t_status t = SQueued)).
    intros x. apply last_and; [apply last_seen|apply last_pure]. }
  assert (Hc : forall nid s, inv cfg s -> invC s -> R s -> orig_ok s (with_keys t0 nid (t_id t0) (t_ref t0 ++ "_q")%string)).
  { intros nid s HI HC [_ Hs]. inversion Hs as [|? ? [A B] _]; subst.
    apply (copy_seen s t (apply_precision_txn t) nid); auto. }
  apply sp_fact with (c := t_status t = SQueued).
  { intros s _ _ [_ Hs]. inversion Hs as [|? ? [A B] _]; auto. }
  intros Hst.
  assert (Hq : forall nid, qst (with_keys t0 nid (t_id t0) (t_ref t0 ++ "_q")%string)).
  { intros nid. left. unfold t0. simpl. pose proof (apply_precision_fields t) as Hf. cbv zeta in Hf.
    destruct Hf as (_ & _ & _ & _ & _ & _ & F7 & _). rewrite F7. exact Hst. }
  destruct ex; [|destruct (t_atomic t0 && skip); [apply done_ret|]].
  - eapply sp_bind with (ys := fun q => [t_id q]) (M := fun q s => (exists nid, q = with_keys t0 nid (t_id t0) (t_ref t0 ++ "_q")%string) /\ R s).
    + unfold queue_copy. apply sp_cap; [exact HR|]. intros nid _. apply sp_ret; [|apply perm_self]. eauto.
    + intros q. apply sp_fact with (c := exists nid, q = with_keys t0 nid (t_id t0) (t_ref t0 ++ "_q")%string); [intros s _ _ [A _]; exact A|].
      intros (nid & ->). apply done_then; [|intros [x|e']; [|destruct e']; apply quiet_ret; exact Logic.I].
      apply done_reject. intros s HI HC [_ Hs]. split; [intros _; left; left; reflexivity|apply Hc; auto].
  - eapply sp_bind with (ys := fun q => [t_id q]) (M := fun q s => (exists nid, q = with_keys t0 nid (t_id t0) (t_ref t0 ++ "_q")%string) /\ R s).
    + unfold queue_copy. apply sp_cap; [exact HR|]. intros nid _. apply sp_ret; [|apply perm_self]. eauto.
    + intros q. apply sp_fact with (c := exists nid, q = with_keys t0 nid (t_id t0) (t_ref t0 ++ "_q")%string); [intros s _ _ [A _]; exact A|].
      intros (nid & ->). apply done_then; [|intros [x|e']; [|destruct e']; apply quiet_ret; exact Logic.I].
      apply done_process_queued; [apply last_and; [apply last_pure|exact HR]|apply Hq|].
      intros s HI HC [_ Hs]. split; [apply Hc; auto|intros _; left; left; reflexivity].
Qed.

Lemma q_new_balance ind cur recon track : quiet (new_balance ind cur recon track) (fun _ => True).
Proof.
  unfold new_balance. eapply quiet_bind with (M := bln_id).
  - unfold fresh. eapply quiet_bind; [apply q_free; simpl; split; [fr|auto]|].
    intros x _. apply quiet_ret. exists x. reflexivity.
  - intros id Hid. eapply quiet_bind with (M := fun _ => True).
    + apply quiet_op; [exact u_inj| |auto]. intros s. unfold ProvInv.opok, pubs, newtx; simpl.
      repeat split; intros; try contradiction. exact Hid.
    + intros [x|er] _; apply quiet_ret; exact Logic.I.
Qed.

(** ** Every request *)
Definition ready (r : request) (s : state) : Prop :=
  match r with
  | RQueue _ t => draft t
  | RBulk _ ts _ _ _ => Forall bulk_member ts
  | RRefund _ _ upd => NS -> forall m, m_inflight (upd m) = m_inflight m
  | RSetMeta id m => meta_ok NS s id m
  | RWorker _ _ _ _ t => In t (s_queue s)
  | RJob j => In j (s_spawned s)
  | _ => True
  end.
Lemma last_ready r : lastC (ready r).
Proof.
  destruct r; simpl; try apply last_pure; try apply last_queued; try apply last_job.
  intros s s' He H. eapply meta_ext; eauto.
Qed.

Lemma done_done {A} zs xs R (p : prog A) : done_ok zs xs R p -> done_ok zs xs R (done p).
Proof. intros H. unfold done. apply done_then; [exact H|]. intros a. apply quiet_ret; exact Logic.I. Qed.
Lemma q_any {A} R (p : prog A) : quiet p (fun _ => True) -> done_ok [] [] R p.
Proof. apply done_of_quiet. Qed.

Lemma done_request r : good_request r -> done_ok [] [] (ready r) (prog_of cfg r).
Proof.
  intros Hg. destruct r; cbn [prog_of]; try apply done_done.
  - apply sp_fact with (c := draft t); [intros s _ _ H; exact H|]. intros H. apply q_any, q_queue_transaction, H.
  - apply sp_fact with (c := Forall bulk_member ts); [intros s _ _ H; exact H|]. intros H. apply q_any, q_bulk, H.
  - apply q_any, done_commit.
  - apply q_any, done_void.
  - apply q_any, q_inflight_action.
  - eapply sp_fact; [intros s _ _ H; exact H|]. intros H. apply q_any, done_refund, H.
  - apply q_any, q_refund_batch.
  - apply q_any, q_new_balance.
  - apply q_any, q_free. simpl. split; [fr|auto].
  - apply sp_op; [exact u_inj| |auto|intros; apply last_true].
    intros s HI HC H. unfold ProvInv.opok, pubs, newtx. simpl.
    refine (conj _ (conj _ (conj _ (conj _ (conj _ H))))); intros; contradiction.
  - apply done_worker. exact Hg.
  - apply done_async_job. exact Hg.
  - apply q_any, q_recover.
Qed.
End P.

Lemma invC_init u NS : invC u NS (init_state u).
Proof.
  constructor; simpl; auto; try (intros; contradiction); try (intros ? []).
Qed.

Lemma relC_same u n s s' :
  s_txns s' = s_txns s -> s_queue s' = s_queue s -> s_spawned s' = s_spawned s -> s_owner s' = s_owner s -> relC u n s s'.
Proof.
  intros E1 E2 E3 E4. unfold relC, ext, grow, cap, mine, drawn, pub, par, ids, parents. rewrite E1, E2, E3, E4.
  repeat split; auto; try apply incl_refl; apply H.
Qed.

Lemma invC_same u NS s s' :
  s_txns s' = s_txns s -> s_queue s' = s_queue s -> s_spawned s' = s_spawned s -> s_owner s' = s_owner s ->
  s_uuid s' = s_uuid s -> s_ctr s' = s_ctr s -> s_bals s' = s_bals s -> s_meta s' = s_meta s ->
  incl (s_jobs s') (s_spawned s) -> invC u NS s -> invC u NS s'.
Proof.
  intros E1 E2 E3 E4 E5 E6 E7 E8 E9 H.
  pose proof (relC_same u 0%nat s s' E1 E2 E3 E4) as [He _].
  assert (Hp : forall x, pub x s' -> pub x s) by (intros x; unfold pub, ids; rewrite E1, E2, E3; auto).
  assert (Hq : forall x, par x s' -> par x s) by (intros x; unfold par, parents; rewrite E1, E2, E3; auto).
  constructor.
  - rewrite E5. apply H.
  - rewrite E4, E6. apply H.
  - rewrite E4. apply H.
  - rewrite E6. intros x Hx. apply H. auto.
  - rewrite E6. intros i Hi. apply (c_par _ _ _ H). auto.
  - rewrite E3. exact E9.
  - rewrite E7. apply H.
  - rewrite E1. eapply Forall_impl; [|apply (c_rows _ _ _ H)]. intros r. apply row_ext; exact He.
  - rewrite E2. eapply Forall_impl; [|apply (c_queue _ _ _ H)]. intros r. apply pay_ext; exact He.
  - rewrite E3. eapply Forall_impl; [|apply (c_spawn _ _ _ H)]. intros r. apply job_ext; exact He.
  - rewrite E8. intros id m Hm. eapply meta_ext; [exact He|]. apply (c_meta _ _ _ H); exact Hm.
Qed.

Lemma api_bulk (NS : Prop) t : api_txn t -> (NS -> plain_meta (t_meta t)) -> bulk_member NS t.
Proof.
  intros (A1 & A2 & A3 & A4 & A5 & A6 & A7 & A8 & A9 & A10 & A11 & A12) Hm.
  split; [exact A1|]. split; [exact A3|]. split; [exact Hm|]. intros [H|H].
  - apply A10 in H. unfold wholeb. rewrite H. reflexivity.
  - apply A11 in H. unfold wholeb. rewrite H. apply andb_false_r.
Qed.

Lemma start_ready cfg u (NS : Prop) y r y' :
  invC u NS (y_st y) -> (NS -> no_spoof y (EStart r)) -> step cfg y (EStart r) y' -> ready NS r (y_st y').
Proof.
  intros HC Hns Hs.
  destruct r; simpl in Hs; try (destruct Hs as [Hs ->]; simpl); try exact Logic.I.
  - destruct (api_bulk NS t Hs (fun h => Hns h)) as (B1 & B2 & B3 & B4).
    split; [exact B1|]. split; [left; apply Hs|]. split; [apply plain_flags; exact B3|]. auto.
  - assert (Hns' : NS -> Forall (fun t => plain_meta (t_meta t)) ts) by exact Hns.
    rewrite Forall_forall in Hs. apply Forall_forall. intros t Ht. apply api_bulk; auto.
    intros h. specialize (Hns' h). rewrite Forall_forall in Hns'. auto.
  - exact Hns.
  - exact Hns.
  - exact Hs.
  - destruct Hs as (l1 & l2 & Hj & ->). simpl. apply (c_jobs _ _ _ HC). rewrite Hj. apply in_elt.
Qed.

Theorem reachable_invC cfg (ok : sys -> event -> Prop) (NS : Prop) u y :
  (forall i j, u i = u j -> i = j) ->
  (forall y e, ok y e -> no_recon_flag y e /\ (NS -> no_spoof y e)) ->
  steps cfg ok (init_sys u) y -> inv cfg (y_st y) /\ invC u NS (y_st y).
Proof.
  intros Hu Hok Hs.
  set (I := fun s => inv cfg s /\ invC u NS s).
  set (R := fun m s s' => rel m s s' /\ relC u m s s').
  assert (H : sys_inv tt_inv I R y).
  { assert (H0 : sys_inv tt_inv I R (init_sys u)).
    { split; [exact Logic.I|]. split; [split; [apply inv_init|apply invC_init]|].
      intros n p Hn. destruct n; discriminate. }
    refine (adequacy tt_inv I R cfg ok _ _ _ _ _ _ H0 Hs).
    - intros s; exact Logic.I.
    - intros y0 r n y' (_ & [HI HC] & _) Ho Hst.
      pose proof (start_good cfg y0 r y' HI (proj1 (Hok _ _ Ho)) Hst) as Hg.
      pose proof (start_ready cfg u NS y0 r y' HC (proj2 (Hok _ _ Ho)) Hst) as Hr.
      pose proof (request_yields cfg r Hg n (fun _ => True) (lasting_pure True)) as H1.
      pose proof (done_request cfg u NS Hu r Hg n (fun _ => True) [] [] last_true (incl_refl _)) as H2.
      pose proof (safe_layer _ _ _ _ _ n _ _ _ _ _ H1 H2) as H3.
      exists (ready NS r). split; [exact Hr|]. split.
      { intros s s' _ _ _ _ [_ Hrel]. apply last_ready. apply Hrel. }
      refine (safe_pre _ _ _ n _ _ _ _ _ (safe_post _ _ _ n _ _ _ _ _ H3)).
      + intros s _ _ Hrs. split; [split; exact Logic.I|]. split; [split; [exact Logic.I|exact Hrs]|].
        split; [constructor|]. split; intros x [].
      + intros a s _ _ _. exact Logic.I.
    - intros s j l1 l2 [HI HC] Hj. split; [split; [eapply inv_jobs; eauto|]|].
      + eapply invC_same; [..|exact HC]; try reflexivity. simpl. intros x Hx. apply (c_jobs _ _ _ HC).
        rewrite Hj. apply in_app_iff in Hx. apply in_app_iff. simpl. tauto.
      + intros n. split; [apply evolves_frame; reflexivity|apply relC_same; reflexivity].
    - intros y0 k (_ & [HI HC] & _) Ho. split; [split; [apply inv_locks; exact HI|]|].
      + eapply invC_same; [..|exact HC]; try reflexivity. apply (c_jobs _ _ _ HC).
      + intros n p Hn Hne. split; [apply evolves_frame; reflexivity|apply relC_same; reflexivity]. }
  apply H.
Qed.
