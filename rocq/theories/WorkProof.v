(** What a worker or a recovery pass leaves behind. *)
From Coq Require Import ZArith List String Bool Lia.
From Verif Require Import LedgerInv LedgerSafe LedgerThms ProvInv ProvProof ProvThms.
From Verif Require Import Base MoneyModel BalanceModel LedgerModel LedgerProgs ConcModel LedgerSpec ProvSpec HoldSpec OutboxProof WorkModel WorkSpec.
Import ListNotations.
Local Open Scope string_scope.
Open Scope Z_scope.

Lemma exec_rows n o s : incl (s_txns s) (s_txns (fst (exec n o s))).
Proof.
  destruct o; simpl; try apply incl_refl.
  - unfold create_balance. destruct (get_bal _ _); [apply incl_refl|]. destruct (_ && _); apply incl_refl.
  - destruct (lock_owner _ _); apply incl_refl.
  - destruct (lock_owner _ _); [destruct (Nat.eqb _ _)|]; apply incl_refl.
  - destruct (insert_txn KNone t (s_bals s) (s_txns s)) as [l|e] eqn:E; [|apply incl_refl]. apply insert_ids in E as [-> _].
    simpl. apply incl_tl, incl_refl.
  - destruct (persist_single_rows k t src dst ob s) as [[e ->]|[bs ->]]; simpl; [apply incl_refl|apply incl_tl, incl_refl].
  - destruct (persist_batch_rows ts ws obs s) as [[e ->]|[bs ->]]; simpl; [apply incl_refl|apply incl_appr, incl_refl].
Qed.
Lemma other_rows s s' : other s s' -> incl (s_txns s) (s_txns s').
Proof.
  induction 1 as [s|m o s s' Ho IH|l s s' Ho IH|l s s' Ho IH]; [apply incl_refl| |exact IH|exact IH].
  eapply incl_tran; [apply exec_rows|exact IH].
Qed.
Lemma during_rows n {A} (p : prog A) s a s' : during n p s a s' -> incl (s_txns s) (s_txns s').
Proof.
  revert s. induction p as [b|o k IH]; intros s; simpl.
  - intros [Ho _]. apply other_rows, Ho.
  - intros (s1 & Ho & Hd). eapply incl_tran; [apply other_rows, Ho|].
    eapply incl_tran; [apply exec_rows|eapply IH; exact Hd].
Qed.
Lemma other_trans s s1 s2 : other s s1 -> other s1 s2 -> other s s2.
Proof.
  intros H1 H2. induction H1 as [s|m o s s' Ho IH|l s s' Ho IH|l s s' Ho IH]; [exact H2|..].
  - eapply o_op, IH, H2.
  - eapply o_locks, IH, H2.
  - eapply o_jobs, IH, H2.
Qed.
Lemma during_other n {A} (p : prog A) s0 s a s' : other s0 s -> during n p s a s' -> during n p s0 a s'.
Proof.
  intros H0. destruct p as [b|o k]; simpl.
  - intros [H1 ->]. split; [eapply other_trans; eauto|reflexivity].
  - intros (s1 & H1 & Hd). exists s1. split; [eapply other_trans; eauto|exact Hd].
Qed.
Lemma during_bind n {A B} (p : prog A) (f : A -> prog B) s b s' :
  during n (bind p f) s b s' -> exists a s1, during n p s a s1 /\ during n (f a) s1 b s'.
Proof.
  revert s. induction p as [a|o k IH]; intros s; simpl.
  - intros Hd. exists a, s. split; [split; [constructor|reflexivity]|exact Hd].
  - intros (s1 & Ho & Hd). destruct (IH _ _ Hd) as (a & s2 & D1 & D2). exists a, s2. split; [exists s1; auto|exact D2].
Qed.
Lemma during_bindr n {A B} (p : prog (res A)) (f : A -> prog (res B)) s b s' :
  during n (bindr p f) s b s' ->
  (exists a s1, during n p s (Ok a) s1 /\ during n (f a) s1 b s')
  \/ (exists e s1, during n p s (Err e) s1 /\ b = Err e /\ other s1 s').
Proof.
  intros Hd. apply during_bind in Hd as ([a|e] & s1 & D1 & D2); [left; eauto|].
  right. exists e, s1. simpl in D2. destruct D2 as [Ho <-]. auto.
Qed.
Lemma during_act n o s x s' : during n (act o) s x s' ->
  exists s1, x = snd (exec n o s1) /\ other (fst (exec n o s1)) s' /\ other s s1.
Proof.
  unfold act. simpl. intros (s1 & Ho & Hd & Hx). exists s1. split; [auto|]. split; [exact Hd|exact Ho].
Qed.

Lemma used_keeps ref s s' : incl (s_txns s) (s_txns s') -> used ref s -> used ref s'.
Proof. intros Hi (r & Hr & E). exists r. split; [apply Hi, Hr|exact E]. Qed.
Lemma ref_exists_used ref s : ref_exists ref (s_txns s) = true -> used ref s.
Proof. unfold ref_exists. intros E. apply existsb_exists in E as (r & Hr & E). exists r. split; [exact Hr|]. apply String.eqb_eq. exact E. Qed.

(** ** Errors other than a used reference *)
Definition never {A} (p : prog (res A)) : Prop := forall n s s', ~ during n p s (Err EDupReference) s'.
Lemma never_bindr {A B} (p : prog (res A)) (f : A -> prog (res B)) : never p -> (forall a, never (f a)) -> never (bindr p f).
Proof.
  intros Hp Hf n s s' Hd. apply during_bindr in Hd as [(a & s1 & _ & D2)|(e & s1 & D1 & E & _)].
  - exact (Hf a _ _ _ D2).
  - inversion E; subst. exact (Hp _ _ _ D1).
Qed.
Lemma never_bind {A B} (p : prog A) (f : A -> prog (res B)) : (forall a, never (f a)) -> never (bind p f).
Proof. intros Hf n s s' Hd. apply during_bind in Hd as (a & s1 & _ & D2). exact (Hf a _ _ _ D2). Qed.
Lemma never_ok {A} (a : A) : never (Ret (Ok a)).
Proof. intros n s s' [_ E]. discriminate. Qed.
Lemma never_err {A} e : e <> EDupReference -> @never A (Ret (Err e)).
Proof. intros He n s s' [_ E]. inversion E. contradiction. Qed.
Lemma get_balance_never cfg id : never (get_balance cfg id).
Proof.
  unfold get_balance. apply never_bind. intros [b|]; [|apply never_err; discriminate].
  destruct (c_queued cfg); [|apply never_ok]. apply never_bind. intros q. apply never_ok.
Qed.
Lemma get_or_create_never cfg ind cur : never (get_or_create cfg ind cur).
Proof.
  unfold get_or_create.
  assert (Hfin : forall b, never (if c_queued cfg then get_balance cfg (b_id b) else Ret (Ok b))).
  { intros b. destruct (c_queued cfg); [apply get_balance_never|apply never_ok]. }
  apply never_bind. intros [b|]; [apply Hfin|]. apply never_bind. intros id.
  intros n s s' Hd. apply during_bind in Hd as (r & s1 & D1 & D2).
  apply during_act in D1 as (s2 & E & _ & _). simpl in E. unfold create_balance in E.
  assert (Hagain : never (bind (act (OGetInd ind cur)) (fun b => match b with Some b => if c_queued cfg then get_balance cfg (b_id b) else Ret (Ok b) | None => Ret (Err EBalanceNotFound) end))).
  { apply never_bind. intros [b|]; [apply Hfin|apply never_err; discriminate]. }
  destruct r as [x|e]; [exact (Hagain _ _ _ D2)|].
  assert (e = EConflict); [|subst; exact (Hagain _ _ _ D2)].
  destruct (get_bal _ _); simpl in E; [congruence|]. destruct (_ && _); simpl in E; congruence.
Qed.
Lemma get_end_never cfg e cur : never (get_end cfg e cur).
Proof. unfold get_end. destruct (starts_with_at e); [apply get_or_create_never|apply get_balance_never]. Qed.
Lemma resolve_never cfg e cur : never (resolve_id cfg e cur).
Proof.
  unfold resolve_id. destruct (starts_with_at e); [|apply never_ok].
  apply never_bindr; [apply get_or_create_never|]. intros b. apply never_ok.
Qed.
Lemma apply_never t src dst : apply_to_balances t src dst <> Err EDupReference.
Proof.
  unfold apply_to_balances, update_balances, commit_inflight_debit, commit_inflight_credit, rollback_inflight_debit,
    rollback_inflight_credit, validate_txn, can_process.
  intros E. destruct (t_status t);
    repeat match type of E with context [if ?c then _ else _] => destruct c; try discriminate end; discriminate.
Qed.

(** ** Posting one queued transaction *)

Lemma posted_keeps t s s' : incl (s_txns s) (s_txns s') -> posted t s -> posted t s'.
Proof. intros Hi (r & Hr & E). exists r. split; [apply Hi, Hr|exact E]. Qed.
Definition record_post (t : txn) (r : res txn) (s : state) : Prop :=
  match r with Ok _ => posted t s | Err EDupReference => used (t_ref t) s | _ => True end.
Lemma record_post_keeps t r s s' : incl (s_txns s) (s_txns s') -> record_post t r s -> record_post t r s'.
Proof. intros Hi. destruct r as [x|e]; simpl; [apply posted_keeps, Hi|]. destruct e; auto. apply used_keeps, Hi. Qed.

Lemma precision_ref t : t_ref (apply_precision_txn t) = t_ref t.
Proof. unfold apply_precision_txn. destruct (apply_precision _ _ _) as [[p a] q]. reflexivity. Qed.
Lemma validate_positive t x : validate_txn t = Ok x -> 0 < t_precise t.
Proof.
  unfold validate_txn. intros E. repeat match type of E with (if ?c then _ else _) = _ => destruct c eqn:?; try discriminate end. lia.
Qed.
Lemma kind_posts t : pending t -> kind_of t = KPost \/ kind_of t = KHold.
Proof. intros [E|E]; unfold kind_of; rewrite E; destruct (t_inflight t); auto. Qed.

Lemma persist_dup k t a b ob s : snd (persist_single k t a b ob s) = Err EDupReference -> used (t_ref t) s.
Proof.
  unfold persist_single. destruct (update_balance _ _ _) as [b1|]; [|discriminate].
  destruct (update_balance _ _ _) as [b2|]; [|discriminate]. unfold insert_txn.
  destruct (ref_exists (t_ref t) (s_txns s)) eqn:E; [intros _; apply ref_exists_used, E|].
  destruct (id_exists _ _); [discriminate|]. destruct (get_bal _ _); [|discriminate]. destruct (get_bal _ _); discriminate.
Qed.

Lemma record_locked_does n cfg t s r s' : pending t -> during n (record_locked cfg t) s r s' -> record_post t r s'.
Proof.
  intros Hp Hd. unfold record_locked in Hd. apply during_bind in Hd as (u & s1 & D1 & D2).
  apply during_act in D1 as (s2 & Eu & O1 & _). simpl in Eu, O1. destruct u.
  { simpl in D2. destruct D2 as [O2 <-]. simpl. eapply used_keeps; [|apply ref_exists_used; symmetry; exact Eu].
    eapply incl_tran; [apply other_rows, O1|apply other_rows, O2]. }
  clear Eu O1. apply during_bindr in D2 as [(src & s3 & D1 & D2)|(e & s3 & D1 & -> & _)];
    [|destruct e; try exact Logic.I; exact (False_ind _ (get_end_never _ _ _ _ _ _ D1))].
  apply during_bindr in D2 as [(dst & s4 & D3 & D2)|(e & s4 & D3 & -> & _)];
    [|destruct e; try exact Logic.I; exact (False_ind _ (get_end_never _ _ _ _ _ _ D3))].
  cbv zeta in D2. set (t0 := with_ends t (b_id src) (b_id dst)) in *.
  destruct (apply_to_balances t0 src dst) as [[[t1 src'] dst']|e] eqn:E.
  2: { simpl in D2. destruct D2 as [_ <-]. destruct e; try exact Logic.I. exact (False_ind _ (apply_never _ _ _ E)). }
  pose proof (apply_keeps _ _ _ _ _ _ E) as (Et & _).
  assert (Hup : update_balances t0 src dst = Ok (t1, src', dst')).
  { revert E. unfold apply_to_balances. destruct Hp as [Hp|Hp]; change (t_status t0) with (t_status t); rewrite Hp; auto. }
  assert (Hpos : 0 < t_precise t1).
  { unfold update_balances in Hup. revert Hup. cbv zeta.
    destruct (validate_txn (apply_precision_txn t0)) as [x|] eqn:Ev; [|discriminate]. apply validate_positive in Ev.
    destruct (can_process _ _); [|discriminate]. intros X. inversion X; subst. exact Ev. }
  assert (Hid : t_id t1 = t_id t /\ t_ref t1 = t_ref t /\ kind_of t1 = kind_of t).
  { destruct Et as [-> | ->]; [auto|]. rewrite precision_ref. destruct (precision_keeps t0) as (E1 & _ & _ & _ & E5 & E6 & _).
    rewrite E1. unfold kind_of. rewrite E5, E6. auto. }
  destruct Hid as (I1 & I2 & I3).
  change (t_precise (update_details t1 src' dst')) with (t_precise t1) in D2.
  destruct (t_precise t1 =? 0) eqn:Ez; [apply Z.eqb_eq in Ez; lia|].
  set (t3 := clear_terminal (update_details t1 src' dst')) in *.
  assert (J1 : t_id t3 = t_id t) by (rewrite <- I1; unfold t3, clear_terminal, update_details; simpl; destruct (final_status t1); reflexivity).
  assert (J2 : t_ref t3 = t_ref t) by (rewrite <- I2; unfold t3, clear_terminal, update_details; simpl; destruct (final_status t1); reflexivity).
  apply during_bind in D2 as (x & s5 & D5 & D6). apply during_act in D5 as (s6 & Ex & O6 & _). simpl in Ex, O6.
  destruct x as [x|e]; simpl in D6; destruct D6 as [O7 <-].
  - eapply record_post_keeps; [eapply incl_tran; [apply other_rows, O6|apply other_rows, O7]|]. simpl.
    destruct (persist_single_rows (kind_of t1) t3 src' dst' (prepare_outbox (update_details t1 src' dst') src' dst') s6) as [[e E2]|[bs E2]]; rewrite E2 in *; [discriminate|].
    exists {| r_t := t3; r_kind := kind_of t1 |}. simpl. split; [left; reflexivity|]. split; [exact J1|]. split; [exact J2|].
    unfold posts. simpl. rewrite I3. apply kind_posts, Hp.
  - destruct e; try exact Logic.I. symmetry in Ex. pose proof (persist_dup _ _ _ _ _ _ Ex) as Hu. simpl. rewrite J2 in Hu.
    eapply used_keeps; [|exact Hu]. eapply incl_tran; [apply exec_rows with (n := n) (o := OPersist (kind_of t1) t3 src' dst' (prepare_outbox (update_details t1 src' dst') src' dst'))|].
    simpl. eapply incl_tran; [apply other_rows, O6|apply other_rows, O7].
Qed.
Lemma record_single_does n cfg t s r s' : pending t -> during n (record_single cfg t) s r s' -> record_post t r s'.
Proof.
  intros Hp Hd. unfold record_single in Hd.
  apply during_bindr in Hd as [(a & s1 & D1 & Hd)|(e & s1 & D1 & -> & _)];
    [|destruct e; try exact Logic.I; exact (False_ind _ (resolve_never _ _ _ _ _ _ D1))].
  apply during_bindr in Hd as [(d & s2 & D2 & Hd)|(e & s2 & D2 & -> & _)];
    [|destruct e; try exact Logic.I; exact (False_ind _ (resolve_never _ _ _ _ _ _ D2))].
  cbv zeta in Hd. apply during_bind in Hd as ([|] & s3 & _ & Hd); [|destruct Hd as [_ <-]; exact Logic.I].
  apply during_bind in Hd as (x & s4 & D4 & Hd). apply during_bind in Hd as (y & s5 & D5 & [O6 <-]).
  apply record_locked_does in D4; [|exact Hp].
  eapply record_post_keeps; [|exact D4]. eapply incl_tran; [eapply during_rows, D5|apply other_rows, O6].
Qed.

(** ** Batches *)
Lemma member_row t m k t' ob m' : pending t -> prepare_member t m = Ok (k, t', ob, m') ->
  t_id t' = t_id t /\ t_ref t' = t_ref t /\ (k = KPost \/ k = KHold).
Proof.
  intros Hp. unfold prepare_member. cbv zeta. destruct (update_shared _ m) as [[f1 m1]|e] eqn:E; [|discriminate].
  assert (Hf : f1 = apply_precision_txn (with_status t (final_status t))).
  { unfold update_shared in E. destruct (get_bal _ m) as [src|] in E; [|discriminate].
    destruct (get_bal _ m) as [d0|] in E; [|discriminate]. cbv zeta in E.
    match type of E with match ?x with _ => _ end = _ => destruct x as [v|v]; [|discriminate] end.
    match type of E with match ?x with _ => _ end = _ => destruct x as [v2|v2]; [|discriminate] end.
    match type of E with match ?x with _ => _ end = _ => destruct x as [dst|] eqn:Ed; [|discriminate] end.
    inversion E; subst. reflexivity. }
  subst f1. clear E. match goal with |- match ?x with _ => _ end = _ -> _ => destruct x as [src|]; [|discriminate] end.
  match goal with |- match ?x with _ => _ end = _ -> _ => destruct x as [dst|]; [|discriminate] end.
  match goal with |- (if ?x then _ else _) = _ -> _ => destruct x; [discriminate|] end. intros E2. inversion E2; subst.
  set (g := apply_precision_txn (with_status t (final_status t))).
  assert (G1 : t_id g = t_id t) by apply (precision_keeps (with_status t (final_status t))).
  assert (G2 : t_ref g = t_ref t) by apply (precision_ref (with_status t (final_status t))).
  split; [|split].
  - rewrite <- G1. unfold clear_terminal, update_details. simpl. destruct (final_status g); reflexivity.
  - rewrite <- G2. unfold clear_terminal, update_details. simpl. destruct (final_status g); reflexivity.
  - unfold kind_of. simpl. unfold final_status. destruct Hp as [Hp|Hp]; rewrite Hp; destruct (t_inflight t); auto.
Qed.
Lemma members_leader n cfg t r ex seen m s ks obs m' s' : pending t ->
  during n (prepare_members cfg (t :: r) ex seen m) s (Ok (ks, obs, m')) s' ->
  exists k t' q, ks = (k, t') :: q /\ t_id t' = t_id t /\ t_ref t' = t_ref t /\ (k = KPost \/ k = KHold).
Proof.
  intros Hp. cbn [prepare_members]. destruct (String.eqb (t_ref t) ""); [intros [_ E]; discriminate|].
  destruct (mem_string _ _ || mem_string _ _); [intros [_ E]; discriminate|]. intros Hd.
  apply during_bind in Hd as ([|] & s1 & _ & Hd); [destruct Hd as [_ E]; discriminate|].
  destruct (prepare_member t m) as [[[[k t'] ob] m1]|e] eqn:Em; [|destruct Hd as [_ E]; discriminate].
  apply during_bindr in Hd as [([[ks1 obs1] m2] & s2 & _ & [_ E])|(e & s2 & _ & E & _)]; [|discriminate].
  inversion E; subst. destruct (member_row _ _ _ _ _ _ Hp Em) as (A & B & C). exists k, t', ks1. auto.
Qed.
Lemma batch_does n cfg t r s s' : pending t -> during n (persist_queued_batch cfg (t :: r)) s (Ok tt) s' -> posted t s'.
Proof.
  intros Hp Hd. unfold persist_queued_batch in Hd. destruct (negb _); [destruct Hd as [_ E]; discriminate|]. cbv zeta in Hd.
  apply during_bind in Hd as ([|] & s1 & _ & Hd); [|destruct Hd as [_ E]; discriminate].
  apply during_bind in Hd as (x & s2 & D2 & Hd). apply during_bind in Hd as (y & s3 & D3 & [O4 ->]).
  eapply posted_keeps; [eapply incl_tran; [eapply during_rows, D3|apply other_rows, O4]|].
  unfold batch_locked in D2. apply during_bindr in D2 as [(m & s5 & _ & D2)|(e & s5 & _ & E & _)]; [|discriminate].
  apply during_bind in D2 as (ex & s6 & _ & D2).
  apply during_bindr in D2 as [([[ks obs] m'] & s7 & D7 & D2)|(e & s7 & _ & E & _)]; [|discriminate].
  destruct (members_leader _ _ _ _ _ _ _ _ _ _ _ _ Hp D7) as (k & t' & q & -> & I1 & I2 & I3).
  apply during_act in D2 as (s8 & E & O8 & _). simpl in E, O8.
  eapply posted_keeps; [apply other_rows, O8|].
  destruct (persist_batch_rows ((k, t') :: q) m' obs s8) as [[e E2]|[bs E2]]; rewrite E2 in *; [discriminate|]. simpl.
  exists {| r_t := t'; r_kind := k |}. simpl. split; [apply in_or_app; left; apply in_or_app; right; left; reflexivity|]. auto.
Qed.
Lemma build_leader n t scs sel s b s' : during n (build_batch t scs sel) s b s' -> b = [] \/ exists r, b = t :: r.
Proof.
  revert s. induction scs as [|sc q IH]; intros s; cbn [build_batch]; [intros [_ <-]; auto|].
  intros Hd. apply during_bind in Hd as (sibs & s1 & _ & Hd). apply during_bind in Hd as (cs & s2 & _ & Hd).
  destruct cs; [eapply IH; exact Hd|]. destruct Hd as [_ <-]. right. eauto.
Qed.
Lemma try_batch_does n cfg f sel t s s' : pending t -> during n (try_batch cfg f sel t) s true s' -> posted t s'.
Proof.
  intros Hp. unfold try_batch. destruct (negb (can_coalesce t)); [intros [_ E]; discriminate|].
  destruct (negb _); [intros [_ E]; discriminate|]. intros Hd. apply during_bind in Hd as (b & s1 & D1 & Hd).
  destruct (build_leader _ _ _ _ _ _ _ D1) as [->|[r ->]]; [destruct Hd as [_ E]; discriminate|].
  apply during_bind in Hd as (x & s2 & D2 & [O3 E]). destruct x as [[]|]; [|discriminate].
  eapply posted_keeps; [apply other_rows, O3|]. eapply batch_does; eauto.
Qed.
Lemma process_does n cfg h sel t s r s' : pending t -> during n (process_queued cfg h sel t) s r s' -> record_post t r s'.
Proof.
  intros Hp Hd. unfold process_queued in Hd. apply during_bind in Hd as ([|] & s1 & D1 & Hd).
  - destruct Hd as [O2 <-]. simpl. eapply posted_keeps; [apply other_rows, O2|]. eapply try_batch_does; eauto.
  - eapply record_single_does; eauto.
Qed.

(** ** Rejection *)
Lemma rejected_keeps t s s' : incl (s_txns s) (s_txns s') -> rejected t s -> rejected t s'.
Proof. intros Hi (r & Hr & E). exists r. split; [apply Hi, Hr|exact E]. Qed.
Lemma reject_does n cfg t s r s' : during n (reject cfg t) s r s' ->
  match r with
  | Ok _ => rejected t s'
  | Err e => rejected t s'
             \/ (e = EDupReference /\ used (t_ref t) s')
             \/ (e = EDupId /\ exists r, In r (s_txns s') /\ t_id (r_t r) = t_id t)
             \/ (e = EForeignKey /\ exists s0, other s s0 /\
                  (get_bal (t_src t) (s_bals s0) = None \/ get_bal (t_dst t) (s_bals s0) = None))
  end.
Proof.
  intros Hd. unfold reject in Hd. cbv zeta in Hd. apply during_bind in Hd as (x & s1 & D1 & Hd).
  apply during_act in D1 as (s2 & Ex & O2 & Hi). simpl in Ex, O2.
  destruct (insert_txn KNone (with_status t SRejected) (s_bals s2) (s_txns s2)) as [l|e] eqn:E; simpl in *; subst x.
  - apply insert_ids in E as [-> _].
    assert (Hr : rejected t s').
    { eapply rejected_keeps; [eapply incl_tran; [apply other_rows, O2|eapply during_rows, Hd]|].
      exists {| r_t := with_status t SRejected; r_kind := KNone |}. simpl. auto. }
    destruct r; auto.
  - simpl in Hd. destruct Hd as [O3 <-]. right.
    assert (Hs : incl (s_txns s2) (s_txns s')) by (eapply incl_tran; [apply other_rows, O2|apply other_rows, O3]).
    unfold insert_txn in E. simpl in E.
    destruct (ref_exists (t_ref t) (s_txns s2)) eqn:E1; [inversion E; subst; left; split; auto; eapply used_keeps; [exact Hs|apply ref_exists_used, E1]|].
    destruct (id_exists (t_id t) (s_txns s2)) eqn:E2.
    { inversion E; subst. right. left. split; [reflexivity|]. apply existsb_exists in E2 as (r & Hr & E2).
      exists r. split; [apply Hs, Hr|]. apply String.eqb_eq. exact E2. }
    right. right. destruct (get_bal (t_src t) (s_bals s2)) eqn:E3; [destruct (get_bal (t_dst t) (s_bals s2)) eqn:E4; [discriminate|]|];
      inversion E; subst; split; auto; exists s2; auto.
Qed.

(** ** The worker *)
Theorem worker_does n cfg hot sel1 sel2 retry t s v s' : pending t ->
  during n (worker cfg hot sel1 sel2 retry t) s v s' ->
  match v with
  | VDone => posted t s' \/ used (t_ref t) s'
  | VReject => rejected t s'
  | VRetry => True
  end.
Proof.
  intros Hp Hd. unfold worker in Hd. apply during_bind in Hd as (h1 & s1 & D1 & Hd).
  apply during_bind in Hd as (h & s2 & D2 & Hd). destruct h.
  { destruct Hd as [O3 <-]. left. eapply posted_keeps; [apply other_rows, O3|].
    destruct hot; [eapply try_batch_does; eauto|]. destruct D2 as [O2 ->]. eapply posted_keeps; [apply other_rows, O2|].
    eapply try_batch_does; eauto. }
  apply during_bind in Hd as (r & s3 & D3 & Hd). apply process_does in D3; [|exact Hp].
  destruct r as [x|e].
  { destruct Hd as [O4 <-]. left. eapply posted_keeps; [apply other_rows, O4|exact D3]. }
  destruct (worker_verdict cfg e retry) eqn:Ev.
  - destruct Hd as [O4 <-]. assert (e = EDupReference).
    { unfold worker_verdict in Ev. destruct e; auto; exfalso; revert Ev;
        repeat match goal with |- context [if ?c then _ else _] => destruct c end; discriminate. }
    subst e. right. eapply used_keeps; [apply other_rows, O4|exact D3].
  - apply during_bind in Hd as (x & s4 & D4 & Hd). apply reject_does in D4.
    destruct x as [x|e']; destruct Hd as [O5 <-]; [|exact Logic.I]. eapply rejected_keeps; [apply other_rows, O5|exact D4].
  - destruct Hd as [_ <-]. exact Logic.I.
Qed.

(** ** Recovery *)
Lemma other_unique s s' : other s s' -> unique s -> unique s'.
Proof.
  induction 1 as [s|m o s s' Ho IH|l s s' Ho IH|l s s' Ho IH]; auto. intros U. apply IH. apply exec_grows, U.
Qed.
Lemma other_bals s s' : other s s' -> forall id, get_bal id (s_bals s) <> None -> unique s -> get_bal id (s_bals s') <> None.
Proof.
  intros Ho id Hb U.
  assert (Hg : forall l i, get_bal i l <> None <-> exists b, In b l /\ b_id b = i).
  { intros l i. induction l as [|b q IH]; simpl; [split; [congruence|intros (b & [] & _)]|].
    destruct (String.eqb_spec (b_id b) i); [split; [eauto|discriminate]|]. rewrite IH. split; intros (c & Hc & E).
    - exists c. auto.
    - destruct Hc as [->|Hc]; [contradiction|eauto]. }
  apply Hg in Hb as (b & Hb & <-). apply Hg.
  revert b Hb. induction Ho as [s|m o s s' Ho IH|l s s' Ho IH|l s s' Ho IH]; intros b Hb; [eauto| |apply (IH U b Hb)..].
  destruct (exec_grows m o s U) as [[_ G] U']. destruct (G b Hb) as (b1 & Hb1 & E1 & _).
  destruct (IH U' b1 Hb1) as (b2 & Hb2 & E2). exists b2. split; [exact Hb2|congruence].
Qed.
Lemma during_ends n {A} (p : prog A) s a s' : during n p s a s' -> unique s ->
  unique s' /\ forall id, get_bal id (s_bals s) <> None -> get_bal id (s_bals s') <> None.
Proof.
  revert s. induction p as [b|o k IH]; intros s; simpl.
  - intros [Ho _] U. split; [eapply other_unique; eauto|]. intros id Hb. eapply other_bals; eauto.
  - intros (s1 & Ho & Hd) U. pose proof (other_unique _ _ Ho U) as U1. destruct (exec_grows n o s1 U1) as [_ U2].
    destruct (IH _ _ Hd U2) as [U3 G]. split; [exact U3|]. intros id Hb. apply G.
    eapply other_bals; [apply (o_op n o s1), o_none|eapply other_bals; eauto|exact U1].
Qed.

Lemma settled_keeps o s s' : incl (s_txns s) (s_txns s') -> settled o s -> settled o s'.
Proof. intros Hi (r & Hr & E). exists r. split; [apply Hi, Hr|exact E]. Qed.
Lemma same_row l o r : NoDup (map (fun r => t_id (r_t r)) l) -> In o l -> In r l -> t_id (r_t r) = t_id (r_t o) -> r = o.
Proof.
  induction l as [|x q IH]; intros Hn Ho Hr E; [destruct Ho|]. simpl in Hn. inversion Hn as [|? ? Hx Hq]; subst.
  destruct Ho as [->|Ho], Hr as [->|Hr]; auto.
  - exfalso. apply Hx. rewrite <- E. apply in_map_iff. eauto.
  - exfalso. apply Hx. rewrite E. apply in_map_iff. eauto.
Qed.
Lemma get_row_none l o : In o l -> get_row (t_id (r_t o)) l <> None.
Proof.
  induction l as [|x q IH]; intros Ho; [destruct Ho|]. simpl. destruct (String.eqb_spec (t_id (r_t x)) (t_id (r_t o))); [discriminate|].
  destruct Ho as [->|Ho]; [contradiction|auto].
Qed.

Section Recover.
Variables (n : nat) (cfg : config) (hot : bool) (sel : scope -> list string) (skip : bool) (o : row) (s : state).
Hypothesis U : unique s.
Hypothesis Ho : In o (s_txns s).
Hypothesis Hq : t_status (r_t o) = SQueued.
Let id := t_id (r_t o).

Lemma read_stuck x s' : during n (act (OSiblings (fun _ => true) [id])) s x s' ->
  settled o s' \/ exists m, x = [db_view m (r_t o)].
Proof.
  intros Hd. apply during_act in Hd as (s1 & -> & O & O1). simpl in *.
  pose proof (other_unique _ _ O1 U) as [U1 _]. pose proof (other_rows _ _ O1 _ Ho) as Ho1.
  destruct (get_row id (s_txns s1)) as [t|] eqn:E; [|exact (False_ind _ (get_row_none _ _ Ho1 E))].
  assert (t = r_t o).
  { assert (Hid : t_id t = id).
    { clear - E. induction (s_txns s1) as [|q l IH]; simpl in E; [discriminate|]. destruct (String.eqb_spec (t_id (r_t q)) id); [congruence|auto]. }
    apply get_row_some in E as (r & Hr & <-). f_equal. eapply same_row; eauto. }
  subst t. destruct (is_stuck (s_txns s1) (r_t o)) eqn:E2; [right; simpl; eauto|]. left.
  unfold is_stuck in E2. rewrite Hq in E2. simpl in E2. apply negb_false_iff in E2.
  unfold has_child in E2. apply existsb_exists in E2 as (c & Hc & E2). exists c.
  split; [apply (other_rows _ _ O), Hc|left; apply String.eqb_eq; exact E2].
Qed.

Lemma copy_keeps t ref s1 c s2 : during n (queue_copy t ref) s1 c s2 ->
  t_ref c = (ref ++ "_q")%string /\ t_parent c = t_id t /\ t_src c = t_src t /\ t_dst c = t_dst t /\ t_status c = t_status t.
Proof.
  intros Hd. unfold queue_copy in Hd. apply during_bind in Hd as (i & s3 & _ & [_ <-]). simpl. auto.
Qed.

Lemma restored m : let t := restore_flags (apply_precision_txn (db_view m (r_t o))) in
  t_ref t = t_ref (r_t o) /\ t_id t = id /\ t_src t = t_src (r_t o) /\ t_dst t = t_dst (r_t o) /\ t_status t = SQueued.
Proof.
  cbv zeta. simpl. rewrite precision_ref. destruct (precision_keeps (db_view m (r_t o))) as (E1 & _ & E3 & E4 & E5 & _).
  rewrite E1, E3, E4, E5. simpl. auto.
Qed.

(** A pass that succeeds has settled the row, unless it was skipped. *)
Theorem recover_does ex s' : during n (recover cfg hot sel ex skip id) s (Ok tt) s' ->
  settled o s' \/ (ex = false /\ skip = true).
Proof.
  intros Hd. unfold recover in Hd. apply during_bind in Hd as (ts & s1 & D1 & Hd). pose proof (during_rows _ _ _ _ _ Hd) as R.
  destruct (read_stuck _ _ D1) as [Hs|(m & ->)]; [left; eapply settled_keeps; eauto|].
  cbv zeta in Hd. destruct (restored m) as (P1 & P2 & _ & _ & P5). cbv zeta in *.
  set (t := restore_flags (apply_precision_txn (db_view m (r_t o)))) in *.
  assert (Hused : forall c z z', t_ref c = (t_ref t ++ "_q")%string -> incl (s_txns z) (s_txns z') -> used (t_ref c) z -> settled o z').
  { intros c z z' Ec Hz Hu. apply (used_keeps _ _ _ Hz) in Hu. destruct Hu as (r & Hr & E). exists r. split; [exact Hr|]. right. congruence. }
  destruct ex.
  - left. apply during_bind in Hd as (c & s2 & D2 & Hd). apply copy_keeps in D2 as (C1 & C2 & _).
    apply during_bind in Hd as (r & s3 & D3 & Hd). apply reject_does in D3. destruct r as [x|e].
    + destruct Hd as [O4 _]. destruct D3 as (r & Hr & _ & E & _). eapply Hused; [exact C1|apply other_rows, O4|]. exists r. auto.
    + destruct e; try (destruct Hd as [_ E]; discriminate). destruct Hd as [O4 _]. eapply Hused; [exact C1|apply other_rows, O4|].
      destruct D3 as [(r & Hr & _ & E & _)|[[_ Hu]|[[E _]|[E _]]]]; try discriminate; [exists r; auto|exact Hu].
  - destruct (t_atomic t && skip) eqn:E; [right; apply andb_prop in E as [_ E]; auto|]. left.
    apply during_bind in Hd as (c & s2 & D2 & Hd). apply copy_keeps in D2 as (C1 & C2 & _ & _ & C5).
    apply during_bind in Hd as (r & s3 & D3 & Hd). apply process_does in D3; [|left; congruence]. destruct r as [x|e].
    + destruct Hd as [O4 _]. destruct D3 as (r & Hr & _ & Er & _). eapply Hused; [exact C1|apply other_rows, O4|]. exists r. auto.
    + destruct e; try (destruct Hd as [_ E2]; discriminate). destruct Hd as [O4 _]. eapply Hused; [exact C1|apply other_rows, O4|exact D3].
Qed.

(** The pass after the last attempt settles the row whatever happens, provided the id
    it generates is new. *)
Theorem recover_exhausted r s' :
  get_bal (t_src (r_t o)) (s_bals s) <> None -> get_bal (t_dst (r_t o)) (s_bals s) <> None ->
  during n (recover cfg hot sel true skip id) s r s' -> settled o s' \/ r = Err EDupId.
Proof.
  intros Hsrc Hdst Hd. unfold recover in Hd. apply during_bind in Hd as (ts & s1 & D1 & Hd). pose proof (during_rows _ _ _ _ _ Hd) as R.
  destruct (during_ends _ _ _ _ _ D1 U) as [U1 G1].
  destruct (read_stuck _ _ D1) as [Hs|(m & ->)]; [left; eapply settled_keeps; eauto|].
  cbv zeta in Hd. destruct (restored m) as (P1 & P2 & P3 & P4 & P5). cbv zeta in *.
  set (t := restore_flags (apply_precision_txn (db_view m (r_t o)))) in *.
  assert (Hused : forall c z z', t_ref c = (t_ref t ++ "_q")%string -> incl (s_txns z) (s_txns z') -> used (t_ref c) z -> settled o z').
  { intros c z z' Ec Hz Hu. apply (used_keeps _ _ _ Hz) in Hu. destruct Hu as (q & Hr & E). exists q. split; [exact Hr|]. right. congruence. }
  apply during_bind in Hd as (c & s2 & D2 & Hd). destruct (during_ends _ _ _ _ _ D2 U1) as [U2 G2].
  apply copy_keeps in D2 as (C1 & C2 & C3 & C4 & _).
  apply during_bind in Hd as (x & s3 & D3 & Hd). pose proof (during_rows _ _ _ _ _ Hd) as R4. apply reject_does in D3.
  destruct x as [x|e].
  - left. destruct D3 as (q & Hr & _ & E & _). eapply Hused; [exact C1|exact R4|]. exists q. auto.
  - destruct D3 as [(q & Hr & _ & E & _)|[[-> Hu]|[[-> _]|[-> (s0 & O0 & Hb)]]]].
    + left. eapply Hused; [exact C1|exact R4|]. exists q. auto.
    + left. eapply Hused; [exact C1|exact R4|exact Hu].
    + right. destruct Hd as [_ <-]. reflexivity.
    + exfalso. rewrite C3, C4, P3, P4 in Hb. destruct Hb as [Hb|Hb]; revert Hb; eapply other_bals; eauto.
Qed.
End Recover.

Theorem passes_settle cfg max o k a s s' : unique s -> In o (s_txns s) -> t_status (r_t o) = SQueued ->
  get_bal (t_src (r_t o)) (s_bals s) <> None -> get_bal (t_dst (r_t o)) (s_bals s) <> None ->
  passes cfg max (t_id (r_t o)) k a s s' -> max < a + Z.of_nat k -> 0 < Z.of_nat k -> settled o s'.
Proof.
  intros U Ho Hq Hsrc Hdst Hp. revert U Ho Hsrc Hdst.
  induction Hp as [a s|k n hot sel a a' r s s0 s1 s' O0 D Hr Hp IH]; intros U Ho Hsrc Hdst Hk Hpos; [lia|].
  pose proof (other_unique _ _ O0 U) as U0. pose proof (other_rows _ _ O0 _ Ho) as Ho0.
  pose proof (other_bals _ _ O0 _ Hsrc U) as Hs0. pose proof (other_bals _ _ O0 _ Hdst U) as Hd0.
  destruct (during_ends _ _ _ _ _ D U0) as [U1 G]. pose proof (during_rows _ _ _ _ _ D _ Ho0) as Ho1.
  assert (Hrest : incl (s_txns s1) (s_txns s')).
  { clear - Hp. induction Hp as [a s|k n hot sel a a' r s s0 s1 s' O0 D Hr Hp IH]; [apply incl_refl|].
    eapply incl_tran; [apply other_rows, O0|]. eapply incl_tran; [eapply during_rows, D|exact IH]. }
  unfold recovery_pass in D. apply during_bind in D as (x & s2 & D & [O2 E]). inversion E; subst. clear E.
  destruct (max <? a + 1) eqn:Ex.
  - destruct (recover_exhausted n cfg hot sel false o s0 U0 Ho0 Hq _ _ Hs0 Hd0 D) as [Hs|Hs]; [|contradiction].
    eapply settled_keeps; [|exact Hs]. eapply incl_tran; [apply other_rows, O2|exact Hrest].
  - apply Z.ltb_ge in Ex. destruct r as [[]|e].
    + destruct (recover_does n cfg hot sel false o s0 U0 Ho0 Hq _ _ D) as [Hs|[_ Hs]]; [|discriminate].
      eapply settled_keeps; [|exact Hs]. eapply incl_tran; [apply other_rows, O2|exact Hrest].
    + apply IH; auto; try (apply G; assumption); lia.
Qed.

(** At the retry limit the worker gives up its task only if it cannot be recorded. *)
Theorem worker_limit n cfg hot sel1 sel2 retry t s s' : pending t -> unique s ->
  0 < c_max_retry cfg -> c_max_retry cfg <= retry ->
  during n (worker cfg hot sel1 sel2 retry t) s VRetry s' ->
  used (t_ref t) s' \/ (exists r, In r (s_txns s') /\ t_id (r_t r) = t_id t)
  \/ get_bal (t_src t) (s_bals s) = None \/ get_bal (t_dst t) (s_bals s) = None.
Proof.
  intros Hp U Hm Hr Hd. unfold worker in Hd. apply during_bind in Hd as (h1 & s1 & D1 & Hd).
  apply during_bind in Hd as (h & s2 & D2 & Hd). destruct h; [destruct Hd as [_ E]; discriminate|].
  apply during_bind in Hd as (r & s3 & D3 & Hd). destruct r as [x|e]; [destruct Hd as [_ E]; discriminate|].
  assert (Hx : max_reached cfg retry = true).
  { unfold max_reached. destruct (c_max_retry cfg <=? 0) eqn:E; [apply Z.leb_le in E; lia|]. apply Z.leb_le. exact Hr. }
  destruct (worker_verdict cfg e retry) eqn:Ev.
  - destruct Hd as [_ E]. discriminate.
  - apply during_bind in Hd as (x & s4 & D4 & Hd). pose proof (during_rows _ _ _ _ _ D3) as R3.
    destruct (during_ends _ _ _ _ _ D1 U) as [U1 G1]. destruct (during_ends _ _ _ _ _ D2 U1) as [U2 G2].
    destruct (during_ends _ _ _ _ _ D3 U2) as [U3 G3].
    apply reject_does in D4. destruct x as [x|e']; destruct Hd as [O5 E]; [discriminate|]. apply other_rows in O5.
    destruct D4 as [(q & Hq & I1 & I2 & _)|[[_ Hu]|[[_ (q & Hq & Hi)]|[_ (s0 & Hs0 & Hb)]]]].
    + left. exists q. split; [apply O5, Hq|exact I2].
    + left. eapply used_keeps; eauto.
    + right. left. exists q. split; [apply O5, Hq|exact Hi].
    + right. right. destruct (get_bal (t_src t) (s_bals s)) eqn:E1; [|auto]. destruct (get_bal (t_dst t) (s_bals s)) eqn:E2; [|auto].
      exfalso. destruct Hb as [Hb|Hb]; revert Hb; eapply other_bals; eauto; apply G3, G2, G1; congruence.
  - exfalso. unfold worker_verdict in Ev. rewrite Hx in Ev. destruct e; try discriminate;
      repeat match type of Ev with context [if ?c then _ else _] => destruct c; try discriminate end.
Qed.

(** ** In the running system *)
(** Whatever happens in the system between two moments is what [other] allows. *)
Lemma step_other cfg y e y' : step cfg y e y' -> other (y_st y) (y_st y').
Proof.
  destruct e as [r|n|n|k]; simpl.
  - destruct r; try (intros [_ ->]; apply o_none). intros (l1 & l2 & _ & ->). eapply o_jobs, o_none.
  - destruct (nth_error (y_thr y) n) as [[|o k]|]; try contradiction. intros ->. eapply o_op, o_none.
  - intros ->. apply o_none.
  - intros ->. eapply o_locks, o_none.
Qed.
Theorem steps_other cfg ok y y' : steps cfg ok y y' -> other (y_st y) (y_st y').
Proof. intros H. induction H; [apply o_none|]. eapply other_trans; [eassumption|]. eapply step_other; eauto. Qed.

Lemma has_ends cfg u y : steps cfg no_recon_flag (init_sys u) y -> forall o, In o (s_txns (y_st y)) ->
  get_bal (source o) (s_bals (y_st y)) <> None /\ get_bal (destination o) (s_bals (y_st y)) <> None.
Proof.
  intros H o Ho. pose proof (reachable_inv cfg no_recon_flag u y (fun _ _ H => H) H) as HI.
  pose proof (i_ends _ _ HI) as He. rewrite Forall_forall in He. destruct (He o Ho) as [H1 H2].
  assert (G : forall id, In id (map b_id (s_bals (y_st y))) -> get_bal id (s_bals (y_st y)) <> None).
  { intros id Hi. apply in_map_iff in Hi as (b & <- & Hb). revert Hb. generalize (s_bals (y_st y)).
    induction l as [|x l IH]; [contradiction|]. simpl. intros [->|Hb]; [rewrite String.eqb_refl; discriminate|].
    destruct (String.eqb (b_id x) (b_id b)); [discriminate|auto]. }
  split; apply G; assumption.
Qed.

Theorem recovery_settles cfg u y max o k s' : steps cfg no_recon_flag (init_sys u) y ->
  In o (s_txns (y_st y)) -> t_status (r_t o) = SQueued ->
  passes cfg max (t_id (r_t o)) k 0 (y_st y) s' -> max < Z.of_nat k -> (0 < k)%nat -> settled o s'.
Proof.
  intros H Ho Hq Hp Hk Hpos. destruct (has_ends _ _ _ H _ Ho) as [H1 H2].
  eapply passes_settle; eauto; try lia. eapply reach_unique; eauto.
Qed.

(** In a reachable state a settled transaction has its outcome, or was committed or
    voided before it was posted, or lost its reference to someone else. *)
Theorem settled_means cfg u y : distinct_uuids u -> steps cfg no_recon_flag (init_sys u) y ->
  forall o, In o (s_txns (y_st y)) -> waiting o -> settled o (y_st y) ->
  exists r, In r (s_txns (y_st y)) /\
    (outcome_of o r \/ (child_of o r /\ (r_kind r = KCommit \/ r_kind r = KVoid)) \/ t_ref (r_t r) = (t_ref (r_t o) ++ "_q")%string).
Proof.
  intros Hu H o Ho Hw (r & Hr & [Hp|Hp]); exists r; (split; [exact Hr|]); [|right; right; exact Hp].
  destruct (reach_plain cfg u y Hu H) as [A B]. unfold outcome_of, child_of, posts.
  destruct (r_kind r) eqn:K; auto.
  right. right. destruct (parent_cases _ _ _ _ A B o r Ho Hr Hp) as [C|C]; try (rewrite K; discriminate).
  - apply C.
  - destruct C as ([C|C] & _); destruct Hw as [W|W]; congruence.
Qed.

Lemma steps_trans cfg ok y1 y2 y3 : steps cfg ok y1 y2 -> steps cfg ok y2 y3 -> steps cfg ok y1 y3.
Proof. intros H1 H2. revert H1. induction H2; intros H1; [exact H1|]. eapply steps_step; [apply IHsteps, H1| |]; eassumption. Qed.

(** A queued transaction whose reference someone else took never gets its outcome. *)
Theorem squatted_forever cfg u y : distinct_uuids u -> steps cfg no_recon_flag (init_sys u) y ->
  forall o x, In o (s_txns (y_st y)) -> waiting o -> In x (s_txns (y_st y)) ->
  t_ref (r_t x) = (t_ref (r_t o) ++ "_q")%string -> ~ outcome_of o x ->
  forall y', steps cfg no_recon_flag y y' -> forall r, In r (s_txns (y_st y')) -> ~ outcome_of o r.
Proof.
  intros Hu H o x Ho Hw Hx Ex Nx y' H' r Hr Hc. pose proof (steps_trans _ _ _ _ _ H H') as H2.
  pose proof (other_rows _ _ (steps_other _ _ _ _ H')) as Hi.
  destruct (queued_faithful cfg u y' Hu H2 o r (Hi _ Ho) Hr Hw Hc) as (E & _).
  destruct (reach_plain cfg u y' Hu H2) as [A _].
  assert (r = x) by (eapply same_ref; eauto; congruence). subst. contradiction.
Qed.

(** Recovery passes over a row that is not QUEUED (a scheduled one) without a trace. *)
Theorem recover_ignores n cfg hot sel ex skip o s r s' : unique s -> In o (s_txns s) -> t_status (r_t o) <> SQueued ->
  during n (recover cfg hot sel ex skip (t_id (r_t o))) s r s' -> r = Ok tt /\ other s s'.
Proof.
  intros U Ho Hq Hd. unfold recover in Hd. apply during_bind in Hd as (ts & s1 & D1 & Hd).
  unfold act in D1. simpl in D1. destruct D1 as (s0 & O0 & O1 & E).
  pose proof (other_unique _ _ O0 U) as [U0 _]. pose proof (other_rows _ _ O0 _ Ho) as Ho0.
  destruct (get_row (t_id (r_t o)) (s_txns s0)) as [t|] eqn:G; [|exact (False_ind _ (get_row_none _ _ Ho0 G))].
  assert (t = r_t o).
  { assert (Hid : t_id t = t_id (r_t o)).
    { clear - G. induction (s_txns s0) as [|q l IH]; simpl in G; [discriminate|]. destruct (String.eqb_spec (t_id (r_t q)) (t_id (r_t o))); [congruence|auto]. }
    apply get_row_some in G as (q & Hr & <-). f_equal. eapply same_row; eauto. }
  subst t. assert (E2 : is_stuck (s_txns s0) (r_t o) = false) by (unfold is_stuck; destruct (t_status (r_t o)); try reflexivity; congruence).
  rewrite E2 in E. simpl in E. subst ts. destruct Hd as [O2 <-]. split; [reflexivity|].
  eapply other_trans; [exact O0|]. eapply other_trans; eassumption.
Qed.

Theorem worker_safe cfg u y n hot sel1 sel2 retry t v s' : steps cfg no_recon_flag (init_sys u) y ->
  In t (s_queue (y_st y)) -> 0 <= retry -> during n (worker cfg hot sel1 sel2 retry t) (y_st y) v s' ->
  match asynq (c_max_retry cfg) retry v with
  | Removed => posted t s' \/ rejected t s' \/ used (t_ref t) s'
  | Again k => k = retry + 1 /\ k <= c_max_retry cfg
  | Archived => c_max_retry cfg <= 0
      \/ used (t_ref t) s' \/ (exists r, In r (s_txns s') /\ t_id (r_t r) = t_id t)
      \/ get_bal (t_src t) (s_bals (y_st y)) = None \/ get_bal (t_dst t) (s_bals (y_st y)) = None
  end.
Proof.
  intros H Ht H0 Hd. pose proof (reachable_inv cfg no_recon_flag u y (fun _ _ H => H) H) as HI.
  assert (Hp : pending t). { pose proof (i_queue _ _ HI) as Q. rewrite Forall_forall in Q. apply (Q t Ht). }
  pose proof (worker_does _ _ _ _ _ _ _ _ _ _ Hp Hd) as W. unfold asynq. destruct v; [tauto|tauto|].
  destruct (retry <? Z.max (c_max_retry cfg) 0) eqn:E.
  - apply Z.ltb_lt in E. lia.
  - apply Z.ltb_ge in E. destruct (Z_le_gt_dec (c_max_retry cfg) 0) as [Hm|Hm]; [left; exact Hm|]. right.
    eapply worker_limit; eauto; try lia. eapply reach_unique; eauto.
Qed.
