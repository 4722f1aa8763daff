(** The rollback of a bulk of holds cannot fail while nobody else is posting. *)
From Coq Require Import ZArith QArith List String Bool Lia.
From Verif Require Import LedgerInv LedgerSafe HoldSpec BudgetSpec BudgetProof BudgetThms ProvInv ProvThms BatchProof BulkProof PreviewAlone PreviewReach PreviewAct PreviewActThms.
From Verif Require Import Base MoneyModel SplitModel BalanceModel LedgerModel LedgerProgs LedgerSpec ConcModel BatchSpec BulkModel BulkSpec PreviewModel PreviewSpec.
Import ListNotations.
Local Open Scope string_scope.
Open Scope Z_scope.
Local Open Scope list_scope.

(** ** What members leave behind *)
Lemma core_apart cfg t s s3 r : tidy s -> core cfg t s = (s3, r) ->
  s_txns s3 = s_txns s \/ exists x, s_txns s3 = x :: s_txns s /\ source x <> destination x /\ t_ref (r_t x) = t_ref t.
Proof.
  intros T E. unfold core in E. destruct (ref_exists (t_ref t) (s_txns s)) eqn:R; [left; congruence|].
  destruct (get_bal (t_src t) (s_bals s)) as [sb|] eqn:G1; [|left; congruence].
  destruct (get_bal (t_dst t) (s_bals s)) as [db|] eqn:G2; [|left; congruence].
  destruct (apply_to_balances t (qb cfg s sb) (qb cfg s db)) as [[[t1 s'] d']|e] eqn:Ea; [|left; congruence]. cbv zeta in E.
  destruct (Z.eqb_spec (t_precise (update_details t1 s' d')) 0) as [Z|Z]; [left; congruence|].
  destruct (apply_ids _ _ _ _ _ _ Ea) as (I1 & V1 & I2 & V2 & K1 & K2 & _).
  assert (Qi : forall b, b_id (qb cfg s b) = b_id b) by (intros b; unfold qb; destruct (c_queued cfg); reflexivity).
  rewrite Qi in I1, I2. rewrite (get_bal_id _ _ _ G1) in I1. rewrite (get_bal_id _ _ _ G2) in I2.
  destruct (String.eqb_spec (t_src t) (t_dst t)) as [D|D].
  - left. pose proof G2 as G2'. rewrite <- D, G1 in G2'. injection G2' as <-.
    assert (Z' : t_precise t1 <> 0) by exact Z.
    pose proof (core_same cfg t s sb t1 s' d' T D R G1 Ea Z') as C. unfold core in C. rewrite R, <- D, G1, Ea in C. cbv zeta in C.
    destruct (Z.eqb_spec (t_precise (update_details t1 s' d')) 0) as [Q|Q]; [contradiction|]. rewrite C in E. congruence.
  - unfold persist_single in E. destruct (update_balance _ _ (s_bals s)) as [b1|]; [|left; congruence].
    destruct (update_balance _ _ b1) as [b2|]; [|left; congruence].
    destruct (insert_txn _ _ _ _) as [l|e] eqn:Ei; [|left; congruence].
    right. unfold insert_txn in Ei. repeat match type of Ei with context [if ?c then _ else _] => destruct c; [discriminate Ei|]
      | context [match ?c with Some _ => _ | None => _ end] => destruct c; [|discriminate Ei] end.
    injection Ei as <-. injection E as <- _. eexists. split; [reflexivity|]. unfold source, destination. cbn [r_t].
    rewrite clear_src, clear_dst, clear_ref. cbn [update_details t_src t_dst t_ref with_status with_ends]. split; [|exact K2].
    simpl. rewrite I1, I2. exact D.
Qed.

Lemma member_quiet n cfg e t s s' x : unsplit t -> t_inflight t = true -> t_skipq t = true ->
  tidy s -> new_names s -> s_locks s = [] ->
  run n (queue_transaction cfg e t) s = (s', x) ->
  s_locks s' = [] /\ exists H, s_txns s' = H ++ s_txns s /\ Forall (fun r => source r <> destination r /\ t_ref (r_t r) = t_ref t) H.
Proof.
  intros [U1 U2] Hi Hs T N L. unfold queue_transaction. rewrite U1, U2. unfold queue_nosplit. rewrite run_bind.
  set (t0 := set_metadata t).
  assert (K0 : t_ref t0 = t_ref t /\ t_skipq t0 = true).
  { unfold t0, set_metadata, apply_precision_txn. destruct (apply_precision _ _ _) as [[? ?] ?]. split; [reflexivity|exact Hs]. }
  assert (K1 : let x := run n (ensure_id t0) s in s_txns (fst x) = s_txns s /\ s_locks (fst x) = [] /\ tidy (fst x) /\ new_names (fst x)
                 /\ t_ref (snd x) = t_ref t /\ t_skipq (snd x) = true).
  { unfold ensure_id. destruct (String.eqb (t_id t0) ""); [|simpl; tauto]. cbn [bind act run fresh exec fst snd s_txns s_locks].
    split; [reflexivity|]. split; [exact L|]. split; [exact T|]. split; [|exact K0].
    destruct N as [N1 N2]. split; [exact N1|]. intros i Q. apply N2. simpl in Q. lia. }
  destruct (run n (ensure_id t0) s) as [s1 t1]. cbn [fst snd] in K1 |- *. destruct K1 as (R1 & L1 & T1 & N1 & P1 & S1).
  set (t2 := set_status t1).
  assert (K2 : t_ref t2 = t_ref t /\ t_skipq t2 = true).
  { unfold t2, set_status. destruct (t_sched t1); [auto|]. destruct (t_status t1); auto. }
  destruct K2 as (P2 & S2). cbv zeta. intros E.
  destruct (calculate_distributions _ _ _ _ _).
  2:{ simpl in E. injection E as <- <-. split; [exact L1|]. exists []. split; [exact R1|constructor]. }
  rewrite S2 in E. unfold bindr in E. rewrite run_bind in E.
  rewrite (single_run n cfg t2 s1 T1 N1 L1) in E.
  destruct (settle_facts n s1 (t_src t2) (t_cur t2) T1 N1) as (T2 & N2 & _ & X2 & L2 & _).
  destruct (settle_facts n (settle n s1 (t_src t2) (t_cur t2)) (t_dst t2) (t_cur t2) T2 N2) as (T3 & N3 & _ & X3 & L3 & _).
  fold (both n s1 t2) in T3, N3, X3, L3.
  pose proof (core_keeps cfg (with_ids n s1 t2) (both n s1 t2)) as Kl.
  destruct (core cfg (with_ids n s1 t2) (both n s1 t2)) as [s2 r] eqn:Ec. cbn [fst snd] in E, Kl.
  assert (s2 = s') as -> by (destruct r; simpl in E; congruence).
  split; [congruence|]. destruct (core_apart _ _ _ _ _ T3 Ec) as [Q|(w & Q & D & Rf)].
  - exists []. split; [simpl; congruence|constructor].
  - exists [w]. split; [simpl; congruence|]. constructor; [|constructor]. split; [exact D|]. rewrite Rf. exact P2.
Qed.

Section Rollback.
Variables (cfg : config) (u : nat -> string).
Hypothesis Hu : distinct_uuids u.
Let ok := fun y e => no_recon_flag y e /\ polite y e.
Let reached (y : sys) := steps cfg ok (init_sys u) y.
Lemma reached_names y : reached y -> tidy (y_st y) /\ new_names (y_st y).
Proof. intros H. apply (reach_new_names cfg u y Hu). eapply steps_mono; [|exact H]. intros y0 e0 Q. apply Q. Qed.

(** ** The money on hold *)
Lemma held_left qc j : legal_journal qc j -> forall id, 0 <= held_out id j /\ 0 <= held_in id j.
Proof.
  induction j as [|r j IH]; intros Hl id; [split; apply Z.le_refl|]. destruct Hl as [Hr Hl]. destruct (IH Hl id) as [A B].
  unfold held_out, held_in, total in *. cbn [sumz]. unfold legal, held_out, held_in, total in Hr. unfold held at 1 3.
  destruct (r_kind r); destruct (String.eqb_spec (source r) id) as [E1|E1], (String.eqb_spec (destination r) id) as [E2|E2]; try rewrite E1 in Hr; try rewrite E2 in Hr; simpl; intuition lia.
Qed.

(** The states a program goes through on its own. *)
Fixpoint passes (n : nat) {A} (p : prog A) (s s' : state) : Prop :=
  s = s' \/ match p with Ret _ => False | Do o k => passes n (k (snd (exec n o s))) (fst (exec n o s)) s' end.
Lemma passes_here n {A} (p : prog A) s : passes n p s s.
Proof. destruct p; left; reflexivity. Qed.
Lemma passes_left n {A B} (p : prog A) (f : A -> prog B) : forall s s', passes n p s s' -> passes n (bind p f) s s'.
Proof.
  induction p as [a|o k IH]; intros s s' [->|H]; try (apply passes_here); [destruct H|]. right. apply IH. exact H.
Qed.
Lemma passes_right n {A B} (p : prog A) (f : A -> prog B) : forall s s',
  passes n (f (snd (run n p s))) (fst (run n p s)) s' -> passes n (bind p f) s s'.
Proof.
  induction p as [a|o k IH]; intros s s' H; [exact H|]. right. apply IH. simpl in H. destruct (exec n o s). exact H.
Qed.
Lemma passes_reach n (p : prog unit) : forall y s', reached y -> nth_error (y_thr y) n = Some p -> passes n p (y_st y) s' ->
  exists y', reached y' /\ y_st y' = s'.
Proof.
  induction p as [x|o k IH]; intros y s' H E [P|P]; try (exists y; auto; fail); [destruct P|].
  set (y1 := {| y_st := fst (exec n o (y_st y)); y_thr := set_nth n (k (snd (exec n o (y_st y)))) (y_thr y) |}).
  assert (H1 : reached y1).
  { apply (steps_step cfg ok (init_sys u) y y1 (EStep n) H (conj Logic.I Logic.I)). simpl. rewrite E. reflexivity. }
  apply (IH (snd (exec n o (y_st y))) y1 s' H1); [|exact P]. simpl. apply set_nth_get. apply nth_error_Some. congruence.
Qed.

Lemma members_quiet n e batch ts : forall s,
  (forall w, passes n (process_bulk cfg e ts batch true true) s w -> exists y, reached y /\ y_st y = w) ->
  s_locks s = [] -> Forall unsplit ts ->
  let s' := fst (run n (process_bulk cfg e ts batch true true) s) in s_locks s' = []
    /\ exists H, s_txns s' = H ++ s_txns s
       /\ Forall (fun r => source r <> destination r /\ In (t_ref (r_t r)) (map t_ref ts)) H.
Proof.
  induction ts as [|t r IH]; intros s Pa L U.
  - split; [exact L|]. exists []. split; [reflexivity|constructor].
  - inversion U as [|? ? U1 U2]; subst. cbn [process_bulk] in Pa |- *. cbv zeta in Pa |- *.
    set (t0 := with_keys _ _ _ _) in Pa |- *.
    rewrite run_bind.
    destruct (Pa s (passes_here _ _ _)) as (y & Hy & Ey). destruct (reached_names y Hy) as [Ti Nn]. rewrite Ey in Ti, Nn.
    assert (Pb : forall w, passes n (match snd (run n (queue_transaction cfg e t0) s) with Ok _ => process_bulk cfg e r batch true true | Err er => Ret (Err er) end)
                   (fst (run n (queue_transaction cfg e t0) s)) w -> exists y, reached y /\ y_st y = w).
    { intros w Pw. apply Pa. apply passes_right. exact Pw. }
    destruct (run n (queue_transaction cfg e t0) s) as [s1 x] eqn:E1. cbn [fst snd] in Pb |- *.
    destruct (member_quiet n cfg e t0 s s1 x) as (L1 & H1 & R1 & F1); [exact U1|reflexivity|reflexivity|exact Ti|exact Nn|exact L|exact E1|].
    destruct x as [x|er].
    + destruct (IH s1 Pb L1 U2) as (L' & H2 & R2 & F2).
      split; [exact L'|].
      exists (H2 ++ H1). split; [rewrite R2, R1, app_assoc; reflexivity|]. apply Forall_app. split.
      * eapply Forall_impl; [|exact F2]. intros q [Q1 Q2]. split; [exact Q1|]. right. exact Q2.
      * eapply Forall_impl; [|exact F1]. intros q [Q1 Q2]. split; [exact Q1|]. left. symmetry. exact Q2.
    + split; [exact L1|].
      exists H1. split; [exact R1|]. eapply Forall_impl; [|exact F1]. intros q [Q1 Q2]. split; [exact Q1|]. left. symmetry. exact Q2.
Qed.

(** ** One void after the other *)
Lemma hold_alone y V Hd h H old batch : reached y -> s_txns (y_st y) = rev V ++ Hd ++ (h :: H) ++ old ->
  Forall (in_batch batch) (Hd ++ h :: H) -> Forall2 (fun v h => voids_of (t_id (r_t h)) v) V Hd ->
  forall r, In r (s_txns (y_st y)) -> t_parent (r_t r) = t_id (r_t h) -> t_status (r_t r) <> SApplied /\ t_status (r_t r) <> SVoid.
Proof.
  intros Hy Er HH HV r Ir Pr. destruct (reach_polite cfg u y Hu Hy) as (A & B & C). pose proof (i_ids _ _ A) as Nd.
  rewrite Forall_forall in HH.
  assert (Jh : In h (s_txns (y_st y))) by (rewrite Er; apply in_or_app; right; apply in_or_app; right; left; reflexivity).
  assert (Sh : t_status (r_t h) = SInflight) by (apply HH; apply in_or_app; right; left; reflexivity).
  pose proof (hold_only_commits _ _ _ _ A B h Jh Sh) as Oc.
  assert (Late : r_kind r = KCommit \/ r_kind r = KVoid -> ~ In r old).
  { intros K I. apply in_split in I as (l1 & l2 & ->).
    assert (E' : s_txns (y_st y) = (rev V ++ Hd ++ (h :: H) ++ l1) ++ r :: l2) by (rewrite Er, <- !app_assoc; reflexivity).
    rewrite E' in C. apply in_order_app in C. destruct C as [C _]. destruct (C K) as (g & Ig & Eg & _).
    rewrite Er, app_assoc, map_app in Nd. apply nodup_r in Nd. simpl in Nd. inversion Nd as [|? ? N1 _]; subst. apply N1.
    rewrite <- Pr, <- Eg. apply (in_map (fun r => t_id (r_t r))). apply in_or_app. right. apply in_or_app. right. right. exact Ig. }
  rewrite Er in Ir. apply in_app_iff in Ir as [Ir|Ir].
  - rewrite <- in_rev in Ir. exfalso.
    assert (exists h', In h' Hd /\ voids_of (t_id (r_t h')) r) as (h' & Ih' & [_ Ph']).
    { clear - HV Ir. induction HV as [|v x la lb Q _ IH]; [destruct Ir|]. destruct Ir as [->|Ir]; [exists x; split; [left; reflexivity|exact Q]|].
      destruct (IH Ir) as (h' & I & Q'). exists h'. split; [right; exact I|exact Q']. }
    rewrite Er, map_app in Nd. apply nodup_r in Nd. rewrite map_app in Nd. apply (nodup_disj _ _ (t_id (r_t h)) Nd).
    + rewrite <- Pr, Ph'. apply (in_map (fun r => t_id (r_t r))). exact Ih'.
    + left. reflexivity.
  - assert (Q : In r (Hd ++ h :: H) \/ In r old).
    { apply in_app_iff in Ir as [Ir|Ir]; [left; apply in_or_app; auto|]. apply in_app_iff in Ir as [Ir|Ir]; [left; apply in_or_app; auto|right; exact Ir]. }
    destruct Q as [Q|Q]; [destruct (HH r Q) as [Sr _]; rewrite Sr; split; discriminate|].
    assert (Jr : In r (s_txns (y_st y))) by (rewrite Er; apply in_or_app; right; exact Ir).
    pose proof (ProvThms.kind_of _ _ A r Jr) as K. split; intros S; rewrite S in K; apply (Late); try exact Q.
    + left. pose proof (Oc r Jr Pr). destruct (r_kind r); simpl in K; try congruence. destruct K as [K|[K|K]]; discriminate.
    + right. destruct (r_kind r); simpl in K; try congruence. destruct K as [K|[K|K]]; discriminate.
Qed.

Lemma voids_go n ov batch old : forall H Hd V s,
  let loop := for_each (fun l => action cfg true 0 (t_id l)) (map (fun x => db_view (meta_of ov (r_t x)) (r_t x)) H) in
  (forall s', passes n loop s s' -> exists y', reached y' /\ y_st y' = s') -> calm s ->
  s_txns s = rev V ++ Hd ++ H ++ old -> Forall (in_batch batch) (Hd ++ H) -> Forall2 (fun v h => voids_of (t_id (r_t h)) v) V Hd ->
  Forall (fun r => source r <> destination r) H ->
  Forall succeeded (snd (run n loop s)).
Proof.
  induction H as [|h H IH]; intros Hd V s loop Pa Ca Er HH HV HD; [constructor|].
  inversion HD as [|? ? D1 D2]; subst.
  destruct (Pa s (passes_here n loop s)) as (y & Hy & Ey). subst s. set (s := y_st y) in *.
  destruct (reach_polite cfg u y Hu Hy) as (A & B & C). pose proof (i_ids _ _ A) as Nd.
  assert (Jh : In h (s_txns s)) by (rewrite Er; apply in_or_app; right; apply in_or_app; right; left; reflexivity).
  assert (Sh : t_status (r_t h) = SInflight).
  { rewrite Forall_forall in HH. apply HH. apply in_or_app. right. left. reflexivity. }
  pose proof (hold_alone y V Hd h H old batch Hy Er HH HV) as Al.
  destruct (inflight_hold _ _ A h Jh Sh) as [Kh Pos].
  pose proof (row_get _ _ Nd Jh) as G.
  assert (Tc : total_committed (t_id (r_t h)) (s_txns s) = 0).
  { change (s_txns (y_st y)) with (s_txns s) in Al. revert Al. unfold total_committed. generalize (s_txns s). induction l as [|r l IHl]; intros N; [reflexivity|]. simpl.
    rewrite IHl by (intros x Hx; apply N; right; exact Hx). specialize (N r (or_introl eq_refl)).
    destruct (String.eqb_spec (t_parent (r_t r)) (t_id (r_t h))) as [E|E]; [|reflexivity]. destruct (N E) as [N1 N2].
    destruct (t_status (r_t r)); simpl; congruence. }
  assert (Pv : parent_void (t_id (r_t h)) (s_txns s) = false).
  { destruct (parent_void (t_id (r_t h)) (s_txns s)) eqn:V0; [exfalso|reflexivity]. unfold parent_void in V0. apply existsb_exists in V0 as (v & Iv & V0).
    apply andb_true_iff in V0 as [V1 V2]. apply String.eqb_eq in V1. destruct (Al v Iv V1) as [_ N]. destruct (t_status (r_t v)); simpl in V2; congruence. }
  destruct (reached_names y Hy) as [Ti _]. fold s in Ti.
  pose proof (i_ends _ _ A) as En. rewrite Forall_forall in En. destruct (En h Jh) as [E1 E2].
  assert (Hb : forall x, In x (map b_id (s_bals s)) -> (exists b, In b (s_bals s) /\ get_bal x (s_bals s) = Some b /\ b_id b = x) /\ exists q, x = ("bln" ++ "_" ++ q)%string).
  { intros x I. apply in_map_iff in I as (b & <- & Ib). split; [exists b; split; [exact Ib|]; split; [exact (tidy_get s b Ti Ib)|reflexivity]|]. exact (c_bals _ _ _ B b Ib). }
  destruct (Hb _ E1) as ((sb & Isb & Gs & Is) & q1 & Q1). destruct (Hb _ E2) as ((db & Idb & Gd & Id) & q2 & Q2). unfold source, destination in *.
  (* the money is there *)
  assert (HHd : Forall (in_batch batch) Hd) by (apply Forall_app in HH; apply HH).
  pose proof (undone cfg u y ((h :: H) ++ old) Hd V batch Hu Hy Er HHd HV) as Un. change (y_st y) with s in Un.
  assert (Lg : legal_journal (c_queued cfg) (H ++ old)).
  { pose proof (i_legal _ _ A) as Lg. fold s in Lg. rewrite Er, app_assoc in Lg. revert Lg. generalize (rev V ++ Hd). intros l. clear.
    assert (Sx : forall l r, legal_journal (c_queued cfg) (l ++ r) -> legal_journal (c_queued cfg) r).
    { clear. induction l as [|x l IH]; intros r Q; [exact Q|]. apply IH. simpl in Q. apply Q. }
    intros Q. apply Sx in Q. simpl in Q. apply Q. }
  destruct (i_shows _ _ A sb Isb) as ((_ & _ & _ & Ho & _) & _). destruct (i_shows _ _ A db Idb) as ((_ & _ & Hi & _) & _).
  change (y_st y) with s in Ho, Hi.
  assert (O1 : t_precise (r_t h) <= b_idb sb).
  { rewrite Ho. unfold held_out. rewrite Un by auto. destruct (held_left _ _ Lg (b_id sb)) as [P _]. unfold held_out, total in *. cbn [app sumz map fold_right].
    unfold held at 1. rewrite Kh. unfold source at 1. rewrite Is at 1. rewrite String.eqb_refl. unfold amount. simpl. unfold source in *. lia. }
  assert (O2 : t_precise (r_t h) <= b_icr db).
  { rewrite Hi. unfold held_in. rewrite Un by auto. destruct (held_left _ _ Lg (b_id db)) as [_ P]. unfold held_in, total in *. cbn [app sumz map fold_right].
    unfold held at 1. rewrite Kh. unfold destination at 1. rewrite Id at 1. rewrite String.eqb_refl. unfold amount. simpl. unfold destination in *. lia. }
  set (t := db_view_get (meta_of (s_meta s) (r_t h)) (r_t h)).
  assert (Ti' : is_inflight t = true) by (unfold is_inflight, t; cbn [db_view_get db_view t_status]; rewrite Sh; reflexivity).
  assert (Px : t_precise t = t_precise (r_t h)) by reflexivity.
  unfold amount in Pos.
  pose proof (leg_outcome n cfg true 0 (t_id (r_t h)) s (r_t h)
    (with_status (with_money t (t_precise t - 0) (q_of_ratio (t_precise t - 0) (t_prec t)) (t_prec t)) SVoid) sb db Ca G) as L. cbv zeta in L.
  assert (At : forall x, starts_with_at ("bln" ++ "_" ++ x) = false) by reflexivity.
  assert (Nl : forall x, ("bln" ++ "_" ++ x)%string <> lock_name (t_id (r_t h))) by (intros x Q; discriminate Q).
  specialize (L Ti' Pv ltac:(rewrite Q1; apply At) ltac:(rewrite Q2; apply At) ltac:(rewrite Q1; apply Nl) ltac:(rewrite Q2; apply Nl)).
  fold t in L. rewrite Tc in L. specialize (L ltac:(unfold settlement; rewrite Px; destruct (Z.eqb_spec (t_precise (r_t h) - 0) 0); [lia|reflexivity])).
  cbn [t_precise with_status with_money] in L. rewrite Px in L. specialize (L ltac:(lia) Gs Gd).
  apply String.eqb_neq in D1. rewrite D1 in L. unfold apply_to_balances in L. cbn [t_status t_precise with_status] in L.
  unfold rollback_inflight_debit, rollback_inflight_credit in L. cbn [t_precise with_money] in L.
  destruct (b_idb sb <? t_precise (r_t h) - 0) eqn:B1; [apply Z.ltb_lt in B1; lia|].
  destruct (b_icr db <? t_precise (r_t h) - 0) eqn:B2; [apply Z.ltb_lt in B2; lia|].
  destruct L as (s2 & r & y2 & R2 & X2 & P2 & _ & _ & _ & C2 & _ & _).
  destruct (void_alone n cfg (t_id (r_t h)) s s2 y2 R2) as (v & Xv & Vv).
  { split; [exact Tc|]. exists (r_t h). split; [exact G|lia]. }
  unfold loop. cbn [map for_each]. rewrite run_bind. cbn [t_id db_view]. rewrite R2. cbn [fst snd].
  rewrite run_bind. cbn [run snd fst]. constructor; [exists y2; reflexivity|].
  apply (IH (Hd ++ [h]) (V ++ [v]) s2).
  - intros s' Ps. apply Pa. unfold loop. cbn [map for_each]. apply passes_right. cbn [t_id db_view]. rewrite R2. cbn [fst snd].
    apply passes_left. exact Ps.
  - exact C2.
  - rewrite Xv, Er, rev_app_distr. cbn [rev app]. f_equal. rewrite <- !app_assoc. reflexivity.
  - rewrite <- app_assoc. exact HH.
  - apply Forall2_app; [exact HV|]. constructor; [exact Vv|constructor].
  - exact D2.
Qed.

Lemma exec_later n o s : later s (fst (exec n o s)).
Proof. destruct (exec_draws n o s) as (A & B & _). split; assumption. Qed.
Lemma run_later n {A} (p : prog A) : forall s, later s (fst (run n p s)).
Proof.
  induction p as [a|o k IH]; intros s; [split; [reflexivity|apply le_n]|]. simpl. pose proof (exec_later n o s) as [A1 A2].
  destruct (exec n o s) as [s1 x]. cbn [fst] in *. destruct (IH x s1) as [B1 B2]. split; [congruence|lia].
Qed.

Theorem bulk_rolled_back y e ts s' er report : reached y -> s_locks (y_st y) = [] -> new_refs (y_st y) ->
  Forall api_txn ts -> Forall unsplit ts ->
  (forall t i, In t ts -> (s_ctr (y_st y) <= i)%nat -> t_ref t <> ("ref_" ++ s_uuid (y_st y) i)%string) ->
  never_mentioned ("bulk_" ++ s_uuid (y_st y) (s_ctr (y_st y))) (y_st y) ->
  run (List.length (y_thr y)) (bulk_report cfg e ts true true true) (y_st y) = (s', (Err er, report)) ->
  Forall succeeded report.
Proof.
  intros Hy Hl Hr Ha Hs Hg Hn E. set (n := List.length (y_thr y)) in *. set (s := y_st y) in *.
  set (y1 := {| y_st := s; y_thr := y_thr y ++ [prog_of cfg (RBulk e ts true true true)] |}).
  assert (H1 : reached y1).
  { apply (steps_step cfg ok _ y y1 (EStart (RBulk e ts true true true)) Hy); [split; exact Logic.I|]. simpl. auto. }
  assert (E1 : nth_error (y_thr y1) n = Some (prog_of cfg (RBulk e ts true true true))).
  { simpl. unfold n. rewrite nth_error_app2 by lia. rewrite PeanoNat.Nat.sub_diag. reflexivity. }
  assert (Pa : forall w, passes n (prog_of cfg (RBulk e ts true true true)) s w -> exists y, reached y /\ y_st y = w).
  { intros w Pw. exact (passes_reach n _ y1 w H1 E1 Pw). }
  unfold bulk_report in E. rewrite run_bind, run_fresh in E. cbn [fst snd] in E.
  set (batch := ("bulk" ++ "_" ++ s_uuid s (s_ctr s))%string) in *.
  set (s0 := fst (exec n OFresh s)) in *. rewrite run_bind in E.
  set (k := fun r : res unit => match r with Ok _ => Ret (Ok batch) | Err er => rollback_batch cfg batch true ;;; Ret (Err er) end).
  assert (Pb : forall w, passes n (bind (process_bulk cfg e ts batch true true) k) s0 w -> exists y, reached y /\ y_st y = w).
  { intros w Pw. apply Pa. unfold prog_of, done, bulk. apply passes_left. apply passes_right. rewrite run_fresh. cbn [fst snd]. exact Pw. }
  assert (Lt0 : later s s0) by (apply exec_later).
  destruct (members_quiet n e batch ts s0) as (L3 & H & R3 & F3); [intros w Pw; apply Pb, passes_left, Pw|exact Hl|exact Hs|].
  change (s_txns s0) with (s_txns s) in R3.
  assert (Pc : forall w, passes n (k (snd (run n (process_bulk cfg e ts batch true true) s0))) (fst (run n (process_bulk cfg e ts batch true true) s0)) w -> exists y, reached y /\ y_st y = w).
  { intros w Pw. apply Pb. apply passes_right. exact Pw. }
  pose proof (run_later n (process_bulk cfg e ts batch true true) s0) as Lt1.
  destruct (run n (process_bulk cfg e ts batch true true) s0) as [s1 x] eqn:Ex. cbn [fst snd] in *.
  destruct (members_alone _ _ _ _ _ _ _ _ Hs Ex) as (M1 & H' & R1 & F1).
  assert (H' = H) as ->.
  { change (s_txns s0) with (s_txns s) in R1. rewrite R1 in R3. exact (app_inv_tail _ _ _ R3). }
  destruct x as [x|er']; [simpl in E; congruence|].
  rewrite run_bind in E. unfold rollback_batch, inflight_action in E. cbn [act bind run exec fst snd] in E.
  change (s_meta s0) with (s_meta s) in M1. change (s_txns s0) with (s_txns s) in R1.
  set (legs := inflight_by_parent (s_meta s1) batch (s_txns s1)) in *.
  assert (El : legs = map (fun x => db_view (meta_of (s_meta s) (r_t x)) (r_t x)) H).
  { unfold legs. rewrite R1, M1. apply found_holds; [exact F1|exact Hn]. }
  set (f := fun l => if negb (is_inflight l) then _ else _) in E.
  assert (Ef : for_each f legs = for_each (fun l => action cfg true 0 (t_id l)) legs).
  { apply for_each_same. intros l Il. unfold f. rewrite El in Il. apply in_map_iff in Il as (h & <- & Ih).
    rewrite Forall_forall in F1. destruct (F1 h Ih) as [Sh _]. unfold is_inflight. cbn [db_view t_status]. rewrite Sh. reflexivity. }
  assert (report = snd (run n (for_each f legs) s1)) as -> by (injection E; intros; congruence).
  rewrite Ef, El.
  destruct (Pc s1 (passes_here _ _ _)) as (y3 & H3 & E3).
  destruct (reached_names y3 H3) as [Ti Nn]. rewrite E3 in Ti, Nn.
  apply (voids_go n (s_meta s) batch (s_txns s) H [] [] s1).
  - intros w Pw. rewrite <- El, <- Ef in Pw. apply Pc. unfold k.
    apply passes_left. unfold rollback_batch, inflight_action. cbn [act bind passes]. right. cbn [exec fst snd]. exact Pw.
  - split; [exact L3|]. split; [exact Ti|]. split; [exact Nn|]. destruct Lt0 as [U0 C0]. destruct Lt1 as [U1 C1].
    intros i Hi. rewrite U1, U0, R3. unfold ref_exists. rewrite existsb_app.
    assert (Hi' : (s_ctr s <= i)%nat) by lia. pose proof (Hr i Hi') as Q. unfold ref_exists in Q. rewrite Q, orb_false_r.
    apply not_true_is_false. intros K. apply existsb_exists in K as (r & Ir & K). apply String.eqb_eq in K.
    rewrite Forall_forall in F3. destruct (F3 r Ir) as [_ I]. apply in_map_iff in I as (t & Et & It). apply (Hg t i It Hi'). congruence.
  - exact R3.
  - exact F1.
  - constructor.
  - eapply Forall_impl; [|exact F3]. intros r [Q _]. exact Q.
Qed.
End Rollback.
