(** Reached states: balance ids are random ids that have been drawn. *)
From Coq Require Import ZArith List String Bool Lia.
From Verif Require Import SplitLegs ProvInv ProvThms LedgerInv LedgerSafe BatchProof BatchOrd HoldSpec.
From Verif Require Import Base MoneyModel SplitModel BalanceModel LedgerModel LedgerProgs ConcModel BatchSpec PreviewSpec.
Import ListNotations.
Local Open Scope string_scope.
Open Scope Z_scope.

(** Balances are opened under ids made of [K] or of strings drawn on the way. *)
Fixpoint issuing {A} (K : string -> Prop) (p : prog A) : Prop :=
  match p with
  | Ret _ => True
  | Do o k =>
    match o as o0 return (resp o0 -> prog A) -> Prop with
    | OFresh => fun k => forall x, issuing (fun y => K y \/ y = x) (k x)
    | OCreateBal id _ _ _ _ => fun k => (exists x, K x /\ id = "bln_" ++ x) /\ forall r, issuing K (k r)
    | _ => fun k => forall r, issuing K (k r)
    end k
  end.
Lemma issuing_mono {A} (p : prog A) : forall K K' : string -> Prop, (forall x, K x -> K' x) -> issuing K p -> issuing K' p.
Proof.
  induction p as [a|o k IH]; intros K K' H; [auto|]. destruct o; simpl; intros Hp; try exact (fun r => IH r K K' H (Hp r)).
  - intros x. apply (IH x (fun y => K y \/ y = x)); [|apply Hp]. intros y [?|?]; auto.
  - destruct Hp as [(x & Kx & E) Hp]. split; [eauto|]. exact (fun r => IH r K K' H (Hp r)).
Qed.
Lemma issuing_bind {A B} K (p : prog A) (f : A -> prog B) : issuing K p -> (forall a, issuing K (f a)) -> issuing K (bind p f).
Proof.
  revert K. induction p as [a|o k IH]; intros K Hp Hf; [apply Hf|].
  destruct o; simpl in Hp |- *; try exact (fun r => IH r K (Hp r) Hf).
  - intros x. apply IH; [apply Hp|]. intros a. eapply issuing_mono; [|apply Hf]. cbv beta. auto.
  - destruct Hp as [E Hp]. split; [exact E|]. exact (fun r => IH r K (Hp r) Hf).
Qed.
Lemma issuing_bindr {A B} K (p : prog (res A)) (f : A -> prog (res B)) : issuing K p -> (forall a, issuing K (f a)) -> issuing K (bindr p f).
Proof. intros Hp Hf. apply issuing_bind; [exact Hp|]. intros [a|e]; [apply Hf|exact Logic.I]. Qed.
Definition opens (o : op) : bool := match o with OCreateBal _ _ _ _ _ => true | _ => false end.
Lemma issuing_act K o : opens o = false -> issuing K (act o).
Proof. destruct o; try discriminate; intros _ ?; exact Logic.I. Qed.
Lemma issuing_do {A} K o (k : resp o -> prog A) : opens o = false -> (forall r, issuing K (k r)) -> issuing K (Do o k).
Proof.
  destruct o; try discriminate; intros _ H; simpl; try exact H. intros x. eapply issuing_mono; [|apply H]. auto.
Qed.
Lemma issuing_quiet {A} K (p : prog A) : all_ops silent p -> issuing K p.
Proof.
  induction p as [a|o k IH]; intros Hp; [exact Logic.I|]. destruct Hp as [Ho Hk]. apply issuing_do; [destruct o; try reflexivity; destruct Ho|].
  intros r. apply IH, Hk.
Qed.

Create HintDb iss.
Ltac iss := repeat match goal with
  | |- forall _, _ => intro
  | |- issuing _ (Ret _) => exact Logic.I
  | |- issuing _ (bindr _ _) => apply issuing_bindr
  | |- issuing _ (bind _ _) => apply issuing_bind
  | |- issuing ?K (act ?o) => exact (issuing_act K o eq_refl)
  | |- issuing _ (Do _ _) => apply issuing_do; [reflexivity|]
  | |- issuing _ (match ?x with _ => _ end) => destruct x
  | |- issuing _ _ => solve [auto with iss]
  | |- _ => progress cbv zeta
  end.

Lemma iss_fresh K p : issuing K (fresh p). Proof. unfold fresh. iss. Qed.
#[local] Hint Resolve iss_fresh : iss.
Lemma iss_get_balance K cfg id : issuing K (get_balance cfg id). Proof. unfold get_balance. iss. Qed.
#[local] Hint Resolve iss_get_balance : iss.
Lemma iss_get_or_create K cfg i c : issuing K (get_or_create cfg i c).
Proof.
  unfold get_or_create. cbv zeta. apply issuing_bind; [iss|]. intros [b|]; [iss|].
  unfold fresh. cbn [bind act issuing]. intros u. split; [exists u; split; [auto|reflexivity]|]. iss.
Qed.
#[local] Hint Resolve iss_get_or_create : iss.
Lemma iss_resolve K cfg s c : issuing K (resolve_id cfg s c). Proof. unfold resolve_id. iss. Qed.
Lemma iss_get_end K cfg s c : issuing K (get_end cfg s c). Proof. unfold get_end. iss. Qed.
Lemma iss_unlock K ks : issuing K (unlock_keys ks). Proof. exact (issuing_quiet _ _ (silent_unlock ks)). Qed.
Lemma iss_wait K n ks : issuing K (wait_lock n ks). Proof. exact (issuing_quiet _ _ (silent_wait n ks)). Qed.
#[local] Hint Resolve iss_resolve iss_get_end iss_unlock iss_wait : iss.
Lemma iss_record_locked K cfg t : issuing K (record_locked cfg t). Proof. unfold record_locked. iss. Qed.
#[local] Hint Resolve iss_record_locked : iss.
Lemma iss_record K cfg t : issuing K (record_single cfg t). Proof. unfold record_single. iss. Qed.
#[local] Hint Resolve iss_record : iss.
Lemma iss_fetch K id : issuing K (fetch_inflight id). Proof. unfold fetch_inflight. iss. Qed.
Lemma iss_with_lock K k {A} (p : prog (res A)) : issuing K p -> issuing K (with_lock k p). Proof. intros H. unfold with_lock. iss. Qed.
Lemma iss_choose K r : issuing K (choose_ref r). Proof. unfold choose_ref. iss. Qed.
#[local] Hint Resolve iss_fetch iss_choose : iss.
Lemma iss_commit K cfg i a r : issuing K (commit cfg i a r). Proof. unfold commit. apply iss_with_lock. iss. Qed.
Lemma iss_void K cfg i r : issuing K (void cfg i r). Proof. unfold void. apply iss_with_lock. iss. Qed.
Lemma iss_ensure K t : issuing K (ensure_id t). Proof. unfold ensure_id. iss. Qed.
Lemma iss_copy K t r : issuing K (queue_copy t r). Proof. unfold queue_copy. iss. Qed.
#[local] Hint Resolve iss_commit iss_void iss_ensure iss_copy : iss.
Lemma iss_prepare K cfg t : issuing K (prepare_for_queue cfg t). Proof. unfold prepare_for_queue. iss. Qed.
#[local] Hint Resolve iss_prepare : iss.
Lemma iss_psingle K cfg t r : issuing K (process_single cfg t r). Proof. unfold process_single. iss. Qed.
#[local] Hint Resolve iss_psingle : iss.
Lemma iss_psplit K cfg l : issuing K (process_split cfg l). Proof. induction l; simpl process_split; iss. Qed.
#[local] Hint Resolve iss_psplit : iss.
Lemma iss_enqueue K l : issuing K (enqueue_all l). Proof. induction l; cbn [enqueue_all]; iss. Qed.
#[local] Hint Resolve iss_enqueue : iss.
Lemma iss_job K cfg j : issuing K (async_job cfg j). Proof. unfold async_job. iss. Qed.
#[local] Hint Resolve iss_job : iss.
Lemma iss_legs K t m : forall i, issuing K (make_legs t i m).
Proof. induction m as [|[who p] r IH]; intros i; cbn [make_legs]; iss. Qed.
#[local] Hint Resolve iss_legs : iss.
Lemma iss_split K e t : issuing K (split_txn e t). Proof. unfold split_txn. iss. Qed.
Lemma iss_qasync K t l r i : issuing K (queue_async t l r i). Proof. unfold queue_async. iss. Qed.
#[local] Hint Resolve iss_split iss_qasync : iss.
Lemma iss_qns K cfg t : issuing K (queue_nosplit cfg t). Proof. unfold queue_nosplit. iss. Qed.
Lemma iss_ro K i : issuing K (refund_original i). Proof. unfold refund_original. iss. Qed.
#[local] Hint Resolve iss_qns iss_ro : iss.
Lemma iss_refund K cfg i s u : issuing K (refund cfg i s u). Proof. unfold refund. apply iss_with_lock. iss. Qed.
#[local] Hint Resolve iss_refund : iss.
Lemma iss_for_each K {A B} (f : A -> prog B) l : (forall x, issuing K (f x)) -> issuing K (for_each f l).
Proof. intros H. induction l; cbn [for_each]; iss. Qed.
Lemma iss_action K cfg p v a i : issuing K (inflight_action cfg p v a i).
Proof. unfold inflight_action. apply issuing_bind; [iss|]. intros legs. apply iss_for_each. iss. Qed.
Lemma iss_refunds K cfg p s : issuing K (refund_batch cfg p s).
Proof. unfold refund_batch. apply issuing_bind; [iss|]. intros ts. apply iss_for_each. iss. Qed.
#[local] Hint Resolve iss_action iss_refunds : iss.
Lemma iss_rollback K cfg b i : issuing K (rollback_batch cfg b i). Proof. unfold rollback_batch. iss. Qed.
#[local] Hint Resolve iss_rollback : iss.
Lemma iss_rlegs K cfg l i : issuing K (record_legs cfg l i). Proof. induction l; cbn [record_legs]; iss. Qed.
#[local] Hint Resolve iss_rlegs : iss.
Lemma iss_qt K cfg e t : issuing K (queue_transaction cfg e t). Proof. unfold queue_transaction. iss. Qed.
#[local] Hint Resolve iss_qt : iss.
Lemma iss_pb K cfg e ts b i s : issuing K (process_bulk cfg e ts b i s). Proof. induction ts; cbn [process_bulk]; iss. Qed.
#[local] Hint Resolve iss_pb : iss.
Lemma iss_bulk K cfg e ts a i s : issuing K (bulk cfg e ts a i s). Proof. unfold bulk. iss. Qed.
Lemma iss_reject K cfg t : issuing K (reject cfg t). Proof. unfold reject. iss. Qed.
Lemma iss_copies K l : issuing K (copies l). Proof. induction l; cbn [copies]; iss. Qed.
#[local] Hint Resolve iss_bulk iss_reject iss_copies : iss.
Lemma iss_build K l scs sel : issuing K (build_batch l scs sel). Proof. induction scs; cbn [build_batch]; iss. Qed.
Lemma iss_members K cfg ts ex seen m : issuing K (prepare_members cfg ts ex seen m).
Proof. exact (issuing_quiet _ _ (silent_members cfg ts ex seen m)). Qed.
Lemma iss_load_each K cfg ids : issuing K (load_each cfg ids). Proof. induction ids; cbn [load_each]; iss. Qed.
#[local] Hint Resolve iss_build iss_members iss_load_each : iss.
Lemma iss_load K cfg ids : issuing K (load_balances cfg ids). Proof. unfold load_balances. iss. Qed.
#[local] Hint Resolve iss_load : iss.
Lemma iss_blocked K cfg ids ts : issuing K (batch_locked cfg ids ts). Proof. unfold batch_locked. iss. Qed.
#[local] Hint Resolve iss_blocked : iss.
Lemma iss_pqb K cfg ts : issuing K (persist_queued_batch cfg ts). Proof. unfold persist_queued_batch. iss. Qed.
#[local] Hint Resolve iss_pqb : iss.
Lemma iss_try K cfg f s t : issuing K (try_batch cfg f s t). Proof. unfold try_batch. iss. Qed.
#[local] Hint Resolve iss_try : iss.
Lemma iss_pq K cfg h s t : issuing K (process_queued cfg h s t). Proof. unfold process_queued. iss. Qed.
#[local] Hint Resolve iss_pq : iss.
Lemma iss_worker K cfg h s1 s2 r t : issuing K (worker cfg h s1 s2 r t). Proof. unfold worker. iss. Qed.
Lemma iss_recover K cfg h s e k i : issuing K (recover cfg h s e k i). Proof. unfold recover. iss. Qed.
#[local] Hint Resolve iss_worker iss_recover : iss.

Lemma iss_new i c r t K : issuing K (new_balance i c r t).
Proof. unfold new_balance, fresh. cbn [bind act issuing]. intros x. split; [exists x; split; [auto|reflexivity]|]. iss. Qed.
#[local] Hint Resolve iss_new : iss.
Lemma iss_request cfg r K : issuing K (prog_of cfg r).
Proof. destruct r; unfold prog_of, done; iss. Qed.

(** The random strings drawn so far. *)
Definition drawn_so_far (s : state) (x : string) : Prop := exists i, (i < s_ctr s)%nat /\ x = s_uuid s i.
Definition ids_drawn (s : state) : Prop := forall x, In x (map b_id (s_bals s)) -> exists y, drawn_so_far s y /\ x = "bln_" ++ y.

Lemma exec_draws n o s : s_uuid (fst (exec n o s)) = s_uuid s /\ (s_ctr s <= s_ctr (fst (exec n o s)))%nat
  /\ (forall x, drawn_so_far s x -> drawn_so_far (fst (exec n o s)) x).
Proof.
  destruct (exec_shape nat_str nat_str_inj n o s) as (_ & _ & _ & _ & _ & _ & _ & _ & _ & Eu & Eo & _). rewrite Eu.
  assert (L : (s_ctr s <= s_ctr (fst (exec n o s)))%nat) by (destruct Eo as [[_ ->]|[_ ->]]; lia).
  split; [reflexivity|]. split; [exact L|]. intros x (i & Hi & ->). exists i. rewrite Eu. split; [lia|reflexivity].
Qed.
Lemma exec_ids n o s : ids_drawn s -> (forall id a b c d, o = OCreateBal id a b c d -> exists y, drawn_so_far s y /\ id = "bln_" ++ y) ->
  ids_drawn (fst (exec n o s)).
Proof.
  intros H Ho x Hx. destruct (exec_draws n o s) as (_ & _ & G).
  destruct (exec_shape nat_str nat_str_inj n o s) as (_ & _ & _ & _ & _ & _ & _ & _ & _ & _ & _ & _ & Eb & _).
  destruct (Eb x Hx) as [Hx'|E].
  - destruct (H x Hx') as (y & Hy & ->). eauto.
  - destruct o; try contradiction. subst x. destruct (Ho _ _ _ _ _ eq_refl) as (y & Hy & ->). eauto.
Qed.
Lemma issuing_step n s o (k : resp o -> prog unit) : issuing (drawn_so_far s) (Do o k) ->
  (forall id a b c d, o = OCreateBal id a b c d -> exists y, drawn_so_far s y /\ id = "bln_" ++ y)
  /\ issuing (drawn_so_far (fst (exec n o s))) (k (snd (exec n o s))).
Proof.
  intros H. destruct (exec_draws n o s) as (_ & _ & G). split.
  - intros id a b c d ->. apply H.
  - destruct o; simpl in H; try (eapply issuing_mono; [exact G|apply H]; fail).
    eapply issuing_mono; [|apply H]. intros y [Hy| ->]; [exact (G y Hy)|]. exists (s_ctr s). simpl. split; [lia|reflexivity].
Qed.

Lemma ids_step cfg y e y' : Forall (issuing (drawn_so_far (y_st y))) (y_thr y) -> ids_drawn (y_st y) -> step cfg y e y' ->
  Forall (issuing (drawn_so_far (y_st y'))) (y_thr y') /\ ids_drawn (y_st y') /\ s_uuid (y_st y') = s_uuid (y_st y).
Proof.
  intros F D S. destruct e as [r|n|n|k].
  - assert (Fr : Forall (issuing (drawn_so_far (y_st y))) (y_thr y ++ [prog_of cfg r])%list).
    { apply Forall_app. split; [exact F|]. constructor; [apply iss_request|constructor]. }
    destruct r; cbn [step] in S; try (destruct S as [_ ->]; auto; fail).
    destruct S as (l1 & l2 & _ & ->). auto.
  - cbn [step] in S. destruct (nth_error (y_thr y) n) as [[u|o k]|] eqn:En; try contradiction. subst y'. cbn [y_st y_thr].
    assert (Hp : issuing (drawn_so_far (y_st y)) (Do o k)). { rewrite Forall_forall in F. apply F. eapply nth_error_In; eauto. }
    destruct (issuing_step n _ _ _ Hp) as [Ho Hk]. destruct (exec_draws n o (y_st y)) as (Eu & _ & G).
    split; [|split; [apply exec_ids; assumption|exact Eu]]. apply Forall_set_nth; [exact Hk|].
    eapply Forall_impl; [|exact F]. intros p. apply issuing_mono, G.
  - cbn [step] in S. subst y'. simpl. split; [apply Forall_set_nth; [exact Logic.I|exact F]|auto].
  - cbn [step] in S. subst y'. simpl. auto.
Qed.
Lemma ids_steps cfg ok u y : steps cfg ok (init_sys u) y ->
  Forall (issuing (drawn_so_far (y_st y))) (y_thr y) /\ ids_drawn (y_st y) /\ s_uuid (y_st y) = u.
Proof.
  remember (init_sys u) as y0 eqn:E0. intros H. induction H as [y|y1 y2 y3 e H IH P S].
  - subst y. split; [constructor|]. split; [intros x []|reflexivity].
  - destruct (IH E0) as (F & D & E). destruct (ids_step _ _ _ _ F D S) as (F' & D' & E'). split; [exact F'|]. split; [exact D'|congruence].
Qed.

(** Nothing has been opened or recorded yet under an identifier still to come. *)
Theorem reach_new_names cfg u y : distinct_uuids u -> steps cfg no_recon_flag (init_sys u) y -> tidy (y_st y) /\ new_names (y_st y).
Proof.
  intros Hu H. destruct (reach_plain cfg u y Hu H) as [A B]. destruct (ids_steps _ _ _ _ H) as (_ & D & E). split.
  - split; [exact (i_nodup _ _ A)|]. apply Forall_forall. intros b Hb. destruct (i_shows _ _ A b Hb) as (_ & H1 & H2).
    split; [exact H1|]. split; [exact H2|]. destruct (c_bals _ _ _ B b Hb) as (x & ->). reflexivity.
  - split; [rewrite E; exact Hu|]. intros i Hi. split; intros I.
    + destruct (D _ I) as (z & (j & Hj & ->) & Ez). inversion Ez as [Ez']. rewrite E in Ez'. apply Hu in Ez'. lia.
    + apply in_map_iff in I as (r & Er & Ir). destruct (c_pub _ _ _ B (t_id (r_t r))) as (j & Hj & Ej).
      { apply in_or_app. left. apply in_map_iff. eauto. }
      rewrite Ej in Er. unfold tid in Er. inversion Er as [Er']. rewrite E in Er'. apply Hu in Er'. lia.
Qed.

(** ** An indicator together with a currency means one balance *)
Definition bkey (b : balance) : string * string * string := (b_id b, b_ind b, b_cur b).
Lemma update_keys rows w l l' : update_balance rows w l = Some l' -> map bkey l' = map bkey l.
Proof.
  revert l'. induction l as [|b r IH]; intros l'; cbn [update_balance]; [discriminate|].
  destruct (String.eqb (b_id b) (b_id w)).
  - destruct (b_ver b =? b_ver w); [|discriminate]. intros H. assert (l' = recon_trigger rows (upd_row b w) :: r) as -> by congruence.
    cbn [map]. f_equal. unfold recon_trigger, upd_row, bkey. destruct (b_recon _); reflexivity.
  - destruct (update_balance rows w r) as [r'|]; [|discriminate]. intros H. assert (l' = b :: r') as -> by congruence. cbn [map]. f_equal. auto.
Qed.
Lemma update_set_keys rows ws : forall l l', update_balance_set rows ws l = Some l' -> map bkey l' = map bkey l.
Proof.
  induction ws as [|w r IH]; intros l l'; cbn [update_balance_set]; [congruence|].
  destruct (update_balance rows w l) as [l1|] eqn:E; [|discriminate]. intros H. rewrite (IH _ _ H). eapply update_keys; eauto.
Qed.
Lemma reconcile_keys id rows l : map bkey (reconcile_balance id rows l) = map bkey l.
Proof.
  induction l as [|b r IH]; [reflexivity|]. cbn [reconcile_balance]. destruct (String.eqb (b_id b) id); cbn [map]; [|rewrite IH; reflexivity]; f_equal; unfold recon_trigger, bkey; reflexivity.
Qed.
Lemma exec_keys n o s : map bkey (s_bals (fst (exec n o s))) = map bkey (s_bals s)
  \/ exists b, s_bals (fst (exec n o s)) = b :: s_bals s /\ (b_ind b = "" \/ get_bal_ind (b_ind b) (b_cur b) (s_bals s) = None).
Proof.
  destruct o; cbn [exec]; try (left; reflexivity).
  - unfold create_balance. destruct (get_bal _ _); [left; reflexivity|].
    set (b := fresh_balance id ind cur recon track).
    destruct (String.eqb_spec (b_ind b) "") as [E|E]; cbn [negb andb]; [right; exists b; auto|].
    destruct (get_bal_ind (b_ind b) (b_cur b) (s_bals s)) eqn:G; [left; reflexivity|right; exists b; auto].
  - destruct (lock_owner _ _); left; reflexivity.
  - destruct (lock_owner _ _); [destruct (Nat.eqb _ _)|]; left; reflexivity.
  - destruct (insert_txn _ _ _ _); left; reflexivity.
  - left. unfold persist_single. destruct (update_balance _ src _) as [b1|] eqn:E1; [|reflexivity].
    destruct (update_balance _ dst b1) as [b2|] eqn:E2; [|reflexivity]. destruct (insert_txn _ _ _ _); [|reflexivity].
    cbn [fst s_bals set_db]. rewrite (update_keys _ _ _ _ E2). eapply update_keys; eauto.
  - left. unfold persist_batch. destruct (update_balance_set _ _ _) as [b1|] eqn:E1; [|reflexivity].
    destruct (insert_txns _ _ _); [|reflexivity]. cbn [fst s_bals set_db]. eapply update_set_keys; eauto.
  - left. cbn [fst s_bals set_bals]. apply reconcile_keys.
Qed.
Definition clear_names (s : state) : Prop :=
  forall i j a c, In (i, a, c) (map bkey (s_bals s)) -> In (j, a, c) (map bkey (s_bals s)) -> a <> "" -> i = j.
Lemma ind_free ind cur l : get_bal_ind ind cur l = None -> forall i, ~ In (i, ind, cur) (map bkey l).
Proof.
  induction l as [|b r IH]; cbn [get_bal_ind map]; [intros _ i []|]. destruct (String.eqb_spec (b_ind b) ind); destruct (String.eqb_spec (b_cur b) cur); cbn [andb];
    try discriminate; intros H i [E|I]; try (unfold bkey in E; congruence); exact (IH H i I).
Qed.
Lemma exec_clear n o s : clear_names s -> clear_names (fst (exec n o s)).
Proof.
  intros H. destruct (exec_keys n o s) as [E|(b & E & F)]; unfold clear_names; rewrite E; [exact H|].
  cbn [map]. intros i j a c [I|I] [J|J] Na; try congruence.
  - exfalso. unfold bkey in I. injection I as <- <- <-. destruct F as [F|F]; [congruence|]. exact (ind_free _ _ _ F j J).
  - exfalso. unfold bkey in J. injection J as <- <- <-. destruct F as [F|F]; [congruence|]. exact (ind_free _ _ _ F i I).
  - eapply H; eauto.
Qed.
Lemma clear_steps cfg ok u y : steps cfg ok (init_sys u) y -> clear_names (y_st y).
Proof.
  remember (init_sys u) as y0 eqn:E0. intros H. induction H as [y|y1 y2 y3 e H IH P S].
  - subst y. intros i j a c [].
  - specialize (IH E0). destruct e as [r|n|n|k].
    + destruct r; cbn [step] in S; try (destruct S as [_ ->]; exact IH). destruct S as (l1 & l2 & _ & ->). exact IH.
    + cbn [step] in S. destruct (nth_error (y_thr y2) n) as [[x|o k]|]; try contradiction. subst y3. apply exec_clear, IH.
    + cbn [step] in S. subst y3. exact IH.
    + cbn [step] in S. subst y3. exact IH.
Qed.

(** What a request names is one balance. *)
Theorem one_meaning cfg u y x cur b b' : distinct_uuids u -> steps cfg no_recon_flag (init_sys u) y ->
  named (y_st y) x cur b -> named (y_st y) x cur b' -> b = b'.
Proof.
  intros Hu H [I N] [I' N']. destruct (reach_plain cfg u y Hu H) as [A _]. pose proof (i_nodup _ _ A) as Nd.
  assert (E : b_id b = b_id b').
  { destruct (starts_with_at x) eqn:S; [|congruence]. destruct N as [N1 N2]. destruct N' as [N1' N2'].
    apply (clear_steps _ _ _ _ H (b_id b) (b_id b') x cur); [| |intros ->; discriminate].
    - apply in_map_iff. exists b. unfold bkey. rewrite N1, N2. auto.
    - apply in_map_iff. exists b'. unfold bkey. rewrite N1', N2'. auto. }
  clear -Nd I I' E. induction (s_bals (y_st y)) as [|c r IH]; [destruct I|]. cbn [map] in Nd. inversion Nd as [|? ? N1 N2]; subst.
  destruct I as [->|I]; destruct I' as [->|I']; auto.
  - exfalso. apply N1. rewrite E. apply in_map. exact I'.
  - exfalso. apply N1. rewrite <- E. apply in_map. exact I.
Qed.

Theorem ids_not_empty cfg ok u y : steps cfg ok (init_sys u) y -> forall b, In b (s_bals (y_st y)) -> b_id b <> "".
Proof.
  intros H b I E. destruct (ids_steps _ _ _ _ H) as (_ & D & _). destruct (D (b_id b)) as (z & _ & Q); [apply in_map; exact I|]. rewrite E in Q. discriminate.
Qed.
