(** What a commit or a void does when nobody else is around. *)
From Coq Require Import ZArith QArith List String Bool Lia.
From Verif Require Import LedgerInv LedgerSafe BatchProof BulkProof PreviewAlone.
From Verif Require Import Base MoneyModel SplitModel BalanceModel LedgerModel LedgerProgs BatchSpec PreviewModel PreviewSpec.
Import ListNotations.
Local Open Scope string_scope.
Open Scope Z_scope.

(** ** With one lock held already *)
Section Held.
Variable n : nat.
Lemma unlock_keeps k0 ks s : s_locks s = [(k0, n)] -> ~ In k0 ks -> run n (unlock_keys ks) s = (s, tt).
Proof.
  intros L. induction ks as [|k r IH]; intros N; [reflexivity|]. cbn [unlock_keys bind act run exec]. rewrite L. cbn [lock_owner].
  destruct (String.eqb_spec k k0) as [E|E]; [exfalso; apply N; left; congruence|]. cbn [bind run]. apply IH. intros I. apply N. right. exact I.
Qed.
Lemma del_app k l r : ~ In k (map fst r) -> del_lock k (l ++ r) = (del_lock k l ++ r)%list.
Proof.
  intros N. induction l as [|[k' o] l IH]; [|simpl; destruct (String.eqb k k'); [exact IH|rewrite IH; reflexivity]].
  simpl. apply owner_none. apply owner_absent. exact N.
Qed.
Lemma owner_app k l r : ~ In k (map fst r) -> lock_owner k (l ++ r) = lock_owner k l.
Proof.
  intros N. induction l as [|[k' o] l IH]; [apply owner_absent; exact N|]. simpl. destruct (String.eqb k k'); [reflexivity|exact IH].
Qed.
Lemma unlock_all k0 ks : forall l s, Forall (fun x : string * nat => snd x = n /\ In (fst x) ks) l -> ~ In k0 ks ->
  s_locks s = (l ++ [(k0, n)])%list -> run n (unlock_keys ks) s = (set_locks s [(k0, n)], tt).
Proof.
  induction ks as [|k r IH]; intros l s F N L.
  - destruct l as [|x q]; [|exfalso; inversion F as [|? ? [_ []] ?]]. simpl in L. rewrite <- L, set_locks_same. reflexivity.
  - assert (Nk : ~ In k (map fst [(k0, n)])) by (intros [E|[]]; apply N; left; symmetry; exact E).
    assert (E : exists l1, fst (exec n (OUnlock k) s) = set_locks s (l1 ++ [(k0, n)])%list /\ Forall (fun x : string * nat => snd x = n /\ In (fst x) r) l1).
    { simpl. rewrite L, owner_app by exact Nk. destruct (lock_owner k l) as [o|] eqn:E.
      - assert (o = n) as ->. { eapply owner_n; [|exact E]. eapply Forall_impl; [|exact F]. simpl. tauto. }
        rewrite Nat.eqb_refl. simpl. rewrite del_app by exact Nk. eexists. split; [reflexivity|].
        apply Forall_forall. intros x Hx. apply del_in in Hx as [Hx Ne]. rewrite Forall_forall in F. destruct (F x Hx) as [Fx [Ex|Ex]]; [congruence|auto].
      - exists l. split; [rewrite <- L, set_locks_same; reflexivity|]. apply Forall_forall. intros x Hx.
        rewrite Forall_forall in F. destruct (F x Hx) as [Fx [Ex|Ex]]; [|auto]. exfalso.
        rewrite <- (owner_none _ _ E) in Hx. apply del_in in Hx. destruct Hx as [_ Hx]. congruence. }
    destruct E as (l1 & E & F1).
    assert (Er : run n (unlock_keys (k :: r)) s = run n (unlock_keys r) (fst (exec n (OUnlock k) s))).
    { cbn [unlock_keys bind act run]. destruct (exec n (OUnlock k) s). reflexivity. }
    rewrite Er, E. rewrite (IH l1); [reflexivity|exact F1|intros I; apply N; right; exact I|reflexivity].
Qed.
Lemma bracket_held k0 k ks s : NoDup ks -> s_locks s = [(k0, n)] -> ~ In k0 ks ->
  exists l, run n (wait_lock k ks) s = (set_locks s l, true)
   /\ forall s', s_locks s' = l -> run n (unlock_keys (rev ks)) s' = (set_locks s' [(k0, n)], tt).
Proof.
  intros N L D. destruct (lock_n n ks [] s N) as (l & E & F).
  { rewrite L. intros k' I [Q|[]]. simpl in Q. subst. contradiction. }
  exists (l ++ s_locks s)%list. split; [destruct k; cbn [wait_lock]; rewrite run_bind, E; reflexivity|].
  intros s' L'. apply (unlock_all k0 (rev ks) l).
  - eapply Forall_impl; [|exact F]. simpl. intros x [H1 H2]. split; [exact H1|]. rewrite <- in_rev. exact H2.
  - rewrite <- in_rev. exact D.
  - rewrite L', L. reflexivity.
Qed.
Lemma single_held cfg k0 t s : s_locks s = [(k0, n)] -> starts_with_at (t_src t) = false -> starts_with_at (t_dst t) = false ->
  t_src t <> k0 -> t_dst t <> k0 -> run n (record_single cfg t) s = core cfg t s.
Proof.
  intros L A B D1 D2. unfold record_single, bindr, resolve_id. rewrite A, B. cbn [bind].
  assert (Ei : with_ends t (t_src t) (t_dst t) = t) by (destruct t; reflexivity). rewrite Ei. cbv zeta. set (ks := lock_set _).
  destruct (bracket_held k0 (c_lock_attempts cfg) ks s) as (l & W & U); [apply lock_set_nodup|exact L| |].
  { unfold ks. rewrite lock_set_in. intros [[H|[H|[]]] _]; congruence. }
  rewrite run_bind, W. cbn [fst snd]. rewrite run_bind, locked_run, core_locks by assumption. cbn [fst snd].
  rewrite run_bind, U by reflexivity. cbn [fst snd run].
  assert (E : set_locks (set_locks (fst (core cfg t s)) l) [(k0, n)] = fst (core cfg t s)).
  { rewrite <- (set_locks_same (fst (core cfg t s))) at 2. rewrite core_keeps, L. reflexivity. }
  rewrite E. destruct (core cfg t s); reflexivity.
Qed.
End Held.

(** ** The commit or void of one hold *)
Definition action (cfg : config) (is_void : bool) (amount : Z) (id : string) : prog (res txn) :=
  if is_void then void cfg id "" else commit cfg id amount "".
Definition lock_name (id : string) : string := "inflight-commit:" ++ id.
Definition drawn (n : nat) (s : state) : state := fst (exec n OFresh (fst (exec n OFresh s))).
Definition inside (n : nat) (id : string) (s : state) : state := drawn n (set_locks s [(lock_name id, n)]).

Definition pay (t : txn) : Z := match t_status t with SVoid => t_precise t | _ => t_precise (apply_precision_txn t) end.
Lemma act_alike t t' s d s2 d2 : t_status t = SCommit \/ t_status t = SVoid -> t_status t' = t_status t -> pay t' = pay t ->
  alike s s2 -> alike d d2 ->
  match apply_to_balances t s d, apply_to_balances t' s2 d2 with
  | Ok (t1, a, b), Ok (t1', a2, b2) => alike a a2 /\ alike b b2 /\ t_precise t1 = pay t /\ t_precise t1' = pay t
  | Err e, Err e' => e = e'
  | _, _ => False
  end.
Proof.
  intros H E P (A1 & A2 & A3 & A4 & A5 & A6) (B1 & B2 & B3 & B4 & B5 & B6). unfold pay in *. unfold apply_to_balances. rewrite E in *.
  destruct H as [H|H]; rewrite H in *.
  - unfold commit_inflight_debit, commit_inflight_credit. cbv zeta. rewrite P, A6, B5. destruct (_ <? _); [reflexivity|]. destruct (_ <? _); [reflexivity|].
    unfold compute_balance, alike. simpl. rewrite ?A1, ?A2, ?A3, ?A4, ?A5, ?A6, ?B1, ?B2, ?B3, ?B4, ?B5, ?B6. repeat split; auto.
  - unfold rollback_inflight_debit, rollback_inflight_credit. rewrite P, A6, B5. destruct (_ <? _); [reflexivity|]. destruct (_ <? _); [reflexivity|].
    unfold compute_balance, alike. simpl. rewrite ?A1, ?A2, ?A3, ?A4, ?A5, ?A6, ?B1, ?B2, ?B3, ?B4, ?B5, ?B6. repeat split; auto.
Qed.

Lemma locked_prog n k {A} (p : prog (res A)) s : s_locks s = [] ->
  (forall r s2, run n p (set_locks s [(k, n)]) = (s2, r) -> s_locks s2 = [(k, n)]) ->
  run n (with_lock k p) s = (set_locks (fst (run n p (set_locks s [(k, n)]))) [], snd (run n p (set_locks s [(k, n)]))).
Proof.
  intros L H. unfold with_lock. cbn [bind act run exec]. rewrite L. cbn [lock_owner]. rewrite run_bind.
  destruct (run n p (set_locks s [(k, n)])) as [s2 r] eqn:E. cbn [fst snd]. specialize (H r s2 eq_refl).
  cbn [bind run exec]. rewrite H. cbn [lock_owner]. rewrite String.eqb_refl, Nat.eqb_refl. cbn [bind run].
  simpl. rewrite String.eqb_refl. reflexivity.
Qed.
Lemma core_lock cfg t s : s_locks (fst (core cfg t s)) = s_locks s.
Proof. apply core_keeps. Qed.

Definition made (is_void : bool) (t : txn) (p : Z) (a : Q) (id nid nref : string) : txn :=
  if is_void then apply_precision_txn (with_status (with_flags (with_keys (with_money t p (t_amount t) (t_prec t)) nid id nref)
                        false (t_allow t) (t_skipq t) (t_atomic t) (t_meta t)) SVoid)
  else with_status (with_flags (with_keys (with_money t p a (t_prec t)) nid id nref)
                                        false (t_allow t) (t_skipq t) (t_atomic t) (t_meta t)) SCommit.

Lemma leg_run n cfg is_void amount id s t0 : s_locks s = [] -> get_row id (s_txns s) = Some t0 ->
  let t := db_view_get (meta_of (s_meta s) t0) t0 in
  is_inflight t = true -> parent_void id (s_txns s) = false ->
  starts_with_at (t_src t0) = false -> starts_with_at (t_dst t0) = false ->
  t_src t0 <> lock_name id -> t_dst t0 <> lock_name id ->
  match settlement t is_void amount (total_committed id (s_txns s)) with
  | Err e => run n (action cfg is_void amount id) s = (s, Err e)
  | Ok x => run n (action cfg is_void amount id) s =
      let R := core cfg (made is_void t (t_precise x) (t_amount x) id ("txn_" ++ s_uuid s (s_ctr s)) ("ref_" ++ s_uuid s (S (s_ctr s)))) (inside n id s) in
      (set_locks (fst R) [], snd R)
  end.
Proof.
  intros L G t Hi Hv A B D1 D2.
  assert (Eid : t_id t = id) by (unfold t; simpl; eapply get_row_id; eauto).
  assert (Es : set_locks s [] = s) by (rewrite <- L; apply set_locks_same).
  assert (F : forall s0, s_txns s0 = s_txns s -> s_meta s0 = s_meta s -> run n (fetch_inflight id) s0 = (s0, Ok t)).
  { intros s0 E1 E2. unfold fetch_inflight. cbn [bind act run exec]. rewrite E1, E2, G. fold t. rewrite Hi. cbn [negb bind run exec]. rewrite E1, Hv. reflexivity. }
  assert (Hm : forall v p a nid nref, t_src (made v t p a id nid nref) = t_src t0 /\ t_dst (made v t p a id nid nref) = t_dst t0).
  { intros v p a nid nref. unfold made. destruct v; [|split; reflexivity].
    match goal with |- context[apply_precision_txn ?x] => destruct (precision_keys x) as (_ & _ & _ & _ & -> & -> & _) end. split; reflexivity. }
  destruct is_void; unfold settlement, action.
  - set (left := t_precise t - total_committed id (s_txns s)).
    assert (R : run n (void cfg id "") s = (if left =? 0 then (s, Err EAlreadyCommitted)
       else let R := core cfg (made true t left (q_of_ratio left (t_prec t)) id ("txn_" ++ s_uuid s (s_ctr s)) ("ref_" ++ s_uuid s (S (s_ctr s)))) (inside n id s) in
            (set_locks (fst R) [], snd R))).
    { unfold void. set (p := bindr _ _).
      assert (Ep : run n p (set_locks s [(lock_name id, n)]) = if left =? 0 then (set_locks s [(lock_name id, n)], Err EAlreadyCommitted)
        else core cfg (made true t left (q_of_ratio left (t_prec t)) id ("txn_" ++ s_uuid s (s_ctr s)) ("ref_" ++ s_uuid s (S (s_ctr s)))) (inside n id s)).
      { unfold p, bindr. rewrite run_bind, F by reflexivity. cbn [fst snd]. cbn [bind act run exec]. rewrite Eid.
        change (s_txns (set_locks s [(lock_name id, n)])) with (s_txns s). fold left. cbv zeta. destruct (left =? 0); [reflexivity|].
        unfold fresh, choose_ref. cbn [String.eqb bind act run exec]. unfold fresh. cbn [bind act run exec].
        refine (eq_trans (single_held n cfg (lock_name id) _ _ _ _ _ _ _) _); [reflexivity|..|reflexivity].
        - exact (eq_trans (f_equal starts_with_at (proj1 (Hm true left 0%Q _ _))) A).
        - exact (eq_trans (f_equal starts_with_at (proj2 (Hm true left 0%Q _ _))) B).
        - intros Q. apply D1. rewrite <- Q. symmetry. exact (proj1 (Hm true left 0%Q _ _)).
        - intros Q. apply D2. rewrite <- Q. symmetry. exact (proj2 (Hm true left 0%Q _ _)). }
      unfold lock_name in Ep. fold (lock_name id) in *. change ("inflight-commit:" ++ id) with (lock_name id). rewrite locked_prog.
      - rewrite Ep. destruct (left =? 0); [cbn [fst snd]|reflexivity]. f_equal. transitivity (set_locks s []); [reflexivity|exact Es].
      - exact L.
      - intros r s2. rewrite Ep. destruct (left =? 0); [intros [= <- <-]; reflexivity|]. intros Q.
        apply (f_equal (fun z => s_locks (fst z))) in Q. cbn [fst] in Q. rewrite core_keeps in Q. rewrite <- Q. reflexivity. }
    cbv zeta. cbv zeta in R. destruct (left =? 0); exact R.
  - set (left := t_precise t - total_committed id (s_txns s)). cbv zeta.
    assert (R : run n (commit cfg id amount "") s = (match commit_amount t amount left with Err e => (s, Err e)
       | Ok (p, a) => let R := core cfg (made false t p a id ("txn_" ++ s_uuid s (s_ctr s)) ("ref_" ++ s_uuid s (S (s_ctr s)))) (inside n id s) in
            (set_locks (fst R) [], snd R) end)).
    { unfold commit. set (p := bindr _ _).
      assert (Ep : run n p (set_locks s [(lock_name id, n)]) = match commit_amount t amount left with Err e => (set_locks s [(lock_name id, n)], Err e)
        | Ok (p, a) => core cfg (made false t p a id ("txn_" ++ s_uuid s (s_ctr s)) ("ref_" ++ s_uuid s (S (s_ctr s)))) (inside n id s) end).
      { unfold p, bindr. rewrite run_bind, F by reflexivity. cbn [fst snd]. cbn [bind act run exec]. rewrite Eid.
        change (s_txns (set_locks s [(lock_name id, n)])) with (s_txns s). fold left. destruct (commit_amount t amount left) as [[q a]|e]; [|reflexivity].
        unfold fresh, choose_ref. cbn [String.eqb bind act run exec]. unfold fresh. cbn [bind act run exec].
        refine (eq_trans (single_held n cfg (lock_name id) _ _ _ _ _ _ _) _); [reflexivity|..|reflexivity].
        - exact A.
        - exact B.
        - exact D1.
        - exact D2. }
      change ("inflight-commit:" ++ id) with (lock_name id). rewrite locked_prog.
      - rewrite Ep. destruct (commit_amount t amount left) as [[q a]|e]; [reflexivity|cbn [fst snd]]. f_equal. transitivity (set_locks s []); [reflexivity|exact Es].
      - exact L.
      - intros r s2. rewrite Ep. destruct (commit_amount t amount left) as [[q a]|e]; [|intros [= <- <-]; reflexivity]. intros Q.
        apply (f_equal (fun z => s_locks (fst z))) in Q. cbn [fst] in Q. rewrite core_keeps in Q. rewrite <- Q. reflexivity. }
    destruct (commit_amount t amount left) as [[p a]|e]; exact R.
Qed.

Lemma core_meta cfg t s : s_meta (fst (core cfg t s)) = s_meta s.
Proof.
  unfold core. destruct (ref_exists _ _); [reflexivity|].
  destruct (get_bal (t_src t) (s_bals s)) as [sb|]; [|reflexivity]. destruct (get_bal (t_dst t) (s_bals s)) as [db|]; [|reflexivity].
  destruct (apply_to_balances t (qb cfg s sb) (qb cfg s db)) as [[[t1 s'] d']|e]; [|reflexivity]. cbv zeta.
  destruct (_ =? 0); [reflexivity|]. unfold persist_single.
  destruct (update_balance (s_txns s) s' (s_bals s)) as [b1|]; [|reflexivity].
  destruct (update_balance (s_txns s) d' b1) as [b2|]; [|reflexivity].
  destruct (insert_txn _ _ _ _); reflexivity.
Qed.
Lemma settlement_status t v amount c x : settlement t v amount c = Ok x -> t_status x = if v then SVoid else SCommit.
Proof.
  unfold settlement. destruct v; cbv zeta.
  - destruct (_ =? 0); [discriminate|]. intros [= <-]. reflexivity.
  - destruct (commit_amount _ _ _) as [[p a]|e]; [|discriminate]. intros [= <-]. reflexivity.
Qed.
Lemma pos_precision p a q : 0 < p -> fst (fst (apply_precision p a q)) = p.
Proof. intros H. unfold apply_precision. apply Z.ltb_lt in H. rewrite H. reflexivity. Qed.
Lemma precision_pos t : 0 < t_precise t -> t_precise (apply_precision_txn t) = t_precise t.
Proof.
  intros H. unfold apply_precision_txn. pose proof (pos_precision (t_precise t) (t_amount t) (t_prec t) H) as E.
  destruct (apply_precision _ _ _) as [[p a] q]. exact E.
Qed.
Lemma made_facts v t p a id nid nref : 0 < p -> let m := made v t p a id nid nref in
  t_src m = t_src t /\ t_dst m = t_dst t /\ t_id m = nid /\ t_ref m = nref /\ t_parent m = id
  /\ t_status m = (if v then SVoid else SCommit) /\ pay m = p /\ t_inflight m = false.
Proof.
  intros H m. unfold m, made, pay. destruct v.
  - match goal with |- context[apply_precision_txn ?y] => set (x := y); destruct (precision_keys x) as (-> & -> & -> & -> & -> & -> & ->) end.
    change (t_status x) with SVoid. cbv iota. rewrite (precision_pos x) by exact H. repeat split.
  - cbn [t_status with_status]. rewrite precision_pos by exact H. repeat split.
Qed.
Lemma pay_pos x : 0 < t_precise x -> pay x = t_precise x.
Proof. intros H. unfold pay. destruct (t_status x); auto using precision_pos. Qed.

Definition ended (src dst : string) (s' d' : balance) (s s2 : state) : Prop :=
  forall z b, get_bal z (s_bals s) = Some b -> exists b', get_bal z (s_bals s2) = Some b'
    /\ if String.eqb z dst then alike d' b' else if String.eqb z src then alike s' b' else b' = b.
(** A quiet place to work in: no locks, and the names still to come are new. *)
Definition calm (s : state) : Prop := s_locks s = [] /\ tidy s /\ new_names s /\ new_refs s.

Lemma ref_exists_cons r x l : ref_exists r (x :: l) = String.eqb (t_ref (r_t x)) r || ref_exists r l.
Proof. reflexivity. Qed.
Lemma ref_inj a b : "ref_" ++ a = "ref_" ++ b -> a = b. Proof. intros H. simpl in H. congruence. Qed.
Lemma txn_inj a b : "txn_" ++ a = "txn_" ++ b -> a = b. Proof. intros H. simpl in H. congruence. Qed.
Lemma inside_facts n id s : calm s -> tidy (inside n id s) /\ new_names (inside n id s) /\ later s (inside n id s)
  /\ s_txns (inside n id s) = s_txns s /\ s_bals (inside n id s) = s_bals s /\ s_meta (inside n id s) = s_meta s
  /\ s_ctr (inside n id s) = S (S (s_ctr s)) /\ s_uuid (inside n id s) = s_uuid s.
Proof.
  intros (L & T & [N1 N2] & R). split; [exact T|]. split; [|split; [|repeat split; reflexivity]].
  - split; [exact N1|]. intros i Hi. apply N2. unfold inside, drawn in Hi. simpl in Hi. lia.
  - split; [reflexivity|]. unfold inside, drawn. simpl. lia.
Qed.
Lemma leg_outcome n cfg v amount id s t0 x sb db : calm s -> get_row id (s_txns s) = Some t0 ->
  let t := db_view_get (meta_of (s_meta s) t0) t0 in
  is_inflight t = true -> parent_void id (s_txns s) = false ->
  starts_with_at (t_src t0) = false -> starts_with_at (t_dst t0) = false ->
  t_src t0 <> lock_name id -> t_dst t0 <> lock_name id ->
  settlement t v amount (total_committed id (s_txns s)) = Ok x -> 0 < t_precise x ->
  get_bal (t_src t0) (s_bals s) = Some sb -> get_bal (t_dst t0) (s_bals s) = Some db ->
  if String.eqb (t_src t0) (t_dst t0) then exists s2 e, run n (action cfg v amount id) s = (s2, Err e)
  else match apply_to_balances x sb db with
  | Err e => exists s2, run n (action cfg v amount id) s = (s2, Err e)
  | Ok (_, s', d') => exists s2 r y, run n (action cfg v amount id) s = (s2, Ok y) /\ s_txns s2 = r :: s_txns s
      /\ t_parent (r_t r) = id /\ (forall i, t_id (r_t r) = "txn_" ++ s_uuid s i -> i = s_ctr s)
      /\ ~ In (t_id (r_t r)) (map (fun r => t_id (r_t r)) (s_txns s))
      /\ s_meta s2 = s_meta s /\ calm s2 /\ later s s2 /\ ended (t_src t0) (t_dst t0) s' d' s s2
  end.
Proof.
  intros C G t Hi Hv A B D1 D2 Hx Px Gs Gd. pose proof C as (L & T & N & Rf).
  pose proof (leg_run n cfg v amount id s t0 L G Hi Hv A B D1 D2) as R. fold t in R. rewrite Hx in R. cbv zeta in R.
  set (m := made v t (t_precise x) (t_amount x) id ("txn_" ++ s_uuid s (s_ctr s)) ("ref_" ++ s_uuid s (S (s_ctr s)))) in *.
  destruct (made_facts v t (t_precise x) (t_amount x) id ("txn_" ++ s_uuid s (s_ctr s)) ("ref_" ++ s_uuid s (S (s_ctr s))) Px)
    as (M1 & M2 & M3 & M4 & M5 & M6 & M7 & M8). fold m in M1, M2, M3, M4, M5, M6, M7, M8.
  change (t_src t) with (t_src t0) in M1. change (t_dst t) with (t_dst t0) in M2.
  destruct (inside_facts n id s C) as (IT & IN & IL & I1 & I2 & I3 & I4 & I5). set (s1 := inside n id s) in *.
  assert (Hr : ref_exists (t_ref m) (s_txns s1) = false) by (rewrite M4, I1; apply Rf; lia).
  assert (Gs1 : get_bal (t_src m) (s_bals s1) = Some sb) by (rewrite M1, I2; exact Gs).
  assert (Gd1 : get_bal (t_dst m) (s_bals s1) = Some db) by (rewrite M2, I2; exact Gd).
  assert (Q : forall b, alike b (qb cfg s1 b)) by (intros b; unfold qb; destruct (c_queued cfg); [apply alike_queued|apply alike_refl]).
  pose proof (settlement_status _ _ _ _ _ Hx) as Sx.
  assert (K : match apply_to_balances x sb db, apply_to_balances m (qb cfg s1 sb) (qb cfg s1 db) with
    | Ok (t1, a, b), Ok (t1', a2, b2) => alike a a2 /\ alike b b2 /\ t_precise t1 = pay x /\ t_precise t1' = pay x
    | Err e, Err e' => e = e' | _, _ => False end).
  { apply act_alike; [rewrite Sx; destruct v; auto|congruence|rewrite M7, pay_pos; auto|apply Q|apply Q]. }
  rewrite (pay_pos x Px) in K.
  destruct (String.eqb_spec (t_src t0) (t_dst t0)) as [D|D].
  - destruct (apply_to_balances m (qb cfg s1 sb) (qb cfg s1 db)) as [[[t1' a2] b2]|e2] eqn:E2.
    + assert (sb = db) by congruence. subst db.
      destruct (apply_to_balances x sb sb) as [[[t1 a] b]|e]; [|contradiction]. destruct K as (_ & _ & _ & K).
      rewrite (core_same cfg m s1 sb t1' a2 b2 IT) in R; [|congruence|exact Hr|exact Gs1|exact E2|lia]. eauto.
    + unfold core in R. rewrite Hr, Gs1, Gd1, E2 in R. cbn [fst snd] in R. eauto.
  - destruct (apply_to_balances m (qb cfg s1 sb) (qb cfg s1 db)) as [[[t1' a2] b2]|e2] eqn:E2.
    + destruct (apply_to_balances x sb db) as [[[t1 a] b]|e]; [|contradiction]. destruct K as (K1 & K2 & K3 & K4).
      pose proof N as [N1 N2].
      assert (Hid : id_exists (t_id m) (s_txns s1) = false).
      { rewrite M3, I1. destruct (id_exists ("txn_" ++ s_uuid s (s_ctr s)) (s_txns s)) eqn:E; [|reflexivity]. exfalso.
        unfold id_exists in E. apply existsb_exists in E as (r & Ir & Er). apply String.eqb_eq in Er.
        apply (proj2 (N2 (s_ctr s) (Nat.le_refl _))). rewrite <- Er. apply (in_map (fun r => t_id (r_t r))). exact Ir. }
      destruct (core_ok cfg m s1 sb db t1' a2 b2 IT IN) as (s3 & E3 & X3 & T3 & N3 & L3 & K5 & V3); auto; try congruence.
      { intros i Hle E. rewrite M3, I5 in E. apply txn_inj, N1 in E. rewrite I4 in Hle. lia. }
      { lia. }
      rewrite E3 in R. cbn [fst snd] in R.
      destruct (apply_ids _ _ _ _ _ _ E2) as (_ & _ & _ & _ & J1 & J2 & _ & J3 & _).
      exists (set_locks s3 []). eexists. eexists. split; [exact R|]. split; [cbn [s_txns set_locks]; rewrite X3, I1; reflexivity|].
      cbn [r_t]. set (t3 := clear_terminal (update_details t1' a2 b2)).
      assert (Et3 : t_parent t3 = id /\ t_id t3 = "txn_" ++ s_uuid s (s_ctr s) /\ t_ref t3 = "ref_" ++ s_uuid s (S (s_ctr s))).
      { assert (forall y, t_parent (clear_terminal y) = t_parent y /\ t_id (clear_terminal y) = t_id y /\ t_ref (clear_terminal y) = t_ref y)
          as Hc by (intros y; unfold clear_terminal; destruct (t_status y); repeat split).
        destruct (Hc (update_details t1' a2 b2)) as (C1 & C2 & C3). unfold t3. rewrite C1, C2, C3.
        cbn [update_details t_parent t_id t_ref with_status with_ends]. repeat split; congruence. }
      destruct Et3 as (P1 & P2 & P3). split; [exact P1|]. split; [intros i; rewrite P2; intros E; apply txn_inj, N1 in E; congruence|].
      split; [rewrite P2; apply (N2 (s_ctr s)); lia|].
      split; [cbn [s_meta set_locks]; rewrite <- I3; apply (f_equal (fun z => s_meta (fst z))) in E3; cbn [fst] in E3; rewrite <- E3; apply core_meta|].
      destruct L3 as [L31 L32]. split; [|split].
      * split; [reflexivity|]. split; [exact T3|]. split; [exact N3|]. intros i Hle. cbn [s_txns s_ctr s_uuid set_locks] in *. rewrite X3, ref_exists_cons. cbn [r_t].
        fold t3. rewrite P3, L31, I5, I1. rewrite I4 in L32.
        rewrite (Rf i) by lia. rewrite orb_false_r. apply String.eqb_neq. intros E. apply ref_inj, N1 in E. lia.
      * split; [cbn [s_uuid set_locks]; congruence|cbn [s_ctr set_locks]; lia].
      * intros z bz Hz. cbn [s_bals set_locks].
        pose proof (V3 z "") as Vz. unfold view in Vz. rewrite I2 in Vz.
        destruct T as [_ T2]. rewrite Forall_forall in T2.
        assert (Az : starts_with_at z = false). { rewrite <- (get_bal_id _ _ _ Hz). apply T2. eapply get_bal_in; eauto. }
        rewrite Az, Hz in Vz. cbn [option_map] in Vz. rewrite M1, M2 in Vz. unfold bump in Vz. rewrite (get_bal_id _ _ _ Hz) in Vz.
        eexists. split; [exact Vz|]. destruct (String.eqb z (t_dst t0)); [eapply alike_trans; [exact K2|apply alike_upd]|].
        destruct (String.eqb z (t_src t0)); [eapply alike_trans; [exact K1|apply alike_upd]|reflexivity].
    + destruct (apply_to_balances x sb db) as [[[t1 a] b]|e]; [contradiction|]. subst e2.
      unfold core in R. rewrite Hr, Gs1, Gd1, E2 in R. cbn [fst snd] in R. eauto.
Qed.
