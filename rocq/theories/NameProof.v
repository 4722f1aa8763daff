(** Proofs about balances named by an indicator. *)
From Coq Require Import ZArith List String Bool Lia.
From Verif Require Import Base BalanceModel LedgerModel LedgerProgs ConcModel NameSpec.
Import ListNotations.
Local Open Scope string_scope.
Local Open Scope list_scope.

Definition key (b : balance) : string * string * string := (b_id b, b_ind b, b_cur b).
Definition keys (s : state) := map key (s_bals s).

(** ** What an operation does to ids, names and currencies *)
Lemma recon_key rows b : key (recon_trigger rows b) = key b.
Proof. unfold recon_trigger. destruct (b_recon b); reflexivity. Qed.
Lemma update_keys rows w l l' : update_balance rows w l = Some l' -> map key l' = map key l.
Proof.
  revert l'. induction l as [|b r IH]; intros l'; cbn [update_balance]; [discriminate|].
  destruct (String.eqb (b_id b) (b_id w)).
  - destruct (Z.eqb (b_ver b) (b_ver w)); [|discriminate]. intros E. injection E as <-. cbn [map]. rewrite recon_key. reflexivity.
  - destruct (update_balance rows w r) as [r'|]; [|discriminate]. intros E. injection E as <-. cbn [map]. now rewrite (IH r' eq_refl).
Qed.
Lemma update_set_keys rows ws : forall l l', update_balance_set rows ws l = Some l' -> map key l' = map key l.
Proof.
  induction ws as [|w r IH]; intros l l'; cbn [update_balance_set]; [intros E; now injection E as <-|].
  destruct (update_balance rows w l) as [l1|] eqn:E; [|discriminate]. intros F. rewrite (IH _ _ F). exact (update_keys _ _ _ _ E).
Qed.
Lemma reconcile_keys id rows l : map key (reconcile_balance id rows l) = map key l.
Proof.
  induction l as [|b r IH]; [reflexivity|]. cbn [reconcile_balance]. destruct (String.eqb (b_id b) id); cbn [map]; [|now rewrite IH].
  rewrite recon_key. reflexivity.
Qed.

Lemma ind_none ind cur l : get_bal_ind ind cur l = None -> forall b, In b l -> ~ (b_ind b = ind /\ b_cur b = cur).
Proof.
  induction l as [|x r IH]; cbn [get_bal_ind]; intros H b []; destruct (String.eqb_spec (b_ind x) ind) as [E|E]; destruct (String.eqb_spec (b_cur x) cur) as [F|F]; cbn [andb] in H; try discriminate H.
  all: try (subst x; tauto). all: now apply IH.
Qed.
Lemma ind_some ind cur l b : get_bal_ind ind cur l = Some b -> In b l /\ b_ind b = ind /\ b_cur b = cur.
Proof.
  induction l as [|x r IH]; cbn [get_bal_ind]; [discriminate|]. destruct (String.eqb_spec (b_ind x) ind) as [E|E]; destruct (String.eqb_spec (b_cur x) cur) as [F|F]; cbn [andb]; intros H.
  1: { injection H as ->. split; [now left|now split]. }
  all: destruct (IH H) as (I & J); split; [now right|exact J].
Qed.

Lemma exec_keys n o s : keys (fst (exec n o s)) = keys s \/
  exists b, s_bals (fst (exec n o s)) = b :: s_bals s /\ (b_ind b = "" \/ forall x, In x (s_bals s) -> ~ (b_ind x = b_ind b /\ b_cur x = b_cur b)).
Proof.
  unfold keys. destruct o; cbn [exec]; try (left; reflexivity).
  - unfold create_balance. destruct (get_bal _ _); [left; reflexivity|].
    set (b := fresh_balance id ind cur recon track). destruct (String.eqb_spec (b_ind b) "") as [E|E]; cbn [negb andb].
    + right. exists b. split; [reflexivity|now left].
    + destruct (get_bal_ind (b_ind b) (b_cur b) (s_bals s)) eqn:G; [left; reflexivity|]. right. exists b. split; [reflexivity|right; exact (ind_none _ _ _ G)].
  - destruct (lock_owner k (s_locks s)); left; reflexivity.
  - destruct (lock_owner k (s_locks s)) as [m|]; [destruct (Nat.eqb m n)|]; left; reflexivity.
  - destruct (insert_txn _ _ _ _); left; reflexivity.
  - left. unfold persist_single. destruct (update_balance _ src _) as [b1|] eqn:E; [|reflexivity]. destruct (update_balance _ dst b1) as [b2|] eqn:F; [|reflexivity].
    destruct (insert_txn _ _ _ _); [|reflexivity]. cbn. rewrite (update_keys _ _ _ _ F). exact (update_keys _ _ _ _ E).
  - left. unfold persist_batch. destruct (update_balance_set _ _ _) as [b1|] eqn:E; [|reflexivity]. destruct (insert_txns _ _ _); [|reflexivity]. exact (update_set_keys _ _ _ _ E).
  - left. apply reconcile_keys.
Qed.

(** ** One balance per name *)
Definition is_named (k : string * string * string) : bool := negb (String.eqb (snd (fst k)) "").
Definition name (k : string * string * string) : string * string := (snd (fst k), snd k).
Definition unique (ks : list (string * string * string)) : Prop := NoDup (map name (filter is_named ks)).

Lemma unique_one s : unique (keys s) -> one_per_name s.
Proof.
  unfold unique, keys, one_per_name. induction (s_bals s) as [|x l IH]; intros U b b' I I' N E F; [destruct I|].
  assert (HB : forall y, In y l -> b_ind y <> "" -> In (b_ind y, b_cur y) (map name (filter is_named (map key l)))).
  { intros y Y M. apply (in_map name _ (key y)). apply filter_In. split; [now apply in_map|]. unfold is_named. cbn. apply negb_true_iff. now apply String.eqb_neq. }
  cbn [map filter] in U. destruct (is_named (key x)) eqn:M.
  - cbn [map] in U. apply NoDup_cons_iff in U. destruct U as [U1 U]. destruct I as [<-|I]; destruct I' as [<-|I']; try reflexivity.
    + destruct U1. unfold name at 1. cbn [key fst snd]. rewrite <- E, <- F. apply HB; [exact I'|congruence].
    + destruct U1. unfold name at 1. cbn [key fst snd]. rewrite E, F. now apply HB.
    + exact (IH U b b' I I' N E F).
  - unfold is_named in M. cbn in M. apply negb_false_iff in M. apply String.eqb_eq in M.
    destruct I as [<-|I]; [contradiction|]. destruct I' as [<-|I']; [congruence|]. exact (IH U b b' I I' N E F).
Qed.
Lemma one_unique s : NoDup (map b_id (s_bals s)) -> one_per_name s -> unique (keys s).
Proof.
  unfold unique, keys, one_per_name. induction (s_bals s) as [|x l IH]; intros D O; [constructor|]. cbn [map] in D. apply NoDup_cons_iff in D. destruct D as [D1 D].
  assert (Ol : NoDup (map name (filter is_named (map key l)))). { apply IH; [exact D|]. intros b b' I I'. apply O; now right. }
  cbn [map filter]. destruct (is_named (key x)) eqn:M; [|exact Ol]. cbn [map]. constructor; [|exact Ol]. intros K.
  apply in_map_iff in K. destruct K as (k & E & K). apply filter_In in K. destruct K as [K _]. apply in_map_iff in K. destruct K as (y & <- & Y).
  unfold name in E. cbn in E. injection E as E F. unfold is_named in M. cbn in M. apply negb_true_iff in M. apply String.eqb_neq in M.
  assert (X : y = x) by (apply O; [now left|now right|exact M|exact E|exact F]). subst y. apply D1. now apply in_map.
Qed.

Lemma exec_unique n o s : unique (keys s) -> unique (keys (fst (exec n o s))).
Proof.
  intros U. destruct (exec_keys n o s) as [E|(b & E & N)]; [now rewrite E|]. unfold keys. rewrite E. unfold unique. cbn [map filter].
  destruct (is_named (key b)) eqn:M; [|exact U]. cbn [map]. constructor; [|exact U]. intros K. apply in_map_iff in K. destruct K as (k & F & K).
  apply filter_In in K. destruct K as [K _]. apply in_map_iff in K. destruct K as (y & <- & Y). unfold name in F. cbn in F. injection F as F G.
  destruct N as [N|N]; [unfold is_named in M; cbn in M; rewrite N in M; discriminate M|]. apply (N y Y). now split.
Qed.
Lemma exec_incl n o s : incl (keys s) (keys (fst (exec n o s))).
Proof. destruct (exec_keys n o s) as [E|(b & E & _)]; [rewrite E; apply incl_refl|]. unfold keys. rewrite E. apply incl_tl, incl_refl. Qed.

Lemma others_keys s s' : others s s' -> incl (keys s) (keys s') /\ (unique (keys s) -> unique (keys s')).
Proof.
  induction 1 as [s|s s' n o _ (I & U)|s s' l _ H|s s' l _ H]; [split; [apply incl_refl|auto]| |exact H|exact H].
  split; [exact (incl_tran I (exec_incl n o s'))|]. intros V. apply exec_unique. now apply U.
Qed.

Lemma step_keys cfg y e y' : step cfg y e y' -> incl (keys (y_st y)) (keys (y_st y')) /\ (unique (keys (y_st y)) -> unique (keys (y_st y'))).
Proof.
  assert (Hsame : forall s s', s_bals s = s_bals s' -> incl (keys s) (keys s') /\ (unique (keys s) -> unique (keys s'))).
  { intros s s' E. unfold keys. rewrite E. split; [apply incl_refl|auto]. }
  destruct e as [r|n|n|k]; cbn [step].
  - destruct r; try (intros (_ & ->); apply Hsame; reflexivity). intros (l1 & l2 & _ & ->). apply Hsame; reflexivity.
  - destruct (nth_error (y_thr y) n) as [[|o k]|]; try contradiction. intros ->. cbn [y_st]. split; [apply exec_incl|apply exec_unique].
  - intros ->. apply Hsame; reflexivity.
  - intros ->. apply Hsame; reflexivity.
Qed.
Lemma steps_keys cfg ok y y' : steps cfg ok y y' -> incl (keys (y_st y)) (keys (y_st y')) /\ (unique (keys (y_st y)) -> unique (keys (y_st y'))).
Proof.
  induction 1 as [y|y1 y2 y3 e _ (I & U) _ S]; [split; [apply incl_refl|auto]|]. apply step_keys in S. destruct S as [I' U'].
  split; [exact (incl_tran I I')|auto].
Qed.

(** ** Theorems *)
Theorem names_unique cfg ok u y : steps cfg ok (init_sys u) y -> one_per_name (y_st y).
Proof. intros S. apply unique_one. apply (proj2 (steps_keys _ _ _ _ S)). constructor. Qed.

Lemma keys_in s b : In (key b) (keys s) -> exists x, In x (s_bals s) /\ b_id x = b_id b /\ b_ind x = b_ind b /\ b_cur x = b_cur b.
Proof. intros I. apply in_map_iff in I. destruct I as (x & E & I). exists x. unfold key in E. injection E as E F G. now repeat split. Qed.

Theorem names_last cfg ok y y' b : steps cfg ok y y' -> In b (s_bals (y_st y)) -> exists x, In x (s_bals (y_st y')) /\ b_id x = b_id b /\ b_ind x = b_ind b /\ b_cur x = b_cur b.
Proof. intros S I. apply keys_in. apply (proj1 (steps_keys _ _ _ _ S)). now apply in_map. Qed.

(** The name [ind] in currency [cur] is the balance [id]. *)
Definition known (id ind cur : string) (s : state) : Prop := In (id, ind, cur) (keys s).
Lemma known_others id ind cur s s' : others s s' -> known id ind cur s -> known id ind cur s'.
Proof. intros O K. exact (proj1 (others_keys _ _ O) _ K). Qed.
Lemma known_exec id ind cur n o s : known id ind cur s -> known id ind cur (fst (exec n o s)).
Proof. intros K. exact (exec_incl n o s _ K). Qed.

Lemma known_bal id ind cur s : known id ind cur s -> exists b, get_bal id (s_bals s) = Some b /\ b_id b = id.
Proof.
  unfold known, keys. induction (s_bals s) as [|x l IH]; intros K; [destruct K|]. cbn [get_bal]. destruct (String.eqb_spec (b_id x) id) as [E|E]; [now exists x|].
  cbn [map] in K. destruct K as [K|K]; [unfold key in K; congruence|]. now apply IH.
Qed.
Lemma known_ind id ind cur s : known id ind cur s -> exists b, get_bal_ind ind cur (s_bals s) = Some b.
Proof.
  intros K. destruct (get_bal_ind ind cur (s_bals s)) as [b|] eqn:E; [now exists b|]. apply in_map_iff in K. destruct K as (x & F & I). unfold key in F. injection F as _ F G.
  destruct (ind_none _ _ _ E x I). now split.
Qed.

Definition ends (id ind cur : string) (s' : state) (r : res balance) : Prop := exists b, r = Ok b /\ b_id b = id /\ known id ind cur s'.

Lemma amid_get n cfg id ind cur s s' r : known id ind cur s -> amid n (get_balance cfg id) s s' r -> ends id ind cur s' r.
Proof.
  intros K. unfold get_balance. cbn [bind act amid exec fst snd]. intros (s1 & O & R). pose proof (known_others _ _ _ _ _ O K) as K1.
  destruct (known_bal _ _ _ _ K1) as (b & G & I). rewrite G in R. destruct (c_queued cfg).
  - cbn [bind act amid exec fst snd] in R. destruct R as (s2 & O2 & O3 & ->). eexists. split; [reflexivity|]. split; [exact I|].
    exact (known_others _ _ _ _ _ O3 (known_others _ _ _ _ _ O2 K1)).
  - cbn [amid] in R. destruct R as (O2 & ->). exists b. split; [reflexivity|]. split; [exact I|]. exact (known_others _ _ _ _ _ O2 K1).
Qed.

Lemma amid_finish n cfg b ind cur s s' r : known (b_id b) ind cur s ->
  amid n (if c_queued cfg then get_balance cfg (b_id b) else Ret (Ok b)) s s' r -> ends (b_id b) ind cur s' r.
Proof.
  intros K R. destruct (c_queued cfg); [exact (amid_get _ _ _ _ _ _ _ _ K R)|]. cbn [amid] in R. destruct R as (O & ->). exists b.
  split; [reflexivity|]. split; [reflexivity|]. exact (known_others _ _ _ _ _ O K).
Qed.
Lemma ind_known ind cur s b : get_bal_ind ind cur (s_bals s) = Some b -> known (b_id b) ind cur s.
Proof. intros G. apply ind_some in G. destruct G as (I & <- & <-). unfold known, keys. now apply (in_map key). Qed.

Definition again (cfg : config) (ind cur : string) : prog (res balance) :=
  b <- act (OGetInd ind cur) ;;
  match b with Some b => if c_queued cfg then get_balance cfg (b_id b) else Ret (Ok b) | None => Ret (Err EBalanceNotFound) end.
Lemma amid_again n cfg ind cur s s' r : amid n (again cfg ind cur) s s' r ->
  (exists id, ends id ind cur s' r) \/ r = Err EBalanceNotFound /\ forall id, ~ known id ind cur s.
Proof.
  unfold again. cbn [bind act amid exec fst snd]. intros (s1 & O & R). destruct (get_bal_ind ind cur (s_bals s1)) as [b|] eqn:G.
  - left. exists (b_id b). exact (amid_finish _ _ _ _ _ _ _ _ (ind_known _ _ _ _ G) R).
  - right. cbn [amid] in R. destruct R as (_ & ->). split; [reflexivity|]. intros id K. destruct (known_ind _ _ _ _ (known_others _ _ _ _ _ O K)) as (b & E). congruence.
Qed.

Lemma amid_create n cfg ind cur s s' r : amid n (get_or_create cfg ind cur) s s' r ->
  (exists id, ends id ind cur s' r) \/ (forall id, ~ known id ind cur s) /\ exists e, r = Err e.
Proof.
  unfold get_or_create. cbn [bind act amid exec fst snd]. intros (s1 & O & R). destruct (get_bal_ind ind cur (s_bals s1)) as [b|] eqn:G.
  - left. exists (b_id b). exact (amid_finish _ _ _ _ _ _ _ _ (ind_known _ _ _ _ G) R).
  - assert (N : forall id, ~ known id ind cur s).
    { intros id K. destruct (known_ind _ _ _ _ (known_others _ _ _ _ _ O K)) as (b & E). congruence. }
    unfold fresh in R. cbn [bind act amid] in R. destruct R as (s2 & O2 & s3 & O3 & R).
    set (x := snd (exec n (OCreateBal _ ind cur false false) s3)) in R.
    assert (D : amid n (again cfg ind cur) (fst (exec n (OCreateBal ("bln_" ++ snd (exec n OFresh s2))%string ind cur false false) s3)) s' r \/ exists e, r = Err e).
    { destruct x as [t|e]; [left; exact R|]. destruct e; try (left; exact R); right; cbn [amid] in R; destruct R as (_ & ->); eexists; reflexivity. }
    destruct D as [D|D]; [|right; now split]. apply amid_again in D. destruct D as [D|(-> & _)]; [now left|]. right. split; [exact N|now eexists].
Qed.

Lemma known_one s id ind cur b : unique (keys s) -> ind <> "" -> known id ind cur s -> In b (s_bals s) -> b_ind b = ind -> b_cur b = cur -> b_id b = id.
Proof.
  intros U N K I E F. apply in_map_iff in K. destruct K as (x & X & J). unfold key in X. injection X as X Y Z.
  assert (B : b = x) by (apply (unique_one s U); congruence). congruence.
Qed.

Lemma others_trans s1 s2 s3 : others s1 s2 -> others s2 s3 -> others s1 s3.
Proof. intros A B. induction B as [s|s s' n o _ IH|s s' l _ IH|s s' l _ IH]; [exact A|now apply others_op, IH|now apply others_locks, IH|now apply others_jobs, IH]. Qed.
Lemma amid_others {A} n (p : prog A) : forall s s' a, amid n p s s' a -> others s s'.
Proof.
  induction p as [x|o k IH]; intros s s' a; cbn [amid]; [intros (O & _); exact O|]. intros (s1 & O & R). apply IH in R.
  exact (others_trans _ _ _ (others_op _ _ n o O) R).
Qed.

Theorem threads_are_others cfg ok y y' : steps cfg ok y y' -> others (y_st y) (y_st y').
Proof.
  induction 1 as [y|y1 y2 y3 e _ IH _ S]; [apply others_none|]. destruct e as [r|n|n|k]; cbn [step] in S.
  - destruct r; try (destruct S as (_ & ->); exact IH). destruct S as (l1 & l2 & _ & ->). now apply others_jobs.
  - destruct (nth_error (y_thr y2) n) as [[|o k]|]; try contradiction. rewrite S. now apply others_op.
  - rewrite S. exact IH.
  - rewrite S. now apply others_locks.
Qed.

Lemma reached_unique cfg ok u y : steps cfg ok (init_sys u) y -> unique (keys (y_st y)).
Proof. intros S. apply (proj2 (steps_keys _ _ _ _ S)). constructor. Qed.

Theorem resolves cfg ok u y n ind cur s1 s2 b : steps cfg ok (init_sys u) y -> ind <> "" ->
  amid n (get_or_create cfg ind cur) (y_st y) s1 (Ok b) -> others s1 s2 ->
  exists x, In x (s_bals s2) /\ b_id x = b_id b /\ b_ind x = ind /\ b_cur x = cur /\
    forall z, In z (s_bals s2) -> b_ind z = ind -> b_cur z = cur -> z = x.
Proof.
  intros S N R O. assert (U : unique (keys s2)). { apply (proj2 (others_keys _ _ (others_trans _ _ _ (amid_others _ _ _ _ _ R) O))). exact (reached_unique _ _ _ _ S). }
  apply amid_create in R. destruct R as [(id & b' & E & I & K)|(_ & e & E)]; [|discriminate E]. injection E as <-. apply (known_others _ _ _ _ _ O) in K.
  pose proof K as K'. apply in_map_iff in K'. destruct K' as (x & X & J). unfold key in X. injection X as X Y Z. exists x. split; [exact J|]. split; [congruence|].
  split; [exact Y|]. split; [exact Z|]. intros z Iz Ez Fz. apply (unique_one s2 U); congruence.
Qed.

Theorem both_same cfg ok u y y' n n' ind cur s1 s1' s2 b b' : steps cfg ok (init_sys u) y -> steps cfg ok (init_sys u) y' -> ind <> "" ->
  amid n (get_or_create cfg ind cur) (y_st y) s1 (Ok b) -> amid n' (get_or_create cfg ind cur) (y_st y') s1' (Ok b') ->
  others s1 s2 -> others s1' s2 -> b_id b = b_id b'.
Proof.
  intros S S' N R R' O O'. destruct (resolves _ _ _ _ _ _ _ _ _ _ S N R O) as (x & X & I & _ & _ & A). destruct (resolves _ _ _ _ _ _ _ _ _ _ S' N R' O') as (x' & X' & I' & J & F & _).
  rewrite <- I, <- I', (A x' X' J F). reflexivity.
Qed.

Theorem in_use cfg ok u y n ind cur s1 r x : steps cfg ok (init_sys u) y -> ind <> "" -> In x (s_bals (y_st y)) -> b_ind x = ind -> b_cur x = cur ->
  amid n (get_or_create cfg ind cur) (y_st y) s1 r -> exists b, r = Ok b /\ b_id b = b_id x.
Proof.
  intros S N I E F R. assert (K : known (b_id x) ind cur (y_st y)) by (rewrite <- E, <- F; now apply (in_map key)).
  pose proof R as R'. apply amid_create in R'. destruct R' as [(id & b & -> & J & _)|(C & _)]; [|now destruct (C (b_id x))].
  exists b. split; [reflexivity|]. destruct (resolves _ _ _ _ _ _ _ _ _ _ S N R (others_none s1)) as (z & Z & A & B & C & D).
  apply (known_others _ _ _ _ _ (amid_others _ _ _ _ _ R)) in K. apply in_map_iff in K. destruct K as (w & W & V). unfold key in W. injection W as W1 W2 W3.
  rewrite <- A, <- W1. now rewrite (D w V W2 W3).
Qed.

(** ** When making a name fails *)
Lemma exec_owner n o s : incl (s_owner s) (s_owner (fst (exec n o s))) /\ s_uuid (fst (exec n o s)) = s_uuid s.
Proof.
  destruct o; cbn [exec]; try (split; [apply incl_refl|reflexivity]).
  - split; [apply incl_tl, incl_refl|reflexivity].
  - unfold create_balance. destruct (get_bal _ _); [split; [apply incl_refl|reflexivity]|]. destruct (_ && _); (split; [apply incl_refl|reflexivity]).
  - destruct (lock_owner k (s_locks s)); (split; [apply incl_refl|reflexivity]).
  - destruct (lock_owner k (s_locks s)) as [m|]; [destruct (Nat.eqb m n)|]; (split; [apply incl_refl|reflexivity]).
  - destruct (insert_txn _ _ _ _); (split; [apply incl_refl|reflexivity]).
  - unfold persist_single. destruct (update_balance _ src _) as [b1|]; [|split; [apply incl_refl|reflexivity]]. destruct (update_balance _ dst b1) as [b2|]; [|split; [apply incl_refl|reflexivity]].
    destruct (insert_txn _ _ _ _); (split; [apply incl_refl|reflexivity]).
  - unfold persist_batch. destruct (update_balance_set _ _ _) as [b1|]; [|split; [apply incl_refl|reflexivity]]. destruct (insert_txns _ _ _); (split; [apply incl_refl|reflexivity]).
Qed.
Lemma others_owner s s' : others s s' -> incl (s_owner s) (s_owner s') /\ s_uuid s' = s_uuid s.
Proof.
  induction 1 as [s|s s' n o _ (I & U)|s s' l _ H|s s' l _ H]; [split; [apply incl_refl|reflexivity]| |exact H|exact H].
  destruct (exec_owner n o s') as (I' & U'). split; [exact (incl_tran I I')|congruence].
Qed.
Lemma create_answer n id ind cur s : match snd (exec n (OCreateBal id ind cur false false) s) with
  | Ok _ => known id ind cur (fst (exec n (OCreateBal id ind cur false false) s))
  | Err e => e = EConflict /\ fst (exec n (OCreateBal id ind cur false false) s) = s /\ ((exists x, In x (s_bals s) /\ b_id x = id) \/ exists i, known i ind cur s)
  end.
Proof.
  cbn [exec]. unfold create_balance. cbn [fresh_balance b_id b_ind b_cur]. destruct (get_bal id (s_bals s)) as [x|] eqn:G.
  - cbn. split; [reflexivity|]. split; [reflexivity|]. left. exists x. revert G. induction (s_bals s) as [|z l IH]; cbn [get_bal]; [discriminate|].
    destruct (String.eqb_spec (b_id z) id) as [E|E]; [intros F; injection F as ->; split; [now left|exact E]|]. intros F. destruct (IH F) as (I & J). split; [now right|exact J].
  - destruct (negb (String.eqb ind "") && _) eqn:C; cbn.
    + split; [reflexivity|]. split; [reflexivity|]. right. apply andb_true_iff in C. destruct C as [_ C]. destruct (get_bal_ind ind cur (s_bals s)) as [x|] eqn:H; [|discriminate C].
      exists (b_id x). exact (ind_known _ _ _ _ H).
    + left. reflexivity.
Qed.

Theorem fails_only cfg n ind cur s s' e : amid n (get_or_create cfg ind cur) s s' (Err e) ->
  e = EBalanceNotFound /\ exists k s3 x, others s s3 /\ others s3 s' /\ In (k, n) (s_owner s3) /\ In x (s_bals s3) /\ b_id x = ("bln_" ++ s_uuid s k)%string.
Proof.
  unfold get_or_create. cbn [bind act amid exec fst snd]. intros (s1 & O & R). destruct (get_bal_ind ind cur (s_bals s1)) as [b|] eqn:G.
  - destruct (amid_finish _ _ _ _ _ _ _ _ (ind_known _ _ _ _ G) R) as (b' & K & _). discriminate K.
  - unfold fresh in R. cbn [bind act amid] in R. destruct R as (s2 & O2 & s3 & O3 & R).
    set (id := ("bln" ++ "_" ++ snd (exec n OFresh s2))%string) in R. pose proof (create_answer n id ind cur s3) as C.
    set (o := OCreateBal id ind cur false false) in *. assert (A : amid n (again cfg ind cur) (fst (exec n o s3)) s' (Err e)).
    { destruct (snd (exec n o s3)) as [t|e']; [exact R|]. destruct C as (-> & _). exact R. }
    assert (Oa : others (fst (exec n o s3)) s') by exact (amid_others _ _ _ _ _ A).
    apply amid_again in A. destruct A as [(i & b & K & _)|(K & N)]; [discriminate K|]. injection K as ->. split; [reflexivity|].
    destruct (snd (exec n o s3)) as [t|e']; [destruct (N id C)|]. destruct C as (_ & E & [(x & I & J)|(i & K)]); [|rewrite E in N; destruct (N i K)].
    rewrite E in Oa. exists (s_ctr s2), s3, x. assert (O' : others s s2) by exact (others_trans _ _ _ O O2).
    split; [exact (others_trans _ _ _ (others_op _ _ n OFresh O') O3)|]. split; [exact Oa|]. split; [apply (others_owner _ _ O3); now left|].
    split; [exact I|]. rewrite J. unfold id. cbn [exec snd]. now rewrite (proj2 (others_owner _ _ O')).
Qed.
