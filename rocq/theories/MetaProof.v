(** Updates of metadata, proved. *)
From Coq Require Import List String Bool Arith Lia.
From Verif Require Import BodyModel BodyThms MetaModel MetaSpec.
From Verif Require TokenModel.
Import ListNotations.
Local Open Scope string_scope.

(** ** Merging *)

Lemma not_in_get {A} x (l : list (string * A)) : ~ In x (map fst l) -> get x l = None.
Proof.
  induction l as [|[a v] l IH]; [reflexivity|]. cbn. intros N. destruct (String.eqb_spec x a) as [->|]; [tauto|]. apply IH. tauto.
Qed.
Lemma merge_get key m : forall l, NoDup (map fst m) -> get key (merge l m) = match get key m with Some v => Some v | None => get key l end.
Proof.
  unfold merge, TokenModel.merge. induction m as [|[a v] m IH]; intros l N; [reflexivity|]. cbn [map fst] in N. inversion N as [|? ? N1 N2]; subst.
  cbn [fold_left fst snd get]. rewrite (IH _ N2). destruct (String.eqb_spec key a) as [->|Ne].
  - rewrite (not_in_get a m N1). apply get_put.
  - destruct (get key m); [reflexivity|]. now apply get_put_other.
Qed.

Definition obj (m : json) : fields := match m with JObj l => l | _ => [] end.
Lemma entry_obj m key : entry m key = get key (obj m).
Proof. now destruct m. Qed.
Lemma entry_concat a m key : NoDup (map fst m) ->
  entry (concat a m) key = match get key m with Some v => Some v | None => entry a key end.
Proof. intros N. unfold concat. cbn [entry]. rewrite (merge_get _ _ _ N), (entry_obj a). reflexivity. Qed.

(** ** Kinds *)

Definition kind_prefix (k : kind) : string := match k with KLedger => "ldg_" | KBalance => "bln_" | KIdentity => "idt_" end.
Lemma target_txn id : target_of id = Some TTransactions <-> is_txn id = true.
Proof.
  unfold target_of, is_txn. destruct (prefix "txn_" id), (prefix "bulk_" id); cbn; try tauto.
  destruct (prefix "ldg_" id), (prefix "bln_" id), (prefix "idt_" id); split; discriminate.
Qed.
Lemma target_one id k : target_of id = Some (TOne k) -> is_txn id = false /\ prefix (kind_prefix k) id = true.
Proof.
  unfold target_of, is_txn. destruct (prefix "txn_" id), (prefix "bulk_" id); cbn; try discriminate.
  destruct (prefix "ldg_" id) eqn:A, (prefix "bln_" id) eqn:B, (prefix "idt_" id) eqn:C; intros [= <-]; cbn; auto.
Qed.
Lemma meant_one y id k : target_of id = Some (TOne k) -> meant y id (One k id).
Proof. intros H. apply target_one in H. now destruct k, H; cbn in *. Qed.

Lemma kind_eqb_eq a b : kind_eqb a b = true <-> a = b.
Proof. destruct a, b; split; try reflexivity; discriminate. Qed.
Lemma set_one_same k id m b : b_one (set_one k id m b) k id = m.
Proof. cbn. rewrite (proj2 (kind_eqb_eq k k) eq_refl), String.eqb_refl. reflexivity. Qed.
Lemma set_one_other k id m b k' id' : (k', id') <> (k, id) -> b_one (set_one k id m b) k' id' = b_one b k' id'.
Proof.
  intros N. cbn. destruct (kind_eqb k' k) eqn:E; [|reflexivity]. apply kind_eqb_eq in E. subst k'.
  destruct (String.eqb_spec id' id) as [->|]; [now destruct N|reflexivity].
Qed.

(** ** Transactions *)

Definition touched (id : string) (m : fields) (t : trow) : trow :=
  if concerns id t then {| t_id := t_id t; t_parent := t_parent t; t_meta := concat (t_meta t) m |} else t.
Lemma touched_id id m t : t_id (touched id m t) = t_id t.
Proof. unfold touched. now destruct (concerns id t). Qed.
Lemma find_touched id m x l : find (fun t => String.eqb (t_id t) x) (map (touched id m) l)
  = option_map (touched id m) (find (fun t => String.eqb (t_id t) x) l).
Proof. induction l as [|t l IH]; [reflexivity|]. cbn [map find]. rewrite touched_id. destruct (String.eqb (t_id t) x); [reflexivity|exact IH]. Qed.
Lemma find_id x l t : find (fun t => String.eqb (t_id t) x) l = Some t -> t_id t = x.
Proof. intros H. apply find_some in H as [_ H]. now apply String.eqb_eq. Qed.
Lemma find_app_some {A} (f : A -> bool) l1 l2 x : find f l1 = Some x -> find f (l1 ++ l2) = Some x.
Proof. induction l1 as [|a l1 IH]; [discriminate|]. cbn. destruct (f a); auto. Qed.

(** ** Jobs *)

Section Inv.
Variable F : Prop.     (* changes come one after the other *)

Inductive job_ok (b : tables) (j : job) : Prop :=
| k_done : is_done (j_prog j) -> job_ok b j
| k_new : j_prog j = update (j_id j) (j_sent j) -> job_ok b j
| k_txn : target_of (j_id j) = Some TTransactions -> existsb (concerns (j_id j)) (b_txns b) = true ->
    j_prog j = MergeAll (j_id j) (j_sent j) (fun ok => Done (if ok then MOk (j_sent j) else MErr)) -> job_ok b j
| k_one k old : target_of (j_id j) = Some (TOne k) -> (F -> b_one b k (j_id j) = Some old) -> (old = JNull \/ exists l, old = JObj l) ->
    j_prog j = Store k (j_id j) (concat old (j_sent j)) (fun ok => Done (if ok then MOk (merge (obj old) (j_sent j)) else MErr)) -> job_ok b j.

Definition inv (y : system) : Prop :=
  (forall i j, nth_error (y_jobs y) i = Some j -> job_ok (y_tables y) j /\ NoDup (map fst (j_sent j)))
  /\ (F -> forall a c j j', a <> c -> nth_error (y_jobs y) a = Some j -> nth_error (y_jobs y) c = Some j' -> j_id j = j_id j' ->
        is_txn (j_id j) = true \/ is_done (j_prog j) \/ is_done (j_prog j')).

(** What a step of an update does. *)
Inductive effect (j : job) (b : tables) : tables -> Prop :=
| f_none : effect j b b
| f_txn : target_of (j_id j) = Some TTransactions -> effect j b (merge_all (j_id j) (j_sent j) b)
| f_one k old cur : target_of (j_id j) = Some (TOne k) -> b_one b k (j_id j) = Some cur -> (F -> cur = old) -> effect j b (set_one k (j_id j) (Some (concat old (j_sent j))) b).

Lemma call_ok b j o b' p' : job_ok b j -> call o (j_prog j) b = (b', p') ->
  job_ok b' {| j_id := j_id j; j_sent := j_sent j; j_prog := p' |} /\ effect j b b' /\ (is_done (j_prog j) -> b' = b /\ is_done p').
Proof.
  intros J C. destruct J as [[a E]|E|T X E|k old T Fr Ob E]; rewrite E in *.
  - injection C as <- <-. split; [apply k_done; now exists a|]. split; [constructor|]. intros _. split; [reflexivity|now exists a].
  - unfold update in *. destruct (target_of (j_id j)) as [[|k]|] eqn:T.
    + injection C as <- <-. split; [|split; [constructor|intros [a Z0]; discriminate]].
      destruct o; [|apply k_done; eexists; reflexivity..]. destruct (existsb _ _) eqn:Q; [|apply k_done; eexists; reflexivity].
      apply k_txn; auto.
    + injection C as <- <-. split; [|split; [constructor|intros [a Z0]; discriminate]].
      destruct o; [|apply k_done; eexists; reflexivity..]. destruct (b_one b k (j_id j)) as [old|] eqn:Q; [|apply k_done; eexists; reflexivity].
      destruct old; try (apply k_done; eexists; reflexivity).
      * apply (k_one _ _ k JNull); auto.
      * apply (k_one _ _ k (JObj l)); eauto.
    + injection C as <- <-. split; [apply k_done; eexists; reflexivity|]. split; [constructor|]. intros _. split; [reflexivity|eexists; reflexivity].
  - injection C as <- <-. split; [apply k_done; eexists; reflexivity|]. split; [|intros [a Z0]; discriminate].
    destruct (took o); [now apply f_txn|constructor].
  - injection C as <- <-. split; [apply k_done; eexists; reflexivity|]. split; [|intros [a Z0]; discriminate].
    destruct (b_one b k (j_id j)) eqn:Q; [|constructor]. destruct (took o); [|constructor]. apply (f_one _ _ k old j0); auto.
    intros f. specialize (Fr f). congruence.
Qed.

Lemma concerns_touched id m x t : concerns id (touched x m t) = concerns id t.
Proof. unfold touched. now destruct (concerns x t). Qed.
Lemma concerns_all id x m l : existsb (concerns id) (map (touched x m) l) = existsb (concerns id) l.
Proof. induction l as [|t l IH]; [reflexivity|]. cbn [map existsb]. now rewrite concerns_touched, IH. Qed.

(** What a change of the tables leaves alone, a job does not notice. *)
Lemma job_frame b b' j : job_ok b j ->
  (existsb (concerns (j_id j)) (b_txns b) = true -> existsb (concerns (j_id j)) (b_txns b') = true) ->
  (F -> forall k old, target_of (j_id j) = Some (TOne k) -> b_one b k (j_id j) = Some old -> b_one b' k (j_id j) = Some old) -> job_ok b' j.
Proof.
  intros J A B. destruct J; [now apply k_done|now apply k_new|apply k_txn; auto|apply (k_one _ _ k old); auto].
Qed.

Lemma effect_txns j b b' id : effect j b b' -> existsb (concerns id) (b_txns b) = true -> existsb (concerns id) (b_txns b') = true.
Proof. intros E H. destruct E; try exact H. cbn [merge_all b_txns]. change (existsb (concerns id) (map (touched (j_id j) (j_sent j)) (b_txns b)) = true). now rewrite concerns_all. Qed.

Lemma nth_set_same {A} i (x : A) : forall l y, nth_error l i = Some y -> nth_error (set_nth i x l) i = Some x.
Proof. induction i as [|i IH]; intros [|a l] y H; cbn in *; try discriminate; eauto. Qed.
Lemma nth_set_other {A} i (x : A) : forall l j, i <> j -> nth_error (set_nth i x l) j = nth_error l j.
Proof. induction i as [|i IH]; intros [|a l] [|j] H; cbn; auto; try congruence. Qed.

Lemma write_one w b k id old : b_one b k id = Some old ->
  (forall m, w = WReplace id m -> k <> KIdentity) -> (w = WRemove id -> k <> KIdentity) -> b_one (do_write w b) k id = Some old.
Proof.
  intros E A B. destruct w as [k' id' m|id' m|id'|id' par m]; cbn [do_write].
  - destruct (b_one b k' id') eqn:Q; [exact E|]. rewrite set_one_other; [exact E|]. intros [= -> ->]. congruence.
  - destruct (b_one b KIdentity id') eqn:Q; [|exact E]. rewrite set_one_other; [exact E|]. intros [= -> ->]. now apply (A m).
  - rewrite set_one_other; [exact E|]. intros [= -> ->]. now apply B.
  - now destruct (existsb _ _).
Qed.
Lemma write_txns w b : exists l, b_txns (do_write w b) = (b_txns b ++ l)%list.
Proof.
  destruct w as [k' id' m|id' m|id'|id' par m]; cbn [do_write].
  - destruct (b_one b k' id'); exists []; now rewrite app_nil_r.
  - destruct (b_one b KIdentity id'); exists []; now rewrite app_nil_r.
  - exists []. now rewrite app_nil_r.
  - destruct (existsb _ _); [exists []; now rewrite app_nil_r|eexists; reflexivity].
Qed.

Lemma done_dec p : is_done p \/ ~ is_done p.
Proof. destruct p; [left; eexists; reflexivity|right; intros [b X]; discriminate..]. Qed.

Lemma happen_inv y e : inv y -> fits e -> (F -> alone e y) -> inv (happen e y).
Proof.
  intros (J & W) Fi Al. destruct e as [id m|i o|w]; cbn [happen].
  - split; cbn [y_tables y_jobs].
    + intros i j H. destruct (Nat.lt_ge_cases i (List.length (y_jobs y))) as [L|L].
      * rewrite nth_error_app1 in H by exact L. eauto.
      * rewrite nth_error_app2 in H by exact L. destruct (i - List.length (y_jobs y)) as [|d]; [|destruct d; discriminate].
        injection H as <-. split; [now apply k_new|exact Fi].
    + intros f. assert (Z0 : forall a c j j', nth_error (y_jobs y ++ [{| j_id := id; j_sent := m; j_prog := update id m |}]) a = Some j ->
        nth_error (y_jobs y ++ [{| j_id := id; j_sent := m; j_prog := update id m |}]) c = Some j' -> (a < c)%nat -> j_id j = j_id j' ->
        is_txn (j_id j) = true \/ is_done (j_prog j) \/ is_done (j_prog j')).
      { intros a c j j' H1 H2 L E.
        assert (L2 : (c < List.length (y_jobs y ++ [{| j_id := id; j_sent := m; j_prog := update id m |}]))%nat) by (apply nth_error_Some; congruence).
        rewrite app_length in L2. cbn in L2. rewrite nth_error_app1 in H1 by lia.
        destruct (Nat.lt_ge_cases c (List.length (y_jobs y))) as [L'|L'].
        - rewrite nth_error_app1 in H2 by exact L'. apply (W f a c j j'); auto. lia.
        - rewrite nth_error_app2 in H2 by exact L'. replace (c - List.length (y_jobs y))%nat with 0%nat in H2 by lia. injection H2 as <-.
          cbn [j_id] in E. destruct (Al f) as [X|X]; [left; now rewrite E|right; left]. apply X; [|exact E]. eapply nth_error_In; eauto. }
      intros a c j j' N H1 H2 E. destruct (Nat.lt_gt_cases a c) as [X _]. destruct (X N) as [L|L]; [eauto|].
      destruct (Z0 c a j' j H2 H1 L (eq_sym E)) as [Y|[Y|Y]]; [left; congruence|auto|auto].
  - destruct (nth_error (y_jobs y) i) as [j|] eqn:E; [|now split].
    destruct (call o (j_prog j) (y_tables y)) as [b' p'] eqn:C. destruct (J _ _ E) as [J0 N0].
    destruct (call_ok _ _ _ _ _ J0 C) as (J' & Ef & D). split; cbn [y_tables y_jobs].
    + intros c j1 H. destruct (Nat.eq_dec i c) as [<-|N].
      * rewrite (nth_set_same i _ _ _ E) in H. injection H as <-. now split.
      * rewrite nth_set_other in H by exact N. destruct (J _ _ H) as [J1 N1]. split; [|exact N1].
        destruct (done_dec (j_prog j1)) as [Dn|Dn]; [now apply k_done|].
        apply (job_frame _ _ _ J1); [intros; eapply effect_txns; eauto|]. intros f k old T Q.
        destruct (done_dec (j_prog j)) as [Di|Di]; [destruct (D Di) as [-> _]; exact Q|].
        destruct Ef as [|T'|k0 old0 cur T' Q' Fr]; [exact Q|exact Q|].
        destruct (string_dec (j_id j) (j_id j1)) as [Eq|Ne]; [|rewrite set_one_other; [exact Q|congruence]].
        destruct (W f i c j j1 N E H Eq) as [X|[X|X]]; [|contradiction..].
        apply target_one in T'. destruct T'. congruence.
    + intros f. assert (Z0 : forall c j2, i <> c -> nth_error (y_jobs y) c = Some j2 -> j_id j = j_id j2 ->
        is_txn (j_id j) = true \/ is_done p' \/ is_done (j_prog j2)).
      { intros c j2 N H E'. destruct (W f i c j j2 N E H E') as [X|[X|X]]; auto. right. left. now apply D. }
      intros a c j1 j2 N H1 H2 E'. destruct (Nat.eq_dec i a) as [<-|Na].
      * rewrite (nth_set_same i _ _ _ E) in H1. injection H1 as <-. rewrite nth_set_other in H2 by exact N. cbn [j_id j_prog] in *. eauto.
      * rewrite nth_set_other in H1 by exact Na. destruct (Nat.eq_dec i c) as [<-|Nc].
        -- rewrite (nth_set_same i _ _ _ E) in H2. injection H2 as <-. cbn [j_id j_prog] in *.
           destruct (Z0 a j1 Na H1 (eq_sym E')) as [X|[X|X]]; auto. left. congruence.
        -- rewrite nth_set_other in H2 by exact Nc. eauto.
  - split; cbn [y_tables y_jobs]; [|exact W]. intros i j H. destruct (J _ _ H) as [J0 N0]. split; [|exact N0].
    destruct (done_dec (j_prog j)) as [Dn|Dn]; [now apply k_done|].
    apply (job_frame _ _ _ J0).
    + intros X. destruct (write_txns w (y_tables y)) as [l ->]. rewrite existsb_app, X. reflexivity.
    + intros f k old T Q. apply target_one in T as [T _]. specialize (Al f). apply write_one; [exact Q| |].
      * intros m -> _. cbn in Al. destruct Al as [X|X]; [congruence|]. apply Dn. apply X; [eapply nth_error_In; eauto|reflexivity].
      * intros -> _. cbn in Al. destruct Al as [X|X]; [congruence|]. apply Dn. apply X; [eapply nth_error_In; eauto|reflexivity].
Qed.

Lemma nothing_inv : inv nothing.
Proof. split; cbn; [intros [] j H; discriminate|]. intros _ [] c j j' N H; discriminate. Qed.
End Inv.

Lemma history_inv es y : history anything es y -> inv False y.
Proof. induction 1; [apply nothing_inv|]. apply happen_inv; tauto. Qed.
Lemma history_inv_alone es y : history alone es y -> inv True y.
Proof. induction 1; [apply nothing_inv|]. apply happen_inv; tauto. Qed.

(** ** One step *)

Lemma happen_step y i o j : nth_error (y_jobs y) i = Some j ->
  y_tables (happen (EStep i o) y) = fst (call o (j_prog j) (y_tables y))
  /\ nth_error (y_jobs (happen (EStep i o) y)) i = Some {| j_id := j_id j; j_sent := j_sent j; j_prog := snd (call o (j_prog j) (y_tables y)) |}.
Proof.
  intros E. cbn [happen]. rewrite E. destruct (call o (j_prog j) (y_tables y)) as [a b] eqn:C. cbn. split; [reflexivity|].
  eapply nth_set_same; eauto.
Qed.
Lemma step_effect F y i o j : inv F y -> nth_error (y_jobs y) i = Some j -> effect F j (y_tables y) (y_tables (happen (EStep i o) y)).
Proof.
  intros (J & _) E. rewrite (proj1 (happen_step y i o j E)). destruct (call o (j_prog j) (y_tables y)) as [a b] eqn:C.
  destruct (J _ _ E) as [J0 _]. apply (call_ok F _ _ _ _ _ J0 C).
Qed.

Lemma txn_merged y id m x a : meta_of y (Txn x) = Some a -> is_txn id = true -> NoDup (map fst m) -> forall y', y_tables y' = merge_all id m (y_tables y) ->
  exists b, meta_of y' (Txn x) = Some b
    /\ ((~ meant y id (Txn x) /\ b = a) \/ (meant y id (Txn x) /\ forall key, entry b key = match get key m with Some v => Some v | None => entry a key end)).
Proof.
  intros H T N y' E. cbn [meta_of meant] in *. unfold parent_of. rewrite E. cbn [merge_all b_txns].
  change (fun t => if concerns id t then {| t_id := t_id t; t_parent := t_parent t; t_meta := concat (t_meta t) m |} else t) with (touched id m).
  rewrite find_touched. destruct (find _ (b_txns (y_tables y))) as [t|] eqn:Fd; [|discriminate]. cbn in H. injection H as <-.
  pose proof (find_id _ _ _ Fd) as I. cbn [option_map]. eexists. split; [reflexivity|]. unfold touched.
  assert (T' : prefix "txn_" id = true \/ prefix "bulk_" id = true) by (apply orb_true_iff; exact T).
  destruct (concerns id t) eqn:C; unfold concerns in C.
  - right. split; [|intros key; now apply entry_concat]. split; [exact T'|]. apply orb_true_iff in C as [C|C]; apply String.eqb_eq in C.
    + left. congruence.
    + right. now rewrite C.
  - left. split; [|reflexivity]. intros [_ [X|X]]; apply orb_false_iff in C as [C1 C2].
    + apply String.eqb_neq in C1. congruence.
    + apply String.eqb_neq in C2. injection X as X. congruence.
Qed.

(** The metadata of a transaction, however updates come. *)
Theorem txn_changes es y e x a : history anything es y -> meta_of y (Txn x) = Some a ->
  exists b, meta_of (happen e y) (Txn x) = Some b
  /\ (b = a \/ exists id m, by_update y e id m /\ meant y id (Txn x)
                /\ forall key, entry b key = match get key m with Some v => Some v | None => entry a key end).
Proof.
  intros H M. pose proof (history_inv _ _ H) as Y. destruct e as [id m|i o|w].
  - exists a. auto.
  - destruct (nth_error (y_jobs y) i) as [j|] eqn:E; [|exists a; cbn [happen]; rewrite E; auto].
    pose proof (step_effect _ y i o j Y E) as Ef. destruct (proj1 Y _ _ E) as [_ N].
    remember (y_tables (happen (EStep i o) y)) as b'. destruct Ef as [|T|k old cur T Q Fr].
    + exists a. split; [|now left]. unfold meta_of in *. now rewrite <- Heqb'.
    + apply target_txn in T. destruct (txn_merged y _ _ x a M T N _ (eq_sym Heqb')) as (b & B & [[_ ->]|[Me En]]).
      * exists a. auto.
      * exists b. split; [exact B|]. right. exists (j_id j), (j_sent j). split; [now exists i, o, j|]. now split.
    + exists a. split; [|now left]. unfold meta_of in *. now rewrite <- Heqb'.
  - exists a. split; [|now left]. cbn [meta_of happen y_tables] in *. destruct (write_txns w (y_tables y)) as [l ->].
    destruct (find _ (b_txns (y_tables y))) as [t|] eqn:Fd; [|discriminate]. now rewrite (find_app_some _ _ l _ Fd).
Qed.

(** The metadata of a ledger, balance or identity, when changes of it come one after the other. *)
Theorem one_changes es y e k id a b : history alone es y -> meta_of y (One k id) = Some a -> meta_of (happen e y) (One k id) = Some b ->
  b = a
  \/ (exists m, by_update y e id m /\ meant y id (One k id)
        /\ forall key, entry b key = match get key m with Some v => Some v | None => entry a key end)
  \/ (k = KIdentity /\ exists m, e = EWrite (WReplace id m) /\ b = JObj m).
Proof.
  intros H M B. pose proof (history_inv_alone _ _ H) as Y. destruct e as [i m|i o|w].
  - left. cbn in *. congruence.
  - destruct (nth_error (y_jobs y) i) as [j|] eqn:E; [|left; cbn [happen] in B; rewrite E in B; congruence].
    pose proof (step_effect _ y i o j Y E) as Ef. destruct (proj1 Y _ _ E) as [_ N].
    cbn [meta_of] in *. remember (y_tables (happen (EStep i o) y)) as b'. destruct Ef as [|T|k0 old cur T Q Fr].
    + left. congruence.
    + left. cbn in B. congruence.
    + destruct (string_dec (j_id j) id) as [<-|Ne]; [|rewrite set_one_other in B by congruence; left; congruence].
      destruct (kind_eqb k k0) eqn:K; [apply kind_eqb_eq in K; subst k0|
        rewrite set_one_other in B; [left; congruence|intros [= X]; apply kind_eqb_eq in X; congruence]].
      rewrite set_one_same in B. injection B as <-. right. left. exists (j_sent j). split; [now exists i, o, j|].
      split; [now apply meant_one|]. intros key. rewrite (entry_concat _ _ _ N). rewrite Q in M. injection M as <-. now rewrite <- (Fr Logic.I).
  - cbn [meta_of happen y_tables] in *. destruct w as [k' id' m|id' m|id'|id' par m]; cbn [do_write] in B.
    + left. destruct (b_one (y_tables y) k' id') eqn:Q; [congruence|]. rewrite set_one_other in B by (intros [= -> ->]; congruence). congruence.
    + destruct (b_one (y_tables y) KIdentity id') eqn:Q; [|left; congruence].
      destruct (string_dec id id') as [->|Ne]; [|rewrite set_one_other in B by congruence; left; congruence].
      destruct (kind_eqb k KIdentity) eqn:K; [apply kind_eqb_eq in K; subst k|
        rewrite set_one_other in B; [left; congruence|intros [= X]; apply kind_eqb_eq in X; congruence]].
      rewrite set_one_same in B. injection B as <-. right. right. split; [reflexivity|]. now exists m.
    + left. destruct (string_dec id id') as [->|Ne]; [|rewrite set_one_other in B by congruence; congruence].
      destruct (kind_eqb k KIdentity) eqn:K; [apply kind_eqb_eq in K; subst k; rewrite set_one_same in B; discriminate|].
      rewrite set_one_other in B; [congruence|intros [= X]; apply kind_eqb_eq in X; congruence].
    + left. destruct (existsb _ _) in B; cbn in B; congruence.
Qed.

Lemma NoDup_snoc {A} (l : list A) x : NoDup l -> ~ In x l -> NoDup (l ++ [x]).
Proof.
  induction 1 as [|a l N ND IH]; intros I; cbn; [constructor; [intros []|constructor]|]. constructor.
  - intros J. apply in_app_or in J as [J|[J|[]]]; [contradiction|]. subst. apply I. now left.
  - apply IH. intros J. apply I. now right.
Qed.
Lemma find_nodup l : NoDup (map t_id l) -> forall t, In t l -> find (fun t0 => String.eqb (t_id t0) (t_id t)) l = Some t.
Proof.
  induction l as [|a l IH]; intros N t I; [destruct I|]. cbn [map] in N. inversion N as [|? ? N1 N2]; subst. cbn [find].
  destruct (String.eqb_spec (t_id a) (t_id t)) as [E|E].
  - destruct I as [->|I]; [reflexivity|]. exfalso. apply N1. rewrite E. now apply in_map.
  - destruct I as [->|I]; [congruence|auto].
Qed.
Lemma touched_ids id m l : map t_id (map (touched id m) l) = map t_id l.
Proof. rewrite map_map. apply map_ext. intros t. apply touched_id. Qed.
Lemma call_ids o p b : map t_id (b_txns (fst (call o p b))) = map t_id (b_txns b).
Proof.
  destruct p; try reflexivity; cbn.
  - destruct (b_one b k id), (took o); reflexivity.
  - destruct (took o); [|reflexivity]. apply touched_ids.
Qed.
Lemma unique_ids P es y : history P es y -> NoDup (map t_id (b_txns (y_tables y))).
Proof.
  induction 1 as [|es e y H IH Fi Pe]; [constructor|]. destruct e as [id m|i o|w]; [exact IH|..].
  - destruct (nth_error (y_jobs y) i) as [j|] eqn:E; [|cbn [happen]; now rewrite E].
    rewrite (proj1 (happen_step y i o j E)). now rewrite call_ids.
  - cbn [happen y_tables]. destruct w as [k' id' m|id' m|id'|id' par m]; cbn [do_write].
    + now destruct (b_one (y_tables y) k' id').
    + now destruct (b_one (y_tables y) KIdentity id').
    + exact IH.
    + destruct (existsb _ _) eqn:X; [exact IH|]. cbn [b_txns]. rewrite map_app. cbn.
      apply NoDup_snoc; [exact IH|]. intros I. apply in_map_iff in I as (t & E & I).
      assert (Z0 : existsb (fun t => String.eqb (t_id t) id') (b_txns (y_tables y)) = true); [|congruence].
      apply existsb_exists. exists t. split; [exact I|]. now apply String.eqb_eq.
Qed.

(** A confirmed update. *)
Theorem txn_confirmed es y i o j out : history anything es y -> nth_error (y_jobs y) i = Some j -> is_txn (j_id j) = true -> ~ is_done (j_prog j) ->
  nth_error (y_jobs (happen (EStep i o) y)) i = Some {| j_id := j_id j; j_sent := j_sent j; j_prog := Done (MOk out) |} ->
  out = j_sent j
  /\ (exists x, meant y (j_id j) (Txn x) /\ meta_of y (Txn x) <> None)
  /\ (forall k id, meta_of (happen (EStep i o) y) (One k id) = meta_of y (One k id))
  /\ (forall x a, meta_of y (Txn x) = Some a -> exists b, meta_of (happen (EStep i o) y) (Txn x) = Some b
       /\ ((~ meant y (j_id j) (Txn x) /\ b = a)
           \/ (meant y (j_id j) (Txn x) /\ forall key, entry b key = match get key (j_sent j) with Some v => Some v | None => entry a key end))).
Proof.
  intros H E T D A. pose proof (history_inv _ _ H) as Y. destruct (proj1 Y _ _ E) as [J N].
  destruct (happen_step y i o j E) as [E1 E2]. rewrite E2 in A. injection A as A. apply target_txn in T.
  destruct J as [Dn|P|T' X P|k old T' _ _ P]; [contradiction|..]; rewrite P in *.
  - exfalso. unfold update in A. rewrite T in A. cbn in A. destruct o; try discriminate. destruct (existsb _ _); discriminate.
  - cbn in A. destruct o; cbn in A; try discriminate. injection A as <-. split; [reflexivity|].
    apply existsb_exists in X as (t & I & C). apply target_txn in T.
    assert (T2 : prefix "txn_" (j_id j) = true \/ prefix "bulk_" (j_id j) = true) by (apply orb_true_iff; exact T).
    split; [|split].
    + pose proof (find_nodup _ (unique_ids _ _ _ H) t I) as Fd. exists (t_id t). cbn [meant meta_of]. unfold parent_of. rewrite Fd.
      split; [|discriminate]. split; [exact T2|]. unfold concerns in C. apply orb_true_iff in C as [C|C]; apply String.eqb_eq in C; [now left|].
      right. cbn. now rewrite C.
    + intros k id. cbn [meta_of]. rewrite E1. reflexivity.
    + intros x a M. now apply (txn_merged y _ _ x a M T N).
  - congruence.
Qed.

Theorem one_confirmed es y i o j out : history alone es y -> nth_error (y_jobs y) i = Some j -> is_txn (j_id j) = false -> ~ is_done (j_prog j) ->
  nth_error (y_jobs (happen (EStep i o) y)) i = Some {| j_id := j_id j; j_sent := j_sent j; j_prog := Done (MOk out) |} ->
  exists k a b, meant y (j_id j) (One k (j_id j)) /\ meta_of y (One k (j_id j)) = Some a /\ meta_of (happen (EStep i o) y) (One k (j_id j)) = Some b
  /\ (forall key, entry b key = match get key (j_sent j) with Some v => Some v | None => entry a key end)
  /\ (forall key, get key out = entry b key)
  /\ (forall x, x <> One k (j_id j) -> meta_of (happen (EStep i o) y) x = meta_of y x).
Proof.
  intros H E T D A. pose proof (history_inv_alone _ _ H) as Y. destruct (proj1 Y _ _ E) as [J N].
  destruct (happen_step y i o j E) as [E1 E2]. rewrite E2 in A. injection A as A.
  destruct J as [Dn|P|T' X P|k old T' Fr Ob P]; [contradiction|..]; rewrite P in *.
  - exfalso. unfold update in A. destruct (target_of (j_id j)) as [[|k]|]; cbn in A; destruct o; try discriminate.
    + destruct (existsb _ _); discriminate.
    + destruct (b_one _ _ _) as [[]|]; discriminate.
  - apply target_txn in T'. congruence.
  - cbn [call fst snd] in A, E1. destruct o; cbn [told took] in A, E1; try discriminate. injection A as <-. specialize (Fr Logic.I). rewrite Fr in E1.
    exists k, old, (concat old (j_sent j)). split; [now apply meant_one|]. split; [exact Fr|]. cbn [meta_of]. rewrite E1. split; [apply set_one_same|].
    split; [intros key; now apply entry_concat|]. split; [intros key; reflexivity|].
    intros [k' id'|x] Ne; cbn [meta_of]; rewrite E1; [|reflexivity]. apply set_one_other. congruence.
Qed.

(** An id that is of no kind is refused, and an entity that is not there is not found. *)
Theorem refused P es y id m : history P es y -> (forall x, ~ meant y id x \/ meta_of y x = None) ->
  forall i, nth_error (y_jobs y) i = Some {| j_id := id; j_sent := m; j_prog := update id m |} ->
  y_tables (happen (EStep i Fine) y) = y_tables y
  /\ exists a, nth_error (y_jobs (happen (EStep i Fine) y)) i = Some {| j_id := id; j_sent := m; j_prog := Done a |} /\ (a = MErr \/ a = MMissing).
Proof.
  intros H M i E. destruct (happen_step y i Fine _ E) as [E1 E2]. rewrite E1, E2. cbn [j_id j_sent j_prog]. unfold update.
  destruct (target_of id) as [[|k]|] eqn:T.
  - cbn. split; [reflexivity|]. destruct (existsb _ _) eqn:X; [|eexists; split; [reflexivity|auto]]. exfalso.
    apply existsb_exists in X as (t & I & C). apply target_txn in T.
    assert (T2 : prefix "txn_" id = true \/ prefix "bulk_" id = true) by (apply orb_true_iff; exact T).
    pose proof (find_nodup _ (unique_ids _ _ _ H) t I) as Fd. destruct (M (Txn (t_id t))) as [X|X]; cbn [meant meta_of] in X; unfold parent_of in X; rewrite Fd in X; [|discriminate].
    apply X. split; [exact T2|]. unfold concerns in C. apply orb_true_iff in C as [C|C]; apply String.eqb_eq in C; [now left|].
    right. cbn. now rewrite C.
  - cbn. split; [reflexivity|]. destruct (M (One k id)) as [X|X]; [destruct X; now apply meant_one|]. cbn in X. rewrite X.
    eexists. split; [reflexivity|auto].
  - cbn. split; [reflexivity|]. eexists. split; [reflexivity|auto].
Qed.
