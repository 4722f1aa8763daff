(** Without faults no uploaded transaction is lost or processed twice. *)
From Coq Require Import ZArith QArith Qabs List String Ascii Bool Lia Permutation.
From Verif Require Import Base ReconModel ReconSpec ReconRules ReconSteps ReconCount ReconSound.
Import ListNotations.
Local Open Scope string_scope.
Local Open Scope list_scope.

Lemma history_inv2 cfg (P : proviso -> Prop) (J I : system -> Prop) :
  (forall es y, history cfg P es y -> J y) -> I nothing ->
  (forall y e y', J y -> I y -> (forall x, P x -> keeps cfg x e y) -> sstep cfg y e y' -> I y') ->
  forall es y, history cfg P es y -> I y.
Proof. intros HJ H0 Hs. induction 1; [exact H0|]. eapply Hs; eauto using happen_cases. Qed.

Definition held (w : worker) : list entry := match w with OBusy e _ | OMatched e _ | OUnmatched e _ => [e] | _ => [] end.
Definition stock (r : run) : list entry := r_jobs r ++ flat_map held (r_work r) ++ map fst (r_done r).
Definition kept (r : run) (u : list entry) : Prop :=
  match r_fetch r with
  | FRead off => Permutation (firstn off u) (stock r)
  | FPut l off => Permutation (firstn off u) (l ++ stock r)
  | FGone => Permutation u (stock r)
  end.

(** ** Stable parts of the tables *)

Definition extends (s s' : store) : Prop := exists l, d_int s' = d_int s ++ l.
Lemma extends_refl s s' : d_int s' = d_int s -> extends s s'.
Proof. intros H. exists []. now rewrite app_nil_r. Qed.
Lemma firstn_extends {A} n (l m : list A) : (n <= List.length l)%nat -> firstn n (l ++ m) = firstn n l.
Proof. intros H. rewrite firstn_app. replace (n - List.length l)%nat with O by lia. simpl. now rewrite app_nil_r. Qed.

Definition ids_differ (s : store) : Prop := NoDup (map (fun x => n_id (snd x)) (d_ext s)).

Lemma upload_rows_other u v x s : u <> v -> upload_rows u (with_ext (d_ext s ++ [(v, x)]) s) = upload_rows u s.
Proof.
  intros H. unfold upload_rows. simpl. rewrite filter_app, map_app. simpl.
  destruct (String.eqb v u) eqn:E; [apply String.eqb_eq in E; congruence|]. simpl. now rewrite app_nil_r.
Qed.

Lemma NoDup_sub {A B} (f : A -> B) p l : NoDup (map f l) -> NoDup (map f (filter p l)).
Proof.
  induction l as [|a l IH]; simpl; intros H; [constructor|]. inversion H; subst. destruct (p a); simpl; auto.
  constructor; auto. intros X. apply H2. apply in_map_iff in X. destruct X as (b & <- & X). apply filter_In in X.
  apply in_map. tauto.
Qed.
Lemma upload_nodup u s : ids_differ s -> NoDup (map n_id (upload_rows u s)).
Proof. intros H. unfold upload_rows. rewrite map_map. now apply NoDup_sub. Qed.

Lemma ids_differ_hold cfg P es y : history cfg P es y -> ids_differ (y_store y).
Proof.
  apply (history_inv _ _ (fun y => ids_differ (y_store y))); [constructor|]. intros z e y' Hz _ Hs. unfold ids_differ in *. inversion Hs; subst; clear Hs; auto.
  - simpl. rewrite map_app. simpl.
    eapply Permutation_NoDup; [apply Permutation_cons_append|]. constructor; [|exact Hz].
    intros X. apply in_map_iff in X. destruct X as (a & Ha & X).
    assert (Y : existsb (fun z => String.eqb (n_id (snd z)) (n_id x)) (d_ext (y_store z)) = true).
    { apply existsb_exists. exists a. split; [exact X|]. apply String.eqb_eq. exact Ha. }
    congruence.
  - simpl. now rewrite (to_ext _ _ _ (rstep_touches _ _ _ _ _ _ _ H2)).
Qed.

(** ** Pages *)

Lemma firstn_plus {A} n k (l : list A) : firstn (n + k) l = firstn n l ++ firstn k (skipn n l).
Proof. revert l. induction n as [|n IH]; intros l; simpl; [reflexivity|]. destruct l; simpl; [now rewrite firstn_nil|]. now rewrite IH. Qed.
Lemma firstn_length_page {A} b (l : list A) : firstn (List.length (firstn b l)) l = firstn b l.
Proof. revert l. induction b as [|b IH]; intros [|x l]; simpl; auto. now rewrite IH. Qed.
Lemma page_grows {A} b off (l : list A) : firstn (off + List.length (firstn b (skipn off l))) l = firstn off l ++ firstn b (skipn off l).
Proof. now rewrite firstn_plus, firstn_length_page. Qed.
Lemma page_nil {A} b off (l : list A) : (0 < b)%nat -> firstn b (skipn off l) = [] -> firstn off l = l.
Proof.
  intros Hb H. assert (X : skipn off l = []) by (destruct b; [lia|]; destruct (skipn off l); [reflexivity|discriminate]).
  rewrite <- (firstn_skipn off l) at 2. now rewrite X, app_nil_r.
Qed.

Definition exact_pages (cfg : rconfig) (y : system) : Prop :=
  forall r off p, In r (y_runs y) -> fetching r -> many_to_one (r_job r) = false -> d_cache (y_store y) (KExt off) = Some p ->
    p = firstn (c_batch cfg) (skipn off (upload_rows (j_upload (r_job r)) (y_store y))).

Lemma read_page_exact batch off k l s s' p : read_page batch off k l s = (s', p) ->
  (forall p', d_cache s k = Some p' -> p' = firstn batch (skipn off l)) -> p = firstn batch (skipn off l).
Proof.
  unfold read_page. intros H Hc. destruct (d_cache s k) as [[|a x]|] eqn:C; [| injection H as <- <-; auto |];
    destruct (firstn batch (skipn off l)) eqn:F; injection H as <- <-; auto.
Qed.

Lemma cached_exact cfg i s r m s' r' off p : rstep cfg i s r m s' r' -> d_cache s' (KExt off) = Some p ->
  d_cache s (KExt off) = Some p
  \/ (r_fetch r <> FGone /\ many_to_one (r_job r) = false /\ p = firstn (c_batch cfg) (skipn off (upload_rows (j_upload (r_job r)) s))).
Proof.
  intros Hs Hk. inversion Hs; subst; clear Hs; try (left; exact Hk).
  - unfold read_page in H0. unfold key_to_process, rows_to_process in H0. destruct (many_to_one (r_job r)) eqn:M.
    + left. destruct (d_cache s (KInt off0)) as [[|a x]|]; try (injection H0 as <- <-; exact Hk);
        destruct (firstn _ _); injection H0 as <- <-; exact Hk.
    + destruct (d_cache s (KExt off0)) as [[|a x]|] eqn:C; try (injection H0 as <- <-; left; exact Hk);
        destruct (firstn _ _) eqn:F; injection H0 as <- <-; try (left; exact Hk);
        simpl in Hk; unfold put_key in Hk; simpl in Hk; destruct (Nat.eqb off off0) eqn:E; try (left; exact Hk);
        apply Nat.eqb_eq in E; subst off0; injection Hk as <-; right; (repeat split; [congruence|auto]).
  - left. destruct a as [q|ext g|]; cbn [inner_move] in H0; try (injection H0 as <- <-; exact Hk).
    destruct (gmove cfg (r_job r) ext e im s g) as [s1 g1] eqn:G. injection H0 as <- <-.
    destruct (gmove_read _ _ _ _ _ _ _ _ _ G) as [->|(o & p1 & R)]; [exact Hk|].
    destruct (read_page_new _ _ _ _ _ _ _ R) as [->|[-> _]]; [exact Hk|]. simpl in Hk. unfold put_key in Hk.
    destruct ext; exact Hk.
  - left. destruct ok; exact Hk.
Qed.

Lemma exact_hold cfg (P : proviso -> Prop) es y : P OwnPages -> P Settled -> history cfg P es y -> exact_pages cfg y.
Proof.
  intros P1 P2. apply (history_inv2 _ _ (sound true)).
  - intros es' y' H. eapply sound_hold; eauto.
  - intros r off p [].
  - intros z e y' Hz Hx Hk Hs. unfold exact_pages in *. inversion Hs; subst; clear Hs; auto; simpl.
    + intros r off p Hr Hf Hm Hp. rewrite upload_rows_other; [eauto|]. apply (Hk _ P2 _ Hr).
    + intros r off p Hr Hf Hm Hp. unfold put_key in Hp. destruct (key_eqb _ _); [discriminate|]. apply (Hx r); auto.
    + intros r off p Hr [Hf _]. apply in_map_iff in Hr. destruct Hr as (r0 & <- & _). discriminate.
    + intros r off p Hr Hf Hm Hp. destruct (Hk _ P1) as [Z _]. rewrite Z in Hp. discriminate.
    + intros q off p Hq Hf Hm Hp. destruct (rstep_job _ _ _ _ _ _ _ H2) as (Hj & _ & _).
      assert (U : forall u, upload_rows u s' = upload_rows u (y_store z)).
      { intros u. unfold upload_rows. now rewrite (to_ext _ _ _ (rstep_touches _ _ _ _ _ _ _ H2)). }
      rewrite U. pose proof (oc_one _ _ (so_cache _ _ Hz) eq_refl) as One.
      assert (Z : exists k q0, nth_error (y_runs z) k = Some q0 /\ fetching q0 /\ r_job q0 = r_job q).
      { apply In_nth_error in Hq. destruct Hq as (k & Hq). destruct (set_at_nth _ _ _ _ _ _ H Hq) as [[-> ->]|[Hn Hq']].
        - exists i, r. repeat split; auto; eapply fetching_before; eauto.
        - exists k, q. repeat split; auto; apply Hf. }
      destruct Z as (k & q0 & Z1 & Z2 & Z3). rewrite <- Z3 in *.
      destruct (cached_exact _ _ _ _ _ _ _ _ _ H2 Hp) as [X|(X1 & X2 & ->)].
      * apply (Hx q0); auto. eapply nth_error_In; eauto.
      * assert (k = i) by (apply (One k i q0 r Z1 H Z2); split; auto). subst k. assert (q0 = r) by congruence. now subst.
Qed.

(** ** Custody *)

Section Custody.
Variable cfg : rconfig.
Hypothesis Hcfg : sensible cfg.
Variable mine : job -> Prop.
Hypothesis mine_ext : forall j, mine j -> many_to_one j = false.
(* what holds of the reconciler at work on a transaction, and of its answer *)
Variable busy_ok : store -> job -> nat -> entry -> inner -> Prop.
Variable ans_ok : store -> job -> nat -> entry -> answer -> Prop.
Variable cache_ok : store -> nat -> Prop.
Hypothesis busy_new : forall s j n e, mine j -> busy_ok s j n e (new_inner cfg j).
Hypothesis busy_move : forall s j n e m a s' a', mine j -> (n <= List.length (d_int s))%nat -> cache_ok s n ->
  (match m with SFetch ok | GRead ok => ok = true | _ => True end) ->
  busy_ok s j n e a -> inner_move cfg j e m s a = (s', a') -> busy_ok s' j n e a'.
Hypothesis busy_ans : forall s j n e a x, mine j -> busy_ok s j n e a -> answer_of e a = Some x -> ans_ok s j n e x.
Hypothesis busy_stable : forall s s' j n e a, (n <= List.length (d_int s))%nat -> extends s s' -> busy_ok s j n e a -> busy_ok s' j n e a.
Hypothesis ans_stable : forall s s' j n e a, (n <= List.length (d_int s))%nat -> extends s s' -> ans_ok s j n e a -> ans_ok s' j n e a.

Definition work_ok (s : store) (j : job) (n : nat) (w : worker) : Prop :=
  match w with OBusy e a => busy_ok s j n e a | OMatched e a | OUnmatched e a => ans_ok s j n e a | _ => True end.

Record custody (s : store) (r : run) : Prop := {
  cu_len : List.length (r_work r) = c_workers cfg;
  cu_err : r_err r = false;
  cu_errs : r_errs r = false;
  cu_base : (r_base r <= List.length (d_int s))%nat;
  cu_kept : kept r (upload_rows (j_upload (r_job r)) s);
  cu_gone : In OGone (r_work r) -> r_jobs r = [] /\ r_fetch r = FGone;
  cu_work : forall w, In w (r_work r) -> work_ok s (r_job r) (r_base r) w;
  cu_done : forall x, In x (r_done r) -> ans_ok s (r_job r) (r_base r) (fst x) (snd x) }.

Lemma work_stable s s' j n w : (n <= List.length (d_int s))%nat -> extends s s' -> work_ok s j n w -> work_ok s' j n w.
Proof using busy_stable ans_stable. destruct w; simpl; eauto. Qed.

Lemma custody_stable s s' r : extends s s' -> upload_rows (j_upload (r_job r)) s' = upload_rows (j_upload (r_job r)) s ->
  custody s r -> custody s' r.
Proof using busy_stable ans_stable.
  intros E U [A B C D K G W Dn]. pose proof E as (l & El). constructor; auto.
  - rewrite El, app_length. lia.
  - now rewrite U.
  - intros w Hw. eapply work_stable; eauto.
  - intros x Hx. eapply ans_stable; eauto.
Qed.

Lemma custody_with s r r' : r_job r' = r_job r -> r_base r' = r_base r -> r_fetch r' = r_fetch r -> r_jobs r' = r_jobs r ->
  r_work r' = r_work r -> r_err r' = r_err r -> r_errs r' = r_errs r -> r_done r' = r_done r -> custody s r -> custody s r'.
Proof using.
  intros E1 E2 E3 E4 E5 E6 E7 E8 [A B C D K G W Dn].
  constructor; rewrite ?E1, ?E2, ?E3, ?E4, ?E5, ?E6, ?E7, ?E8; auto.
  unfold kept, stock in *. rewrite E3, E4, E5, E8. exact K.
Qed.

(** A worker changes, holding on to its transaction. *)
Lemma custody_work s r w a b : nth_error (r_work r) w = Some a -> held b = held a -> b <> OGone ->
  work_ok s (r_job r) (r_base r) b -> custody s r -> custody s (with_work (set_at w b (r_work r)) r).
Proof using.
  intros Hw Eh Eg Hb [A B C D K G W Dn]. constructor; simpl; auto.
  - rewrite set_at_length. exact A.
  - pose proof (flat_set held _ w _ Hw) as (x & F1 & F2).
    assert (X : Permutation (stock (with_work (set_at w b (r_work r)) r)) (stock r)).
    { unfold stock. simpl. apply Permutation_app_head, Permutation_app_tail. now rewrite F1, (F2 b), Eh. }
    unfold kept in *. simpl. destruct (r_fetch r); now rewrite X.
  - intros X. apply set_at_in in X. destruct X as [X|X]; [congruence|auto].
  - intros x Hx. apply set_at_in in Hx. destruct Hx as [->|Hx]; auto.
Qed.

Lemma kept_same r r' u : r_fetch r' = r_fetch r -> Permutation (stock r') (stock r) -> kept r u -> kept r' u.
Proof using. unfold kept. intros -> X K. destruct (r_fetch r); now rewrite X. Qed.

Lemma custody_processed s r w e a x : nth_error (r_work r) w = Some a -> held a = [e] ->
  ans_ok s (r_job r) (r_base r) e x -> custody s r -> custody s (processed w e x r).
Proof using.
  intros Hw Eh Ha [A B C D K G W Dn]. constructor; simpl; auto.
  - rewrite set_at_length. exact A.
  - pose proof (flat_set held _ w _ Hw) as (z & F1 & F2). revert K. apply kept_same; [reflexivity|].
    unfold stock. simpl. apply Permutation_app_head. rewrite F1, (F2 OIdle), Eh, map_app. simpl.
    rewrite app_assoc. rewrite Permutation_app_comm. reflexivity.
  - intros X. apply set_at_in in X. destruct X as [X|X]; [congruence|auto].
  - intros y Hy. apply set_at_in in Hy. destruct Hy as [->|Hy]; [exact I|auto].
  - intros y Hy. apply in_app_iff in Hy. destruct Hy as [Hy|[<-|[]]]; auto.
Qed.

Lemma rstep_custody i s r m s' r' : mine (r_job r) -> faultless m -> cache_ok s (r_base r) -> r_dead r = false ->
  (fetching r -> forall off p, d_cache s (KExt off) = Some p -> p = firstn (c_batch cfg) (skipn off (upload_rows (j_upload (r_job r)) s))) ->
  rstep cfg i s r m s' r' -> custody s r -> custody s' r'.
Proof using Hcfg mine_ext busy_new busy_move busy_ans busy_stable ans_stable.
  intros Hm Hf Hc Hd Hp Hs Hr. pose proof (rstep_touches _ _ _ _ _ _ _ Hs) as T.
  assert (E : extends s s') by (apply extends_refl, (to_int _ _ _ T)).
  assert (U : upload_rows (j_upload (r_job r)) s' = upload_rows (j_upload (r_job r)) s).
  { unfold upload_rows. now rewrite (to_ext _ _ _ T). }
  assert (Sb : forall q, r_job q = r_job r -> custody s q -> custody s' q).
  { intros q Eq Hq. apply (custody_stable s); auto. now rewrite Eq. }
  pose proof Hr as [A B C D K G W Dn]. inversion Hs; subst; clear Hs; simpl in Hf; try discriminate.
  - (* a page *)
    apply Sb; [reflexivity|]. unfold key_to_process, rows_to_process in H0. rewrite (mine_ext _ Hm) in H0.
    apply read_page_exact in H0; [|apply Hp; split; congruence].
    unfold kept in K. rewrite H in K. constructor; simpl; auto.
    + unfold kept, fetched. simpl. destruct p as [|e p].
      * rewrite (page_nil (c_batch cfg) off) in K; [exact K|apply Hcfg|auto].
      * change (Permutation (firstn (off + List.length (e :: p)) (upload_rows (j_upload (r_job r)) s)) ((e :: p) ++ stock r)).
        rewrite H0, page_grows, K. apply Permutation_app_comm.
    + intros X. destruct (G X) as [G1 G2]. congruence.
  - (* a transaction on the channel *)
    unfold kept in K. rewrite H in K. constructor; simpl; auto.
    + unfold kept, after_put. simpl. unfold stock in *. simpl in *.
      assert (X : Permutation (firstn off (upload_rows (j_upload (r_job r)) s'))
                    (l ++ (r_jobs r ++ [e]) ++ flat_map held (r_work r) ++ map fst (r_done r))).
      { rewrite K. rewrite <- (Permutation_middle (r_jobs r) [] e). rewrite !app_nil_r. simpl.
        rewrite <- Permutation_middle. reflexivity. }
      destruct l; exact X.
    + intros X. destruct (G X) as [G1 G2]. congruence.
  - (* taken *)
    assert (K' : custody s' (with_work (set_at w (OBusy e (new_inner cfg (r_job r))) (r_work r)) (with_jobs l r))); [|exact K'].
    constructor; simpl; auto.
    + rewrite set_at_length. exact A.
    + pose proof (flat_set held _ w _ H) as (z & F1 & F2). revert K. apply kept_same; [reflexivity|].
      unfold stock. simpl. rewrite H0. rewrite (F2 (OBusy e (new_inner cfg (r_job r)))), F1. simpl.
      now rewrite <- Permutation_middle.
    + intros X. apply set_at_in in X. destruct X as [X|X]; [discriminate|]. destruct (G X) as [G1 G2]. congruence.
    + intros x Hx. apply set_at_in in Hx. destruct Hx as [->|Hx]; [|auto]. apply busy_new. exact Hm.
  - (* leaves *)
    constructor; simpl; auto.
    + rewrite set_at_length. exact A.
    + pose proof (flat_set held _ w _ H) as (z & F1 & F2). revert K. apply kept_same; [reflexivity|].
      unfold stock. simpl. now rewrite (F2 OGone), F1.
    + intros x Hx. apply set_at_in in Hx. destruct Hx as [->|Hx]; [exact I|auto].
  - assert (X : custody s' (with_work (set_at w (OBusy e a') (r_work r)) r)); [|exact X].
    apply (custody_work s' r w (OBusy e a)); [exact H|reflexivity|discriminate| |now apply Sb]. simpl.
    apply (busy_move s _ _ _ im a); auto. exact (W _ (nth_error_In _ _ H)).
  - (* answers *)
    apply (custody_processed _ (with_orphans (orphaned a e r) (with_counts (r_matched r + List.length ms) (r_unmatched r + List.length us) r)) w e (OBusy e a)); auto.
    + simpl. apply (busy_ans _ _ _ _ a); auto. exact (W _ (nth_error_In _ _ H)).
    + revert Hr. apply custody_with; auto.
  - apply (custody_work _ (with_orphans (orphaned a e r) (with_counts (r_matched r + List.length ms) (r_unmatched r + List.length us) r)) w (OBusy e a)); auto.
    + discriminate.
    + simpl. apply (busy_ans _ _ _ _ a); auto. exact (W _ (nth_error_In _ _ H)).
    + revert Hr. apply custody_with; auto.
  - apply (custody_work _ r w (OMatched e ([], us))); auto; [discriminate|]. exact (W _ (nth_error_In _ _ H)).
  - apply (custody_with _ (with_work (set_at w (OUnmatched e (ms, us)) (r_work r)) r)); auto.
    apply Sb; [reflexivity|]. apply (custody_work _ r w (OMatched e (ms, us))); auto; [discriminate|]. exact (W _ (nth_error_In _ _ H)).
  - apply (custody_processed _ r w e (OUnmatched e (ms, []))); auto. exact (W _ (nth_error_In _ _ H)).
  - apply Sb; [reflexivity|]. apply (custody_processed _ r w e (OUnmatched e (ms, us))); auto. exact (W _ (nth_error_In _ _ H)).
  - apply Sb; [reflexivity|]. revert Hr. apply custody_with; auto.
  - revert Hr. apply custody_with; auto.
  - apply Sb; [reflexivity|]. revert Hr. apply custody_with; auto.
  - apply Sb; [reflexivity|]. revert Hr. apply custody_with; auto.
Qed.

(** A run that is in custody, or that failed at its start. *)
Definition settled_run (y : system) (i : nat) (r : run) : Prop :=
  mine (r_job r) -> custody (y_store y) r \/ (nth_error (d_recon (y_store y)) i = Some RFailed /\ r_end r = true /\ r_work r = [] /\ r_fetch r = FGone /\ r_jobs r = []).

Lemma custody_hold (P : proviso -> Prop) es y : P OwnPages -> P Settled -> P NoFault ->
  (forall es y, history cfg P es y -> forall i r, nth_error (y_runs y) i = Some r -> cache_ok (y_store y) (r_base r)) ->
  history cfg P es y -> forall i r, nth_error (y_runs y) i = Some r -> settled_run y i r.
Proof using Hcfg mine_ext busy_new busy_move busy_ans busy_stable ans_stable.
  intros P1 P2 P3 HC.
  apply (history_inv2 _ _ (fun y => books y /\ exact_pages cfg y /\ forall i r, nth_error (y_runs y) i = Some r -> cache_ok (y_store y) (r_base r)) (fun y => forall i r, nth_error (y_runs y) i = Some r -> settled_run y i r)).
  - intros es' y' H. split; [eapply books_hold; eauto|]. split; [eapply exact_hold; eauto|eauto].
  - intros [|n] r H; discriminate.
  - intros z e y' (Bz & Ez & Cz) Hz Hk Hs. inversion Hs; subst; clear Hs; auto; simpl.
    + intros i r Hr Hm. destruct (Hz _ _ Hr Hm) as [X|X]; [left|right; exact X]. revert X. apply custody_stable; [|reflexivity].
      exists [t]. reflexivity.
    + intros i r Hr Hm. destruct (Hz _ _ Hr Hm) as [X|X]; [left|right; exact X]. revert X. apply custody_stable; [now apply extends_refl|].
      apply upload_rows_other. apply (Hk _ P2 r). eapply nth_error_In; eauto.
    + intros i r Hr Hm. destruct (Hz _ _ Hr Hm) as [X|X]; [left|right; exact X]. revert X. apply custody_stable; [now apply extends_refl|reflexivity].
    + intros i r Hr Hm. rewrite nth_error_map in Hr. destruct (nth_error (y_runs z) i) as [r0|] eqn:E0; [|discriminate]. injection Hr as <-.
      destruct (Hz _ _ E0 Hm) as [X|X]; [left|right; exact X]. revert X. apply custody_with; auto.
    + intros i r Hr Hm. apply nth_snoc in Hr. destruct Hr as [Hr|[-> ->]].
      * destruct (Hz _ _ Hr Hm) as [X|(X1 & X2)]; [left|right].
        -- revert X. apply custody_stable; [now apply extends_refl|reflexivity].
        -- simpl. split; [|exact X2]. rewrite nth_error_app1; [exact X1|]. eapply nth_lt; eauto.
      * destruct ok; [left|right].
        -- constructor; simpl; auto.
           ++ apply repeat_length.
           ++ unfold kept, stock. simpl. rewrite app_nil_r.
              replace (flat_map held (repeat OIdle (c_workers cfg))) with (@nil entry); [reflexivity|].
              induction (c_workers cfg); auto.
           ++ intros X. apply repeat_spec in X. discriminate.
           ++ intros w X. apply repeat_spec in X. subst w. exact I.
           ++ intros x [].
        -- simpl. repeat split; auto. rewrite <- (bk_len _ Bz). rewrite nth_error_app2, Nat.sub_diag by lia. reflexivity.
    + intros k q Hq Hm. destruct (set_at_nth _ _ _ _ _ _ H Hq) as [[-> ->]|[Hn Hq']].
      * destruct (rstep_job _ _ _ _ _ _ _ H2) as (Hj & _ & _). rewrite Hj in Hm. destruct (Hz _ _ H Hm) as [X|(X1 & X2 & X3 & X4 & X5)].
        -- left. eapply rstep_custody; eauto.
           ++ exact (Hk _ P3).
           ++ intros Hf off p Hp. apply (Ez r); auto. eapply nth_error_In; eauto.
        -- right. inversion H2; subst; clear H2; rewrite ?X3 in *; simpl; try (match goal with W : nth_error [] ?w = Some _ |- _ => destruct w; discriminate end);
             try congruence; repeat split; auto; try congruence.
      * destruct (Hz _ _ Hq' Hm) as [X|(X1 & X2)]; [left|right].
        -- revert X. pose proof (rstep_touches _ _ _ _ _ _ _ H2) as T. apply custody_stable.
           ++ apply extends_refl, (to_int _ _ _ T).
           ++ simpl. unfold upload_rows. now rewrite (to_ext _ _ _ T).
        -- simpl. split; [|exact X2]. now rewrite (to_recon _ _ _ (rstep_touches _ _ _ _ _ _ _ H2)).
Qed.

(** When the run has completed, every uploaded transaction was processed once. *)
Lemma custody_final (P : proviso -> Prop) es y i r m u : P OwnPages -> P Settled -> P NoFault ->
  (forall es y, history cfg P es y -> forall i r, nth_error (y_runs y) i = Some r -> cache_ok (y_store y) (r_base r)) ->
  history cfg P es y -> nth_error (y_runs y) i = Some r -> mine (r_job r) -> completed y i m u ->
  Permutation (upload_rows (j_upload (r_job r)) (y_store y)) (map fst (r_done r))
  /\ forall x, In x (r_done r) -> ans_ok (y_store y) (r_job r) (r_base r) (fst x) (snd x).
Proof using Hcfg mine_ext busy_new busy_move busy_ans busy_stable ans_stable.
  intros P1 P2 P3 HC H Hr Hm Hc. pose proof (bk_runs _ (books_hold _ _ _ _ H) _ _ Hr) as Ac.
  destruct (ac_status _ _ _ Ac _ _ Hc) as (_ & G & _).
  destruct (custody_hold P es y P1 P2 P3 HC H _ _ Hr Hm) as [[A B C D K Gn W Dn]|(X & _)]; [|unfold completed in Hc; congruence].
  split; [|exact Dn].
  assert (X : In OGone (r_work r)).
  { destruct (r_work r) as [|w l]; [simpl in A; destruct Hcfg; lia|]. simpl in G. apply andb_true_iff in G. destruct G as [G _].
    destruct w; try discriminate. now left. }
  destruct (Gn X) as [J F]. unfold kept in K. rewrite F in K. unfold stock in K. rewrite J in K.
  rewrite (all_gone _ held) in K by auto. exact K.
Qed.
End Custody.

(** ** From answers to rows *)

Lemma filter_flat_other {A} (f : A -> list (string * string)) (id : string) l (g : A -> string) :
  (forall a p, In a l -> In p (f a) -> fst p = g a) -> ~ In id (map g l) ->
  filter (fun p => String.eqb (fst p) id) (flat_map f l) = [].
Proof.
  intros H Hn. apply filter_none. intros p Hp. apply in_flat_map in Hp. destruct Hp as (a & Ha & Hp).
  apply String.eqb_neq. rewrite (H _ _ Ha Hp). intros E. apply Hn. rewrite <- E. now apply in_map.
Qed.
Lemma count_flat_other {A} (f : A -> list string) (id : string) l (g : A -> string) :
  (forall a p, In a l -> In p (f a) -> p = g a) -> ~ In id (map g l) -> count_occ string_dec (flat_map f l) id = O.
Proof.
  intros H Hn. apply count_occ_not_In. intros Hp. apply in_flat_map in Hp. destruct Hp as (a & Ha & Hp).
  apply Hn. rewrite (H _ _ Ha Hp). now apply in_map.
Qed.
Lemma count_perm (l l' : list string) x : Permutation l l' -> count_occ string_dec l x = count_occ string_dec l' x.
Proof. intros H. apply Permutation_count_occ. exact H. Qed.

Lemma matched_rows y i x : matched_to y i x = map snd (filter (fun p => String.eqb (fst p) x) (rows i (y_store y))).
Proof.
  unfold matched_to, matches_of, rows. induction (filter _ (d_match (y_store y))) as [|m l IH]; simpl; [reflexivity|].
  destruct (String.eqb (m_ext m) x); simpl; now rewrite IH.
Qed.

Lemma one_answer cfg P es y i r m u e : history cfg P es y -> nth_error (y_runs y) i = Some r -> j_dry (r_job r) = false ->
  completed y i m u ->
  Permutation (upload_rows (j_upload (r_job r)) (y_store y)) (map fst (r_done r)) ->
  (forall x, In x (r_done r) -> (forall p, In p (fst (snd x)) -> fst p = n_id (fst x)) /\ (forall z, In z (snd (snd x)) -> z = n_id (fst x))) ->
  uploaded y (j_upload (r_job r)) e ->
  exists a, In (e, a) (r_done r) /\ Permutation (matched_to y i (n_id e)) (map snd (fst a)) /\ times_unmatched y i (n_id e) = List.length (snd a).
Proof.
  intros H Hr Hd Hc Hp Ha He. pose proof (bk_runs _ (books_hold _ _ _ _ H) _ _ Hr) as [A B C D E F].
  destruct (F _ _ Hc) as (_ & G & Er & -> & ->). specialize (C Er Hd). specialize (D Er Hd).
  rewrite (all_gone _ wr) in C by auto. rewrite app_nil_r in C.
  pose proof (upload_nodup (j_upload (r_job r)) _ (ids_differ_hold _ _ _ _ H)) as Nd.
  assert (In e (map fst (r_done r))) as Hin by (rewrite <- Hp; now apply ext_rows_in).
  apply in_map_iff in Hin. destruct Hin as ([e' a] & X & Hin). simpl in X. subst e'. exists a. split; [exact Hin|].
  rewrite (Permutation_map n_id Hp), map_map in Nd.
  destruct (in_split _ _ Hin) as (d1 & d2 & Ed). rewrite Ed in Nd. rewrite map_app in Nd. simpl in Nd.
  apply NoDup_remove_2 in Nd. rewrite in_app_iff in Nd.
  assert (N1 : ~ In (n_id e) (map (fun x : entry * answer => n_id (fst x)) d1)) by tauto.
  assert (N2 : ~ In (n_id e) (map (fun x : entry * answer => n_id (fst x)) d2)) by tauto.
  assert (S1 : forall x, In x d1 -> In x (r_done r)) by (intros x Hx; rewrite Ed; apply in_app_iff; now left).
  assert (S2 : forall x, In x d2 -> In x (r_done r)) by (intros x Hx; rewrite Ed; apply in_app_iff; right; now right).
  split.
  - rewrite matched_rows.
    assert (X : Permutation (filter (fun p => String.eqb (fst p) (n_id e)) (rows i (y_store y))) (filter (fun p => String.eqb (fst p) (n_id e)) (dm r))).
    { clear -C. induction C; simpl; auto.
      - destruct (String.eqb (fst x) (n_id e)); auto.
      - destruct (String.eqb (fst x) (n_id e)), (String.eqb (fst y0) (n_id e)); auto. apply perm_swap.
      - etransitivity; eauto. }
    rewrite X. apply Permutation_map. unfold dm. rewrite Ed, flat_map_app. simpl. rewrite !filter_app.
    rewrite (filter_flat_other am (n_id e) d1 (fun x => n_id (fst x))); auto; [|intros x p Hx; apply (Ha _ (S1 _ Hx))].
    rewrite (filter_flat_other am (n_id e) d2 (fun x => n_id (fst x))); auto; [|intros x p Hx; apply (Ha _ (S2 _ Hx))].
    rewrite app_nil_r. simpl. rewrite filter_all; [reflexivity|]. intros p Hpp. apply String.eqb_eq. apply (proj1 (Ha _ Hin)). exact Hpp.
  - unfold times_unmatched. change (unmatched_of y i) with (unm i (y_store y)). rewrite (count_perm _ _ _ D).
    unfold du. rewrite Ed, flat_map_app. simpl. rewrite !count_occ_app.
    rewrite (count_flat_other au (n_id e) d1 (fun x => n_id (fst x))); auto; [|intros x p Hx; apply (Ha _ (S1 _ Hx))].
    rewrite (count_flat_other au (n_id e) d2 (fun x => n_id (fst x))); auto; [|intros x p Hx; apply (Ha _ (S2 _ Hx))].
    pose proof (proj2 (Ha _ Hin)) as Hz. unfold au. simpl in *. rewrite Nat.add_0_r.
    induction (snd a) as [|z l IH]; [reflexivity|]. rewrite count_occ_cons_eq by (apply Hz; now left). simpl. f_equal. apply IH. intros; apply Hz; now right.
Qed.
