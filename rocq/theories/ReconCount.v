(** The counters of a reconciliation are the numbers of its rows; dry runs leave none. *)
From Coq Require Import ZArith QArith Qabs List String Ascii Bool Lia Permutation.
From Verif Require Import Base ReconModel ReconSpec ReconSteps.
Import ListNotations.
Local Open Scope list_scope.

Definition rows (i : nat) (s : store) : list (string * string) :=
  map (fun m => (m_ext m, m_int m)) (filter (fun m => Nat.eqb (m_recon m) i) (d_match s)).
Definition unm (i : nat) (s : store) : list string := map snd (filter (fun x => Nat.eqb (fst x) i) (d_unm s)).
Definition marks (i : nat) (s : store) : list string := map snd (filter (fun x => Nat.eqb (fst x) i) (d_marks s)).

Definition wm (w : worker) : list (string * string) := match w with OMatched _ a | OUnmatched _ a => fst a | _ => [] end.
Definition wu (w : worker) : list string := match w with OMatched _ a | OUnmatched _ a => snd a | _ => [] end.
Definition wr (w : worker) : list (string * string) := match w with OUnmatched _ a => fst a | _ => [] end.
Definition am (x : entry * answer) : list (string * string) := fst (snd x).
Definition au (x : entry * answer) : list string := snd (snd x).
Arguments am !x /.
Arguments au !x /.
Definition dm (r : run) : list (string * string) := flat_map am (r_done r).
Definition du (r : run) : list string := flat_map au (r_done r).
Definition recording (w : worker) : bool := match w with OMatched _ _ | OUnmatched _ _ => true | _ => false end.

Record account (i : nat) (r : run) (s : store) : Prop := {
  ac_matched : r_errs r = false -> r_matched r = List.length (dm r ++ flat_map wm (r_work r));
  ac_unmatched : r_errs r = false -> r_unmatched r = List.length (du r ++ flat_map wu (r_work r));
  ac_rows : r_errs r = false -> j_dry (r_job r) = false -> Permutation (rows i s) (dm r ++ flat_map wr (r_work r));
  ac_unm : r_errs r = false -> j_dry (r_job r) = false -> Permutation (unm i s) (du r);
  ac_dry : j_dry (r_job r) = true -> rows i s = [] /\ unm i s = [] /\ marks i s = [] /\ r_marks r = []
             /\ forall w, In w (r_work r) -> recording w = false;
  ac_status : forall m u, nth_error (d_recon s) i = Some (RCompleted m u) ->
     r_end r = true /\ forallb ogone (r_work r) = true /\ r_errs r = false /\ m = r_matched r /\ u = r_unmatched r }.

Lemma filter_none {A} (f : A -> bool) l : (forall x, In x l -> f x = false) -> filter f l = [].
Proof.
  induction l as [|a l IH]; intros H; simpl; [reflexivity|].
  rewrite (H a (or_introl eq_refl)). apply IH. intros x Hx. apply H. now right.
Qed.
Lemma filter_all {A} (f : A -> bool) l : (forall x, In x l -> f x = true) -> filter f l = l.
Proof.
  induction l as [|a l IH]; intros H; simpl; [reflexivity|].
  rewrite (H a (or_introl eq_refl)). f_equal. apply IH. intros x Hx. apply H. now right.
Qed.

Lemma touches_rows i k s s' : touches i s s' -> k <> i -> rows k s' = rows k s /\ unm k s' = unm k s /\ marks k s' = marks k s.
Proof.
  intros [_ _ (a & Ha & Hb) (c & Hc & Hd) (g & Hg & Hh) _ _] Hk. unfold rows, unm, marks. rewrite Ha, Hc, Hg, !filter_app.
  rewrite (filter_none _ a), (filter_none _ c), (filter_none _ g), !app_nil_r; [auto| | |];
    intros x Hx; apply Nat.eqb_neq; firstorder congruence.
Qed.

Lemma account_other i k r s s' : touches i s s' -> k <> i -> account k r s -> account k r s'.
Proof.
  intros Ht Hk [A B C D E F]. destruct (touches_rows _ _ _ _ Ht Hk) as (H1 & H2 & H3).
  constructor; rewrite ?H1, ?H2, ?H3; auto. rewrite (to_recon _ _ _ Ht k Hk). exact F.
Qed.

Lemma account_same i r s s' : rows i s' = rows i s -> unm i s' = unm i s -> marks i s' = marks i s ->
  d_recon s' = d_recon s -> account i r s -> account i r s'.
Proof. intros H1 H2 H3 H4 [A B C D E F]. constructor; rewrite ?H1, ?H2, ?H3, ?H4; auto. Qed.

Lemma account_dead i r s : account i r s -> account i (with_dead r) s.
Proof. intros [A B C D E F]. constructor; auto. Qed.

Lemma gone_busy (l : list worker) w a : nth_error l w = Some a -> ogone a = false -> forallb ogone l = true -> False.
Proof.
  intros H Hg Ha. rewrite forallb_forall in Ha. apply nth_error_In in H. apply Ha in H. congruence.
Qed.

Lemma read_page_rows i batch off k l s s' p : read_page batch off k l s = (s', p) ->
  rows i s' = rows i s /\ unm i s' = unm i s /\ marks i s' = marks i s /\ d_recon s' = d_recon s.
Proof. intros H. destruct (read_page_cache _ _ _ _ _ _ _ H) as [->|[c ->]]; auto. Qed.
Lemma inner_rows i cfg j e m s a s' a' : inner_move cfg j e m s a = (s', a') ->
  rows i s' = rows i s /\ unm i s' = unm i s /\ marks i s' = marks i s /\ d_recon s' = d_recon s.
Proof.
  destruct a as [q|ext g|]; cbn [inner_move]; intros H; try (injection H as <- <-; auto).
  destruct (gmove cfg j ext e m s g) as [s1 g'] eqn:E. injection H as <- <-.
  destruct (gmove_read _ _ _ _ _ _ _ _ _ E) as [->|(off & p & R)]; [auto|eauto using read_page_rows].
Qed.

Lemma rows_app i l s : rows i (with_matches (d_match s ++ map (fun x => {| m_recon := i; m_ext := fst x; m_int := snd x |}) l) s)
  = rows i s ++ l.
Proof.
  unfold rows. simpl. rewrite filter_app, map_app. f_equal.
  rewrite filter_all.
  - rewrite map_map. simpl. rewrite <- (map_id l) at 2. apply map_ext. intros [a b]; reflexivity.
  - intros x Hx. apply in_map_iff in Hx. destruct Hx as (y & <- & _). apply Nat.eqb_refl.
Qed.
Lemma unm_app i l s : unm i (with_unm (d_unm s ++ map (fun x => (i, x)) l) s) = unm i s ++ l.
Proof.
  unfold unm. simpl. rewrite filter_app, map_app. f_equal.
  rewrite filter_all.
  - rewrite map_map. simpl. apply map_id.
  - intros x Hx. apply in_map_iff in Hx. destruct Hx as (y & <- & _). apply Nat.eqb_refl.
Qed.

Lemma account_new cfg i j n s : rows i s = [] -> unm i s = [] -> marks i s = [] ->
  (forall m u, nth_error (d_recon s) i <> Some (RCompleted m u)) ->
  account i (new_run cfg j n) s /\ account i (failed_run j n) s.
Proof.
  intros H1 H2 H3 H4.
  assert (Hf : forall A (f : worker -> list A), f OIdle = [] -> flat_map f (repeat OIdle (c_workers cfg)) = []).
  { intros A f Hf. induction (c_workers cfg); simpl; [reflexivity|]. now rewrite Hf. }
  split; constructor; unfold dm, du; simpl; rewrite ?H1, ?H2, ?H3, ?Hf by reflexivity; auto.
  - intros _. repeat split; auto. intros w Hw. apply repeat_spec in Hw. now subst w.
  - intros m u H. destruct (H4 _ _ H).
  - intros _. repeat split; auto. intros w [].
  - intros m u H. destruct (H4 _ _ H).
Qed.

Ltac with_flat w Hw :=
  pose proof (flat_set wm _ w _ Hw) as (xm & Fm & Gm); pose proof (flat_set wu _ w _ Hw) as (xu & Fu & Gu);
  pose proof (flat_set wr _ w _ Hw) as (xr & Fr & Gr).

Lemma account_work i r s w a b :
  nth_error (r_work r) w = Some a -> ogone a = false -> wm b = wm a -> wu b = wu a -> wr b = wr a -> recording b = recording a ->
  account i r s -> account i (with_work (set_at w b (r_work r)) r) s.
Proof.
  intros Hw Hg E1 E2 E3 E4 [A B C D E F]. with_flat w Hw. constructor; simpl.
  - intros H. rewrite (A H). change (dm (with_work (set_at w b (r_work r)) r)) with (dm r). rewrite !app_length. f_equal.
    rewrite (Permutation_length Fm), (Permutation_length (Gm b)). now rewrite E1.
  - intros H. rewrite (B H). change (du (with_work (set_at w b (r_work r)) r)) with (du r). rewrite !app_length. f_equal.
    rewrite (Permutation_length Fu), (Permutation_length (Gu b)). now rewrite E2.
  - intros H1 H2. rewrite (C H1 H2). change (dm (with_work (set_at w b (r_work r)) r)) with (dm r).
    apply Permutation_app_head. now rewrite Fr, (Gr b), E3.
  - intros H1 H2. exact (D H1 H2).
  - intros H. destruct (E H) as (e1 & e2 & e3 & e4 & e5). repeat split; auto. intros x Hx. apply set_at_in in Hx.
    destruct Hx as [->|Hx]; [|auto]. rewrite E4. apply e5. eapply nth_error_In; eauto.
  - intros m u H. destruct (F _ _ H) as (_ & X & _). exfalso. eauto using gone_busy.
Qed.

Lemma rstep_account cfg i s r m s' r' : (i < List.length (d_recon s))%nat ->
  rstep cfg i s r m s' r' -> account i r s -> account i r' s'.
Proof.
  intros Hi Hs Ha. inversion Hs; subst; clear Hs.
  - destruct (read_page_rows i _ _ _ _ _ _ _ H0) as (e1 & e2 & e3 & e4).
    apply (account_same i _ _ _ e1 e2 e3 e4). destruct Ha as [A B C D E F]. constructor; auto.
  - destruct Ha as [A B C D E F]. constructor; auto.
  - destruct Ha as [A B C D E F]. constructor; auto.
  - apply (account_work i (with_jobs l r) _ w OIdle); auto. destruct Ha as [A B C D E F]. constructor; auto.
  - apply (account_work i r _ w OIdle); auto.
  - destruct (inner_rows i _ _ _ _ _ _ _ _ H0) as (e1 & e2 & e3 & e4).
    apply (account_same i _ _ _ e1 e2 e3 e4). apply (account_work i r _ w (OBusy e a)); auto.
  - (* answer, dry *)
    destruct Ha as [A B C D E F]. with_flat w H. constructor; unfold processed; simpl.
    + intros X. rewrite (A X). unfold dm in *. simpl in *. rewrite flat_map_app, !app_length. simpl. rewrite app_nil_r.
      rewrite (Permutation_length Fm), (Permutation_length (Gm OIdle)). simpl. lia.
    + intros X. rewrite (B X). unfold du in *. simpl in *. rewrite flat_map_app, !app_length. simpl. rewrite app_nil_r.
      rewrite (Permutation_length Fu), (Permutation_length (Gu OIdle)). simpl. lia.
    + congruence.
    + congruence.
    + intros X. destruct (E X) as (e1 & e2 & e3 & e4 & e5). repeat split; auto. intros x Hx. apply set_at_in in Hx.
      destruct Hx as [->|Hx]; auto.
    + intros m u X. destruct (F _ _ X) as (_ & Y & _). exfalso. eapply gone_busy in H; eauto.
  - destruct Ha as [A B C D E F]. with_flat w H. constructor; simpl.
    + intros X. rewrite (A X). unfold dm in *. simpl in *. rewrite !app_length.
      rewrite (Permutation_length Fm), (Permutation_length (Gm (OMatched e (ms, us)))). simpl. rewrite app_length. lia.
    + intros X. rewrite (B X). unfold du in *. simpl in *. rewrite !app_length.
      rewrite (Permutation_length Fu), (Permutation_length (Gu (OMatched e (ms, us)))). simpl. rewrite app_length. lia.
    + intros X1 X2. rewrite (C X1 X2). unfold dm in *. simpl in *. apply Permutation_app_head. rewrite Fr, (Gr (OMatched e (ms, us))). reflexivity.
    + intros X1 X2. exact (D X1 X2).
    + congruence.
    + intros m u X. destruct (F _ _ X) as (_ & Y & _). exfalso. eapply gone_busy in H; eauto.
  - apply (account_work i r _ w (OMatched e ([], us))); auto.
  - destruct (j_dry (r_job r)) eqn:Dr.
    { exfalso. destruct (ac_dry _ _ _ Ha Dr) as (_ & _ & _ & _ & e5). specialize (e5 _ (nth_error_In _ _ H)). discriminate. }
    destruct Ha as [A B C D E F]. with_flat w H. constructor; simpl.
    + intros X. rewrite (A X). unfold dm in *. simpl in *. rewrite !app_length.
      rewrite (Permutation_length Fm), (Permutation_length (Gm (OUnmatched e (ms, us)))). reflexivity.
    + intros X. rewrite (B X). unfold du in *. simpl in *. rewrite !app_length.
      rewrite (Permutation_length Fu), (Permutation_length (Gu (OUnmatched e (ms, us)))). reflexivity.
    + intros X1 X2. rewrite rows_app, (C X1 X2). unfold dm in *. simpl in *. rewrite <- app_assoc. apply Permutation_app_head.
      rewrite Fr, (Gr (OUnmatched e (ms, us))). simpl. apply Permutation_app_comm.
    + intros X1 X2. exact (D X1 X2).
    + congruence.
    + intros m u X. destruct (F _ _ X) as (_ & Y & _). exfalso. eapply gone_busy in H; eauto.
  - destruct Ha as [A B C D E F]. constructor; unfold stopped; simpl; try discriminate.
    + intros X. destruct (E X) as (e1 & e2 & e3 & e4 & e5). repeat split; auto. intros x Hx. apply set_at_in in Hx.
      destruct Hx as [->|Hx]; auto.
    + intros m u X. destruct (F _ _ X) as (_ & Y & _). exfalso. eapply gone_busy in H; eauto.
  - destruct (j_dry (r_job r)) eqn:Dr.
    { exfalso. destruct (ac_dry _ _ _ Ha Dr) as (_ & _ & _ & _ & e5). specialize (e5 _ (nth_error_In _ _ H)). discriminate. }
    destruct Ha as [A B C D E F]. with_flat w H. constructor; unfold processed; simpl.
    + intros X. rewrite (A X). unfold dm in *. simpl in *. rewrite flat_map_app, !app_length. simpl. rewrite app_nil_r.
      rewrite (Permutation_length Fm), (Permutation_length (Gm OIdle)). simpl. rewrite app_length. lia.
    + intros X. rewrite (B X). unfold du in *. simpl in *. rewrite flat_map_app, !app_length. simpl.
      rewrite (Permutation_length Fu), (Permutation_length (Gu OIdle)). simpl. lia.
    + intros X1 X2. rewrite (C X1 X2). unfold dm in *. simpl in *. rewrite flat_map_app. simpl. rewrite app_nil_r, <- app_assoc.
      apply Permutation_app_head. rewrite Fr, (Gr OIdle). reflexivity.
    + intros X1 X2. rewrite (D X1 X2). unfold du in *. simpl in *. rewrite flat_map_app. simpl. now rewrite app_nil_r.
    + congruence.
    + intros m u X. destruct (F _ _ X) as (_ & Y & _). exfalso. eapply gone_busy in H; eauto.
  - destruct (j_dry (r_job r)) eqn:Dr.
    { exfalso. destruct (ac_dry _ _ _ Ha Dr) as (_ & _ & _ & _ & e5). specialize (e5 _ (nth_error_In _ _ H)). discriminate. }
    destruct Ha as [A B C D E F]. with_flat w H. constructor; unfold processed; simpl.
    + intros X. rewrite (A X). unfold dm in *. simpl in *. rewrite flat_map_app, !app_length. simpl. rewrite app_nil_r.
      rewrite (Permutation_length Fm), (Permutation_length (Gm OIdle)). simpl. rewrite app_length. lia.
    + intros X. rewrite (B X). unfold du in *. simpl in *. rewrite flat_map_app, !app_length. simpl. rewrite app_nil_r.
      rewrite (Permutation_length Fu), (Permutation_length (Gu OIdle)). simpl. rewrite app_length. lia.
    + intros X1 X2. change (rows i (with_unm (d_unm s ++ map (fun x => (i, x)) us) s)) with (rows i s).
      rewrite (C X1 X2). unfold dm in *. simpl in *. rewrite flat_map_app. simpl. rewrite app_nil_r, <- app_assoc.
      apply Permutation_app_head. rewrite Fr, (Gr OIdle). reflexivity.
    + intros X1 X2. rewrite unm_app, (D X1 X2). unfold du in *. simpl in *. rewrite flat_map_app. simpl. now rewrite app_nil_r.
    + congruence.
    + intros m u X. destruct (F _ _ X) as (_ & Y & _). exfalso. eapply gone_busy in H; eauto.
  - destruct Ha as [A B C D E F]. constructor; unfold stopped; simpl; try discriminate.
    + intros X. destruct (E X) as (e1 & e2 & e3 & e4 & e5). repeat split; auto. intros x Hx. apply set_at_in in Hx.
      destruct Hx as [->|Hx]; auto.
    + intros m u X. destruct (F _ _ X) as (_ & Y & _). exfalso. eapply gone_busy in H; eauto.
  - destruct Ha as [A B C D E F]. constructor; auto. intros X. destruct (E X) as (_ & _ & _ & e4 & _). congruence.
  - destruct Ha as [A B C D E F]. constructor; auto.
  - destruct ok; destruct Ha as [A B C D E F]; constructor; auto; simpl.
    + intros m u X. rewrite set_at_same in X by exact Hi. discriminate.
    + intros m u X. destruct (F _ _ X) as (Y & _). congruence.
  - destruct Ha as [A B C D E F]; constructor; auto; simpl.
    intros m u X. rewrite set_at_same in X by exact Hi. destruct ok; [|discriminate]. injection X as <- <-. auto.
Qed.

(** ** All runs *)

Record books (y : system) : Prop := {
  bk_len : List.length (d_recon (y_store y)) = List.length (y_runs y);
  bk_match : forall m, In m (d_match (y_store y)) -> (m_recon m < List.length (y_runs y))%nat;
  bk_unm : forall m, In m (d_unm (y_store y)) -> (fst m < List.length (y_runs y))%nat;
  bk_marks : forall m, In m (d_marks (y_store y)) -> (fst m < List.length (y_runs y))%nat;
  bk_runs : forall i r, nth_error (y_runs y) i = Some r -> account i r (y_store y) }.

Lemma nth_snoc {A} (l : list A) a i x : nth_error (l ++ [a]) i = Some x ->
  nth_error l i = Some x \/ (i = List.length l /\ x = a).
Proof.
  intros H. destruct (Nat.lt_ge_cases i (List.length l)) as [L|L].
  - rewrite nth_error_app1 in H by exact L. auto.
  - rewrite nth_error_app2 in H by exact L. destruct (i - List.length l)%nat as [|n] eqn:E.
    + right. simpl in H. split; [lia|congruence].
    + simpl in H. destruct n; discriminate.
Qed.

Lemma books_step cfg y e y' : books y -> sstep cfg y e y' -> books y'.
Proof.
  intros [A B C D E] Hs. inversion Hs; subst; clear Hs; try (constructor; assumption).
  - constructor; simpl; auto. intros i r H. apply (account_same i r (y_store y)); auto.
  - constructor; simpl; auto. intros i r Hr. apply (account_same i r (y_store y)); auto.
  - constructor; simpl; auto. intros i r H. apply (account_same i r (y_store y)); auto.
  - constructor; simpl; rewrite ?map_length; auto. intros i r H. rewrite nth_error_map in H.
    destruct (nth_error (y_runs y) i) as [r0|] eqn:E0; [|discriminate]. injection H as <-. apply account_dead. auto.
  - constructor; simpl; rewrite ?app_length; simpl; auto.
    + intros m H. apply B in H. lia.
    + intros m H. apply C in H. lia.
    + intros m H. apply D in H. lia.
    + intros i r H. apply nth_snoc in H. destruct H as [H|[-> ->]].
      * pose proof (nth_lt _ _ _ H). destruct (E _ _ H) as [a1 a2 a3 a4 a5 a6]. constructor; auto. simpl.
        intros m u X. rewrite nth_error_app1 in X by lia. auto.
      * set (s' := with_recon _ _).
        assert (X : rows (List.length (y_runs y)) s' = [] /\ unm (List.length (y_runs y)) s' = [] /\ marks (List.length (y_runs y)) s' = []).
        { unfold rows, unm, marks. simpl. rewrite !filter_none; [auto| | |];
            intros x Hx; apply Nat.eqb_neq; (apply B in Hx || apply C in Hx || apply D in Hx); lia. }
        destruct X as (X1 & X2 & X3).
        destruct (account_new cfg (List.length (y_runs y)) j (List.length (d_int (y_store y))) s' X1 X2 X3) as [Y1 Y2].
        { intros m u X. subst s'. simpl in X. rewrite <- A in X. rewrite nth_error_app2, Nat.sub_diag in X by lia. simpl in X.
          destruct ok; discriminate. }
        destruct ok; assumption.
  - pose proof (rstep_touches _ _ _ _ _ _ _ H2) as T. pose proof (nth_lt _ _ _ H) as L.
    constructor; simpl; rewrite ?set_at_length.
    + rewrite (to_len _ _ _ T). exact A.
    + intros x Hx. destruct (to_match _ _ _ T) as (l & El & Hl). rewrite El in Hx. apply in_app_iff in Hx.
      destruct Hx as [Hx|Hx]; [auto|]. rewrite (Hl _ Hx). exact L.
    + intros x Hx. destruct (to_unm _ _ _ T) as (l & El & Hl). rewrite El in Hx. apply in_app_iff in Hx.
      destruct Hx as [Hx|Hx]; [auto|]. rewrite (Hl _ Hx). exact L.
    + intros x Hx. destruct (to_marks _ _ _ T) as (l & El & Hl). rewrite El in Hx. apply in_app_iff in Hx.
      destruct Hx as [Hx|Hx]; [auto|]. rewrite (Hl _ Hx). exact L.
    + intros k x Hx. destruct (set_at_nth _ _ _ _ _ _ H Hx) as [[-> ->]|[Hk Hx']].
      * eapply rstep_account; eauto. lia.
      * eapply account_other; eauto.
Qed.

Lemma books_hold cfg P es y : history cfg P es y -> books y.
Proof.
  apply history_inv; [|intros; eapply books_step; eauto].
  constructor; simpl; [reflexivity|intros ? []|intros ? []|intros ? []|]. intros [|k] r0 H0; discriminate.
Qed.

Lemma all_gone (A : Type) (f : worker -> list A) l : f OGone = [] -> forallb ogone l = true -> flat_map f l = [].
Proof.
  intros Hf. induction l as [|w l IH]; simpl; [reflexivity|]. rewrite andb_true_iff. intros [H1 H2].
  destruct w; try discriminate. now rewrite Hf, IH.
Qed.

Lemma rows_length i y : List.length (matches_of y i) = List.length (rows i (y_store y)).
Proof. unfold matches_of, rows. now rewrite map_length. Qed.

Lemma counts_ok cfg P es y i j m u : history cfg P es y -> run_is y i j -> j_dry j = false -> completed y i m u ->
  m = List.length (matches_of y i) /\ u = List.length (unmatched_of y i).
Proof.
  intros H (r & Hr & <-) Hd Hc. destruct (bk_runs _ (books_hold _ _ _ _ H) _ _ Hr) as [A B C D E F].
  destruct (F _ _ Hc) as (_ & G & Er & -> & ->). rewrite rows_length. rewrite (A Er), (B Er).
  change (unmatched_of y i) with (unm i (y_store y)).
  rewrite (Permutation_length (C Er Hd)), (Permutation_length (D Er Hd)).
  rewrite !all_gone by (reflexivity || assumption). now rewrite !app_nil_r.
Qed.

Lemma dry_ok cfg P es y i j : history cfg P es y -> run_is y i j -> j_dry j = true ->
  matches_of y i = [] /\ unmatched_of y i = [] /\ marked_by y i = [].
Proof.
  intros H (r & Hr & <-) Hd. destruct (ac_dry _ _ _ (bk_runs _ (books_hold _ _ _ _ H) _ _ Hr) Hd) as (A & B & C & _).
  repeat split; auto. unfold matches_of. unfold rows in A. destruct (filter _ _); [reflexivity|discriminate].
Qed.
