(** Every match is justified by the rules. *)
From Coq Require Import ZArith QArith Qabs List String Ascii Bool Lia Permutation.
From Verif Require Import Base ReconModel ReconSpec ReconRules ReconSteps ReconCount.
Import ListNotations.
Local Open Scope list_scope.
Local Open Scope string_scope.

(** ** Groups *)

Lemma fold_total l : forall q, (fold_left (fun q e => q + n_amount e) l q == q + fold_right (fun e q => n_amount e + q) 0 l)%Q.
Proof.
  induction l as [|e l IH]; intros q; simpl; [ring|]. rewrite IH. ring.
Qed.
Lemma fold_earliest l : forall d, let f := fold_left (fun d t => if (n_date t <? d)%Z then n_date t else d) l d in
  (f = d \/ exists t, In t l /\ f = n_date t) /\ (f <= d)%Z /\ forall t, In t l -> (f <= n_date t)%Z.
Proof.
  induction l as [|e l IH]; intros d; simpl; [repeat split; auto; try lia; intros t []|].
  destruct (n_date e <? d)%Z eqn:E.
  - apply Z.ltb_lt in E. destruct (IH (n_date e)) as (A & B & C). repeat split.
    + destruct A as [A|(t & A1 & A2)]; right; eauto.
    + lia.
    + intros t [<-|H]; auto.
  - apply Z.ltb_ge in E. destruct (IH d) as (A & B & C). repeat split; auto.
    + destruct A as [A|(t & A1 & A2)]; [auto|right; eauto].
    + intros t [<-|H]; [lia|auto].
Qed.
Lemma join_concat l : join_bar l = String.concat " | " l.
Proof. induction l as [|a [|b l] IH]; auto.
  change (a ++ " | " ++ join_bar (b :: l) = a ++ " | " ++ String.concat " | " (b :: l)). now rewrite IH. Qed.

Lemma group_stands l : l <> [] -> stands_for l (group_entry l).
Proof.
  intros Hl. constructor; cbn [group_entry n_amount n_date n_desc n_ref n_cur].
  - rewrite fold_total. ring.
  - destruct l as [|e l]; [congruence|]. cbn [earliest]. destruct (fold_earliest l (n_date e)) as (A & B & C). split.
    + destruct A as [A|(t & A1 & A2)]; [exists e|exists t]; simpl; auto.
    + intros t [<-|H]; auto.
  - apply join_concat.
  - apply join_concat.
  - unfold common_currency. pose proof (nodup_In string_dec (map n_cur l)) as Hn. pose proof (NoDup_nodup string_dec (map n_cur l)) as Hd.
    destruct (nodup string_dec (map n_cur l)) as [|c [|c' m]] eqn:E.
    + exfalso. destruct l as [|e l]; [congruence|]. apply (Hn (n_cur e)). now left.
    + left. intros t Ht. assert (X : In (n_cur t) [c]) by (apply Hn, in_map, Ht). destruct X as [X|[]]. auto.
    + right. split; [reflexivity|]. inversion Hd; subst.
      assert (X : In c (map n_cur l)) by (apply Hn; now left). assert (Y : In c' (map n_cur l)) by (apply Hn; right; now left).
      apply in_map_iff in X, Y. destruct X as (t & <- & X), Y as (t' & <- & Y). exists t, t'. repeat split; auto.
      intros Z. apply H1. left. auto.
Qed.

(** ** The invariant *)

Definition grows (s s' : store) : Prop := (forall x, In x (d_int s) -> In x (d_int s')) /\ (forall x, In x (d_ext s) -> In x (d_ext s')).
Lemma grows_refl s : grows s s.
Proof. split; auto. Qed.
Lemma touches_grows i s s' : touches i s s' -> grows s s'.
Proof. intros T. split; [rewrite (to_int _ _ _ T)|rewrite (to_ext _ _ _ T)]; auto. Qed.

Section Own.
Variable o : bool.     (* whether the pages are the run's own *)

Definition src (j : job) (s : store) (e : entry) : Prop :=
  if many_to_one j then In e (d_int s) else exists u, In (u, e) (d_ext s) /\ (o = true -> u = j_upload j).
Definition okrow (j : job) (s : store) (x : string * string) : Prop :=
  exists u, (o = true -> u = j_upload j) /\ justified s j u (fst x) (snd x).
Definition okm (j : job) (s : store) (ms : list (string * string)) : Prop := forall x, In x ms -> okrow j s x.
Definition gsrc (j : job) (ext : bool) (s : store) (t : entry) : Prop :=
  column (j_group j) t <> "" /\ if ext then In (j_upload j, t) (d_ext s) else In t (d_int s).
Definition inf (f : fetcher) : list entry := match f with FPut l _ => l | _ => [] end.

Record oksearch (j : job) (s : store) (e : entry) (q : search) : Prop := {
  os_fetch : forall t, In t (inf (q_fetch q)) -> In t (d_int s);
  os_jobs : forall t, In t (q_jobs q) -> In t (d_int s);
  os_send : forall t, In (SSend t) (q_work q) -> In t (d_int s) /\ fulfils (j_rules j) e t;
  os_ms : okm j s (q_ms q) }.
Record okgroup (j : job) (ext : bool) (s : store) (g : gsearch) : Prop := {
  og_look : forall p t, In (GLook p) (g_go g) -> In t p -> gsrc j ext s t;
  og_ms : okm j s (g_ms g) }.
Definition okinner (j : job) (s : store) (e : entry) (a : inner) : Prop :=
  match a with
  | IOne q => j_strategy j = "one_to_one" /\ oksearch j s e q
  | IMany ext g => j_strategy j = (if ext then "many_to_one" else "one_to_many") /\ okgroup j ext s g
  | INone => True
  end.
Definition okworker (j : job) (s : store) (w : worker) : Prop :=
  match w with
  | OBusy e a => src j s e /\ okinner j s e a
  | OMatched _ a | OUnmatched _ a => okm j s (fst a)
  | _ => True
  end.
Record okrun (s : store) (r : run) : Prop := {
  or_fetch : forall e, In e (inf (r_fetch r)) -> src (r_job r) s e;
  or_jobs : forall e, In e (r_jobs r) -> src (r_job r) s e;
  or_work : forall w, In w (r_work r) -> okworker (r_job r) s w }.

Definition fetching (r : run) : Prop := r_dead r = false /\ r_fetch r <> FGone.
Record okcache (y : system) : Prop := {
  oc_ext : forall off p e, d_cache (y_store y) (KExt off) = Some p -> In e p -> exists u, In (u, e) (d_ext (y_store y));
  oc_own : o = true -> forall r off p e, In r (y_runs y) -> fetching r -> d_cache (y_store y) (KExt off) = Some p -> In e p ->
     In (j_upload (r_job r), e) (d_ext (y_store y));
  oc_one : o = true -> forall i k a b, nth_error (y_runs y) i = Some a -> nth_error (y_runs y) k = Some b -> fetching a -> fetching b -> i = k;
  oc_int : forall off p e, d_cache (y_store y) (KInt off) = Some p -> In e p -> In e (d_int (y_store y));
  oc_gint : forall c off p e, d_cache (y_store y) (KGroupInt c off) = Some p -> In e p -> column c e <> "" /\ In e (d_int (y_store y));
  oc_gext : forall u c off p e, d_cache (y_store y) (KGroupExt u c off) = Some p -> In e p ->
     column c e <> "" /\ In (u, e) (d_ext (y_store y)) }.

Record sound (y : system) : Prop := {
  so_cache : okcache y;
  so_runs : forall r, In r (y_runs y) -> okrun (y_store y) r;
  so_rows : forall m, In m (d_match (y_store y)) ->
     exists r, nth_error (y_runs y) (m_recon m) = Some r /\ okrow (r_job r) (y_store y) (m_ext m, m_int m) }.

Lemma src_grows j s s' e : grows s s' -> src j s e -> src j s' e.
Proof. intros [A B]. unfold src. destruct (many_to_one j); [apply A|]. intros (u & X & Y). exists u. split; auto. Qed.
Lemma okrow_grows j s s' x : grows s s' -> okrow j s x -> okrow j s' x.
Proof.
  intros [A B] (u & O & H). exists u. split; [exact O|]. inversion H.
  - eapply by_pair; eauto.
  - eapply by_internal_group with (l := l); eauto.
  - eapply by_external_group with (l := l); eauto.
Qed.
Lemma okm_grows j s s' ms : grows s s' -> okm j s ms -> okm j s' ms.
Proof. intros G H x Hx. eapply okrow_grows; eauto. Qed.
Lemma gsrc_grows j ext s s' t : grows s s' -> gsrc j ext s t -> gsrc j ext s' t.
Proof. intros [A B] [H1 H2]. split; [exact H1|]. destruct ext; auto. Qed.
Lemma oksearch_grows j s s' e q : grows s s' -> oksearch j s e q -> oksearch j s' e q.
Proof.
  intros G [A B C D]. destruct G as [G1 G2]. constructor; auto.
  - intros t H. destruct (C _ H). auto.
  - eapply okm_grows; eauto. split; auto.
Qed.
Lemma okinner_grows j s s' e a : grows s s' -> okinner j s e a -> okinner j s' e a.
Proof.
  intros G. destruct a as [q|ext g|]; simpl; auto.
  - intros [A B]. split; [exact A|]. eapply oksearch_grows; eauto.
  - intros [A [B C]]. split; [exact A|]. constructor; [intros; eapply gsrc_grows; eauto|eapply okm_grows; eauto].
Qed.
Lemma okworker_grows j s s' w : grows s s' -> okworker j s w -> okworker j s' w.
Proof.
  intros G. destruct w; simpl; auto; try (apply okm_grows; exact G).
  intros [A B]. split; [eapply src_grows|eapply okinner_grows]; eauto.
Qed.
Lemma okrun_grows s s' r : grows s s' -> okrun s r -> okrun s' r.
Proof. intros G [A B C]. constructor; intros; [eapply src_grows|eapply src_grows|eapply okworker_grows]; eauto. Qed.

(** ** Moves of a search *)

Lemma page_in (f : entry -> bool) n off l e : In e (firstn n (skipn off (filter f l))) -> In e l.
Proof.
  intros H. assert (X : In e (filter f l)).
  { rewrite <- (firstn_skipn off (filter f l)). apply in_app_iff. right. rewrite <- (firstn_skipn n (skipn off _)). apply in_app_iff. now left. }
  apply filter_In in X. tauto.
Qed.
Lemma page_of {A} n off (l : list A) e : In e (firstn n (skipn off l)) -> In e l.
Proof.
  intros H. rewrite <- (firstn_skipn off l). apply in_app_iff. right. rewrite <- (firstn_skipn n (skipn off l)). apply in_app_iff. now left.
Qed.
Lemma in_fetched l off e : In e (inf (fetched l off)) -> In e l.
Proof. destruct l; simpl; auto. Qed.
Lemma in_after_put l off e : In e (inf (after_put l off)) -> In e l.
Proof. destruct l; simpl; auto. Qed.

Lemma strategy_one j : j_strategy j = "one_to_one" -> many_to_one j = false.
Proof. unfold many_to_one. intros ->. reflexivity. Qed.
Lemma strategy_many j : j_strategy j = "one_to_many" -> many_to_one j = false.
Proof. unfold many_to_one. intros ->. reflexivity. Qed.
Lemma strategy_ext j : j_strategy j = "many_to_one" -> many_to_one j = true.
Proof. unfold many_to_one. intros ->. reflexivity. Qed.

Lemma smove_ok cfg j s e m q : j_strategy j = "one_to_one" -> src j s e -> oksearch j s e q ->
  oksearch j s e (smove cfg (j_rules j) e m s q).
Proof.
  intros Hj He Hq. pose proof Hq as [A B C D]. destruct m as [ok| |v|err| | |]; cbn [smove]; auto.
  - destruct (q_fetch q) as [off|l off|] eqn:F; auto. destruct ok; constructor; simpl; auto; try (intros t []).
    intros t H. apply in_fetched in H. eapply page_in; eauto.
  - destruct (q_fetch q) as [off|[|t l] off|] eqn:F; auto. constructor; simpl; auto.
    + intros x H. apply in_after_put in H. apply A. simpl. auto.
    + intros x H. apply in_app_iff in H. destruct H as [H|[<-|[]]]; [auto|]. apply A. simpl. auto.
  - destruct (nth_error (q_work q) v) as [[|t|]|] eqn:W; auto.
    + destruct (q_jobs q) as [|t l] eqn:J.
      * destruct (fetcher_gone (q_fetch q)); auto. constructor; simpl; auto; try (intros x []).
        intros x H. apply set_at_in in H. destruct H as [H|H]; [discriminate|auto].
      * constructor; simpl; auto.
        -- intros x H. apply B. simpl. auto.
        -- intros x H. apply set_at_in in H. destruct H as [H|H]; [|auto].
           destruct (matches_rules e t (j_rules j)) eqn:M; [|discriminate]. injection H as ->. split; [apply B; now left|].
           now apply rules_ok.
    + constructor; simpl; auto.
      * intros x H. apply set_at_in in H. destruct H as [H|H]; [discriminate|auto].
      * intros x H. apply in_app_iff in H. destruct H as [H|[<-|[]]]; [auto|].
        unfold src in He. rewrite (strategy_one _ Hj) in He. destruct He as (u & He & Ho).
        destruct (C _ (nth_error_In _ _ W)) as [C1 C2]. exists u. split; [exact Ho|]. simpl. eapply by_pair; eauto.
  - destruct (q_end q); auto. destruct err; [destruct (q_err q)|destruct (forallb _ _)]; auto; constructor; simpl; auto.
Qed.

Lemma members_group crit k p : In k (page_keys crit p) -> (forall t, In t p -> column crit t <> "") -> a_group crit (members crit k p).
Proof.
  intros Hk Hp. unfold page_keys in Hk. apply nodup_In, in_map_iff in Hk. destruct Hk as (t & <- & Ht). split.
  - intros E. assert (X : In t (members crit (column crit t) p)) by (apply filter_In; split; [exact Ht|apply String.eqb_refl]).
    rewrite E in X. destruct X.
  - exists (column crit t). split; [auto|]. intros x Hx. apply filter_In in Hx. destruct Hx as [_ Hx]. now apply String.eqb_eq in Hx.
Qed.

Lemma ext_rows_in u s e : In e (upload_rows u s) <-> In (u, e) (d_ext s).
Proof.
  unfold upload_rows. rewrite in_map_iff. split.
  - intros ((v & x) & <- & H). apply filter_In in H. destruct H as [H1 H2]. apply String.eqb_eq in H2. simpl in *. now subst.
  - intros H. exists (u, e). split; [reflexivity|]. apply filter_In. split; [exact H|apply String.eqb_refl].
Qed.
Lemma insert_in f e l x : In x (insert_by f e l) <-> x = e \/ In x l.
Proof.
  induction l as [|t l IH]; simpl; [intuition auto|]. destruct (string_leb (f e) (f t)); simpl; [intuition auto|].
  rewrite IH. intuition auto.
Qed.
Lemma sort_in f l x : In x (sort_by f l) <-> In x l.
Proof. induction l as [|e l IH]; simpl; [reflexivity|]. rewrite insert_in, IH. intuition auto. Qed.
Lemma group_rows_in crit l x : In x (group_rows crit l) <-> In x l /\ column crit x <> "".
Proof.
  unfold group_rows. rewrite sort_in, filter_In. split; intros [A B]; split; auto.
  - intros E. rewrite E in B. discriminate.
  - apply negb_true_iff. now apply String.eqb_neq.
Qed.

Lemma read_page_in batch off k l s s' p e : read_page batch off k l s = (s', p) -> In e p ->
  (exists p', d_cache s k = Some p' /\ In e p') \/ In e l.
Proof.
  unfold read_page. intros H He. destruct (d_cache s k) as [[|a x]|] eqn:C.
  - right. destruct (firstn batch (skipn off l)) eqn:F; injection H as <- <-; [destruct He|]. apply (page_of batch off). now rewrite F.
  - injection H as <- <-. left. eauto.
  - right. destruct (firstn batch (skipn off l)) eqn:F; injection H as <- <-; [destruct He|]. apply (page_of batch off). now rewrite F.
Qed.

Lemma read_page_new batch off k l s s' p : read_page batch off k l s = (s', p) ->
  s' = s \/ s' = with_cache (put_key (d_cache s) k (Some p)) s /\ forall e, In e p -> In e l.
Proof.
  unfold read_page. intros H. destruct (d_cache s k) as [[|a x]|] eqn:C; [| injection H as <- <-; now left |];
    destruct (firstn batch (skipn off l)) eqn:F; injection H as <- <-; try (now left);
    right; (split; [reflexivity|]); intros z Hz; apply (page_of batch off); now rewrite F.
Qed.

Lemma gmove_ok cfg j (ext : bool) s e m g s' g' :
  j_strategy j = (if ext then "many_to_one" else "one_to_many") -> src j s e ->
  (forall off p x, d_cache s (if ext then KGroupExt (j_upload j) (j_group j) off else KGroupInt (j_group j) off) = Some p -> In x p -> gsrc j ext s x) ->
  okgroup j ext s g -> gmove cfg j ext e m s g = (s', g') -> okgroup j ext s g'.
Proof.
  intros Hj He Hc Hg H. pose proof Hg as [A B]. destruct m as [ | | | |ok| |v k]; cbn [gmove] in H; try (injection H as <- <-; exact Hg).
  - destruct (g_loop g) as [off| |]; try (injection H as <- <-; exact Hg).
    destruct (ok && _); [|injection H as <- <-; constructor; auto].
    destruct (read_page _ _ _ _ _) as [s1 p] eqn:R. destruct p as [|x p]; injection H as <- <-; constructor; simpl; auto.
    intros p' t Hp Ht. apply in_app_iff in Hp. destruct Hp as [Hp|[Hp|[]]]; [eauto|]. injection Hp as <-.
    destruct (read_page_in _ _ _ _ _ _ _ t R Ht) as [(p'' & P1 & P2)|P]; [eauto|].
    apply group_rows_in in P. destruct P as [P1 P2]. split; [exact P2|]. destruct ext; [|exact P1]. now apply ext_rows_in.
  - destruct (g_loop g); injection H as <- <-; try exact Hg. constructor; auto.
  - destruct (nth_error (g_go g) v) as [[p|p|n]|] eqn:V; try (injection H as <- <-; exact Hg).
    + destruct (_ && _) eqn:F.
      * injection H as <- <-. constructor; simpl.
        -- intros p' t Hp Ht. apply set_at_in in Hp. destruct Hp as [Hp|Hp]; [discriminate|eauto].
        -- intros x Hx. apply in_app_iff in Hx. destruct Hx as [Hx|Hx]; [auto|]. apply in_map_iff in Hx. destruct Hx as (t & <- & Ht).
           apply andb_true_iff in F. destruct F as [F1 F2]. apply existsb_exists in F1. destruct F1 as (k' & F1 & E). apply String.eqb_eq in E. subst k'.
           pose proof (nth_error_In _ _ V) as Hin.
           assert (G : a_group (j_group j) (members (j_group j) k p)).
           { apply members_group; [exact F1|]. intros z Hz. apply (A _ _ Hin Hz). }
           assert (S : forall z, In z (members (j_group j) k p) -> gsrc j ext s z).
           { intros z Hz. apply filter_In in Hz. apply (A p); tauto. }
           pose proof (group_stands _ (proj1 G)) as St. unfold matches_group in F2. apply rules_ok in F2.
           destruct ext.
           ++ exists (j_upload j). split; [reflexivity|]. unfold src in He. rewrite (strategy_ext _ Hj) in He.
              apply (by_external_group _ _ _ _ _ t e (members (j_group j) k p) (group_entry (members (j_group j) k p))); auto. intros z Hz. apply (S _ Hz).
           ++ unfold src in He. rewrite (strategy_many _ Hj) in He. destruct He as (u & He & Ho). exists u. split; [exact Ho|].
              apply (by_internal_group _ _ _ _ _ e t (members (j_group j) k p) (group_entry (members (j_group j) k p))); auto. intros z Hz. apply (S _ Hz).
      * clear F. destruct (existsb _ (page_keys _ _)); injection H as <- <-; [exact Hg|]. constructor; simpl; auto.
        intros p' t Hp Ht. apply set_at_in in Hp. destruct Hp as [Hp|Hp]; [discriminate|eauto].
    + destruct (g_buf g <? 1)%nat; injection H as <- <-; [|exact Hg]. constructor; simpl; auto.
      intros p' t Hp Ht. apply set_at_in in Hp. destruct Hp as [Hp|Hp]; [discriminate|eauto].
Qed.

Lemma inner_ok cfg j s e m a s' a' : src j s e ->
  (forall (ext : bool) off p x, d_cache s (if ext then KGroupExt (j_upload j) (j_group j) off else KGroupInt (j_group j) off) = Some p -> In x p -> gsrc j ext s x) ->
  okinner j s e a -> inner_move cfg j e m s a = (s', a') -> okinner j s e a'.
Proof.
  intros He Hc Ha H. destruct a as [q|ext g|]; cbn [inner_move] in H.
  - injection H as <- <-. destruct Ha as [A B]. split; [exact A|]. apply smove_ok; auto.
  - destruct (gmove cfg j ext e m s g) as [s1 g1] eqn:G. injection H as <- <-. destruct Ha as [A B]. split; [exact A|].
    eapply gmove_ok; eauto.
  - injection H as <- <-. exact I.
Qed.

Lemma new_inner_ok cfg j s e : okinner j s e (new_inner cfg j).
Proof.
  unfold new_inner. destruct (String.eqb (j_strategy j) "one_to_one") eqn:E1.
  - apply String.eqb_eq in E1. split; [exact E1|]. constructor; simpl; try (intros t []).
    intros t H. apply repeat_spec in H. discriminate.
  - destruct (String.eqb (j_strategy j) "one_to_many") eqn:E2.
    + apply String.eqb_eq in E2. split; [exact E2|]. constructor; simpl; [intros p t []|intros t []].
    + destruct (many_to_one j) eqn:E3; [|exact I]. apply String.eqb_eq in E3. split; [exact E3|].
      constructor; simpl; [intros p t []|intros t []].
Qed.

Lemma answer_ok j s e a ms us : okinner j s e a -> answer_of e a = Some (ms, us) -> okm j s ms.
Proof.
  destruct a as [q|ext g|]; cbn [answer_of okinner]; intros Ha H.
  - destruct (q_end q); [|discriminate]. injection H as <- <-. apply Ha.
  - destruct (g_loop g); try discriminate. destruct (forallb _ _); [|discriminate]. injection H as <- <-. apply Ha.
  - injection H as <- <-. intros x [].
Qed.

(** ** Moves of a run *)

Lemma okrun_work s r w b : okrun s r -> okworker (r_job r) s b -> okrun s (with_work (set_at w b (r_work r)) r).
Proof.
  intros [A B C] Hb. constructor; auto. simpl. intros x Hx. apply set_at_in in Hx. destruct Hx as [->|Hx]; auto.
Qed.

Lemma okrun_same s r r' : r_job r' = r_job r -> r_fetch r' = r_fetch r -> r_jobs r' = r_jobs r ->
  (forall w, In w (r_work r') -> w = OGone \/ w = OIdle \/ In w (r_work r)) -> okrun s r -> okrun s r'.
Proof.
  intros E1 E2 E3 E4 [A B C]. constructor; rewrite E1, ?E2, ?E3; auto.
  intros w Hw. destruct (E4 _ Hw) as [->|[->|X]]; simpl; auto.
Qed.

Lemma rstep_sound cfg y i r m s' r' : sound y -> nth_error (y_runs y) i = Some r -> r_dead r = false ->
  rstep cfg i (y_store y) r m s' r' -> okrun s' r'.
Proof.
  intros [K R W] Hr Hd Hs. pose proof (touches_grows _ _ _ (rstep_touches _ _ _ _ _ _ _ Hs)) as G.
  pose proof (nth_error_In _ _ Hr) as Hin. pose proof (R _ Hin) as O. apply (okrun_grows (y_store y)); [exact G|].
  inversion Hs; subst; clear Hs; try (exact O).
  - destruct O as [A B C]. constructor; simpl; auto. intros e He. apply in_fetched in He.
    unfold src. destruct (read_page_in _ _ _ _ _ _ _ e H0 He) as [(p' & P1 & P2)|P].
    + unfold key_to_process in P1. destruct (many_to_one (r_job r)) eqn:M.
      * eapply (oc_int _ K); eauto.
      * destruct o eqn:Eo.
        -- exists (j_upload (r_job r)). split; [|auto]. apply (oc_own _ K Eo r off p'); auto. split; [exact Hd|]. congruence.
        -- destruct (oc_ext _ K _ _ _ P1 P2) as (u & Hu). exists u. split; [exact Hu|discriminate].
    + unfold rows_to_process in P. destruct (many_to_one (r_job r)) eqn:M; [exact P|]. exists (j_upload (r_job r)).
      split; [now apply ext_rows_in|auto].
  - destruct O as [A B C]. constructor; simpl; auto. intros e [].
  - destruct O as [A B C]. rewrite H in A. constructor; simpl; auto.
    + intros x Hx. apply in_after_put in Hx. apply A. simpl. auto.
    + intros x Hx. apply in_app_iff in Hx. destruct Hx as [Hx|[<-|[]]]; [auto|]. apply A. simpl. auto.
  - pose proof O as [A B C]. rewrite H0 in B. apply (okrun_work _ (with_jobs l r)).
    + constructor; simpl; auto. intros x Hx. apply B. now right.
    + simpl. split; [apply B; now left|apply new_inner_ok].
  - apply okrun_work; [exact O|exact I].
  - pose proof (or_work _ _ O _ (nth_error_In _ _ H)) as [X1 X2]. apply okrun_work; [exact O|]. split; [exact X1|].
    eapply inner_ok; eauto. intros ext off p x Hp Hx. destruct ext.
    + eapply (oc_gext _ K); eauto.
    + eapply (oc_gint _ K); eauto.
  - revert O. apply okrun_same; auto. simpl. intros x Hx. apply set_at_in in Hx. tauto.
  - pose proof (or_work _ _ O _ (nth_error_In _ _ H)) as [X1 X2].
    assert (O' : okrun (y_store y) (with_orphans (orphaned a e r) (with_counts (r_matched r + List.length ms) (r_unmatched r + List.length us) r)))
      by (revert O; apply okrun_same; auto).
    apply (okrun_work _ _ w (OMatched e (ms, us))) in O'; [exact O'|]. simpl. eapply answer_ok; eauto.
  - apply okrun_work; [exact O|]. simpl. intros x [].
  - pose proof (or_work _ _ O _ (nth_error_In _ _ H)) as X. apply (okrun_same _ (with_work (set_at w (OUnmatched e (ms, us)) (r_work r)) r)); auto.
    apply okrun_work; [exact O|exact X].
  - revert O. apply okrun_same; auto. simpl. intros x Hx. apply set_at_in in Hx. tauto.
  - revert O. apply okrun_same; auto. simpl. intros x Hx. apply set_at_in in Hx. tauto.
  - revert O. apply okrun_same; auto. simpl. intros x Hx. apply set_at_in in Hx. tauto.
  - revert O. apply okrun_same; auto. simpl. intros x Hx. apply set_at_in in Hx. tauto.
  - revert O; apply okrun_same; auto.
  - revert O; apply okrun_same; auto.
  - revert O; apply okrun_same; auto.
  - revert O; apply okrun_same; auto.
Qed.

Definition own_kept (y : system) (e : event) : Prop :=
  o = true -> match e with
              | EStart _ _ => (forall off, d_cache (y_store y) (KExt off) = None)
                              /\ forall r, In r (y_runs y) -> r_dead r = true \/ r_fetch r = FGone
              | _ => True
              end.

Lemma key_eqb_ok a b : key_eqb a b = true -> a = b.
Proof.
  destruct a, b; simpl; try discriminate; rewrite ?andb_true_iff, ?Nat.eqb_eq, ?String.eqb_eq; intuition congruence.
Qed.

(** Pages put into the cache by a move. *)
Definition page_from (j : job) (s : store) (k : key) (e : entry) : Prop :=
  match k with
  | KExt _ => many_to_one j = false /\ In (j_upload j, e) (d_ext s)
  | KInt _ => In e (d_int s)
  | KGroupInt c _ => column c e <> "" /\ In e (d_int s)
  | KGroupExt u c _ => column c e <> "" /\ In (u, e) (d_ext s)
  end.
Lemma cached_page cfg i s r m s' r' k p : rstep cfg i s r m s' r' -> d_cache s' k = Some p ->
  d_cache s k = Some p \/ forall e, In e p -> page_from (r_job r) s k e /\ (match k with KExt _ => r_fetch r <> FGone | _ => True end).
Proof.
  intros Hs Hk. inversion Hs; subst; clear Hs; try (left; exact Hk).
  - destruct (read_page_new _ _ _ _ _ _ _ H0) as [->|[-> Hn]]; [now left|]. simpl in Hk. unfold put_key in Hk.
    destruct (key_eqb k _) eqn:E; [|now left]. right. apply key_eqb_ok in E. injection Hk as <-. intros e He. subst k.
    apply Hn in He. unfold key_to_process, rows_to_process in *. destruct (many_to_one (r_job r)) eqn:M; simpl; [auto|].
    repeat split; auto; [now apply ext_rows_in|congruence].
  - destruct a as [q|ext g|]; cbn [inner_move] in H0; try (injection H0 as <- <-; now left).
    destruct (gmove cfg (r_job r) ext e im s g) as [s1 g1] eqn:G. injection H0 as <- <-.
    destruct (gmove_read _ _ _ _ _ _ _ _ _ G) as [->|(off & p1 & R)]; [now left|].
    destruct (read_page_new _ _ _ _ _ _ _ R) as [->|[-> Hn]]; [now left|]. simpl in Hk. unfold put_key in Hk.
    destruct (key_eqb k _) eqn:E; [|now left]. right. apply key_eqb_ok in E. injection Hk as <-. intros x Hx. apply Hn in Hx.
    apply group_rows_in in Hx. destruct Hx as [X1 X2]. subst k. destruct ext; simpl; repeat split; auto. now apply ext_rows_in.
  - left. destruct ok; exact Hk.
Qed.

Lemma fetching_before cfg i s r m s' r' : rstep cfg i s r m s' r' -> fetching r' -> fetching r.
Proof.
  intros Hs [A B]. destruct (rstep_job _ _ _ _ _ _ _ Hs) as (_ & _ & Hd). split; [congruence|].
  inversion Hs; subst; clear Hs; simpl in B; congruence.
Qed.

Lemma okcache_grows y s' : okcache y -> grows (y_store y) s' -> d_cache s' = d_cache (y_store y) ->
  okcache {| y_store := s'; y_runs := y_runs y; y_panics := y_panics y |}.
Proof.
  intros [A B C D E F] [G1 G2] Hc. constructor; simpl; rewrite ?Hc.
  - intros off p e H1 H2. destruct (A _ _ _ H1 H2) as (u & X). eauto.
  - intros; eauto.
  - exact C.
  - intros; eauto.
  - intros c off p e H1 H2. destruct (E _ _ _ _ H1 H2). auto.
  - intros u c off p e H1 H2. destruct (F _ _ _ _ _ H1 H2). auto.
Qed.

Lemma okrow_job j j' s x : j = j' -> okrow j s x -> okrow j' s x.
Proof. now intros ->. Qed.

Lemma sound_step cfg y e y' : sound y -> own_kept y e -> sstep cfg y e y' -> sound y'.
Proof.
  intros Hy Hk Hs. pose proof Hy as [K R W]. inversion Hs; subst; clear Hs; auto.
  - assert (G : grows (y_store y) (with_int (d_int (y_store y) ++ [t]) (y_store y))).
    { split; simpl; [|auto]. intros x Hx. apply in_app_iff. now left. }
    constructor; simpl.
    + apply okcache_grows; auto.
    + intros r Hr. eapply okrun_grows; eauto.
    + intros m Hm. destruct (W _ Hm) as (r & X1 & X2). exists r. split; [exact X1|]. eapply okrow_grows; eauto.
  - assert (G : grows (y_store y) (with_ext (d_ext (y_store y) ++ [(u, x)]) (y_store y))).
    { split; simpl; [auto|]. intros z Hz. apply in_app_iff. now left. }
    constructor; simpl.
    + apply okcache_grows; auto.
    + intros r Hr. eapply okrun_grows; eauto.
    + intros m Hm. destruct (W _ Hm) as (r & X1 & X2). exists r. split; [exact X1|]. eapply okrow_grows; eauto.
  - assert (X : forall k' p, put_key (d_cache (y_store y)) k None k' = Some p -> d_cache (y_store y) k' = Some p).
    { intros k' p. unfold put_key. destruct (key_eqb k' k); [discriminate|auto]. }
    assert (G : grows (y_store y) (with_cache (put_key (d_cache (y_store y)) k None) (y_store y))) by (split; auto).
    constructor; simpl.
    + destruct K as [A B C D E F]. constructor; simpl; intros; eauto.
    + intros r Hr. eapply okrun_grows; eauto.
    + intros m Hm. destruct (W _ Hm) as (r & X1 & X2). exists r. split; [exact X1|]. eapply okrow_grows; eauto.
  - constructor; simpl.
    + destruct K as [A B C D E F]. constructor; simpl; auto.
      * intros Ho r off p x Hr [Hf _]. apply in_map_iff in Hr. destruct Hr as (r0 & <- & _). discriminate.
      * intros Ho i k a b Ha _ [Hf _]. rewrite nth_error_map in Ha. destruct (nth_error (y_runs y) i); [|discriminate].
        injection Ha as <-. discriminate.
    + intros r Hr. apply in_map_iff in Hr. destruct Hr as (r0 & <- & Hr). destruct (R _ Hr) as [A B C]. constructor; auto.
    + intros m Hm. destruct (W _ Hm) as (r & X1 & X2). exists (with_dead r). split; [|exact X2]. now rewrite nth_error_map, X1.
  - assert (G : grows (y_store y) (with_recon (d_recon (y_store y) ++ [if ok then RRunning else RFailed]) (y_store y))) by (split; auto).
    constructor; simpl.
    + destruct K as [A B C D E F]. constructor; simpl; auto.
      * intros Ho r off p x Hr Hf Hp. destruct (Hk Ho) as [H1 _]. rewrite H1 in Hp. discriminate.
      * intros Ho i k a b Ha Hb Fa Fb. destruct (Hk Ho) as [_ H1].
        apply nth_snoc in Ha, Hb.
        assert (Z : forall i a, nth_error (y_runs y) i = Some a -> fetching a -> False).
        { intros n z Hz [Z1 Z2]. apply nth_error_In in Hz. destruct (H1 _ Hz); congruence. }
        destruct Ha as [Ha|[-> _]]; [exfalso; eauto|]. destruct Hb as [Hb|[-> _]]; [exfalso; eauto|reflexivity].
    + intros r Hr. apply in_app_iff in Hr. destruct Hr as [Hr|[<-|[]]]; [eapply okrun_grows; eauto|].
      destruct ok; constructor; simpl; try (intros x []). intros w Hw. apply repeat_spec in Hw. subst w. exact I.
    + intros m Hm. destruct (W _ Hm) as (r & X1 & X2). exists r. split; [|eapply okrow_grows; eauto].
      rewrite nth_error_app1; [exact X1|]. eapply nth_lt; eauto.
  - pose proof (touches_grows _ _ _ (rstep_touches _ _ _ _ _ _ _ H2)) as G.
    destruct (rstep_job _ _ _ _ _ _ _ H2) as (Hj & _ & Hdd).
    assert (Gi : forall x, In x (d_int s') <-> In x (d_int (y_store y))) by (rewrite (to_int _ _ _ (rstep_touches _ _ _ _ _ _ _ H2)); tauto).
    constructor; simpl.
    + destruct K as [A B C D E F]. destruct G as [G1 G2]. constructor; simpl.
      * intros off p x Hp Hx. destruct (cached_page _ _ _ _ _ _ _ _ _ H2 Hp) as [Hp'|Hp'].
        -- destruct (A _ _ _ Hp' Hx) as (u & X). eauto.
        -- destruct (Hp' _ Hx) as [[_ X] _]. eauto.
      * intros Ho q off p x Hq Hf Hp Hx.
        assert (Z : exists k q0, nth_error (y_runs y) k = Some q0 /\ fetching q0 /\ r_job q0 = r_job q /\ (q = r' -> k = i)).
        { apply In_nth_error in Hq. destruct Hq as (k & Hq). destruct (set_at_nth _ _ _ _ _ _ H Hq) as [[-> ->]|[Hn Hq']].
          - exists i, r. repeat split; auto; eapply fetching_before; eauto.
          - exists k, q. repeat split; auto; try apply Hf. intros ->. exact (C Ho k i r' r Hq' H Hf (fetching_before _ _ _ _ _ _ _ H2 Hf)). }
        destruct Z as (k & q0 & Z1 & Z2 & Z3 & _). rewrite <- Z3. apply G2.
        destruct (cached_page _ _ _ _ _ _ _ _ _ H2 Hp) as [Hp'|Hp'].
        -- eapply B; eauto. eapply nth_error_In; eauto.
        -- destruct (Hp' _ Hx) as [[_ X] X']. assert (k = i) by (apply (C Ho k i q0 r Z1 H Z2); split; auto). subst k.
           assert (q0 = r) by congruence. now subst q0.
      * intros Ho k1 k2 a b Ha Hb Fa Fb.
        assert (Z : forall k a, nth_error (set_at i r' (y_runs y)) k = Some a -> fetching a -> exists a0, nth_error (y_runs y) k = Some a0 /\ fetching a0).
        { intros k z Hz Fz. destruct (set_at_nth _ _ _ _ _ _ H Hz) as [[-> ->]|[Hn Hq']]; eauto using fetching_before. }
        destruct (Z _ _ Ha Fa) as (a0 & ? & ?). destruct (Z _ _ Hb Fb) as (b0 & ? & ?). eauto.
      * intros off p x Hp Hx. destruct (cached_page _ _ _ _ _ _ _ _ _ H2 Hp) as [Hp'|Hp']; [eauto|]. apply Gi. apply (Hp' _ Hx).
      * intros c off p x Hp Hx. destruct (cached_page _ _ _ _ _ _ _ _ _ H2 Hp) as [Hp'|Hp'].
        -- destruct (E _ _ _ _ Hp' Hx). auto.
        -- destruct (Hp' _ Hx) as [[X1 X2] _]. auto.
      * intros u c off p x Hp Hx. destruct (cached_page _ _ _ _ _ _ _ _ _ H2 Hp) as [Hp'|Hp'].
        -- destruct (F _ _ _ _ _ Hp' Hx). auto.
        -- destruct (Hp' _ Hx) as [[X1 X2] _]. auto.
    + intros q Hq. apply set_at_in in Hq. destruct Hq as [->|Hq].
      * eapply rstep_sound; eauto.
      * eapply okrun_grows; eauto.
    + intros x Hx.
      assert (X : In x (d_match (y_store y)) \/ (m_recon x = i /\ okrow (r_job r) (y_store y) (m_ext x, m_int x))).
      { inversion H2; subst; clear H2; simpl in Hx; try (now left).
        - left. destruct (read_page_cache _ _ _ _ _ _ _ H4) as [->|[c ->]]; exact Hx.
        - left. pose proof (inner_rows 0 _ _ _ _ _ _ _ _ H4). destruct a as [q|ext g|]; cbn [inner_move] in H4; try (injection H4 as <- <-; exact Hx).
          destruct (gmove cfg (r_job r) ext e im (y_store y) g) as [s1 g1] eqn:Gm. injection H4 as <- <-.
          destruct (gmove_read _ _ _ _ _ _ _ _ _ Gm) as [->|(off & p1 & Rp)]; [exact Hx|].
          destruct (read_page_cache _ _ _ _ _ _ _ Rp) as [->|[c ->]]; exact Hx.
        - apply in_app_iff in Hx. destruct Hx as [Hx|Hx]; [now left|]. right. apply in_map_iff in Hx. destruct Hx as ([a b] & <- & Hx).
          split; [reflexivity|]. simpl. pose proof (or_work _ _ (R _ (nth_error_In _ _ H)) _ (nth_error_In _ _ H3)) as Y. apply (Y _ Hx).
        - left. destruct ok; exact Hx. }
      destruct X as [X|[X1 X2]].
      * destruct (W _ X) as (q & Y1 & Y2). destruct (Nat.eq_dec i (m_recon x)) as [En|En].
        -- subst i. exists r'. split; [apply set_at_same; eapply nth_lt; eauto|]. assert (q = r) by congruence. subst q. rewrite Hj.
           eapply okrow_grows; eauto.
        -- exists q. split; [rewrite set_at_other by exact En; exact Y1|]. eapply okrow_grows; eauto.
      * exists r'. split; [rewrite X1; apply set_at_same; eapply nth_lt; eauto|]. rewrite Hj. eapply okrow_grows; eauto.
Qed.

Lemma sound_hold cfg (P : proviso -> Prop) es y : (o = true -> P OwnPages) -> history cfg P es y -> sound y.
Proof.
  intros HP. apply history_inv.
  - constructor; [constructor; simpl; try (intros; discriminate)|simpl; intros ? []|simpl; intros ? []].
    intros _ [|n] k a b X; discriminate.
  - intros y0 e y' Hy Hk. apply sound_step; [exact Hy|]. intros Ho. specialize (Hk _ (HP Ho)). destruct e; auto.
Qed.
End Own.

Lemma sound_ok cfg (P : proviso -> Prop) es y i j m : history cfg P es y -> run_is y i j -> In m (matches_of y i) ->
  (exists u, justified (y_store y) j u (m_ext m) (m_int m))
  /\ (P OwnPages -> justified (y_store y) j (j_upload j) (m_ext m) (m_int m)).
Proof.
  intros H (r & Hr & <-) Hm. unfold matches_of in Hm. apply filter_In in Hm. destruct Hm as [Hm Hi]. apply Nat.eqb_eq in Hi. subst i. split.
  - pose proof (sound_hold false cfg P es y ltac:(discriminate) H) as S. destruct (so_rows _ _ S _ Hm) as (q & Q1 & u & _ & Q2).
    exists u. now replace r with q by congruence.
  - intros HP. pose proof (sound_hold true cfg P es y ltac:(auto) H) as S. destruct (so_rows _ _ S _ Hm) as (q & Q1 & u & Q2 & Q3).
    rewrite (Q2 eq_refl) in Q3. now replace r with q by congruence.
Qed.
