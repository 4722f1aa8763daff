(** Searching for groups of internal transactions that fit in one page. *)
From Coq Require Import ZArith QArith Qabs List String Ascii Bool Lia Permutation.
From Verif Require Import Base ReconModel ReconSpec ReconRules ReconSteps ReconCount ReconSound ReconKeep.
Import ListNotations.
Local Open Scope string_scope.
Local Open Scope list_scope.

(** ** What a group is compared as is determined *)

Lemma meets_same e v v' c : (n_amount v == n_amount v')%Q -> n_date v = n_date v' -> n_desc v = n_desc v' -> n_ref v = n_ref v' ->
  n_cur v = n_cur v' -> meets e v c -> meets e v' c.
Proof.
  intros Ha Hd He Hr Hc H. inversion H; subst.
  - apply amount_equals. now rewrite <- Ha.
  - apply amount_greater. now rewrite <- Ha.
  - apply amount_less. now rewrite <- Ha.
  - apply date_equals. now rewrite <- Hd.
  - apply date_after; [assumption|]. now rewrite <- Hd.
  - apply date_before; [assumption|]. now rewrite <- Hd.
  - apply desc_agrees. now rewrite <- He.
  - apply ref_agrees. now rewrite <- Hr.
  - apply cur_mixed. now rewrite <- Hc.
  - apply cur_agrees. now rewrite <- Hc.
Qed.
Lemma stands_same rules e l v v' : l <> [] -> stands_for l v -> stands_for l v' -> fulfils rules e v -> fulfils rules e v'.
Proof.
  intros Hl [A B C D E] [A' B' C' D' E'] (r & Hr & Hf). exists r. split; [exact Hr|]. revert Hf. apply Forall_impl. intros c. apply meets_same.
  - now rewrite A, A'.
  - destruct B as [(t & B1 & B2) B3], B' as [(t' & B1' & B2') B3'].
    specialize (B3 _ B1'). specialize (B3' _ B1). lia.
  - congruence.
  - congruence.
  - destruct l as [|t l]; [congruence|].
    destruct E as [E|(E & t1 & t2 & X1 & X2 & X3)], E' as [E'|(E' & t1' & t2' & Y1 & Y2 & Y3)].
    + rewrite <- (E t), <- (E' t); simpl; auto.
    + exfalso. apply Y3. now rewrite (E _ Y1), (E _ Y2).
    + exfalso. apply X3. now rewrite (E' _ X1), (E' _ X2).
    + congruence.
Qed.

(** ** Rows of a group *)

Lemma insert_perm f e l : Permutation (insert_by f e l) (e :: l).
Proof.
  induction l as [|t l IH]; simpl; [reflexivity|]. destruct (string_leb (f e) (f t)); [reflexivity|].
  rewrite IH. apply perm_swap.
Qed.
Lemma sort_perm f l : Permutation (sort_by f l) l.
Proof. induction l as [|e l IH]; simpl; [reflexivity|]. now rewrite insert_perm, IH. Qed.
Lemma filter_perm {A} (f : A -> bool) l l' : Permutation l l' -> Permutation (filter f l) (filter f l').
Proof.
  induction 1; simpl; auto.
  - destruct (f x); auto.
  - destruct (f x), (f y); auto. apply perm_swap.
  - etransitivity; eauto.
Qed.
Lemma filter_filter {A} (f g : A -> bool) l : (forall x, f x = true -> g x = true) -> filter f (filter g l) = filter f l.
Proof.
  intros H. induction l as [|a l IH]; simpl; [reflexivity|]. destruct (g a) eqn:G; simpl; [now rewrite IH|].
  destruct (f a) eqn:F; [rewrite (H _ F) in G; discriminate|exact IH].
Qed.
Lemma members_rows crit k l : k <> "" -> Permutation (members crit k (group_rows crit l)) (members crit k l).
Proof.
  intros Hk. unfold members, group_rows. rewrite (filter_perm _ _ _ (sort_perm _ _)). rewrite filter_filter; [reflexivity|].
  intros x Hx. apply String.eqb_eq in Hx. rewrite Hx. apply negb_true_iff. now apply String.eqb_neq.
Qed.
Lemma group_rows_length crit l : (List.length (group_rows crit l) <= List.length l)%nat.
Proof.
  unfold group_rows. rewrite (Permutation_length (sort_perm _ _)). induction l as [|a l IH]; simpl; [lia|].
  destruct (negb _); simpl; lia.
Qed.

(** ** Cached pages of groups *)

Definition group_pages (cfg : rconfig) (b : nat) (s : store) : Prop :=
  forall c off p, d_cache s (KGroupInt c off) = Some p ->
    p <> [] /\ exists n, (b <= n)%nat /\ p = firstn (c_batch cfg) (skipn off (group_rows c (firstn n (d_int s)))).

Lemma firstn_over {A} b (l : list A) n m : (b <= List.length l)%nat -> (b <= n)%nat -> exists k, (b <= k)%nat /\ firstn n l = firstn k (l ++ m).
Proof.
  intros B1 B2. destruct (Nat.le_gt_cases n (List.length l)) as [H|H].
  - exists n. split; [exact B2|]. now rewrite firstn_extends.
  - exists (List.length l). split; [exact B1|]. rewrite firstn_extends by lia. now rewrite !firstn_all2 by lia.
Qed.
Lemma group_pages_extends cfg b s s' : (b <= List.length (d_int s))%nat -> d_cache s' = d_cache s -> extends s s' -> group_pages cfg b s -> group_pages cfg b s'.
Proof.
  intros Hb Hc (l & El) H c off p Hp. rewrite Hc in Hp. destruct (H _ _ _ Hp) as (H1 & n & Hn & H2). split; [exact H1|].
  destruct (firstn_over b (d_int s) n l Hb Hn) as (k & Hk & E). exists k. split; [exact Hk|]. now rewrite El, <- E.
Qed.

Lemma rstep_group_pages cfg b i s r m s' r' : (b <= List.length (d_int s))%nat -> rstep cfg i s r m s' r' ->
  group_pages cfg b s -> group_pages cfg b s'.
Proof.
  intros Hb Hs Hz c off p Hp. pose proof (to_int _ _ _ (rstep_touches _ _ _ _ _ _ _ Hs)) as Hi. rewrite Hi.
  inversion Hs; subst; clear Hs; try (apply (Hz _ _ _ Hp)).
  - destruct (read_page_new _ _ _ _ _ _ _ H0) as [->|[-> _]]; [apply (Hz _ _ _ Hp)|]. simpl in Hp. unfold put_key, key_to_process in Hp.
    destruct (many_to_one (r_job r)); apply (Hz _ _ _ Hp).
  - destruct a as [q|ext g|]; cbn [inner_move] in H0; try (injection H0 as <- <-; apply (Hz _ _ _ Hp)).
    destruct (gmove cfg (r_job r) ext e im s g) as [s1 g1] eqn:G. injection H0 as <- <-.
    destruct (gmove_read _ _ _ _ _ _ _ _ _ G) as [->|(o & p1 & R)]; [apply (Hz _ _ _ Hp)|].
    unfold read_page in R. destruct ext.
    + destruct (d_cache s (KGroupExt (j_upload (r_job r)) (j_group (r_job r)) o)) as [[|x l]|];
        try (injection R as <- <-; apply (Hz _ _ _ Hp)); destruct (firstn _ _); injection R as <- <-; apply (Hz _ _ _ Hp).
    + destruct (d_cache s (KGroupInt (j_group (r_job r)) o)) as [[|x l]|];
        try (injection R as <- <-; apply (Hz _ _ _ Hp)); destruct (firstn _ _) eqn:F; injection R as <- <-; try (apply (Hz _ _ _ Hp));
        simpl in Hp; unfold put_key in Hp; destruct (key_eqb _ _) eqn:K; try (apply (Hz _ _ _ Hp));
        apply key_eqb_ok in K; injection K as -> ->; injection Hp as <-; (split; [discriminate|]);
        exists (List.length (d_int s)); (split; [exact Hb|]); rewrite firstn_all; auto.
  - apply (Hz c off p). destruct ok; exact Hp.
Qed.

Lemma group_pages_hold cfg (P : proviso -> Prop) es y : P FreshGroups -> history cfg P es y ->
  forall i r, nth_error (y_runs y) i = Some r -> (r_base r <= List.length (d_int (y_store y)))%nat /\ group_pages cfg (r_base r) (y_store y).
Proof.
  intros HP. apply (history_inv _ _ (fun y => forall i r, nth_error (y_runs y) i = Some r ->
    (r_base r <= List.length (d_int (y_store y)))%nat /\ group_pages cfg (r_base r) (y_store y))).
  - intros [|i] r H; discriminate.
  - intros z e y' Hz Hk Hs. inversion Hs; subst; clear Hs; auto; simpl; intros kk q Hq.
    + destruct (Hz _ _ Hq) as [B G]. split; [rewrite app_length; lia|]. revert G.
      apply group_pages_extends; [exact B|reflexivity|]. exists [t]. reflexivity.
    + destruct (Hz _ _ Hq) as [B G]. split; [exact B|].
      intros c off p Hp. simpl in Hp. unfold put_key in Hp. destruct (key_eqb _ _); [discriminate|]. apply (G _ _ _ Hp).
    + rewrite nth_error_map in Hq. destruct (nth_error (y_runs z) kk) as [r0|] eqn:E0; [|discriminate]. injection Hq as <-. exact (Hz _ _ E0).
    + apply nth_snoc in Hq. destruct Hq as [Hq|[-> ->]]; [exact (Hz _ _ Hq)|]. split; [destruct ok; simpl; lia|].
      intros c off p Hp. simpl in Hp. rewrite (Hk _ HP) in Hp. discriminate.
    + rewrite (to_int _ _ _ (rstep_touches _ _ _ _ _ _ _ H2)).
      destruct (set_at_nth _ _ _ _ _ _ H Hq) as [[-> ->]|[Hn Hq']].
      * destruct (Hz _ _ H) as [B G]. destruct (rstep_job _ _ _ _ _ _ _ H2) as (_ & Hj & _). rewrite Hj. split; [exact B|].
        eapply rstep_group_pages; eauto.
      * destruct (Hz _ _ Hq') as [B G]. split; [exact B|]. eapply rstep_group_pages; eauto.
Qed.

Lemma one_page_hold cfg (P : proviso -> Prop) es y : P OnePage -> history cfg P es y -> (List.length (d_int (y_store y)) <= c_batch cfg)%nat.
Proof.
  intros HP. apply (history_inv _ _ (fun y => (List.length (d_int (y_store y)) <= c_batch cfg)%nat)); [simpl; lia|].
  intros z e y' Hz Hk Hs. inversion Hs; subst; clear Hs; auto; simpl.
  - specialize (Hk _ HP). simpl in Hk. rewrite app_length. simpl. lia.
  - now rewrite (to_int _ _ _ (rstep_touches _ _ _ _ _ _ _ H2)).
Qed.

Section Many.
Variable cfg : rconfig.
Hypothesis Hcfg : sensible cfg.

Definition grouped (j : job) : Prop := j_strategy j = "one_to_many".
Definition small (s : store) (n : nat) : Prop := group_pages cfg n s /\ (List.length (d_int s) <= c_batch cfg)%nat.
Definition page_at (s : store) (j : job) (k : nat) : list entry := group_rows (j_group j) (firstn k (d_int s)).
Definition fits (j : job) (e : entry) (p : list entry) (k : string) : bool := matches_group e (members (j_group j) k p) (j_rules j).
Definition pair_with (e : entry) (l : list entry) : list (string * string) := map (fun t => (n_id e, n_id t)) l.

(** The answers. *)
Definition ans2 (s : store) (j : job) (n : nat) (e : entry) (a : answer) : Prop :=
  (snd a = [] /\ exists c k, (n <= c)%nat /\ In k (page_keys (j_group j) (page_at s j c)) /\ fits j e (page_at s j c) k = true
                            /\ fst a = pair_with e (members (j_group j) k (page_at s j c)))
  \/ (fst a = [] /\ snd a = [n_id e]
      /\ (existsb (String.eqb (j_group j)) (group_columns false) = false
          \/ exists c, (n <= c)%nat /\ forall k, In k (page_keys (j_group j) (page_at s j c)) -> fits j e (page_at s j c) k = false)).

Inductive good_group (s : store) (j : job) (n : nat) (e : entry) : gsearch -> Prop :=
| gg_start : good_group s j n e new_gsearch
| gg_none : (existsb (String.eqb (j_group j)) (group_columns false) = false \/ exists c, (n <= c)%nat /\ page_at s j c = []) ->
    good_group s j n e {| g_loop := LEnd; g_any := false; g_go := []; g_ms := []; g_buf := 1 |}
| gg_look l c : (n <= c)%nat -> l = LCheck 0 0 \/ l = LRead (c_batch cfg) \/ l = LEnd ->
    good_group s j n e {| g_loop := l; g_any := true; g_go := [GLook (page_at s j c)]; g_ms := []; g_buf := 0 |}
| gg_lost l c : (n <= c)%nat -> l = LCheck 0 0 \/ l = LRead (c_batch cfg) \/ l = LEnd ->
    (forall k, In k (page_keys (j_group j) (page_at s j c)) -> fits j e (page_at s j c) k = false) ->
    good_group s j n e {| g_loop := l; g_any := true; g_go := [GLost (page_at s j c)]; g_ms := []; g_buf := 0 |}
| gg_found l c k d : (n <= c)%nat -> l = LCheck 0 0 \/ l = LRead (c_batch cfg) \/ l = LEnd ->
    In k (page_keys (j_group j) (page_at s j c)) -> fits j e (page_at s j c) k = true ->
    good_group s j n e {| g_loop := l; g_any := true; g_go := [GDone d];
                        g_ms := pair_with e (members (j_group j) k (page_at s j c)); g_buf := 0 |}
| gg_not l c d : (n <= c)%nat -> l = LCheck 0 0 \/ l = LRead (c_batch cfg) \/ l = LEnd ->
    (forall k, In k (page_keys (j_group j) (page_at s j c)) -> fits j e (page_at s j c) k = false) ->
    good_group s j n e {| g_loop := l; g_any := true; g_go := [GDone d]; g_ms := []; g_buf := 1 |}.

Definition busy2 (s : store) (j : job) (n : nat) (e : entry) (a : inner) : Prop :=
  match a with IMany false g => good_group s j n e g | _ => False end.

Lemma grouped_ext j : grouped j -> many_to_one j = false.
Proof using. apply strategy_many. Qed.
Lemma busy2_new s j n e : grouped j -> busy2 s j n e (new_inner cfg j).
Proof using. intros H. unfold new_inner. rewrite H. simpl. constructor. Qed.

Lemma page_at_stable n s s' j c : (n <= List.length (d_int s))%nat -> extends s s' -> (n <= c)%nat -> exists c', (n <= c')%nat /\ page_at s j c = page_at s' j c'.
Proof using.
  intros Hn (l & El) Hc. destruct (firstn_over n (d_int s) c l Hn Hc) as (k & Hk & E). exists k. split; [exact Hk|]. unfold page_at. now rewrite El, <- E.
Qed.
Lemma page_at_whole s j c : (List.length (d_int s) <= c_batch cfg)%nat -> firstn (c_batch cfg) (page_at s j c) = page_at s j c.
Proof using.
  intros H. apply firstn_all2. unfold page_at. pose proof (group_rows_length (j_group j) (firstn c (d_int s))).
  pose proof (firstn_length c (d_int s)). lia.
Qed.
Lemma page_at_beyond s j c : (List.length (d_int s) <= c_batch cfg)%nat -> skipn (c_batch cfg) (page_at s j c) = [].
Proof using.
  intros H. apply skipn_all2. unfold page_at. pose proof (group_rows_length (j_group j) (firstn c (d_int s))).
  pose proof (firstn_length c (d_int s)). lia.
Qed.
Lemma page_now s j : page_at s j (List.length (d_int s)) = group_rows (j_group j) (d_int s).
Proof using. unfold page_at. now rewrite firstn_all. Qed.

Lemma first_page n s j s' p : (n <= List.length (d_int s))%nat -> small s n ->
  read_page (c_batch cfg) 0 (KGroupInt (j_group j) 0) (group_rows (j_group j) (d_int s)) s = (s', p) -> exists c, (n <= c)%nat /\ p = page_at s j c.
Proof using.
  intros B [G L] H. unfold read_page in H. destruct (d_cache s (KGroupInt (j_group j) 0)) as [[|x l]|] eqn:C.
  - destruct (G _ _ _ C) as [X _]. congruence.
  - injection H as <- <-. destruct (G _ _ _ C) as [_ (k & Hk & Hn)]. exists k. split; [exact Hk|]. rewrite Hn. simpl. apply page_at_whole. exact L.
  - simpl in H. rewrite <- page_now, page_at_whole in H by exact L.
    destruct (page_at s j (List.length (d_int s))) eqn:E; injection H as <- <-; exists (List.length (d_int s)); (split; [exact B|]); now rewrite E.
Qed.
Lemma next_page n s j s' p : small s n ->
  read_page (c_batch cfg) (c_batch cfg) (KGroupInt (j_group j) (c_batch cfg)) (group_rows (j_group j) (d_int s)) s = (s', p) -> p = [].
Proof using.
  intros [G L] H. unfold read_page in H. destruct (d_cache s (KGroupInt (j_group j) (c_batch cfg))) as [[|x l]|] eqn:C.
  - destruct (G _ _ _ C) as [X _]. congruence.
  - destruct (G _ _ _ C) as [_ (k & _ & Hn)]. change (group_rows (j_group j) (firstn k (d_int s))) with (page_at s j k) in Hn.
    rewrite page_at_beyond, firstn_nil in Hn by exact L. discriminate.
  - rewrite <- page_now, page_at_beyond, firstn_nil in H by exact L. injection H as <- <-. reflexivity.
Qed.

Lemma good_group_same s s' j n e g : d_int s' = d_int s -> good_group s j n e g -> good_group s' j n e g.
Proof using.
  intros E H. assert (X : forall c, page_at s j c = page_at s' j c) by (intros c; unfold page_at; now rewrite E).
  inversion H; subst; try rewrite X in *; try (econstructor; eauto; fail).
  - constructor. destruct H0 as [H0|(c & H1 & H0)]; [auto|right]. exists c. rewrite <- X. auto.
Qed.

Lemma busy2_move s j n e m a s' a' : grouped j -> (n <= List.length (d_int s))%nat -> small s n ->
  (match m with SFetch ok | GRead ok => ok = true | _ => True end) ->
  busy2 s j n e a -> inner_move cfg j e m s a = (s', a') -> busy2 s' j n e a'.
Proof using.
  intros _ Hb Hs Hm Ha H. destruct a as [|[|] g|]; try contradiction. cbn [inner_move] in H.
  destruct (gmove cfg j false e m s g) as [s1 g1] eqn:G. injection H as <- <-. simpl in *.
  assert (Ei : d_int s1 = d_int s).
  { destruct (gmove_read _ _ _ _ _ _ _ _ _ G) as [->|(o & p & R)]; [reflexivity|].
    destruct (read_page_cache _ _ _ _ _ _ _ R) as [->|[c ->]]; reflexivity. }
  apply (good_group_same s); [exact Ei|]. clear Ei.
  destruct m as [ | | | |ok| |v k]; cbn [gmove] in G; try (injection G as <- <-; exact Ha).
  - subst ok. inversion Ha; subst; cbn -[existsb group_columns read_page] in G.
    + destruct (existsb (String.eqb (j_group j)) _) eqn:Cl; [|injection G as <- <-; constructor; auto].
      destruct (read_page _ _ _ _ _) as [s2 p] eqn:R. destruct (first_page _ _ _ _ _ Hb Hs R) as (c & Hc & ->).
      destruct (page_at s j c) as [|x p] eqn:E; injection G as <- <-.
      * apply gg_none. right. exists c. auto.
      * rewrite <- E. apply gg_look; auto.
    + injection G as <- <-. exact Ha.
    + destruct H0 as [-> | [-> | ->]]; try (injection G as <- <-; exact Ha).
      destruct (existsb (String.eqb (j_group j)) _); [|injection G as <- <-; apply gg_look; auto].
      destruct (read_page _ _ _ _ _) as [s2 p] eqn:R. apply (next_page n) in R; [|exact Hs]. subst p. injection G as <- <-. apply gg_look; auto.
    + destruct H0 as [-> | [-> | ->]]; try (injection G as <- <-; exact Ha).
      destruct (existsb (String.eqb (j_group j)) _); [|injection G as <- <-; apply gg_lost; auto].
      destruct (read_page _ _ _ _ _) as [s2 p] eqn:R. apply (next_page n) in R; [|exact Hs]. subst p. injection G as <- <-. apply gg_lost; auto.
    + destruct H0 as [-> | [-> | ->]]; try (injection G as <- <-; exact Ha).
      destruct (existsb (String.eqb (j_group j)) _); [|injection G as <- <-; apply gg_found; auto].
      destruct (read_page _ _ _ _ _) as [s2 p] eqn:R. apply (next_page n) in R; [|exact Hs]. subst p. injection G as <- <-. apply gg_found; auto.
    + destruct H0 as [-> | [-> | ->]]; try (injection G as <- <-; exact Ha).
      destruct (existsb (String.eqb (j_group j)) _); [|injection G as <- <-; eapply gg_not; eauto].
      destruct (read_page _ _ _ _ _) as [s2 p] eqn:R. apply (next_page n) in R; [|exact Hs]. subst p. injection G as <- <-. eapply gg_not; eauto.
  - inversion Ha; subst; simpl in G; try (injection G as <- <-; exact Ha).
    + destruct H0 as [-> | [-> | ->]]; simpl in G; injection G as <- <-; apply gg_look; auto.
    + destruct H0 as [-> | [-> | ->]]; simpl in G; injection G as <- <-; apply gg_lost; auto.
    + destruct H0 as [-> | [-> | ->]]; simpl in G; injection G as <- <-; apply gg_found; auto. destruct d; auto.
    + destruct H0 as [-> | [-> | ->]]; simpl in G; injection G as <- <-; eapply gg_not; eauto. destruct d; auto.
  - inversion Ha; subst; simpl in G.
    + destruct v; injection G as <- <-; exact Ha.
    + destruct v; injection G as <- <-; exact Ha.
    + destruct v as [|v]; simpl in G; [|destruct v; injection G as <- <-; exact Ha].
      destruct (existsb (String.eqb k) _ && _) eqn:F.
      * apply andb_true_iff in F. destruct F as [F1 F2]. apply existsb_exists in F1. destruct F1 as (k' & F1 & Ek). apply String.eqb_eq in Ek. subst k'.
        injection G as <- <-. apply gg_found; auto.
      * destruct (existsb (fun k0 => matches_group e (members (j_group j) k0 (page_at s j c)) (j_rules j)) (page_keys (j_group j) (page_at s j c))) eqn:X;
          injection G as <- <-; [exact Ha|]. apply gg_lost; auto. intros k0 Hk0.
        destruct (fits j e (page_at s j c) k0) eqn:Y; [|reflexivity]. exfalso.
        assert (Z : existsb (fun k0 => matches_group e (members (j_group j) k0 (page_at s j c)) (j_rules j)) (page_keys (j_group j) (page_at s j c)) = true)
          by (apply existsb_exists; exists k0; auto).
        congruence.
    + destruct v as [|v]; simpl in G; [|destruct v; injection G as <- <-; exact Ha]. injection G as <- <-. eapply gg_not; eauto.
    + destruct v as [|v]; simpl in G; [|destruct v; simpl in G]; injection G as <- <-; exact Ha.
    + destruct v as [|v]; simpl in G; [|destruct v; simpl in G]; injection G as <- <-; exact Ha.
Qed.

Lemma busy2_ans s j n e a x : grouped j -> busy2 s j n e a -> answer_of e a = Some x -> ans2 s j n e x.
Proof using.
  intros _ Ha H. destruct a as [|[|] g|]; try contradiction. simpl in Ha. cbn [answer_of] in H.
  inversion Ha; subst; simpl in H; try discriminate.
  - injection H as <-. right. simpl. repeat split; auto. destruct H0 as [H0|(c & H1 & H0)]; [auto|right]. exists c. split; [exact H1|]. rewrite H0. intros k [].
  - destruct l; discriminate.
  - destruct l; discriminate.
  - destruct l; try discriminate. injection H as <-. left. simpl. split; auto. exists c, k. auto.
  - destruct l; try discriminate. injection H as <-. right. simpl. repeat split; auto. right. exists c. auto.
Qed.

Lemma busy2_stable s s' j n e a : (n <= List.length (d_int s))%nat -> extends s s' -> busy2 s j n e a -> busy2 s' j n e a.
Proof using.
  intros Hb Ex Ha. destruct a as [|[|] g|]; auto. simpl in *. inversion Ha; subst.
  - constructor.
  - constructor. destruct H as [H|(c & H0 & H)]; [auto|right]. destruct (page_at_stable n s s' j c Hb Ex H0) as (c' & Hc & E). exists c'. split; [exact Hc|congruence].
  - destruct (page_at_stable n s s' j c Hb Ex ltac:(assumption)) as (c' & Hc & E). rewrite E. now apply gg_look.
  - destruct (page_at_stable n s s' j c Hb Ex ltac:(assumption)) as (c' & Hc & E). rewrite E in *. now apply gg_lost.
  - destruct (page_at_stable n s s' j c Hb Ex ltac:(assumption)) as (c' & Hc & E). rewrite E in *. now apply gg_found.
  - destruct (page_at_stable n s s' j c Hb Ex ltac:(assumption)) as (c' & Hc & E). rewrite E in *. now apply gg_not with (c := c').
Qed.
Lemma ans2_stable s s' j n e a : (n <= List.length (d_int s))%nat -> extends s s' -> ans2 s j n e a -> ans2 s' j n e a.
Proof using.
  intros Hb Ex [(A & c & k & Hn & B & C & D)|(A & B & C)]; [left|right].
  - split; [exact A|]. destruct (page_at_stable n s s' j c Hb Ex ltac:(assumption)) as (c' & Hc & E). rewrite E in *. exists c', k. auto.
  - repeat split; auto. destruct C as [C|(c & Hn & C)]; [auto|right]. destruct (page_at_stable n s s' j c Hb Ex ltac:(assumption)) as (c' & Hc & E). rewrite E in *. eauto.
Qed.

Lemma many_final (P : proviso -> Prop) es y i r m u : P OwnPages -> P Settled -> P NoFault -> P OnePage -> P FreshGroups ->
  history cfg P es y -> nth_error (y_runs y) i = Some r -> j_strategy (r_job r) = "one_to_many" -> completed y i m u ->
  Permutation (upload_rows (j_upload (r_job r)) (y_store y)) (map fst (r_done r))
  /\ forall x, In x (r_done r) -> ans2 (y_store y) (r_job r) (r_base r) (fst x) (snd x).
Proof using Hcfg.
  intros P1 P2 P3 P4 P5.
  apply (custody_final cfg Hcfg grouped grouped_ext busy2 ans2 small busy2_new busy2_move busy2_ans busy2_stable ans2_stable); auto.
  intros es' y' H k r' Hr'. split; [eapply (group_pages_hold cfg P es' y' P5 H); eauto|eapply one_page_hold; eauto].
Qed.
End Many.

Lemma ans2_ids s j n e a : ans2 s j n e a -> (forall p, In p (fst a) -> fst p = n_id e) /\ (forall z, In z (snd a) -> z = n_id e).
Proof.
  intros [(A & c & k & _ & _ & _ & D)|(A & B & _)].
  - rewrite A, D. split; [|intros z []]. unfold pair_with. intros p Hp. apply in_map_iff in Hp. destruct Hp as (t & <- & _). reflexivity.
  - rewrite A, B. split; [intros p []|]. intros z [<-|[]]. reflexivity.
Qed.

Lemma keys_members crit l k : In k (page_keys crit l) <-> members crit k l <> [].
Proof.
  unfold page_keys. rewrite nodup_In, in_map_iff. split.
  - intros (t & <- & Ht) E. assert (X : In t (members crit (column crit t) l)) by (apply filter_In; split; [exact Ht|apply String.eqb_refl]).
    rewrite E in X. destruct X.
  - intros H. destruct (members crit k l) as [|t m] eqn:E; [congruence|]. exists t.
    assert (X : In t (members crit k l)) by (rewrite E; now left). apply filter_In in X. destruct X as [X1 X2]. apply String.eqb_eq in X2. auto.
Qed.

Lemma group_once_ok cfg (P : proviso -> Prop) es y i j m u e : sensible cfg -> P OwnPages -> P Settled -> P NoFault -> P OnePage -> P FreshGroups ->
  history cfg P es y -> run_is y i j -> j_strategy j = "one_to_many" -> j_dry j = false -> completed y i m u -> uploaded y (j_upload j) e ->
  (exists led k l v, ledger_since y i led /\ k <> "" /\ l <> [] /\ whole_group (j_group j) k led l
     /\ stands_for l v /\ fulfils (j_rules j) e v
     /\ Permutation (matched_to y i (n_id e)) (map n_id l) /\ times_unmatched y i (n_id e) = O)
  \/ (matched_to y i (n_id e) = [] /\ times_unmatched y i (n_id e) = 1%nat
      /\ (~ In (j_group j) (group_columns false)
          \/ exists led, ledger_since y i led /\ forall k, k <> "" -> exists l,
               whole_group (j_group j) k led l /\ (l = [] \/ forall v, stands_for l v -> ~ fulfils (j_rules j) e v))).
Proof.
  intros Hcfg P1 P2 P3 P4 P5 H (r & Hr & <-) Hj Hd Hc He. destruct (many_final cfg Hcfg P es y i r m u P1 P2 P3 P4 P5 H Hr Hj Hc) as [Hp Ha].
  destruct (one_answer cfg P es y i r m u e H Hr Hd Hc Hp) as (a & Hin & M & U); auto.
  { intros x Hx. eapply ans2_ids; eauto. }
  destruct (Ha _ Hin) as [(A & c & k & Hb & B & C & D)|(A & B & C)]; cbn [fst snd] in *.
  - left. assert (Hne : k <> "").
    { unfold page_keys in B. apply nodup_In, in_map_iff in B. destruct B as (t & <- & Ht). apply group_rows_in in Ht. tauto. }
    apply keys_members in B.
    exists (firstn c (d_int (y_store y))), k, (members (j_group (r_job r)) k (page_at (y_store y) (r_job r) c)), (group_entry (members (j_group (r_job r)) k (page_at (y_store y) (r_job r) c))).
    split; [exists r, c; auto|].
    repeat split; try (now apply group_stands); auto.
    + now apply members_rows.
    + now apply rules_ok.
    + rewrite M, D. unfold pair_with. rewrite map_map. reflexivity.
    + rewrite U, A. reflexivity.
  - right. rewrite A in M. simpl in M. split; [apply Permutation_nil; now symmetry|]. rewrite U, B. split; [reflexivity|].
    destruct C as [C|(c & Hb & C)]; [left|right].
    + intros X. assert (existsb (String.eqb (j_group (r_job r))) (group_columns false) = true)
        by (apply existsb_exists; exists (j_group (r_job r)); split; [exact X|apply String.eqb_refl]). congruence.
    + exists (firstn c (d_int (y_store y))). split; [exists r, c; auto|].
      intros k Hk. exists (members (j_group (r_job r)) k (page_at (y_store y) (r_job r) c)). split; [now apply members_rows|].
      destruct (members (j_group (r_job r)) k (page_at (y_store y) (r_job r) c)) as [|t l] eqn:E; [auto|right].
      assert (Ne : members (j_group (r_job r)) k (page_at (y_store y) (r_job r) c) <> []) by (rewrite E; discriminate). rewrite <- E.
      intros v Hv Hf. assert (X : fits (r_job r) e (page_at (y_store y) (r_job r) c) k = true).
      { apply rules_ok. eapply stands_same; [exact Ne|exact Hv|now apply group_stands|exact Hf]. }
      rewrite C in X; [discriminate|]. now apply keys_members.
Qed.
