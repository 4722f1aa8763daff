(** Searching for one transaction at a time. *)
From Coq Require Import ZArith QArith Qabs List String Ascii Bool Lia Permutation.
From Verif Require Import Base ReconModel ReconSpec ReconRules ReconSteps ReconCount ReconSound ReconKeep.
Import ListNotations.
Local Open Scope string_scope.
Local Open Scope list_scope.

Definition singly (j : job) : Prop := j_strategy j = "one_to_one".
Definition found_by (s : store) (j : job) (e : entry) : list entry := filter (in_range e (j_rules j)) (d_int s).
Definition live (w : sworker) : list unit := if sgone w then [] else [tt].
Definition active (q : search) : Prop := q_ms q <> [] \/ exists t, In (SSend t) (q_work q).
Definition seen (s : store) (j : job) (n : nat) (e : entry) (q : search) : list entry :=
  match q_fetch q with
  | FRead off | FPut _ off => firstn off (found_by s j e)
  | FGone => filter (in_range e (j_rules j)) (firstn n (d_int s))
  end.

Section One.
Variable cfg : rconfig.
Hypothesis Hcfg : sensible cfg.

Record good_search (s : store) (j : job) (n : nat) (e : entry) (q : search) : Prop := {
  gs_len : List.length (q_work q) = c_workers cfg;
  gs_err : q_err q = false;
  gs_count : (List.length (q_ms q) + List.length (flat_map live (q_work q)) <= c_workers cfg)%nat;
  gs_found : q_found q = true <-> q_ms q <> [];
  gs_ext : forall x, In x (q_ms q) -> fst x = n_id e;
  gs_off : match q_fetch q with FRead off | FPut _ off => (off <= List.length (found_by s j e))%nat | FGone => True end;
  gs_seen : forall t, In t (seen s j n e q) -> matches_rules e t (j_rules j) = true -> In t (inf (q_fetch q)) \/ In t (q_jobs q) \/ active q;
  gs_gone : In SGone (q_work q) -> q_ms q <> [] \/ (q_jobs q = [] /\ q_fetch q = FGone);
  gs_end : forall l, q_end q = Some l -> forallb sgone (q_work q) = true /\ l = if q_found q then [] else [n_id e] }.

Definition busy1 (s : store) (j : job) (n : nat) (e : entry) (a : inner) : Prop :=
  match a with IOne q => good_search s j n e q | _ => False end.
Definition ans1 (s : store) (j : job) (n : nat) (e : entry) (a : answer) : Prop :=
  (forall x, In x (fst a) -> fst x = n_id e) /\ (List.length (fst a) <= c_workers cfg)%nat
  /\ ((fst a <> [] /\ snd a = [])
      \/ (fst a = [] /\ snd a = [n_id e]
          /\ forall t, In t (firstn n (d_int s)) -> in_range e (j_rules j) t = true -> matches_rules e t (j_rules j) = true -> False)).

Lemma singly_ext j : singly j -> many_to_one j = false.
Proof using. apply strategy_one. Qed.

Lemma flat_live_repeat k : List.length (flat_map live (repeat SIdle k)) = k.
Proof using. induction k; simpl; auto. Qed.

Lemma busy1_new s j n e : singly j -> busy1 s j n e (new_inner cfg j).
Proof using.
  intros H. unfold new_inner. rewrite H. simpl. constructor; simpl; auto.
  - apply repeat_length.
  - rewrite flat_live_repeat. lia.
  - split; [discriminate|congruence].
  - intros x [].
  - lia.
  - intros H'. apply repeat_spec in H'. discriminate.
  - discriminate.
Qed.

Lemma set_at_keeps {A} v (a b x : A) l : nth_error l v = Some a -> a <> x -> In x l -> In x (set_at v b l).
Proof using.
  revert v. induction l as [|y l IH]; intros [|v] H Hn Hx; simpl in *; try discriminate.
  - injection H as ->. destruct Hx as [->|Hx]; [congruence|auto].
  - destruct Hx as [->|Hx]; [auto|]. right. eauto.
Qed.
Lemma set_at_has {A} v (a b : A) l : nth_error l v = Some a -> In b (set_at v b l).
Proof using. intros H. eapply nth_error_In. apply set_at_same. eapply nth_lt; eauto. Qed.

Lemma base_found s j n e t : In t (filter (in_range e (j_rules j)) (firstn n (d_int s))) -> In t (found_by s j e).
Proof using.
  unfold found_by. rewrite !filter_In. intros [H1 H2]. split; [|exact H2]. rewrite <- (firstn_skipn n (d_int s)). apply in_app_iff. now left.
Qed.

Lemma all_sgone l v a : forallb sgone l = true -> nth_error l v = Some a -> a = SGone.
Proof using.
  intros H Ha. rewrite forallb_forall in H. apply nth_error_In, H in Ha. destruct a; try discriminate. reflexivity.
Qed.

Lemma smove_good s j n e m q : (match m with SFetch ok | GRead ok => ok = true | _ => True end) ->
  good_search s j n e q -> good_search s j n e (smove cfg (j_rules j) e m s q).
Proof using Hcfg.
  intros Hm Hq. pose proof Hq as [Ln Er Ct Fd Ex Of Sn Gn En]. destruct m as [ok| |v|err| | |]; cbn [smove]; auto.
  - subst ok. destruct (q_fetch q) as [off|l off|] eqn:F; auto.
    set (p := firstn (c_batch cfg) (skipn off (filter (in_range e (j_rules j)) (d_int s)))).
    unfold seen in Sn. rewrite F in Sn.
    constructor; simpl; auto.
    + unfold fetched. destruct p as [|t p'] eqn:P; [exact I|].
      change (off + List.length (t :: p') <= List.length (found_by s j e))%nat. rewrite <- P. subst p.
      rewrite firstn_length, skipn_length. unfold found_by in *. lia.
    + intros t Ht Hmt. unfold seen in Ht. simpl in Ht. unfold fetched in *. destruct p as [|t0 p'] eqn:P; simpl.
      * apply base_found in Ht. rewrite <- (page_nil (c_batch cfg) off (found_by s j e)) in Ht; [|apply Hcfg|exact P].
        destruct (Sn _ Ht Hmt) as [[]|X]; auto.
      * change (t0 = t \/ In t p') with (In t (t0 :: p')). rewrite <- P in *. subst p.
        change (In t (firstn (off + List.length (firstn (c_batch cfg) (skipn off (found_by s j e)))) (found_by s j e))) in Ht.
        rewrite page_grows in Ht. apply in_app_iff in Ht. destruct Ht as [Ht|Ht]; [|left; exact Ht].
        destruct (Sn _ Ht Hmt) as [[]|X]; auto.
    + intros X. destruct (Gn X) as [Y|[_ Y]]; [auto|congruence].
  - destruct (q_fetch q) as [off|[|t l] off|] eqn:F; auto. unfold seen in Sn. rewrite F in Sn. constructor; simpl; auto.
    + destruct l; exact Of.
    + intros x Hx Hmt.
      assert (Hx' : In x (firstn off (found_by s j e))) by (destruct l; exact Hx).
      rewrite in_app_iff. destruct (Sn _ Hx' Hmt) as [[X|X]|[X|X]]; simpl; auto.
      left. destruct l; [destruct X|exact X].
    + intros X. destruct (Gn X) as [Y|[_ Y]]; [auto|congruence].
  - destruct (nth_error (q_work q) v) as [[|t|]|] eqn:W; auto.
    + pose proof (flat_set live _ v _ W) as (z & F1 & F2). apply Permutation_length in F1. simpl in F1.
      destruct (q_jobs q) as [|t l] eqn:J.
      * destruct (fetcher_gone (q_fetch q)) eqn:F; auto. constructor; simpl; auto.
        -- rewrite set_at_length. exact Ln.
        -- rewrite (Permutation_length (F2 SGone)). simpl. lia.
        -- intros x Hx Hmt. destruct (Sn x Hx Hmt) as [X|[[]|[X|[t X]]]]; [left; exact X|right; right; left; exact X|].
           right. right. right. exists t. simpl. eapply set_at_keeps; eauto. discriminate.
        -- intros _. right. split; auto. destruct (q_fetch q); try discriminate. reflexivity.
        -- intros l Hl. destruct (En _ Hl) as [X _]. pose proof (all_sgone _ _ _ X W). discriminate.
      * constructor; simpl; auto.
        -- rewrite set_at_length. exact Ln.
        -- rewrite (Permutation_length (F2 _)). destruct (matches_rules e t (j_rules j)); simpl; lia.
        -- intros x Hx Hmt. destruct (Sn x Hx Hmt) as [X|[[->|X]|[X|[t' X]]]]; [left; exact X| |right; left; exact X| |].
           ++ right. right. right. exists x. simpl. rewrite Hmt. eapply set_at_has; eauto.
           ++ right. right. left. exact X.
           ++ right. right. right. exists t'. simpl. eapply set_at_keeps; eauto. discriminate.
        -- intros X. apply set_at_in in X. destruct X as [X|X]; [destruct (matches_rules e t (j_rules j)); discriminate|].
           destruct (Gn X) as [Y|[Y _]]; [auto|discriminate].
        -- intros l' Hl. destruct (En _ Hl) as [X _]. pose proof (all_sgone _ _ _ X W). discriminate.
    + pose proof (flat_set live _ v _ W) as (z & F1 & F2). apply Permutation_length in F1. simpl in F1.
      assert (N : q_ms q ++ [(n_id e, n_id t)] <> []) by (destruct (q_ms q); discriminate).
      constructor; simpl; auto.
      * rewrite set_at_length. exact Ln.
      * rewrite (Permutation_length (F2 SGone)), app_length. simpl. lia.
      * tauto.
      * intros x Hx. apply in_app_iff in Hx. destruct Hx as [Hx|[<-|[]]]; auto.
      * intros x _ _. right. right. left. exact N.
      * intros l Hl. destruct (En _ Hl) as [X _]. pose proof (all_sgone _ _ _ X W). discriminate.
  - destruct (q_end q) eqn:E; auto. destruct err; [rewrite Er; exact Hq|]. destruct (forallb sgone (q_work q)) eqn:G; [|exact Hq].
    constructor; simpl; auto. intros l Hl. injection Hl as <-. auto.
Qed.

Lemma good_stable s s' j n e q : (n <= List.length (d_int s))%nat -> extends s s' -> good_search s j n e q -> good_search s' j n e q.
Proof using.
  intros Hn (l & El) [Ln Er Ct Fd Ex Of Sn Gn En]. constructor; auto.
  - unfold found_by in *. destruct (q_fetch q); auto; rewrite El, filter_app, app_length; lia.
  - intros t Ht. apply Sn. unfold seen, found_by in *. rewrite El in Ht. destruct (q_fetch q).
    + rewrite filter_app, firstn_extends in Ht by exact Of. exact Ht.
    + rewrite filter_app, firstn_extends in Ht by exact Of. exact Ht.
    + rewrite firstn_extends in Ht by exact Hn. exact Ht.
Qed.

Lemma busy1_move s j n e m a s' a' : singly j -> (n <= List.length (d_int s))%nat -> True ->
  (match m with SFetch ok | GRead ok => ok = true | _ => True end) ->
  busy1 s j n e a -> inner_move cfg j e m s a = (s', a') -> busy1 s' j n e a'.
Proof using Hcfg.
  intros _ _ _ Hm Ha H. destruct a as [q| |]; try contradiction. cbn [inner_move] in H. injection H as <- <-. simpl. now apply smove_good.
Qed.

Lemma busy1_ans s j n e a x : singly j -> busy1 s j n e a -> answer_of e a = Some x -> ans1 s j n e x.
Proof using Hcfg.
  intros _ Ha H. destruct a as [q| |]; try contradiction. cbn [answer_of] in H. destruct (q_end q) as [l|] eqn:E; [|discriminate].
  injection H as <-. destruct Ha as [Ln Er Ct Fd Ex Of Sn Gn En]. destruct (En _ E) as [G ->]. split; [exact Ex|]. simpl. split; [lia|].
  destruct (q_ms q) as [|p ms] eqn:M.
  - right. destruct (q_found q) eqn:F; [exfalso; apply Fd; auto|]. repeat split; auto. intros t Ht Hr Hmt.
    assert (Gw : In SGone (q_work q)).
    { destruct (q_work q) as [|w ws]; [simpl in Ln; destruct Hcfg; lia|]. simpl in G. apply andb_true_iff in G. destruct G as [G _].
      destruct w; try discriminate. now left. }
    destruct (Gn Gw) as [X|[X1 X2]]; [congruence|].
    destruct (Sn t) as [X|[X|[X|[t' X]]]]; auto.
    + unfold seen. rewrite X2. now apply filter_In.
    + rewrite X2 in X. destruct X.
    + rewrite X1 in X. destruct X.
    + rewrite forallb_forall in G. apply G in X. discriminate.
  - left. split; [discriminate|]. destruct (q_found q) eqn:F; [reflexivity|]. exfalso. assert (false = true) by (apply Fd; discriminate). discriminate.
Qed.

Lemma busy1_stable s s' j n e a : (n <= List.length (d_int s))%nat -> extends s s' -> busy1 s j n e a -> busy1 s' j n e a.
Proof using. intros. destruct a; auto. simpl in *. eapply good_stable; eauto. Qed.
Lemma ans1_stable s s' j n e a : (n <= List.length (d_int s))%nat -> extends s s' -> ans1 s j n e a -> ans1 s' j n e a.
Proof using.
  intros Hn (l & El) (A & B & C). split; [exact A|]. split; [exact B|]. destruct C as [C|(C1 & C2 & C3)]; [auto|]. right. repeat split; auto.
  intros t Ht. apply C3. rewrite El, firstn_extends in Ht by exact Hn. exact Ht.
Qed.

Lemma one_final (P : proviso -> Prop) es y i r m u : P OwnPages -> P Settled -> P NoFault ->
  history cfg P es y -> nth_error (y_runs y) i = Some r -> j_strategy (r_job r) = "one_to_one" -> completed y i m u ->
  Permutation (upload_rows (j_upload (r_job r)) (y_store y)) (map fst (r_done r))
  /\ forall x, In x (r_done r) -> ans1 (y_store y) (r_job r) (r_base r) (fst x) (snd x).
Proof using Hcfg.
  intros P1 P2 P3. apply (custody_final cfg Hcfg singly singly_ext busy1 ans1 (fun _ _ => True) busy1_new busy1_move busy1_ans busy1_stable ans1_stable); auto.
Qed.
End One.

Lemma ans1_ids cfg s j n e a : ans1 cfg s j n e a -> (forall p, In p (fst a) -> fst p = n_id e) /\ (forall z, In z (snd a) -> z = n_id e).
Proof.
  intros (A & _ & C). split; [exact A|]. destruct C as [(_ & C)|(_ & C & _)]; rewrite C; [intros z []|]. intros z [<-|[]]; reflexivity.
Qed.

Lemma once_ok cfg (P : proviso -> Prop) es y i j m u e : sensible cfg -> P OwnPages -> P Settled -> P NoFault ->
  history cfg P es y -> run_is y i j -> j_strategy j = "one_to_one" -> j_dry j = false -> completed y i m u -> uploaded y (j_upload j) e ->
  ((1 <= List.length (matched_to y i (n_id e)) <= c_workers cfg)%nat /\ times_unmatched y i (n_id e) = O)
  \/ (matched_to y i (n_id e) = [] /\ times_unmatched y i (n_id e) = 1%nat
      /\ forall r t, posted_before y i t -> In r (j_rules j) -> Forall (meets e t) r -> within_reach (j_rules j) r e t -> False).
Proof.
  intros Hcfg P1 P2 P3 H (r & Hr & <-) Hj Hd Hc He. destruct (one_final cfg Hcfg P es y i r m u P1 P2 P3 H Hr Hj Hc) as [Hp Ha].
  destruct (one_answer cfg P es y i r m u e H Hr Hd Hc Hp) as (a & Hin & M & U); auto.
  { intros x Hx. eapply ans1_ids; eauto. }
  destruct (Ha _ Hin) as (_ & B & C). simpl in B, C. apply Permutation_length in M as L. rewrite map_length in L.
  destruct C as [(C1 & C2)|(C1 & C2 & C3)].
  - left. rewrite U, C2. split; [|reflexivity]. rewrite L. destruct (fst a); [congruence|simpl in *; lia].
  - right. rewrite C1 in M, L. simpl in *. split; [now apply Permutation_nil|]. rewrite U, C2. split; [reflexivity|].
    intros rl t (r' & Hr' & Ht) Hrl Hmt Hw. assert (r' = r) by congruence. subst r'. apply (C3 t Ht).
    + eapply reach_ok; eauto.
    + apply rules_ok. exists rl. auto.
Qed.

Lemma total_ok cfg (P : proviso -> Prop) es y i j m u : sensible cfg -> c_workers cfg = 1%nat -> P OwnPages -> P Settled -> P NoFault ->
  history cfg P es y -> run_is y i j -> j_strategy j = "one_to_one" -> completed y i m u ->
  (m + u)%nat = List.length (filter (fun x => String.eqb (fst x) (j_upload j)) (d_ext (y_store y))).
Proof.
  intros Hcfg W1 P1 P2 P3 H (r & Hr & <-) Hj Hc. destruct (one_final cfg Hcfg P es y i r m u P1 P2 P3 H Hr Hj Hc) as [Hp Ha].
  pose proof (bk_runs _ (books_hold _ _ _ _ H) _ _ Hr) as [A B _ _ _ F]. destruct (F _ _ Hc) as (_ & G & Er & -> & ->).
  rewrite (A Er), (B Er), !all_gone by auto. rewrite !app_nil_r.
  apply Permutation_length in Hp. unfold upload_rows in Hp. rewrite !map_length in Hp. rewrite Hp. unfold dm, du.
  clear -Ha W1. induction (r_done r) as [|[e a] l IH]; simpl; [reflexivity|].
  rewrite !app_length. destruct (Ha (e, a)) as (_ & B & C); [now left|]. simpl in B, C. rewrite W1 in B.
  assert (X : (List.length (flat_map am l) + List.length (flat_map au l))%nat = List.length l) by (apply IH; intros; apply Ha; now right).
  assert (Y : (List.length (fst a) + List.length (snd a))%nat = 1%nat).
  { destruct C as [(C1 & C2)|(C1 & C2 & _)]; rewrite ?C2, ?C1; simpl; auto. destruct (fst a) as [|? [|? ?]]; simpl in *; try congruence; try lia. }
  unfold am, au in *. simpl in *. lia.
Qed.
