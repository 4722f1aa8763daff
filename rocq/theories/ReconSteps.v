(** The moves of a run, case by case; what they leave alone. *)
From Coq Require Import ZArith QArith Qabs List String Ascii Bool Lia Permutation.
From Verif Require Import Base ReconModel ReconSpec.
Import ListNotations.
Local Open Scope string_scope.

Lemma set_at_length {A} n (a : A) l : List.length (set_at n a l) = List.length l.
Proof. revert n. induction l as [|x l IH]; intros [|n]; simpl; auto. Qed.
Lemma set_at_same {A} n (a : A) l : (n < List.length l)%nat -> nth_error (set_at n a l) n = Some a.
Proof. revert n. induction l as [|x l IH]; intros [|n] H; simpl in *; try lia; auto. apply IH. lia. Qed.
Lemma set_at_other {A} n k (a : A) l : n <> k -> nth_error (set_at n a l) k = nth_error l k.
Proof. revert n k. induction l as [|x l IH]; intros [|n] [|k] H; simpl; auto; congruence. Qed.
Lemma nth_lt {A} (l : list A) n a : nth_error l n = Some a -> (n < List.length l)%nat.
Proof. intros H. apply nth_error_Some. congruence. Qed.
Lemma set_at_nth {A} n k (a b x : A) l : nth_error l n = Some b -> nth_error (set_at n a l) k = Some x ->
  (k = n /\ x = a) \/ (k <> n /\ nth_error l k = Some x).
Proof.
  intros Hb H. destruct (Nat.eq_dec k n) as [->|E].
  - rewrite set_at_same in H by eauto using nth_lt. left. split; congruence.
  - rewrite set_at_other in H by auto. auto.
Qed.
Lemma set_at_in {A} n (a x : A) l : In x (set_at n a l) -> x = a \/ In x l.
Proof.
  revert n. induction l as [|y l IH]; intros [|n] H; simpl in *; auto.
  - destruct H as [<-|H]; auto.
  - destruct H as [<-|H]; auto. destruct (IH _ H); auto.
Qed.

Lemma flat_set {A B} (f : A -> list B) l w a : nth_error l w = Some a ->
  exists x, Permutation (flat_map f l) (f a ++ x) /\ forall b, Permutation (flat_map f (set_at w b l)) (f b ++ x).
Proof.
  revert w. induction l as [|y l IH]; intros [|w] H; simpl in H; try discriminate.
  - injection H as ->. exists (flat_map f l). split; intros; apply Permutation_refl.
  - destruct (IH _ H) as (x & H1 & H2). exists (f y ++ x)%list. simpl. split.
    + rewrite H1. rewrite !app_assoc. apply Permutation_app_tail. apply Permutation_app_comm.
    + intros b. rewrite (H2 b). rewrite !app_assoc. apply Permutation_app_tail. apply Permutation_app_comm.
Qed.

Definition orphaned (a : inner) (e : entry) (r : run) : list (entry * search) :=
  match a with IOne q => r_orphans r ++ [(e, q)] | _ => r_orphans r end%list.

(** The moves that change something. *)
Inductive rstep (cfg : rconfig) (i : nat) (s : store) (r : run) : move -> store -> run -> Prop :=
| rs_fetch off s' p : r_fetch r = FRead off ->
    read_page (c_batch cfg) off (key_to_process (r_job r) off) (rows_to_process (r_job r) s) s = (s', p) ->
    rstep cfg i s r (MFetch true) s' (with_fetch (fetched p off) r)
| rs_fetch_err off : r_fetch r = FRead off -> rstep cfg i s r (MFetch false) s (with_err (with_fetch FGone r))
| rs_put e l off : r_fetch r = FPut (e :: l) off ->
    rstep cfg i s r MPut s (with_jobs (r_jobs r ++ [e]) (with_fetch (after_put l off) r))
| rs_take w e l : nth_error (r_work r) w = Some OIdle -> r_jobs r = e :: l ->
    rstep cfg i s r (MTake w) s (with_work (set_at w (OBusy e (new_inner cfg (r_job r))) (r_work r)) (with_jobs l r))
| rs_leave w : nth_error (r_work r) w = Some OIdle -> r_jobs r = [] -> r_fetch r = FGone ->
    rstep cfg i s r (MTake w) s (with_work (set_at w OGone (r_work r)) r)
| rs_inner w im e a s' a' : nth_error (r_work r) w = Some (OBusy e a) -> inner_move cfg (r_job r) e im s a = (s', a') ->
    rstep cfg i s r (MInner w im) s' (with_work (set_at w (OBusy e a') (r_work r)) r)
| rs_answer_dry w e a ms us : nth_error (r_work r) w = Some (OBusy e a) -> answer_of e a = Some (ms, us) -> j_dry (r_job r) = true ->
    rstep cfg i s r (MAnswer w) s
      (processed w e (ms, us) (with_orphans (orphaned a e r) (with_counts (r_matched r + List.length ms) (r_unmatched r + List.length us) r)))
| rs_answer w e a ms us : nth_error (r_work r) w = Some (OBusy e a) -> answer_of e a = Some (ms, us) -> j_dry (r_job r) = false ->
    rstep cfg i s r (MAnswer w) s
      (with_work (set_at w (OMatched e (ms, us)) (r_work r))
         (with_orphans (orphaned a e r) (with_counts (r_matched r + List.length ms) (r_unmatched r + List.length us) r)))
| rs_no_matches w e us ok : nth_error (r_work r) w = Some (OMatched e ([], us)) ->
    rstep cfg i s r (MMatches w ok) s (with_work (set_at w (OUnmatched e ([], us)) (r_work r)) r)
| rs_matches w e ms us : nth_error (r_work r) w = Some (OMatched e (ms, us)) ->
    rstep cfg i s r (MMatches w true)
      (with_matches (d_match s ++ map (fun x => {| m_recon := i; m_ext := fst x; m_int := snd x |}) ms) s)
      (with_rmarks (r_marks r ++ map snd ms) (with_work (set_at w (OUnmatched e (ms, us)) (r_work r)) r))
| rs_matches_err w e ms us : nth_error (r_work r) w = Some (OMatched e (ms, us)) ->
    rstep cfg i s r (MMatches w false) s (stopped w r)
| rs_none_unmatched w e ms ok : nth_error (r_work r) w = Some (OUnmatched e (ms, [])) ->
    rstep cfg i s r (MUnmatched w ok) s (processed w e (ms, []) r)
| rs_unmatched w e ms us : nth_error (r_work r) w = Some (OUnmatched e (ms, us)) ->
    rstep cfg i s r (MUnmatched w true) (with_unm (d_unm s ++ map (fun x => (i, x)) us) s) (processed w e (ms, us) r)
| rs_unmatched_err w e ms us : nth_error (r_work r) w = Some (OUnmatched e (ms, us)) ->
    rstep cfg i s r (MUnmatched w false) s (stopped w r)
| rs_mark t l : r_marks r = t :: l -> rstep cfg i s r MMark (with_marks (d_marks s ++ [(i, t)]) s) (with_rmarks l r)
| rs_orphan k v e q : nth_error (r_orphans r) k = Some (e, q) ->
    rstep cfg i s r (MOrphan k v) s (with_orphans (set_at k (e, smove cfg (j_rules (r_job r)) e (SWork v) s q) (r_orphans r)) r)
| rs_fail err (ok : bool) : r_end r = false -> (err = true /\ r_err r = true \/ err = false /\ forallb ogone (r_work r) = true /\ r_errs r = true) ->
    rstep cfg i s r (MMain err ok) (if ok then with_recon (set_at i RFailed (d_recon s)) s else s) (with_end r)
| rs_finish (ok : bool) : r_end r = false -> forallb ogone (r_work r) = true -> r_errs r = false ->
    rstep cfg i s r (MMain false ok)
      (with_recon (set_at i (if ok then RCompleted (r_matched r) (r_unmatched r) else RFailed) (d_recon s)) s) (with_end r).

Lemma with_orphans_same r : with_orphans (r_orphans r) r = r.
Proof. destruct r; reflexivity. Qed.

Lemma run_move_cases cfg i m s r s' r' : run_move cfg i m s r = (s', r') ->
  (s' = s /\ r' = r) \/ rstep cfg i s r m s' r'.
Proof.
  intros H. destruct m as [ok| |w|w im|w|w ok|w ok| |k v|err ok]; cbn [run_move] in H.
  - destruct (r_fetch r) as [off|l off|] eqn:F; try (injection H as <- <-; now left).
    destruct ok; [|injection H as <- <-; right; econstructor; eassumption].
    destruct (read_page _ _ _ _ _) as [s1 p] eqn:E. injection H as <- <-. right. econstructor; eassumption.
  - destruct (r_fetch r) as [off|[|e l] off|] eqn:F; try (injection H as <- <-; now left).
    injection H as <- <-. right. econstructor; eassumption.
  - destruct (nth_error (r_work r) w) as [[| | | |]|] eqn:E; try (injection H as <- <-; now left).
    destruct (r_jobs r) as [|e l] eqn:J.
    + destruct (fetcher_gone (r_fetch r)) eqn:F; injection H as <- <-; [right|now left].
      destruct (r_fetch r) eqn:F'; try discriminate. econstructor; eassumption.
    + injection H as <- <-. right. econstructor; eassumption.
  - destruct (nth_error (r_work r) w) as [[|e a| | |]|] eqn:E; try (injection H as <- <-; now left).
    destruct (inner_move cfg (r_job r) e im s a) as [s1 a'] eqn:I. injection H as <- <-. right. econstructor; eassumption.
  - destruct (nth_error (r_work r) w) as [[|e a| | |]|] eqn:E; try (injection H as <- <-; now left).
    destruct (answer_of e a) as [[ms us]|] eqn:A; [|injection H as <- <-; now left].
    assert (Hr : match a with IOne q => with_orphans (r_orphans (with_counts (r_matched r + List.length ms) (r_unmatched r + List.length us) r) ++ [(e, q)])
                   (with_counts (r_matched r + List.length ms) (r_unmatched r + List.length us) r)
                 | _ => with_counts (r_matched r + List.length ms) (r_unmatched r + List.length us) r end
            = with_orphans (orphaned a e r) (with_counts (r_matched r + List.length ms) (r_unmatched r + List.length us) r)).
    { destruct a; reflexivity. }
    rewrite Hr in H. right. destruct (j_dry (r_job r)) eqn:D; injection H as <- <-.
    + eapply rs_answer_dry; eassumption.
    + eapply (rs_answer cfg i s r w e a ms us); eassumption.
  - destruct (nth_error (r_work r) w) as [[| |e [ms us]| |]|] eqn:E; try (injection H as <- <-; now left).
    right. destruct ms as [|x ms]; [injection H as <- <-; econstructor; eassumption|].
    destruct ok; injection H as <- <-; [apply (rs_matches cfg i s r w e (x :: ms) us E)|econstructor; eassumption].
  - destruct (nth_error (r_work r) w) as [[| | |e [ms us]|]|] eqn:E; try (injection H as <- <-; now left).
    right. destruct us as [|x us]; [injection H as <- <-; econstructor; eassumption|].
    destruct ok; injection H as <- <-; [apply (rs_unmatched cfg i s r w e ms (x :: us) E)|econstructor; eassumption].
  - destruct (r_marks r) as [|t l] eqn:E; injection H as <- <-; [now left|]. right. econstructor; eassumption.
  - destruct (nth_error (r_orphans r) k) as [[e q]|] eqn:E; injection H as <- <-; [|now left]. right. econstructor; eassumption.
  - destruct (r_end r) eqn:R; [injection H as <- <-; now left|]. destruct err.
    + destruct (r_err r) eqn:E; injection H as <- <-; [|now left]. right. apply rs_fail; auto.
    + destruct (forallb ogone (r_work r)) eqn:G; [|injection H as <- <-; now left]. right.
      destruct (r_errs r) eqn:E; injection H as <- <-; [apply rs_fail; auto|]. now apply rs_finish.
Qed.

(** What a move of run [i] does to the tables. *)
Record touches (i : nat) (s s' : store) : Prop := {
  to_int : d_int s' = d_int s;
  to_ext : d_ext s' = d_ext s;
  to_match : exists l, d_match s' = (d_match s ++ l)%list /\ forall m, In m l -> m_recon m = i;
  to_unm : exists l, d_unm s' = (d_unm s ++ l)%list /\ forall m, In m l -> fst m = i;
  to_marks : exists l, d_marks s' = (d_marks s ++ l)%list /\ forall m, In m l -> fst m = i;
  to_len : List.length (d_recon s') = List.length (d_recon s);
  to_recon : forall k, k <> i -> nth_error (d_recon s') k = nth_error (d_recon s) k }.

Lemma touches_cache i c s : touches i s (with_cache c s).
Proof. constructor; simpl; auto; exists []; rewrite app_nil_r; split; auto; intros m []. Qed.
Lemma touches_refl i s : touches i s s.
Proof. constructor; auto; exists []; rewrite app_nil_r; split; auto; intros m []. Qed.

Lemma read_page_cache batch off k rows s s' p : read_page batch off k rows s = (s', p) ->
  s' = s \/ exists c, s' = with_cache c s.
Proof.
  unfold read_page. destruct (d_cache s k) as [[|e l]|]; try (intros H; injection H as <- <-; now left).
  - destruct (firstn batch (skipn off rows)); intros H; injection H as <- <-; [now left|right; eauto].
  - destruct (firstn batch (skipn off rows)); intros H; injection H as <- <-; [now left|right; eauto].
Qed.
Lemma read_page_touches i batch off k rows s s' p : read_page batch off k rows s = (s', p) -> touches i s s'.
Proof. intros H. destruct (read_page_cache _ _ _ _ _ _ _ H) as [->|[c ->]]; [apply touches_refl|apply touches_cache]. Qed.

Lemma gmove_read cfg j ext e m s g s' g' : gmove cfg j ext e m s g = (s', g') ->
  s' = s \/ exists off p, read_page (c_batch cfg) off (if ext then KGroupExt (j_upload j) (j_group j) off else KGroupInt (j_group j) off)
    (group_rows (j_group j) (if ext then upload_rows (j_upload j) s else d_int s)) s = (s', p).
Proof.
  destruct m; cbn [gmove]; try (intros H; injection H as <- <-; now left).
  - destruct (g_loop g) as [off| |]; try (intros H; injection H as <- <-; now left).
    destruct (ok && existsb (String.eqb (j_group j)) (group_columns ext)); [|intros H; injection H as <- <-; now left].
    destruct (read_page _ _ _ _ _) as [s1 p] eqn:E. intros H. right. exists off, p.
    destruct p; injection H as <- <-; exact E.
  - destruct (g_loop g); intros H; injection H as <- <-; now left.
  - destruct (nth_error (g_go g) v) as [[p|p|n]|]; try (intros H; injection H as <- <-; now left).
    + destruct (_ && _); [intros H; injection H as <- <-; now left|].
      destruct (existsb _ _); intros H; injection H as <- <-; now left.
    + destruct (g_buf g <? 1)%nat; intros H; injection H as <- <-; now left.
Qed.

Lemma inner_touches i cfg j e m s a s' a' : inner_move cfg j e m s a = (s', a') -> touches i s s'.
Proof.
  destruct a as [q|ext g|]; cbn [inner_move]; try (intros H; injection H as <- <-; apply touches_refl).
  destruct (gmove cfg j ext e m s g) as [s1 g'] eqn:E. intros H. injection H as <- <-.
  destruct (gmove_read _ _ _ _ _ _ _ _ _ E) as [->|(off & p & R)]; [apply touches_refl|eauto using read_page_touches].
Qed.

Lemma rstep_touches cfg i s r m s' r' : rstep cfg i s r m s' r' -> touches i s s'.
Proof.
  inversion 1; subst; clear H; try apply touches_refl; eauto using read_page_touches, inner_touches.
  - constructor; simpl; auto; try (exists []; rewrite app_nil_r; split; auto; intros ? []).
    eexists; split; [reflexivity|]. intros x Hx. apply in_map_iff in Hx. destruct Hx as (y & <- & _). reflexivity.
  - constructor; simpl; auto; try (exists []; rewrite app_nil_r; split; auto; intros ? []).
    eexists; split; [reflexivity|]. intros x Hx. apply in_map_iff in Hx. destruct Hx as (y & <- & _). reflexivity.
  - constructor; simpl; auto; try (exists []; rewrite app_nil_r; split; auto; intros ? []).
    eexists; split; [reflexivity|]. intros x [<-|[]]. reflexivity.
  - destruct ok; [|apply touches_refl].
    constructor; simpl; auto; try (exists []; rewrite app_nil_r; split; auto; intros ? []).
    + apply set_at_length.
    + intros k Hk. apply set_at_other. auto.
  - constructor; simpl; auto; try (exists []; rewrite app_nil_r; split; auto; intros ? []).
    + apply set_at_length.
    + intros k Hk. apply set_at_other. auto.
Qed.

Lemma rstep_job cfg i s r m s' r' : rstep cfg i s r m s' r' -> r_job r' = r_job r /\ r_base r' = r_base r /\ r_dead r' = r_dead r.
Proof. inversion 1; subst; auto. Qed.

(** What an event is, to the runs. *)
Inductive sstep (cfg : rconfig) (y : system) : event -> system -> Prop :=
| ss_same e : sstep cfg y e y
| ss_post t : sstep cfg y (EPost t)
    {| y_store := with_int (d_int (y_store y) ++ [t]) (y_store y); y_runs := y_runs y; y_panics := y_panics y |}
| ss_upload u x : existsb (fun z => String.eqb (n_id (snd z)) (n_id x)) (d_ext (y_store y)) = false ->
    sstep cfg y (EUpload u x)
    {| y_store := with_ext (d_ext (y_store y) ++ [(u, x)]) (y_store y); y_runs := y_runs y; y_panics := y_panics y |}
| ss_expire k : sstep cfg y (EExpire k)
    {| y_store := with_cache (put_key (d_cache (y_store y)) k None) (y_store y); y_runs := y_runs y; y_panics := y_panics y |}
| ss_stop e n : sstep cfg y e {| y_store := y_store y; y_runs := map with_dead (y_runs y); y_panics := n |}
| ss_start j (ok : bool) : sstep cfg y (EStart j ok)
    {| y_store := with_recon (d_recon (y_store y) ++ [if ok then RRunning else RFailed]) (y_store y);
       y_runs := y_runs y ++ [if ok then new_run cfg j (List.length (d_int (y_store y))) else failed_run j (List.length (d_int (y_store y)))];
       y_panics := y_panics y |}
| ss_run i m r s' r' : nth_error (y_runs y) i = Some r -> r_dead r = false -> panics m r = false -> rstep cfg i (y_store y) r m s' r' ->
    sstep cfg y (ERun i m) {| y_store := s'; y_runs := set_at i r' (y_runs y); y_panics := y_panics y |}.

Lemma set_at_id {A} i (a : A) l : nth_error l i = Some a -> set_at i a l = l.
Proof. revert i. induction l as [|x l IH]; intros [|i] H; simpl in *; try discriminate; [congruence|]. now rewrite IH. Qed.

Lemma happen_cases cfg e y : sstep cfg y e (happen cfg e y).
Proof.
  destruct e as [t|u x|k| |j ok|i m]; cbn [happen]; try (constructor; fail).
  - destruct (existsb _ _) eqn:E; [constructor|]. now apply ss_upload.
  - destruct (nth_error (y_runs y) i) as [r|] eqn:E; [|constructor].
    destruct (r_dead r) eqn:D; [constructor|]. destruct (panics m r) eqn:Q; [constructor|].
    destruct (run_move cfg i m (y_store y) r) as [s' r'] eqn:M.
    destruct (run_move_cases _ _ _ _ _ _ _ M) as [[-> ->]|H].
    + rewrite (set_at_id _ _ _ E). replace {| y_store := y_store y; y_runs := y_runs y; y_panics := y_panics y |} with y by (destruct y; reflexivity).
      constructor.
    + eapply ss_run; eassumption.
Qed.

Lemma history_inv cfg (P : proviso -> Prop) (I : system -> Prop) : I nothing ->
  (forall y e y', I y -> (forall x, P x -> keeps cfg x e y) -> sstep cfg y e y' -> I y') ->
  forall es y, history cfg P es y -> I y.
Proof. intros H0 Hs. induction 1; [exact H0|]. eapply Hs; eauto using happen_cases. Qed.
