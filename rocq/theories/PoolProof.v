(** Proofs about the worker pool of bulk commit and void. *)
From Coq Require Import ZArith List String Ascii Bool Lia Arith.
From Verif Require Import WorkProof Base BalanceModel LedgerModel LedgerProgs ConcModel WorkModel PoolModel PoolSpec.
Import ListNotations.
Open Scope Z_scope.

(** ** Lists *)
Lemma set_nth_length {A} n (a : A) l : List.length (set_nth n a l) = List.length l.
Proof. revert n. induction l; destruct n; simpl; auto. Qed.

Lemma set_nth_same {A} n (a : A) l : (n < List.length l)%nat -> nth_error (set_nth n a l) n = Some a.
Proof. revert n. induction l; destruct n; simpl; intros; auto; try lia. apply IHl. lia. Qed.

Lemma set_nth_other {A} n m (a : A) l : n <> m -> nth_error (set_nth n a l) m = nth_error l m.
Proof. revert n m. induction l; destruct n, m; simpl; intros; auto; try congruence. Qed.

Lemma number_spec i l k : nth_error (number i l) k = option_map (fun it => ((i + k)%nat, it)) (nth_error l k).
Proof.
  revert i k. induction l; intros i k; destruct k; simpl; auto.
  - rewrite Nat.add_0_r. reflexivity.
  - rewrite IHl. replace (S i + k)%nat with (i + S k)%nat by lia. reflexivity.
Qed.

Lemma nth_some_lt {A} n (l : list A) x : nth_error l n = Some x -> (n < List.length l)%nat.
Proof. intros. apply nth_error_Some. congruence. Qed.

(** ** Unfinished runs *)
Inductive did (n : nat) {A} (p0 : prog A) : list (state * state) -> prog A -> Prop :=
| did_nil : did n p0 [] p0
| did_snoc own o k s : did n p0 own (Do o k) ->
    did n p0 (own ++ [(s, fst (exec n o s))]) (k (snd (exec n o s))).

Fixpoint resumes (n : nat) {A} (p : prog A) (own : list (state * state)) (q : prog A) {struct own} : Prop :=
  match own with
  | [] => p = q
  | (s, s') :: r => match p with
                    | Ret _ => False
                    | Do o k => s' = fst (exec n o s) /\ resumes n (k (snd (exec n o s))) r q
                    end
  end.

Lemma resumes_snoc n {A} own : forall (p : prog A) o k s,
  resumes n p own (Do o k) -> resumes n p (own ++ [(s, fst (exec n o s))]) (k (snd (exec n o s))).
Proof.
  induction own as [|[a b] r IH]; intros p o k s H; cbn [resumes app] in *.
  - subst p. cbn beta iota. split; reflexivity.
  - destruct p; [contradiction|]. destruct H. split; auto.
Qed.

Lemma resumes_done n {A} own : forall (p : prog A) a, resumes n p own (Ret a) -> completes n p own a.
Proof.
  induction own as [|[x y] r IH]; intros p a H; simpl in H.
  - subst. simpl. auto.
  - destruct p; [contradiction|]. destruct H. simpl. auto.
Qed.

(** ** The invariant *)
Section Inv.
Variables (cfg : config) (a : action) (curs : nat -> string) (base : nat) (items : list item).

Definition busy (p : pool) (w i : nat) : Prop := exists it pr, nth_error (p_work p) w = Some (WBusy i it pr).

Record pinv (h : list done_op) (p : pool) (m : nat) : Prop := {
  v_jobs : p_jobs p = number m (skipn m items);
  v_m : (m <= List.length items)%nat;
  v_len : List.length (p_results p) = List.length items;
  v_waiting : forall i, (m <= i)%nat -> ops_of i h = [];
  v_busy : forall w i it pr, nth_error (p_work p) w = Some (WBusy i it pr) ->
     (i < m)%nat /\ nth_error items i = Some it
     /\ resumes (base + i) (item_prog cfg a it) (ops_of i h) pr;
  v_one : forall w1 w2 i, busy p w1 i -> busy p w2 i -> w1 = w2;
  v_done : forall i it, (i < m)%nat -> nth_error items i = Some it ->
     (exists w, busy p w i) \/
     exists r, completes (base + i) (item_prog cfg a it) (ops_of i h) r
               /\ nth_error (p_results p) i = Some (outcome_of a (curs i) it r);
  v_gone : forall w, nth_error (p_work p) w = Some WDone -> p_jobs p = [] }.

Lemma ops_of_snoc i h d : ops_of i (h ++ [d]) = ops_of i h ++ (if Nat.eqb (d_item d) i then [(d_before d, d_after d)] else []).
Proof.
  unfold ops_of. rewrite filter_app, map_app. simpl. destruct (Nat.eqb (d_item d) i); reflexivity.
Qed.

Lemma pinv_start want p : start items want = Some p -> pinv [] p 0.
Proof.
  unfold start. intros H. destruct items as [|it0 l0] eqn:E; [discriminate|]. rewrite <- E in *.
  assert (Hw : forall w x, nth_error (repeat WIdle (workers want (Z.of_nat (Datatypes.length items)))) w = Some x -> x = WIdle).
  { intros w x Hx. apply nth_error_In in Hx. apply repeat_spec in Hx. exact Hx. }
  assert (p = {| p_jobs := number 0 items; p_work := repeat WIdle (workers want (Z.of_nat (Datatypes.length items)));
                 p_results := repeat blank (Datatypes.length items) |}) by congruence. subst p. clear H.
  split; cbn [p_jobs p_work p_results].
  - reflexivity.
  - lia.
  - apply repeat_length.
  - reflexivity.
  - intros. apply Hw in H. discriminate.
  - intros w1 w2 i [it [pr H]]. apply Hw in H. discriminate.
  - intros. lia.
  - intros w H. apply Hw in H. discriminate.
Qed.

Ltac at_w w w0 H := destruct (Nat.eq_dec w w0) as [->|?];
  [rewrite set_nth_same in H by (eapply nth_some_lt; eassumption)
  |rewrite set_nth_other in H by congruence].

Lemma pinv_silent h p m w s p' :
  pinv h p m -> match nth_error (p_work p) w with Some (WBusy _ _ (Do _ _)) => False | _ => True end ->
  move cfg a curs base w p s = Some (p', s) -> exists m', pinv h p' m'.
Proof.
  intros V Hs Hm. unfold move in Hm. destruct (nth_error (p_work p) w) as [x|] eqn:Ew; [|discriminate].
  destruct x as [|i it pr|].
  - destruct (p_jobs p) as [|[i it] r] eqn:Ej.
    + exists m. assert (p' = {| p_jobs := []; p_work := set_nth w WDone (p_work p); p_results := p_results p |}) by congruence. subst p'. clear Hm.
      assert (Hb : forall w' i, busy {| p_jobs := []; p_work := set_nth w WDone (p_work p); p_results := p_results p |} w' i <-> busy p w' i).
      { intros w' i. unfold busy. cbn [p_work]. split; intros [it [pr H]]; exists it, pr.
        - at_w w w' H; [discriminate|exact H].
        - destruct (Nat.eq_dec w w') as [->|?]; [congruence|]. rewrite set_nth_other by congruence. exact H. }
      destruct V. split; cbn [p_jobs p_work p_results]; auto.
      * congruence.
      * intros w' i it pr H. at_w w w' H; [discriminate|eauto].
      * intros w1 w2 i H1 H2. apply Hb in H1, H2. eauto.
      * intros i it Hi Hit. destruct (v_done0 i it Hi Hit) as [[w' H]|H]; [left; exists w'; apply Hb; exact H|right; exact H].
    + assert (p' = {| p_jobs := r; p_work := set_nth w (WBusy i it (item_prog cfg a it)) (p_work p); p_results := p_results p |}) by congruence.
      subst p'. clear Hm. exists (S m). destruct V.
      assert (Hn : nth_error (p_jobs p) 0 = Some (i, it)) by (rewrite Ej; reflexivity).
      rewrite v_jobs0, number_spec in Hn. rewrite Nat.add_0_r in Hn.
      destruct (nth_error (skipn m items) 0) as [it0|] eqn:Es; [|discriminate]. simpl in Hn.
      assert (i = m) by congruence. assert (it0 = it) by congruence. subst i it0. clear Hn.
      assert (Esk : skipn m items = it :: skipn (S m) items /\ nth_error items m = Some it).
      { clear - Es. revert Es. generalize items. clear. induction m; intros l Es; destruct l; simpl in *; try discriminate.
        - split; congruence.
        - apply IHm in Es. exact Es. }
      destruct Esk as [Esk Eit].
      assert (Hjobs : p_jobs p = (m, it) :: number (S m) (skipn (S m) items)) by (rewrite v_jobs0, Esk; reflexivity).
      split; cbn [p_jobs p_work p_results]; auto.
      * congruence.
      * apply nth_some_lt in Eit. lia.
      * intros. apply v_waiting0. lia.
      * intros w' i it' pr H. at_w w w' H.
        -- assert (i = m) by congruence. assert (it' = it) by congruence. assert (pr = item_prog cfg a it) by congruence. subst.
           split; [lia|]. split; [exact Eit|]. rewrite v_waiting0 by lia. reflexivity.
        -- destruct (v_busy0 _ _ _ _ H). split; [lia|exact H1].
      * intros w1 w2 i [it1 [pr1 H1]] [it2 [pr2 H2]]. cbn [p_work] in H1, H2. at_w w w1 H1.
        -- at_w w1 w2 H2; [reflexivity|]. destruct (v_busy0 _ _ _ _ H2). assert (i = m) by congruence. lia.
        -- at_w w w2 H2.
           ++ destruct (v_busy0 _ _ _ _ H1). assert (i = m) by congruence. lia.
           ++ eapply v_one0; red; eauto.
      * intros i it' Hi Hit. destruct (Nat.eq_dec i m) as [->|?].
        -- left. exists w. assert (it' = it) by congruence. subst. exists it, (item_prog cfg a it). cbn [p_work].
           apply set_nth_same. eapply nth_some_lt; eassumption.
        -- destruct (v_done0 i it' ltac:(lia) Hit) as [[w' [it2 [pr2 H]]]|H]; [left|right; exact H].
           exists w', it2, pr2. cbn [p_work]. rewrite set_nth_other; [exact H|]. intros ->. congruence.
      * intros w' H. at_w w w' H; [discriminate|]. rewrite (v_gone0 _ H) in Ej. discriminate.
  - destruct pr as [r|]; [|contradiction].
    assert (p' = {| p_jobs := p_jobs p; p_work := set_nth w WIdle (p_work p);
             p_results := set_nth i (outcome_of a (curs i) it r) (p_results p) |}) by congruence.
    subst p'. clear Hm. exists m. destruct V.
    destruct (v_busy0 _ _ _ _ Ew) as [Hi [Hit Hr]].
    split; cbn [p_jobs p_work p_results]; auto.
    + rewrite set_nth_length. exact v_len0.
    + intros w' i' it' pr H. at_w w w' H; [discriminate|eauto].
    + intros w1 w2 i' [it1 [pr1 H1]] [it2 [pr2 H2]]. cbn [p_work] in H1, H2. at_w w w1 H1; [discriminate|]. at_w w w2 H2; [discriminate|].
      eapply v_one0; red; eauto.
    + intros i' it' Hi' Hit'. destruct (Nat.eq_dec i' i) as [->|Hne].
      * right. exists r. assert (it' = it) by congruence. subst. split.
        -- apply resumes_done. exact Hr.
        -- apply set_nth_same. rewrite v_len0. eapply nth_some_lt; eassumption.
      * destruct (v_done0 i' it' Hi' Hit') as [[w' [it2 [pr2 H]]]|[r' [H1 H2]]].
        -- left. exists w', it2, pr2. cbn [p_work]. rewrite set_nth_other; [exact H|]. intros ->. congruence.
        -- right. exists r'. split; [exact H1|]. rewrite set_nth_other by congruence. exact H2.
    + intros w' H. at_w w w' H; [discriminate|eauto].
  - discriminate.
Qed.

Lemma pinv_op h p m w i it o k s p' s' :
  pinv h p m -> nth_error (p_work p) w = Some (WBusy i it (Do o k)) ->
  move cfg a curs base w p s = Some (p', s') -> pinv (h ++ [{| d_item := i; d_before := s; d_after := s' |}]) p' m.
Proof.
  intros V Ew Hm. unfold move in Hm. rewrite Ew in Hm. destruct (exec (base + i) o s) as [s1 x] eqn:Ex.
  assert (s1 = s') by congruence. subst s1.
  assert (p' = {| p_jobs := p_jobs p; p_work := set_nth w (WBusy i it (k x)) (p_work p); p_results := p_results p |}) by congruence.
  subst p'. clear Hm. destruct V.
  destruct (v_busy0 _ _ _ _ Ew) as [Hi [Hit Hr]].
  split; cbn [p_jobs p_work p_results]; auto.
  - intros j Hj. rewrite ops_of_snoc. cbn [d_item]. destruct (Nat.eqb_spec i j); [lia|]. rewrite app_nil_r. auto.
  - intros w' i' it' pr H. at_w w w' H.
    + assert (i' = i) by congruence. assert (it' = it) by congruence. assert (pr = k x) by congruence. subst.
      split; [exact Hi|]. split; [exact Hit|]. rewrite ops_of_snoc. cbn [d_item d_before d_after]. rewrite Nat.eqb_refl.
      replace s' with (fst (exec (base + i) o s)) by (rewrite Ex; reflexivity).
      replace x with (snd (exec (base + i) o s)) by (rewrite Ex; reflexivity).
      apply resumes_snoc. exact Hr.
    + destruct (v_busy0 _ _ _ _ H) as [H1 [H2 H3]]. split; [exact H1|]. split; [exact H2|].
      rewrite ops_of_snoc. cbn [d_item]. destruct (Nat.eqb_spec i i').
      * subst i'. exfalso. apply n. eapply v_one0; red; eauto.
      * rewrite app_nil_r. exact H3.
  - intros w1 w2 j [it1 [pr1 H1]] [it2 [pr2 H2]]. cbn [p_work] in H1, H2.
    assert (forall w0 it0 pr0, nth_error (set_nth w (WBusy i it (k x)) (p_work p)) w0 = Some (WBusy j it0 pr0) -> busy p w0 j).
    { intros w0 it0 pr0 H. at_w w w0 H; [|red; eauto]. assert (j = i) by congruence. subst. red; eauto. }
    eapply v_one0; eauto.
  - intros j it' Hj Hit'. destruct (v_done0 j it' Hj Hit') as [[w' [it2 [pr2 H]]]|[r' [H1 H2]]].
    + left. exists w'. unfold busy. cbn [p_work]. destruct (Nat.eq_dec w w') as [->|?].
      * assert (j = i) by congruence. subst. exists it, (k x). apply set_nth_same. eapply nth_some_lt; eassumption.
      * exists it2, pr2. rewrite set_nth_other by congruence. exact H.
    + destruct (Nat.eq_dec i j) as [->|?].
      * left. exists w. exists it, (k x). cbn [p_work]. apply set_nth_same. eapply nth_some_lt; eassumption.
      * right. exists r'. split; [|exact H2]. rewrite ops_of_snoc. cbn [d_item].
        destruct (Nat.eqb_spec i j); [congruence|]. rewrite app_nil_r. exact H1.
  - intros w' H. at_w w w' H; [discriminate|eauto].
Qed.

Lemma pinv_history p0 s0 h p s want :
  start items want = Some p0 -> history cfg a curs base p0 s0 h p s -> exists m, pinv h p m.
Proof.
  intros Hs H. induction H.
  - exists O. eapply pinv_start; eassumption.
  - auto.
  - destruct (IHhistory Hs) as [m V]. eapply pinv_silent; eassumption.
  - destruct (IHhistory Hs) as [m V]. exists m. eapply pinv_op; eassumption.
Qed.

Lemma work_length p0 s0 h p s : history cfg a curs base p0 s0 h p s -> List.length (p_work p) = List.length (p_work p0).
Proof.
  assert (forall w p s p' s', move cfg a curs base w p s = Some (p', s') -> List.length (p_work p') = List.length (p_work p)).
  { intros w q t q' t' H. unfold move in H. destruct (nth_error (p_work q) w) as [[|i it [r|o k]|]|]; try discriminate.
    - destruct (p_jobs q) as [|[i it] r]; injection H as <- <-; apply set_nth_length.
    - injection H as <- <-; apply set_nth_length.
    - destruct (exec (base + i) o t). injection H as <- <-; apply set_nth_length. }
  induction 1; auto; erewrite H by eassumption; assumption.
Qed.

Lemma workers_pos want l : 0 < l -> (0 < workers want l)%nat.
Proof.
  intros H. unfold workers. destruct (want <? 1) eqn:E1; destruct (16 <? _) eqn:E2; destruct (l <? _) eqn:E3; try lia;
  apply Z.ltb_ge in E1; lia.
Qed.

Lemma line_up want p0 s0 h p s :
  start items want = Some p0 -> history cfg a curs base p0 s0 h p s -> finished p = true ->
  List.length (p_results p) = List.length items /\
  forall i it, nth_error items i = Some it ->
    exists r, completes (base + i) (item_prog cfg a it) (ops_of i h) r
              /\ nth_error (p_results p) i = Some (outcome_of a (curs i) it r).
Proof.
  intros Hs H Hf. destruct (pinv_history _ _ _ _ _ _ Hs H) as [m V].
  assert (Hlen := work_length _ _ _ _ _ H).
  assert (Hall : forall w x, nth_error (p_work p) w = Some x -> x = WDone).
  { intros w x Hx. unfold finished in Hf. rewrite forallb_forall in Hf. apply nth_error_In in Hx. apply Hf in Hx.
    destruct x; congruence. }
  assert (p_jobs p = []) as Hj.
  { destruct (p_work p) as [|x r] eqn:Ep.
    - exfalso. unfold start in Hs. destruct items as [|it l] eqn:Ei; [discriminate|].
      assert (p_work p0 = repeat WIdle (workers want (Z.of_nat (List.length (it :: l))))) as E by (injection Hs as <-; reflexivity).
      rewrite E, repeat_length in Hlen. assert (0 < workers want (Z.of_nat (List.length (it :: l))))%nat; [apply workers_pos; simpl List.length; lia|]. simpl in *. lia.
    - apply (v_gone _ _ _ V 0%nat). rewrite Ep. simpl. f_equal. apply (Hall 0%nat). reflexivity. }
  assert (m = List.length items) as ->.
  { pose proof (v_jobs _ _ _ V) as E. rewrite Hj in E. pose proof (v_m _ _ _ V).
    destruct (skipn m items) eqn:Es; [|discriminate]. apply (f_equal (@List.length item)) in Es. rewrite skipn_length in Es. simpl in Es. lia. }
  split; [apply (v_len _ _ _ V)|]. intros i it Hi.
  destruct (v_done _ _ _ V i it (nth_some_lt _ _ _ Hi) Hi) as [[w [it' [pr Hb]]]|Hd]; [|exact Hd].
  apply Hall in Hb. discriminate.
Qed.

(** ** Nobody waits for ever *)
Definition moves (q p : pool) : Prop := exists w s s', move cfg a curs base w p s = Some (q, s').

Inductive smaller : prog (res txn) -> prog (res txn) -> Prop :=
| sm o k x : smaller (k x) (Do o k).

Definition wless (x y : worker_state) : Prop :=
  match x, y with
  | WBusy i it p, WBusy j it' q => i = j /\ it = it' /\ smaller p q
  | WIdle, WBusy _ _ (Ret _) => True
  | WDone, WIdle => True
  | _, _ => False
  end.

Lemma wless_idle : Acc wless WIdle.
Proof.
  constructor. intros [| |] H; simpl in H; try contradiction. constructor. intros [| |] H'; simpl in H'; contradiction.
Qed.

Lemma wless_wf x : Acc wless x.
Proof.
  destruct x as [|i it p|]; [apply wless_idle| |constructor; intros [| |]; simpl; contradiction].
  induction p as [r|o k IH].
  - constructor. intros [|j it' q|] H; simpl in H; try contradiction; [apply wless_idle|].
    destruct H as [_ [_ H]]. inversion H.
  - constructor. intros [|j it' q|] H; simpl in H; try contradiction.
    destruct H as [-> [-> H]].
    assert (exists x, q = k x) as [x ->].
    { change (match Do o k with Do o' k' => exists x, q = k' x | Ret _ => True end).
      destruct H. eauto. }
    apply IH.
Qed.

Inductive lless : list worker_state -> list worker_state -> Prop :=
| ll_here x y l : wless x y -> lless (x :: l) (y :: l)
| ll_next x l l' : lless l l' -> lless (x :: l) (x :: l').

Lemma lless_wf l : Acc lless l.
Proof.
  induction l as [|x l IH].
  - constructor. intros l H. inversion H.
  - pose proof (wless_wf x) as Hx. revert l IH. induction Hx as [x _ IHx]. intros l IHl.
    induction IHl as [l Hl IHl]. constructor. intros l' H. inversion H; subst.
    + apply IHx; [assumption|]. constructor. exact Hl.
    + apply IHl. assumption.
Qed.

Lemma set_nth_less w x y l : nth_error l w = Some y -> wless x y -> lless (set_nth w x l) l.
Proof.
  revert w. induction l; intros w H Hl; destruct w; simpl in *; try discriminate.
  - replace a0 with y by congruence. constructor. exact Hl.
  - constructor. auto.
Qed.

Lemma moves_wf : forall p, Acc moves p.
Proof.
  assert (forall n l, Acc lless l -> forall r js, (List.length js <= n)%nat ->
    Acc moves {| p_jobs := js; p_work := l; p_results := r |}) as H.
  { induction n as [n IHn] using lt_wf_ind. intros l Hl. induction Hl as [l _ IHl]. intros r js Hj.
    constructor. intros q [w [s [s' Hm]]]. unfold move in Hm. cbn [p_jobs p_work p_results] in Hm.
    destruct (nth_error l w) as [[|i it [r0|o k]|]|] eqn:Ew; try discriminate.
    - destruct js as [|[i it] js]; injection Hm as <- <-.
      + apply IHl; [eapply set_nth_less; [eassumption|]; exact Logic.I|exact Hj].
      + simpl in Hj. apply (IHn (List.length js)); [lia|apply lless_wf|lia].
    - injection Hm as <- <-. apply IHl; [eapply set_nth_less; [eassumption|]; exact Logic.I|exact Hj].
    - destruct (exec (base + i) o s) as [s1 x] eqn:Ex. injection Hm as <- <-.
      apply IHl; [|exact Hj]. eapply set_nth_less; [eassumption|]. simpl. split; [reflexivity|]. split; [reflexivity|constructor]. }
  intros [js l r]. eapply H; [apply lless_wf|reflexivity].
Qed.

Lemma somebody_moves p : finished p = false -> exists w, forall s, move cfg a curs base w p s <> None.
Proof.
  unfold finished. intros Hf.
  assert (exists w x, nth_error (p_work p) w = Some x /\ x <> WDone) as [w [x [Hw Hx]]].
  { induction (p_work p) as [|x l IH]; simpl in Hf; [discriminate|].
    destruct x; try (exists O; eexists; split; [reflexivity|discriminate]).
    destruct (IH Hf) as [w [x H]]. exists (S w), x. exact H. }
  exists w. intros s. unfold move. rewrite Hw. destruct x as [|i it [r|o k]|]; try congruence.
  - destruct (p_jobs p) as [|[i it] r]; discriminate.
  - destruct (exec (base + i) o s). discriminate.
Qed.
End Inv.

(** ** Responses *)
Lemma api_results_ids l : map a_id (a_results (api_results l)) = map x_id l.
Proof. induction l as [|o l IH]; simpl; auto. destruct (x_err o); simpl; congruence. Qed.

Lemma count_cons st r l : count st (r :: l) = (if String.eqb (a_status r) st then 1 else 0) + count st l.
Proof. unfold count. simpl. destruct (String.eqb (a_status r) st); simpl List.length; lia. Qed.

Lemma api_results_counts l :
  a_succeeded (api_results l) = count "succeeded" (a_results (api_results l))
  /\ a_failed (api_results l) = count "failed" (a_results (api_results l))
  /\ a_succeeded (api_results l) + a_failed (api_results l) = Z.of_nat (List.length l).
Proof.
  induction l as [|o l [H1 [H2 H3]]]; [repeat split|].
  cbn [api_results List.length]. destruct (x_err o); cbn [a_succeeded a_failed a_results]; rewrite !count_cons; cbn [a_status];
  change (String.eqb "failed" "failed") with true; change (String.eqb "failed" "succeeded") with false;
  change (String.eqb "succeeded" "failed") with false; change (String.eqb "succeeded" "succeeded") with true; lia.
Qed.

Lemma during_bind' n {A B} (p : prog A) (f : A -> prog B) : forall s b s',
  during n (bind p f) s b s' -> exists a s1, during n p s a s1 /\ during n (f a) s1 b s'.
Proof.
  induction p as [x|o k IH]; intros s b s' H; simpl in *.
  - exists x, s. split; [split; [constructor|reflexivity]|exact H].
  - destruct H as [s1 [H1 H2]]. apply IH in H2. destruct H2 as [x [s2 [H2 H3]]].
    exists x, s2. split; [|exact H3]. exists s1. auto.
Qed.

Lemma queued_results a enq curs items : forall i n s q s',
  during n (queue_bulk a enq curs i items) s q s' ->
  map a_id (a_results q) = map i_id items
  /\ a_succeeded q = count "queued" (a_results q) /\ a_failed q = count "failed" (a_results q)
  /\ a_succeeded q + a_failed q = Z.of_nat (List.length items).
Proof.
  induction items as [|it items IH]; intros i n s q s' H.
  - simpl in H. destruct H as [_ <-]. repeat split.
  - cbn [queue_bulk] in H. apply during_bind' in H. destruct H as [v [s1 [_ H]]].
    apply during_bind' in H. destruct H as [q0 [s2 [H H']]]. apply IH in H. destruct H as [E1 [E2 [E3 E4]]].
    cbn [during] in H'. destruct H' as [_ <-].
    destruct v as [t|e]; [destruct (enq i)|]; cbn [a_results a_succeeded a_failed map a_id List.length];
    rewrite !count_cons; cbn [a_status]; change (String.eqb "failed" "failed") with true;
    change (String.eqb "failed" "queued") with false; change (String.eqb "queued" "failed") with false;
    change (String.eqb "queued" "queued") with true; (split; [f_equal; exact E1|lia]).
Qed.

(** ** Codes *)
Lemma classify_some a id cur e : classify a id cur (Some e) <> EmptyString.
Proof.
  unfold classify, classify_text. repeat match goal with |- context [if ?b then _ else _] => destruct b end; discriminate.
Qed.

Lemma tells_outcome a cur it r : tells (outcome_of a cur it r) r.
Proof. destruct r; simpl; repeat split. apply classify_some. Qed.

Lemma prefix_over w : forall x q r, spaceless w = true -> spaceless x = true ->
  prefix (w ++ String " " q) (x ++ String " " r) = true -> w = x /\ prefix q r = true.
Proof.
  induction w as [|c w IH]; intros x q r Hw Hx H; destruct x as [|d x]; cbn [prefix append spaceless] in *.
  - split; [reflexivity|exact H].
  - destruct (ascii_dec " " d) as [<-|]; [|discriminate]. simpl in Hx. discriminate.
  - destruct (ascii_dec c " ") as [->|]; [|discriminate]. simpl in Hw. discriminate.
  - destruct (ascii_dec c d) as [<-|]; [|discriminate]. apply andb_true_iff in Hw, Hx. destruct Hw, Hx.
    destruct (IH x q r) as [-> ?]; auto.
Qed.

Lemma prefix_no_space w : forall x q, spaceless x = true -> prefix (w ++ String " " q) x = false.
Proof.
  induction w as [|c w IH]; intros x q Hx; destruct x as [|d x]; cbn [prefix append spaceless] in *; try reflexivity.
  - destruct (ascii_dec " " d) as [<-|]; [simpl in Hx; discriminate|reflexivity].
  - destruct (ascii_dec c d); [|reflexivity]. apply andb_true_iff in Hx. apply IH. apply Hx.
Qed.

Lemma contains_no_space w q : forall x, spaceless x = true -> contains (w ++ String " " q) x = false.
Proof.
  induction x as [|d x IH]; intros Hx.
  - simpl. rewrite orb_false_r. apply (prefix_no_space w "" q). reflexivity.
  - cbn [contains]. rewrite prefix_no_space by exact Hx. simpl in Hx. apply andb_true_iff in Hx. rewrite IH by apply Hx. reflexivity.
Qed.

Fixpoint ends (w x : string) : bool :=
  String.eqb w x || match x with EmptyString => false | String _ r => ends w r end.

Lemma contains_over w q : spaceless w = true -> forall x r, spaceless x = true ->
  prefix q r && ends w x = false -> contains (w ++ String " " q) r = false ->
  contains (w ++ String " " q) (x ++ String " " r) = false.
Proof.
  intros Hw x. induction x as [|d x IH]; intros r Hx H1 H2.
  - cbn [append contains]. rewrite H2. rewrite orb_false_r.
    destruct (prefix (w ++ String " " q) (String " " r)) eqn:E; [|reflexivity].
    apply (prefix_over w "" q r Hw eq_refl) in E. destruct E as [-> E]. rewrite E in H1. cbn in H1. discriminate H1.
  - cbn [append contains]. cbn [ends] in H1. apply andb_false_iff in H1. rewrite orb_false_iff in H1.
    rewrite IH; auto; [|simpl in Hx; apply andb_true_iff in Hx; apply Hx|apply andb_false_iff; tauto].
    rewrite orb_false_r. destruct (prefix (w ++ String " " q) (String d (x ++ String " " r))) eqn:E; [|reflexivity].
    apply (prefix_over w (String d x) q r Hw Hx) in E. destruct E as [-> E]. rewrite String.eqb_refl in H1.
    destruct H1 as [H1|[H1 _]]; congruence.
Qed.

Lemma contains_app p a : forall b, contains p b = true -> contains p (a ++ b) = true.
Proof. induction a; intros b H; simpl; auto. rewrite (IHa b H). apply orb_true_r. Qed.

Lemma spaceless_app a b : spaceless a = true -> spaceless b = true -> spaceless (a ++ b) = true.
Proof. induction a; simpl; intros Ha Hb; auto. apply andb_true_iff in Ha. destruct Ha as [-> Ha]. simpl. auto. Qed.

(** A text given by its words. *)
Fixpoint join (ws : list string) : string :=
  match ws with
  | [] => ""
  | [w] => w
  | w :: r => w ++ String " " (join r)
  end.

Fixpoint free (w q : string) (ws : list string) : bool :=
  match ws with
  | [] => true
  | [_] => true
  | x :: r => negb (prefix q (join r) && ends w x) && free w q r
  end.

Lemma contains_words w q ws : spaceless w = true -> forallb spaceless ws = true -> free w q ws = true ->
  contains (w ++ String " " q) (join ws) = false.
Proof.
  intros Hw. induction ws as [|x ws IH]; intros Hs Hf.
  - apply contains_no_space. reflexivity.
  - cbn [forallb] in Hs. apply andb_true_iff in Hs. destruct Hs as [Hx Hs]. destruct ws as [|y ws].
    + apply contains_no_space. exact Hx.
    + cbn [join]. change (free w q (x :: y :: ws)) with (negb (prefix q (join (y :: ws)) && ends w x) && free w q (y :: ws)) in Hf.
      apply andb_true_iff in Hf. destruct Hf as [Hf1 Hf2]. apply contains_over; auto.
      apply negb_true_iff. exact Hf1.
Qed.

Lemma contains_words' p w q ws : p = (w ++ String " " q)%string -> spaceless w = true -> forallb spaceless ws = true -> free w q ws = true ->
  contains p (join ws) = false.
Proof. intros ->. apply contains_words. Qed.

Lemma classify_words ws :
  forallb spaceless ws = true ->
  free "transaction" "not found" ws = true -> free "not" "found" ws = true -> free "no" "rows in result set" ws = true ->
  free "has" "already been voided" ws = true -> free "Transaction" "already committed" ws = true -> free "cannot" "void. Transaction already committed" ws = true ->
  classify_text (join ws) =
    (if contains "not in inflight status" (join ws) then "NOT_INFLIGHT"
     else if contains "cannot commit more than" (join ws) then "INVALID_AMOUNT"
     else if contains "failed to acquire lock" (join ws) then "LOCKED" else "INTERNAL_ERROR")%string.
Proof.
  intros Hs H1 H2 H3 H4 H5 H6. unfold classify_text.
  rewrite (contains_words' "transaction not found" "transaction" "not found" ws eq_refl eq_refl Hs H1).
  rewrite (contains_words' "not found" "not" "found" ws eq_refl eq_refl Hs H2).
  rewrite (contains_words' "no rows in result set" "no" "rows in result set" ws eq_refl eq_refl Hs H3).
  rewrite (contains_words' "has already been voided" "has" "already been voided" ws eq_refl eq_refl Hs H4).
  rewrite (contains_words' "Transaction already committed" "Transaction" "already committed" ws eq_refl eq_refl Hs H5).
  rewrite (contains_words' "cannot void. Transaction already committed" "cannot" "void. Transaction already committed" ws eq_refl eq_refl Hs H6).
  reflexivity.
Qed.

Lemma codes a id cur e : spaceless id = true -> spaceless cur = true ->
  classify a id cur (Some e) = documented e.
Proof.
  intros Hid Hcur. unfold classify.
  assert (Hlock : forall v, v = "void:"%string \/ v = "commit:"%string ->
    classify_text (join ["failed"; "to"; "acquire"; "lock"; "for"; "inflight"; v; "lock"; "for"; "key";
                         ("inflight-commit:" ++ id); "is"; "already"; "held"])%string = "LOCKED"%string).
  { intros v Hv. destruct Hv as [-> | ->];
    (rewrite classify_words; [|cbn; rewrite Hid; reflexivity|reflexivity..]);
    match goal with |- context [contains "not in inflight status" (join ?ws)] =>
      rewrite (contains_words' "not in inflight status" "not" "in inflight status" ws eq_refl eq_refl); [|cbn; rewrite Hid; reflexivity|reflexivity];
      rewrite (contains_words' "cannot commit more than" "cannot" "commit more than" ws eq_refl eq_refl); [|cbn; rewrite Hid; reflexivity|reflexivity]
    end; reflexivity. }
  destruct e; try reflexivity; try (destruct a; reflexivity).
  - cbn [text documented].
    unfold classify_text. rewrite !(contains_app "not found"); [rewrite !orb_true_r; reflexivity|].
    apply contains_app. reflexivity.
  - destruct a.
    + exact (Hlock "void:"%string (or_introl eq_refl)).
    + exact (Hlock "commit:"%string (or_intror eq_refl)).
    + exact (Hlock "commit:"%string (or_intror eq_refl)).
  - change (text a id cur EOverCommit) with (join ["cannot"; "commit"; "more"; "than"; "the"; "remaining"; "amount."; "Available:"; cur])%string.
    rewrite classify_words; [|cbn; rewrite Hcur; reflexivity|cbn; rewrite ?andb_false_r; reflexivity..].
    match goal with |- context [contains "not in inflight status" (join ?ws)] =>
      rewrite (contains_words' "not in inflight status" "not" "in inflight status" ws eq_refl eq_refl); [|cbn; rewrite Hcur; reflexivity|cbn; rewrite ?andb_false_r; reflexivity] end.
    reflexivity.
Qed.

Lemma bulk_lines_up cfg v curs base items want p0 s0 h p s :
  start items want = Some p0 -> history cfg (act_of v) curs base p0 s0 h p s -> finished p = true ->
  List.length (p_results p) = List.length items /\
  forall i it, nth_error items i = Some it ->
    exists x r, nth_error (p_results p) i = Some x /\ x_id x = i_id it
      /\ completes (base + i) (single cfg v it) (ops_of i h) r /\ tells x r.
Proof.
  intros H1 H2 H3. destruct (line_up cfg (act_of v) curs base items want p0 s0 h p s H1 H2 H3) as [Hl H].
  split; [exact Hl|]. intros i it Hi. destruct (H i it Hi) as [r [Hr Hx]].
  exists (outcome_of (act_of v) (curs i) it r), r. split; [exact Hx|]. split; [destruct r; reflexivity|].
  split; [|apply tells_outcome]. destruct v; exact Hr.
Qed.

Lemma bulk_response cfg v curs base items want p0 s0 h p s :
  start items want = Some p0 -> history cfg (act_of v) curs base p0 s0 h p s -> finished p = true ->
  let q := api_results (p_results p) in
  map a_id (a_results q) = map i_id items
  /\ a_succeeded q = count "succeeded" (a_results q) /\ a_failed q = count "failed" (a_results q)
  /\ a_succeeded q + a_failed q = Z.of_nat (List.length items).
Proof.
  intros H1 H2 H3. destruct (bulk_lines_up _ _ _ _ _ _ _ _ _ _ _ H1 H2 H3) as [Hl H]. cbv zeta.
  rewrite api_results_ids. split.
  - clear - Hl H. assert (forall i it, nth_error items i = Some it -> exists x, nth_error (p_results p) i = Some x /\ x_id x = i_id it) as H'.
    { intros i it Hi. destruct (H i it Hi) as [x [r [Hx [Hid _]]]]. eauto. }
    clear H. revert Hl H'. generalize (p_results p). clear. induction items as [|it items IH]; intros [|x l] Hl H; simpl in Hl; try lia; [reflexivity|].
    simpl. f_equal.
    + destruct (H O it eq_refl) as [x' [E1 E2]]. simpl in E1. congruence.
    + apply IH; [lia|]. intros i it' Hi. apply (H (S i) it' Hi).
  - destruct (api_results_counts (p_results p)) as [E1 [E2 E3]]. rewrite Hl in E3. auto.
Qed.
