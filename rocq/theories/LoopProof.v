(** Starting and stopping background processors: proofs. *)
From Coq Require Import List Bool Arith ZArith Lia.
From Verif Require Import LoopModel LoopSpec.
Import ListNotations.

Lemma reach_one (ok : proc -> event -> Prop) p e p' : ok p e -> step e p = Some p' -> reach ok p p'.
Proof. intros A B. eapply reach_step; [exact A|exact B|apply reach_refl]. Qed.
Lemma reach_inv (ok : proc -> event -> Prop) (I : proc -> Prop) : (forall p e p', I p -> ok p e -> step e p = Some p' -> I p') ->
  forall p p', reach ok p p' -> I p -> I p'.
Proof. intros H p p' R. induction R; eauto. Qed.

(** ** No panic, whatever the schedule *)

Definition going (l : list call) : nat := List.length (filter (fun c => match c_at c with StartGo => true | _ => false end) l).
Lemma going_put i c x l : nth_error l i = Some c ->
  going (put i x l) + (match c_at c with StartGo => 1 | _ => 0 end) = going l + (match c_at x with StartGo => 1 | _ => 0 end).
Proof.
  revert i. induction l as [|y l IH]; intros [|i] H; cbn in H; try discriminate H.
  - injection H as ->. unfold going. cbn [put filter]. destruct (c_at c), (c_at x); cbn [List.length]; lia.
  - specialize (IH i H). unfold going in *. cbn [put filter]. destruct (c_at y); cbn [List.length]; lia.
Qed.
Lemma length_put {A} i (x : A) l : List.length (put i x l) = List.length l.
Proof. revert i. induction l as [|y l IH]; intros [|i]; cbn; congruence. Qed.
Lemma length_drop {A} i (x : A) l : nth_error l i = Some x -> S (List.length (drop_at i l)) = List.length l.
Proof. revert i. induction l as [|y l IH]; intros [|i] H; cbn in *; try discriminate H; [reflexivity|]. rewrite (IH i H). reflexivity. Qed.
Lemma existsb_in n l : existsb (Nat.eqb n) l = true <-> In n l.
Proof. rewrite existsb_exists. split; [intros (x & I & E); apply Nat.eqb_eq in E; subst; exact I|intros I; exists n; split; [exact I|apply Nat.eqb_refl]]. Qed.

Definition sound (p : proc) : Prop :=
  p_dead p = false /\ p_stop p < p_fresh p /\ Forall (fun n => n < p_fresh p) (p_closed p)
  /\ (p_running p = true -> ~ In (p_stop p) (p_closed p))
  /\ p_wg p = Z.of_nat (List.length (p_loops p) + going (p_calls p)).

Lemma fresh_out p : Forall (fun n => n < p_fresh p) (p_closed p) -> ~ In (p_fresh p) (p_closed p).
Proof. intros F I. rewrite Forall_forall in F. specialize (F _ I). lia. Qed.
Lemma fresh_more p : Forall (fun n => n < p_fresh p) (p_closed p) -> Forall (fun n => n < S (p_fresh p)) (p_closed p).
Proof. intros F. eapply Forall_impl; [|exact F]. cbn. lia. Qed.

Lemma sound_step p e p' : sound p -> step e p = Some p' -> sound p'.
Proof.
  intros (D & F & C & N & W) H. unfold step in H. rewrite D in H. destruct e as [k|i|j r|x].
  - injection H as <-. unfold sound, set_calls. cbn [p_dead p_stop p_fresh p_closed p_running p_wg p_loops p_calls].
    split; [exact D|]. split; [exact F|]. split; [exact C|]. split; [exact N|]. rewrite W. unfold going. cbn [filter c_at].
    destruct k; cbn [entry_of]; reflexivity.
  - destruct (nth_error (p_calls p) i) as [c|] eqn:E; [|discriminate H].
    pose proof (fun x => going_put i c {| c_kind := c_kind c; c_at := x |} (p_calls p) E) as G. cbn [c_at] in G.
    unfold act in H. destruct (c_at c) eqn:A.
    + destruct (p_running p) eqn:R; injection H as <-; unfold sound, set_calls, set_started; cbn [p_dead p_stop p_fresh p_closed p_running p_wg p_loops p_calls].
      * specialize (G Returned). cbn in G. rewrite R. repeat (split; [assumption|]). rewrite W. f_equal. lia.
      * specialize (G StartAdd). cbn in G. split; [exact D|]. split; [lia|]. split; [apply fresh_more; exact C|].
        split; [intros _; apply fresh_out; exact C|]. rewrite W. f_equal. lia.
    + injection H as <-. unfold sound, set_calls, add_wg; cbn [p_dead p_stop p_fresh p_closed p_running p_wg p_loops p_calls].
      specialize (G StartGo). cbn in G. split; [rewrite D; cbn [orb]; apply Z.ltb_ge; lia|]. split; [exact F|]. split; [exact C|]. split; [exact N|]. lia.
    + injection H as <-. unfold sound, set_calls, set_loops; cbn [p_dead p_stop p_fresh p_closed p_running p_wg p_loops p_calls].
      specialize (G Returned). cbn in G. repeat (split; [assumption|]). rewrite app_length. cbn [List.length]. lia.
    + destruct (p_running p) eqn:R; injection H as <-; unfold sound, set_calls, set_stopped; cbn [p_dead p_stop p_fresh p_closed p_running p_wg p_loops p_calls].
      * specialize (G StopWait). cbn in G. split.
        { rewrite D. cbn [orb]. destruct (existsb (Nat.eqb (p_stop p)) (p_closed p)) eqn:X; [|reflexivity]. apply existsb_in in X. destruct (N eq_refl X). }
        split; [exact F|]. split; [constructor; assumption|]. split; [discriminate|]. lia.
      * specialize (G Returned). cbn in G. rewrite R. repeat (split; [assumption|]). lia.
    + destruct (p_wg p =? 0)%Z; [|discriminate H]. injection H as <-. unfold sound, set_calls; cbn [p_dead p_stop p_fresh p_closed p_running p_wg p_loops p_calls].
      specialize (G Returned). cbn in G. repeat (split; [assumption|]). lia.
    + discriminate H.
  - destruct (nth_error (p_loops p) j) as [l|] eqn:E; [|discriminate H]. unfold turn in H.
    assert (P : forall x, Some (set_loops p (put j x (p_loops p))) = Some p' -> sound p').
    { intros x Q. injection Q as <-. unfold sound, set_loops; cbn [p_dead p_stop p_fresh p_closed p_running p_wg p_loops p_calls].
      rewrite length_put. repeat (split; [assumption|]). exact W. }
    destruct (l_at l).
    + exact (P _ H).
    + destruct r; [exact (P _ H)| |].
      * destruct (existsb (Nat.eqb ch) (p_closed p)); [exact (P _ H)|discriminate H].
      * destruct (existsb (Nat.eqb (l_ctx l)) (p_cancelled p)); [exact (P _ H)|discriminate H].
    + exact (P _ H).
    + injection H as <-. unfold sound, set_loops, add_wg; cbn [p_dead p_stop p_fresh p_closed p_running p_wg p_loops p_calls].
      pose proof (length_drop j l (p_loops p) E) as L. split; [rewrite D; cbn [orb]; apply Z.ltb_ge; lia|]. repeat (split; [assumption|]). lia.
  - injection H as <-. unfold sound, set_cancelled; cbn [p_dead p_stop p_fresh p_closed p_running p_wg p_loops p_calls]. repeat (split; [assumption|]). exact W.
Qed.
Lemma sound_new : sound new_proc.
Proof. unfold sound, new_proc; cbn. repeat split; auto. Qed.

Theorem never_panics (ok : proc -> event -> Prop) p : reach ok new_proc p -> p_dead p = false.
Proof. intros R. apply (reach_inv ok sound) in R; [apply R| |apply sound_new]. intros; eapply sound_step; eassumption. Qed.

(** ** One call at a time *)

Definition on (n : nat) (l : loop) : Prop := l_at l = Enter \/ l_at l = Work \/ l_at l = Leave \/ l_at l = Select n.
Definition opened (p : proc) : Prop := p_running p = true /\ ~ In (p_stop p) (p_closed p).
Definition none (p : proc) : Prop := p_loops p = [] /\ p_wg p = 0%Z.
Definition single (p : proc) (l : loop) : Prop := p_loops p = [l] /\ p_wg p = 1%Z /\ on (p_stop p) l.
Definition rest (p : proc) : Prop :=
  p_running p = false /\ none p
  \/ opened p /\ (none p /\ p_cancelled p <> [] \/ exists l, single p l /\ (l_at l = Leave -> p_cancelled p <> [])).
Definition fits (p : proc) (c : call) : Prop :=
  match c_at c, c_kind c with
  | StartLock, KStart _ | StopLock, KStop => rest p
  | StartAdd, KStart _ => opened p /\ none p
  | StartGo, KStart _ => opened p /\ p_loops p = [] /\ p_wg p = 1%Z
  | StopWait, KStop => p_running p = false /\ In (p_stop p) (p_closed p) /\ (none p \/ exists l, single p l)
  | Returned, KStart _ => rest p /\ p_running p = true
  | Returned, KStop => rest p /\ p_running p = false
  | _, _ => False
  end.
Definition tidy (p : proc) : Prop :=
  p_dead p = false /\ Forall (fun n => n < p_fresh p) (p_closed p) /\ p_stop p < p_fresh p
  /\ match p_calls p with
     | [] => rest p /\ p_running p = false
     | c :: r => Forall (fun c => c_at c = Returned) r /\ fits p c
     end.

Ltac fields := cbn [p_dead p_stop p_fresh p_closed p_running p_wg p_loops p_calls p_cancelled set_calls set_loops add_wg set_started set_stopped set_cancelled].

Lemma rest_calls p l : rest (set_calls p l) = rest p.
Proof. reflexivity. Qed.
Lemma fits_calls p l c : fits (set_calls p l) c = fits p c.
Proof. reflexivity. Qed.

Lemma returned_none l i c : Forall (fun c => c_at c = Returned) l -> nth_error l i = Some c -> c_at c = Returned.
Proof. intros F H. apply nth_error_In in H. rewrite Forall_forall in F. exact (F c H). Qed.

(** What a loop does keeps what the calls rely on. *)
Lemma loop_cases p j r l p' : nth_error (p_loops p) j = Some l -> turn j r l p = Some p' ->
  forall l0, p_loops p = [l0] -> p_wg p = 1%Z -> on (p_stop p) l0 -> p_dead p = false ->
  p_dead p' = false /\ p_running p' = p_running p /\ p_stop p' = p_stop p /\ p_fresh p' = p_fresh p /\ p_closed p' = p_closed p
  /\ p_calls p' = p_calls p /\ p_cancelled p' = p_cancelled p
  /\ (l_at l0 = Leave /\ none p'
      \/ exists l', single p' l' /\ (l_at l' = Leave -> In (p_stop p) (p_closed p) \/ p_cancelled p <> [])).
Proof.
  intros E H l0 L W O D. rewrite L in E. destruct j as [|[|j]]; cbn in E; try discriminate E. injection E as ->.
  unfold turn in H.
  assert (P : forall x, Some (set_loops p (put 0 {| l_ctx := l_ctx l; l_at := x |} (p_loops p))) = Some p' ->
    (x = Enter \/ x = Work \/ x = Leave \/ x = Select (p_stop p)) -> (x = Leave -> In (p_stop p) (p_closed p) \/ p_cancelled p <> []) ->
    p_dead p' = false /\ p_running p' = p_running p /\ p_stop p' = p_stop p /\ p_fresh p' = p_fresh p /\ p_closed p' = p_closed p
    /\ p_calls p' = p_calls p /\ p_cancelled p' = p_cancelled p
    /\ (l_at l = Leave /\ none p' \/ exists l', single p' l' /\ (l_at l' = Leave -> In (p_stop p) (p_closed p) \/ p_cancelled p <> []))).
  { intros x Q X Y. injection Q as <-. fields. repeat (split; [first [exact D|reflexivity]|]). right.
    exists {| l_ctx := l_ctx l; l_at := x |}. split; [|exact Y]. unfold single, on. fields. rewrite L. cbn [put l_at]. auto. }
  destruct (l_at l) as [|ch| |] eqn:A.
  - apply (P _ H); [auto|intros X; discriminate X].
  - assert (ch = p_stop p) as -> by (destruct O as [O|[O|[O|O]]]; rewrite A in O; try discriminate O; injection O; auto).
    destruct r; [apply (P _ H); [auto|intros X; discriminate X]| |].
    + destruct (existsb (Nat.eqb (p_stop p)) (p_closed p)) eqn:X; [|discriminate H]. apply existsb_in in X. apply (P _ H); auto.
    + destruct (existsb (Nat.eqb (l_ctx l)) (p_cancelled p)) eqn:X; [|discriminate H]. apply (P _ H); [auto|]. intros _. right. intros Z. rewrite Z in X. discriminate X.
  - apply (P _ H); [auto|intros X; discriminate X].
  - injection H as <-. fields. rewrite L. cbn [drop_at]. split; [rewrite D, W; reflexivity|]. repeat (split; [reflexivity|]). left. split; [reflexivity|].
    unfold none. fields. rewrite W. auto.
Qed.

Lemma rest_loop p j r l p' : nth_error (p_loops p) j = Some l -> turn j r l p = Some p' -> p_dead p = false -> rest p ->
  rest p' /\ p_running p' = p_running p /\ p_dead p' = false /\ p_stop p' = p_stop p /\ p_fresh p' = p_fresh p /\ p_closed p' = p_closed p
  /\ p_calls p' = p_calls p.
Proof.
  intros E H D [[R [L W]]|[[R N] Q]]; [rewrite L in E; destruct j; discriminate E|].
  destruct Q as [[[L W] _]|(l0 & (L & W & O) & V)]; [rewrite L in E; destruct j; discriminate E|].
  destruct (loop_cases p j r l p' E H l0 L W O D) as (D' & R' & S' & F' & C' & K' & X' & Q).
  split; [|auto 10]. right. unfold opened. rewrite R', S', C'. split; [auto|]. destruct Q as [[A B]|(l' & B & A)].
  - left. rewrite X'. auto.
  - right. exists l'. split; [exact B|]. rewrite X'. intros Y. destruct (A Y) as [I|I]; [contradiction|exact I].
Qed.

Lemma tidy_step p e p' : tidy p -> one_at_a_time p e -> step e p = Some p' -> tidy p'.
Proof.
  intros (D & C & F & K) U H. unfold step in H. rewrite D in H. destruct e as [k|i|j r|x].
  - injection H as <-. cbn [one_at_a_time] in U. unfold tidy. fields. split; [exact D|]. split; [exact C|]. split; [exact F|]. split; [exact U|].
    rewrite fits_calls. assert (rest p) as Q.
    { destruct (p_calls p) as [|c r]; [apply K|]. destruct K as [_ K]. inversion U as [|? ? A _]; subst. unfold fits in K. rewrite A in K. destruct (c_kind c); apply K. }
    destruct k; exact Q.
  - destruct (nth_error (p_calls p) i) as [c|] eqn:E; [|discriminate H].
    destruct (p_calls p) as [|c0 r0] eqn:L; [destruct i; discriminate E|]. destruct K as [Rr K].
    destruct i as [|i]; [|cbn in E; pose proof (returned_none _ _ _ Rr E) as A; unfold act in H; rewrite A in H; discriminate H].
    cbn in E. injection E as ->. unfold act in H. unfold fits in K.
    destruct (c_at c) eqn:A, (c_kind c) as [x|] eqn:B; try contradiction.
    + destruct (p_running p) eqn:R; injection H as <-; unfold tidy; fields; rewrite L; cbn [put].
      * split; [exact D|]. split; [exact C|]. split; [exact F|]. split; [exact Rr|]. unfold fits. cbn [c_at c_kind]. rewrite rest_calls. auto.
      * split; [exact D|]. split; [apply fresh_more; exact C|]. split; [lia|]. split; [exact Rr|]. unfold fits. cbn [c_at c_kind].
        unfold opened, none. fields. destruct K as [[_ [K1 K2]]|[[K _] _]]; [|congruence]. split; [split; [reflexivity|apply fresh_out; exact C]|auto].
    + injection H as <-. unfold tidy; fields; rewrite L; cbn [put]. destruct K as [K1 [K2 K3]].
      split; [rewrite D, K3; reflexivity|]. split; [exact C|]. split; [exact F|]. split; [exact Rr|]. unfold fits. cbn [c_at c_kind].
      unfold opened. fields. rewrite K3. auto.
    + injection H as <-. unfold tidy; fields; rewrite L; cbn [put]. destruct K as [[K1 K1'] [K2 K3]].
      split; [exact D|]. split; [exact C|]. split; [exact F|]. split; [exact Rr|]. unfold fits. cbn [c_at c_kind].
      split; [|exact K1]. right. unfold opened. fields. split; [auto|]. right.
      exists {| l_ctx := context_of (KStart x); l_at := Enter |}. unfold single, on. fields. rewrite K2. cbn [app l_at]. split; [auto 10|intros Y; discriminate Y].
    + destruct (p_running p) eqn:R; injection H as <-; unfold tidy; fields; rewrite L; cbn [put].
      * destruct K as [[K _]|[[_ K0] K]]; [congruence|].
        split. { rewrite D. cbn [orb]. destruct (existsb (Nat.eqb (p_stop p)) (p_closed p)) eqn:X; [|reflexivity]. apply existsb_in in X. destruct (K0 X). }
        split; [constructor; assumption|]. split; [exact F|]. split; [exact Rr|]. unfold fits. cbn [c_at c_kind]. unfold none, single. fields.
        split; [reflexivity|]. split; [left; reflexivity|]. destruct K as [[K _]|(l & K & _)]; [left; exact K|right; exists l; exact K].
      * split; [exact D|]. split; [exact C|]. split; [exact F|]. split; [exact Rr|]. unfold fits. cbn [c_at c_kind]. rewrite rest_calls. auto.
    + destruct (p_wg p =? 0)%Z eqn:W; [|discriminate H]. apply Z.eqb_eq in W. injection H as <-. unfold tidy; fields; rewrite L; cbn [put].
      split; [exact D|]. split; [exact C|]. split; [exact F|]. split; [exact Rr|]. unfold fits. cbn [c_at c_kind]. rewrite rest_calls.
      destruct K as (K1 & _ & [K|(l & _ & K & _)]); [|rewrite W in K; discriminate K]. split; [left; auto|exact K1].
    + discriminate H.
    + discriminate H.
  - destruct (nth_error (p_loops p) j) as [l|] eqn:E; [|discriminate H].
    assert (Q : forall P : proc -> Prop, (rest p' /\ p_running p' = p_running p -> P p') -> rest p ->
      p_dead p' = false /\ Forall (fun n => n < p_fresh p') (p_closed p') /\ p_stop p' < p_fresh p' /\ p_calls p' = p_calls p /\ P p').
    { intros P HP Hr. destruct (rest_loop p j r l p' E H D Hr) as (Q1 & Q2 & Q3 & Q4 & Q5 & Q6 & Q7). rewrite Q4, Q5, Q6. auto 10. }
    unfold tidy. destruct (p_calls p) as [|c rr] eqn:L.
    + destruct K as [K1 K2]. destruct (Q (fun q => rest q /\ p_running q = false)) as (A1 & A2 & A3 & A4 & A5); [intros [X Y]; rewrite Y; auto|exact K1|].
      rewrite A4. auto.
    + destruct K as [Rr K].
      assert (G : rest p -> (rest p' -> p_running p' = p_running p -> fits p' c) ->
        p_dead p' = false /\ Forall (fun n => n < p_fresh p') (p_closed p') /\ p_stop p' < p_fresh p'
        /\ match p_calls p' with [] => rest p' /\ p_running p' = false | c :: r => Forall (fun c => c_at c = Returned) r /\ fits p' c end).
      { intros Hr HP. destruct (Q (fun q => fits q c)) as (A1 & A2 & A3 & A4 & A5); [intros [X Y]; auto|exact Hr|]. rewrite A4. auto 10. }
      unfold fits in K. destruct (c_at c) eqn:A, (c_kind c) as [x|] eqn:B; try contradiction.
      * apply G; [exact K|]. intros X Y. unfold fits. rewrite A, B. exact X.
      * destruct K as [_ [K _]]. rewrite K in E. destruct j; discriminate E.
      * destruct K as [_ [K _]]. rewrite K in E. destruct j; discriminate E.
      * apply G; [exact K|]. intros X Y. unfold fits. rewrite A, B. exact X.
      * destruct K as (K1 & K2 & [[K _]|(l0 & L0 & W & O)]); [rewrite K in E; destruct j; discriminate E|].
        destruct (loop_cases p j r l p' E H l0 L0 W O D) as (D' & R' & S' & F' & C' & Q' & X' & Z'). rewrite Q', L.
        split; [exact D'|]. split; [rewrite F', C'; exact C|]. split; [rewrite F', S'; exact F|]. split; [exact Rr|].
        unfold fits. rewrite A, B, R', S', C'. split; [exact K1|]. split; [exact K2|]. destruct Z' as [[_ Z']|(l' & Z' & _)]; [left; exact Z'|right; exists l'; exact Z'].
      * apply G; [apply K|]. intros X Y. unfold fits. rewrite A, B, Y. split; [exact X|apply K].
      * apply G; [apply K|]. intros X Y. unfold fits. rewrite A, B, Y. split; [exact X|apply K].
  - injection H as <-.
    assert (V : forall q, rest q -> rest (set_cancelled q x)).
    { intros q [Q|[Q1 Q2]]; [left; exact Q|]. right. split; [exact Q1|]. destruct Q2 as [[Q2 _]|(l & Q2 & _)].
      - left. split; [exact Q2|]. fields. discriminate.
      - right. exists l. split; [exact Q2|]. fields. discriminate. }
    unfold tidy. change (p_calls (set_cancelled p x)) with (p_calls p). split; [exact D|]. split; [exact C|]. split; [exact F|].
    destruct (p_calls p) as [|c r]; [split; [apply V|]; apply K|]. destruct K as [K1 K]. split; [exact K1|].
    unfold fits in *. destruct (c_at c), (c_kind c); try contradiction; try exact K; try (apply V; exact K); (split; [apply V; apply K|apply K]).
Qed.
Lemma tidy_new : tidy new_proc.
Proof. unfold tidy, new_proc; cbn. repeat split; auto. left. split; [reflexivity|split; reflexivity]. Qed.
Lemma tidy_reach p : reach one_at_a_time new_proc p -> tidy p.
Proof. intros R. apply (reach_inv one_at_a_time tidy) in R; [exact R| |apply tidy_new]. intros; eapply tidy_step; eassumption. Qed.

Lemma rest_alive p : rest p -> (alive p <= 1) /\ (p_running p = false -> alive p = 0)
  /\ (p_running p = true -> p_cancelled p = [] -> exists l, p_loops p = [l] /\ l_at l <> Leave).
Proof.
  unfold alive. intros [[R [L W]]|[[R N] [[[L W] X]|(l & (L & W & O) & V)]]]; rewrite L; cbn [List.length]; rewrite R.
  - split; [lia|]. split; [reflexivity|discriminate].
  - split; [lia|]. split; [discriminate|]. intros _ Y. contradiction.
  - split; [lia|]. split; [discriminate|]. intros _ Y. exists l. split; [reflexivity|]. intros A. exact (V A Y).
Qed.

Theorem one_loop p : reach one_at_a_time new_proc p -> alive p <= 1.
Proof.
  intros H. apply tidy_reach in H as (D & C & F & K). destruct (p_calls p) as [|c r]; [apply rest_alive, K|]. destruct K as [_ K].
  unfold fits in K. destruct (c_at c), (c_kind c); try contradiction; try (apply rest_alive; apply K); unfold alive.
  - destruct K as [_ [-> _]]. cbn. lia.
  - destruct K as [_ [-> _]]. cbn. lia.
  - destruct K as (_ & _ & [[-> _]|(l & -> & _)]); cbn; lia.
Qed.
Theorem stopped p : reach one_at_a_time new_proc p -> has_returned KStop p -> alive p = 0 /\ is_running p = false.
Proof.
  intros H (r & E). apply tidy_reach in H as (D & C & F & K). rewrite E in K. destruct K as [_ [K1 K2]]. split; [apply rest_alive; assumption|exact K2].
Qed.
Theorem started p ctx : reach one_at_a_time new_proc p -> has_returned (KStart ctx) p ->
  is_running p = true /\ (p_cancelled p = [] -> exists l, p_loops p = [l] /\ l_at l <> Leave).
Proof.
  intros H (r & E). apply tidy_reach in H as (D & C & F & K). rewrite E in K. destruct K as [_ [K1 K2]]. split; [exact K2|]. apply rest_alive; assumption.
Qed.
Lemma act_head p c r q : p_dead p = false -> p_calls p = c :: r -> act 0 c p = Some q -> step (EAct 0) p = Some q.
Proof. intros D E H. unfold step. rewrite D, E. exact H. Qed.
Lemma turn_head p l x q : p_dead p = false -> p_loops p = [l] -> turn 0 x l p = Some q -> step (ELoop 0 x) p = Some q.
Proof. intros D E H. unfold step. rewrite D, E. exact H. Qed.

(** A stop that is under way returns after a few steps of it and of the loop. *)
Lemma waits_returns p c r : p_dead p = false -> p_calls p = c :: r -> c_kind c = KStop -> c_at c = StopWait ->
  In (p_stop p) (p_closed p) -> none p \/ (exists l, single p l) ->
  exists p', reach left_alone p p' /\ has_returned KStop p'.
Proof.
  intros D E B A N.
  assert (Z : forall q, p_dead q = false -> p_calls q = c :: r -> none q -> exists p', reach left_alone q p' /\ has_returned KStop p').
  { intros q D' E' [L W]. eexists. split.
    - apply (reach_one _ _ (EAct 0)); [exact I|]. eapply act_head; [exact D'|exact E'|]. unfold act. rewrite A, W. reflexivity.
    - unfold has_returned. fields. rewrite E'. cbn [put]. rewrite B. eexists. reflexivity. }
  assert (Y : forall q l, p_dead q = false -> p_calls q = c :: r -> p_loops q = [l] -> p_wg q = 1%Z -> l_at l = Leave ->
    exists p', reach left_alone q p' /\ has_returned KStop p').
  { intros q l D' E' L W A'. destruct (Z (add_wg (set_loops q []) (-1))) as (p' & R & H).
    - fields. rewrite D', W. reflexivity.
    - exact E'.
    - unfold none. fields. rewrite W. auto.
    - exists p'. split; [|exact H]. eapply reach_step with (e := ELoop 0 Tick); [exact I| |exact R].
      eapply turn_head; [exact D'|exact L|]. unfold turn. rewrite A', L. reflexivity. }
  assert (X : forall q l, p_dead q = false -> p_calls q = c :: r -> p_loops q = [l] -> p_wg q = 1%Z -> l_at l = Select (p_stop q) ->
    In (p_stop q) (p_closed q) -> exists p', reach left_alone q p' /\ has_returned KStop p').
  { intros q l D' E' L W A' N'. destruct (Y (set_loops q [{| l_ctx := l_ctx l; l_at := Leave |}]) {| l_ctx := l_ctx l; l_at := Leave |} D' E' eq_refl W eq_refl) as (p' & R & H).
    exists p'. split; [|exact H]. eapply reach_step with (e := ELoop 0 Stopped); [exact I| |exact R].
    eapply turn_head; [exact D'|exact L|]. unfold turn. rewrite A', L. apply existsb_in in N'. rewrite N'. reflexivity. }
  assert (V : forall q l, p_dead q = false -> p_calls q = c :: r -> p_loops q = [l] -> p_wg q = 1%Z -> l_at l = Enter ->
    In (p_stop q) (p_closed q) -> exists p', reach left_alone q p' /\ has_returned KStop p').
  { intros q l D' E' L W A' N'. destruct (X (set_loops q [{| l_ctx := l_ctx l; l_at := Select (p_stop q) |}]) {| l_ctx := l_ctx l; l_at := Select (p_stop q) |} D' E' eq_refl W eq_refl N') as (p' & R & H).
    exists p'. split; [|exact H]. eapply reach_step with (e := ELoop 0 Tick); [exact I| |exact R].
    eapply turn_head; [exact D'|exact L|]. unfold turn. rewrite A', L. reflexivity. }
  intros [Q|(l & L & W & O)]; [apply Z; assumption|]. destruct O as [O|[O|[O|O]]].
  - eapply V; eassumption.
  - destruct (V (set_loops p [{| l_ctx := l_ctx l; l_at := Enter |}]) {| l_ctx := l_ctx l; l_at := Enter |} D E eq_refl W eq_refl N) as (p' & R & H).
    exists p'. split; [|exact H]. eapply reach_step with (e := ELoop 0 Tick); [exact I| |exact R].
    eapply turn_head; [exact D|exact L|]. unfold turn. rewrite O, L. reflexivity.
  - eapply Y; eassumption.
  - eapply X; eassumption.
Qed.

Theorem stop_returns p : reach one_at_a_time new_proc p -> stopping p ->
  exists p', reach left_alone p p' /\ has_returned KStop p'.
Proof.
  intros H (c & r & E & B & N). apply tidy_reach in H as (D & C & F & K). rewrite E in K. destruct K as [Rr K]. unfold fits in K. rewrite B in K.
  destruct (c_at c) eqn:A; try contradiction.
  - destruct (p_running p) eqn:R.
    + destruct K as [[K _]|[[_ K0] K]]; [congruence|].
      destruct (waits_returns (set_calls (set_stopped p) ({| c_kind := c_kind c; c_at := StopWait |} :: r)) {| c_kind := c_kind c; c_at := StopWait |} r) as (p' & Q & G).
      * fields. rewrite D. cbn [orb]. destruct (existsb (Nat.eqb (p_stop p)) (p_closed p)) eqn:X; [|reflexivity]. apply existsb_in in X. destruct (K0 X).
      * reflexivity.
      * exact B.
      * reflexivity.
      * fields. left. reflexivity.
      * destruct K as [[K _]|(l & K & _)]; [left; exact K|right; exists l; exact K].
      * exists p'. split; [|exact G]. eapply reach_step with (e := EAct 0); [exact I| |exact Q]. eapply act_head; [exact D|exact E|]. unfold act. rewrite A, R. fields. rewrite E. reflexivity.
    + exists (set_calls p ({| c_kind := KStop; c_at := Returned |} :: r)). split; [|eexists; reflexivity].
      apply (reach_one _ _ (EAct 0)); [exact I|]. eapply act_head; [exact D|exact E|]. unfold act. rewrite A, R, B, E. reflexivity.
  - destruct K as (K1 & K2 & K3). eapply waits_returns; eassumption.
Qed.
