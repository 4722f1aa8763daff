(** Proofs about webhooks. *)
From Coq Require Import List String Bool Arith ZArith Lia Permutation.
From Verif Require Import Base BodyModel BodySpec BodyProof BodyThms BodyDemo NoticeModel NoticeSpec.
Import ListNotations.
Local Open Scope string_scope.
Local Open Scope nat_scope.
Local Open Scope list_scope.

(** ** Lists *)
Lemma drop_perm {A} i : forall (l : list A) x, nth_error l i = Some x -> Permutation l (x :: drop_nth i l).
Proof.
  induction i as [|i IH]; intros [|y l] x H; cbn in *; try discriminate H.
  - injection H as <-. apply Permutation_refl.
  - apply Permutation_trans with (y :: x :: drop_nth i l); [constructor; auto|apply perm_swap].
Qed.
Lemma drop_in {A} i : forall (l : list A) x, In x (drop_nth i l) -> In x l.
Proof.
  induction i as [|i IH]; intros [|y l] x H; cbn in *; auto. destruct H as [H|H]; auto.
Qed.
Lemma count_app {A} (p : A -> bool) a b : count p (a ++ b) = count p a + count p b.
Proof. unfold count. rewrite filter_app, app_length. reflexivity. Qed.
Lemma count_cons {A} (p : A -> bool) x l : count p (x :: l) = (if p x then 1 else 0) + count p l.
Proof. unfold count. cbn. destruct (p x); reflexivity. Qed.
Lemma count_perm {A} (p : A -> bool) a b : Permutation a b -> count p a = count p b.
Proof.
  induction 1 as [|x a b P IH|x y a|a b c P IH P' IH']; [reflexivity| | |congruence]; rewrite !count_cons; [rewrite IH; reflexivity|lia].
Qed.
Lemma count_drop {A} (p : A -> bool) i l x : nth_error l i = Some x -> count p l = (if p x then 1 else 0) + count p (drop_nth i l).
Proof. intros H. rewrite (count_perm p _ _ (drop_perm i l x H)). apply count_cons. Qed.
Lemma count_in {A} (p : A -> bool) l x : In x l -> p x = true -> 1 <= count p l.
Proof. intros I P. unfold count. assert (J : In x (filter p l)) by (apply filter_In; auto). destruct (filter p l); [destruct J|cbn; lia]. Qed.
Lemma count_some {A} (p : A -> bool) l : 1 <= count p l -> exists x, In x l /\ p x = true.
Proof. unfold count. intros H. destruct (filter p l) as [|x r] eqn:E; [cbn in H; lia|]. exists x. apply filter_In. rewrite E. left. reflexivity. Qed.
Lemma count_zero {A} (p : A -> bool) l : (forall x, In x l -> p x = false) -> count p l = 0.
Proof. induction l as [|x l IH]; intros H; [reflexivity|]. rewrite count_cons, (H x (or_introl eq_refl)). apply IH. intros y Y. apply H. right. exact Y. Qed.
Lemma count_repeat {A} (p : A -> bool) x k : count p (repeat x k) = if p x then k else 0.
Proof. induction k as [|k IH]; [destruct (p x); reflexivity|]. cbn [repeat]. rewrite count_cons, IH. destruct (p x); reflexivity. Qed.

(** ** The invariant *)
Definition due_of (n : nat) (d : nat * msg) : bool := Nat.eqb (fst d) n.
Definition task_of (n : nat) (t : task) : bool := Nat.eqb (t_fact t) n.
Definition open (w : world) (n : nat) : nat := count (due_of n) (w_due w) + count (task_of n) (w_tasks w).
Definition over (w : world) (n : nat) : nat := count (settled n) (w_log w) + count (given_up n) (w_gone w).
Definition tells (w : world) (n : nat) (m : msg) : Prop := exists f, nth_error (w_facts w) n = Some f /\ m = msg_of f /\ 1 <= senders (f_what f).

Record inv (v : env) (w : world) : Prop := {
  i_due : forall n m, In (n, m) (w_due w) -> tells w n m;
  i_task : forall t, In t (w_tasks w) -> tells w (t_fact t) (t_msg t) /\ t_no t < w_next w /\ 1 <= t_left t /\ count (failed (t_no t)) (w_log w) + t_left t = attempts;
  i_nos : NoDup (map t_no (w_tasks w));
  i_gone : forall t, In t (w_gone w) -> tells w (t_fact t) (t_msg t) /\ count (failed (t_no t)) (w_log w) = attempts /\
           (forall y, In y (w_log w) -> y_task y = t_no t -> y_fact y = t_fact t) /\ t_no t < w_next w /\ (forall t', In t' (w_tasks w) -> t_no t' <> t_no t);
  i_log : forall y, In y (w_log w) -> y_task y < w_next w /\ (exists f, nth_error (w_facts w) (y_fact y) = Some f /\ 1 <= senders (f_what f) /\
          forall q, y_request y = Some q -> exists c now b, body_of (msg_of f) = Some b /\ q = request_of v c now b) /\
          (forall t, In t (w_tasks w) -> t_no t = y_task y -> t_fact t = y_fact y);
  i_count : forall n f, nth_error (w_facts w) n = Some f -> open w n + over w n <= senders (f_what f);
  i_after : forall a x b f, w_log w = a ++ x :: b -> y_done x = true -> nth_error (w_facts w) (y_fact x) = Some f -> senders (f_what f) = 1 ->
            forall y, In y b -> y_fact y <> y_fact x
}.
Lemma inv_blank v : inv v blank.
Proof.
  split; cbn; try (intros; contradiction).
  - constructor.
  - intros n f H. destruct n; discriminate H.
  - intros a x b f H. destruct a; discriminate H.
Qed.
Lemma old_fact {A} (l : list A) x n y : nth_error l n = Some y -> nth_error (l ++ [x]) n = Some y.
Proof. intros H. rewrite nth_error_app1; [exact H|]. apply nth_error_Some. congruence. Qed.
Lemma fact_cases {A} (l : list A) x n y : nth_error (l ++ [x]) n = Some y -> nth_error l n = Some y \/ n = List.length l /\ y = x.
Proof.
  intros H. destruct (Nat.lt_ge_cases n (List.length l)) as [L|L]; [left; rewrite nth_error_app1 in H; auto|].
  rewrite nth_error_app2 in H by exact L. destruct (n - List.length l) as [|k] eqn:E; [injection H as <-; right; split; [lia|reflexivity]|]. destruct k; discriminate H.
Qed.
Lemma nos_eq (l : list task) a b : NoDup (map t_no l) -> In a l -> In b l -> t_no a = t_no b -> a = b.
Proof.
  induction l as [|x l IH]; intros N A B E; [destruct A|]. cbn in N. inversion N as [|y z N1 N2]; subst. destruct A as [->|A], B as [->|B]; auto.
  - exfalso. apply N1. rewrite E. apply in_map, B.
  - exfalso. apply N1. rewrite <- E. apply in_map, A.
Qed.
Lemma last_cases {A} (l : list A) z : forall a x b, l ++ [z] = a ++ x :: b -> (b = [] /\ x = z /\ a = l) \/ exists b', b = b' ++ [z] /\ l = a ++ x :: b'.
Proof.
  intros a x b H. destruct b as [|y b] using rev_ind.
  - apply app_inj_tail in H as [-> ->]. left. auto.
  - right. exists b. change (a ++ x :: b ++ [y]) with (a ++ (x :: b) ++ [y]) in H. rewrite app_assoc in H. apply app_inj_tail in H as [-> ->]. auto.
Qed.

Lemma inv_fact v w f : inv v w -> inv v (happen v (EFact f) w).
Proof.
  intros [D T N G L C A]. cbn [happen].
  assert (Te : forall w' n m, w_facts w' = w_facts w ++ [f] -> tells w n m -> tells w' n m).
  { intros w' n m E (g & Eg & Em & S). exists g. split; [rewrite E; apply old_fact, Eg|auto]. }
  assert (Dz : forall n, List.length (w_facts w) <= n -> open w n = 0 /\ over w n = 0).
  { intros n Ln. assert (F : forall g, nth_error (w_facts w) n = Some g -> False).
    { intros g Hg. assert (n < List.length (w_facts w)) by (apply nth_error_Some; congruence). lia. }
    split; unfold open, over.
    - rewrite !count_zero; [reflexivity| |].
      + intros t It. unfold task_of. apply Nat.eqb_neq. intros <-. destruct (T t It) as ((g & Eg & _) & _). exact (F g Eg).
      + intros [k m] Id. unfold due_of. cbn. apply Nat.eqb_neq. intros <-. destruct (D k m Id) as (g & Eg & _). exact (F g Eg).
    - rewrite !count_zero; [reflexivity| |].
      + intros t It. unfold given_up. apply Nat.eqb_neq. intros <-. destruct (G t It) as ((g & Eg & _) & _). exact (F g Eg).
      + intros y Iy. unfold NoticeSpec.settled. destruct (Nat.eqb_spec (y_fact y) n) as [<-|]; [|reflexivity]. destruct (L y Iy) as (_ & (g & Eg & _) & _). destruct (F g Eg). }
  split; cbn [w_facts w_due w_tasks w_next w_log w_gone].
  - intros n m I. apply in_app_or in I as [I|I]; [eapply Te; [reflexivity|apply D, I]|]. destruct (senders (f_what f)) as [|k] eqn:S; [destruct I|].
    apply repeat_spec in I. injection I as -> ->. exists f. split; [|split; [reflexivity|lia]]. cbn. rewrite nth_error_app2 by lia. rewrite Nat.sub_diag. reflexivity.
  - intros t I. destruct (T t I) as (T1 & T2). split; [eapply Te; [reflexivity|exact T1]|exact T2].
  - exact N.
  - intros t I. destruct (G t I) as (G1 & G2). split; [eapply Te; [reflexivity|exact G1]|exact G2].
  - intros y I. destruct (L y I) as (L1 & (g & Eg & Hg) & L3). split; [exact L1|]. split; [|exact L3]. exists g. split; [apply old_fact, Eg|exact Hg].
  - intros n g H. unfold open. cbn [w_due w_tasks]. rewrite count_app, count_repeat. change (over {| w_facts := w_facts w ++ [f]; w_due := w_due w ++ repeat (List.length (w_facts w), msg_of f) (senders (f_what f)); w_tasks := w_tasks w; w_next := w_next w; w_log := w_log w; w_gone := w_gone w |} n) with (over w n).
    unfold due_of at 2. cbn [fst]. apply fact_cases in H as [H|[-> ->]].
    + pose proof (C n g H) as Cn. unfold open in Cn. destruct (Nat.eqb_spec (List.length (w_facts w)) n) as [E|_]; [|lia].
      assert (n < List.length (w_facts w)) by (apply nth_error_Some; congruence). lia.
    + destruct (Dz (List.length (w_facts w)) (le_n _)) as [Z1 Z2]. unfold open in Z1. rewrite Nat.eqb_refl. lia.
  - intros a x b g E Dn H S y Iy. apply fact_cases in H as [H|[H ->]]; [eapply A; eauto|]. exfalso.
    assert (Ix : In x (w_log w)) by (rewrite E; apply in_or_app; right; left; reflexivity). destruct (L x Ix) as (_ & (h & Eh & _) & _).
    assert (y_fact x < List.length (w_facts w)) by (apply nth_error_Some; congruence). lia.
Qed.
Lemma inv_drop v w i : inv v w -> inv v (happen v (EDie i) w).
Proof.
  intros [D T N G L C A]. cbn [happen]. split; cbn [w_facts w_due w_tasks w_next w_log w_gone]; auto.
  - intros n m I. apply drop_in in I. apply (D n m I).
  - intros n f H. pose proof (C n f H) as Cn. revert Cn. unfold open, over. cbn [w_due w_tasks w_log w_gone]. destruct (nth_error (w_due w) i) as [d|] eqn:E.
    + rewrite (count_drop (due_of n) i (w_due w) d E). lia.
    + assert (drop_nth i (w_due w) = w_due w) as ->; [|auto]. clear - E. revert E. generalize (w_due w). induction i as [|i IH]; intros [|x l] E; cbn in *; try reflexivity; [discriminate E|]. rewrite IH; auto.
Qed.
Lemma inv_send v w i url ok : inv v w -> inv v (happen v (ESend i url ok) w).
Proof.
  intros I0. pose proof I0 as [D T N G L C A]. cbn [happen]. destruct (nth_error (w_due w) i) as [[n m]|] eqn:E; [|exact I0].
  destruct (negb (String.eqb url "") && ok); [|exact (inv_drop v w i I0)].
  pose proof (nth_error_In _ _ E) as Id. pose proof (D n m Id) as Dn.
  split; cbn [w_facts w_due w_tasks w_next w_log w_gone].
  - intros n' m' I. apply drop_in in I. apply (D n' m' I).
  - intros t I. apply in_app_or in I as [I|[<-|[]]].
    + destruct (T t I) as (T1 & T2 & T3). split; [exact T1|]. split; [lia|exact T3].
    + cbn. split; [exact Dn|]. split; [lia|]. split; [unfold attempts; lia|]. rewrite count_zero; [reflexivity|]. intros y Iy. unfold failed. destruct (L y Iy) as (L1 & _). destruct (Nat.eqb_spec (y_task y) (w_next w)); [lia|reflexivity].
  - rewrite map_app. cbn. eapply Permutation_NoDup; [apply Permutation_cons_append|]. constructor; [|exact N].
    intros I. apply in_map_iff in I as (t & Et & I). destruct (T t I) as (_ & T2 & _). lia.
  - intros t I. destruct (G t I) as (G1 & G2 & G3 & G4 & G5). split; [exact G1|]. split; [exact G2|]. split; [exact G3|]. split; [lia|].
    intros t' I'. apply in_app_or in I' as [I'|[<-|[]]]; [apply G5, I'|cbn; lia].
  - intros y I. destruct (L y I) as (L1 & L2 & L3). split; [lia|]. split; [exact L2|]. intros t I'. apply in_app_or in I' as [I'|[<-|[]]]; [apply L3, I'|cbn; lia].
  - intros k f H. pose proof (C k f H) as Ck. revert Ck. unfold open, over. cbn [w_due w_tasks w_log w_gone]. rewrite (count_drop (due_of k) i (w_due w) (n, m) E), count_app, count_cons.
    unfold due_of at 1. unfold task_of at 3. cbn [fst t_fact]. change (count (task_of k) []) with 0. destruct (Nat.eqb n k); lia.
  - exact A.
Qed.
Lemma inv_try v w i c now r a : inv v w -> inv v (happen v (ETry i c now r a) w).
Proof.
  intros I0. pose proof I0 as [D T N G L C A]. cbn [happen]. destruct (nth_error (w_tasks w) i) as [t|] eqn:E; [|exact I0].
  pose proof (nth_error_In _ _ E) as It. pose proof (drop_perm i _ _ E) as P. destruct (T t It) as ((f & Ef & Em & Sf) & T2 & T3 & T4).
  assert (Nd : NoDup (t_no t :: map t_no (drop_nth i (w_tasks w)))) by (apply (Permutation_NoDup (Permutation_map t_no P) N)).
  inversion Nd as [|x0 l0 Nt Nr]; subst x0 l0.
  assert (Ot : forall t', In t' (drop_nth i (w_tasks w)) -> t_no t' <> t_no t) by (intros t' I' Q; apply Nt; rewrite <- Q; apply in_map, I').
  destruct (attempt v c now r (t_msg t)) as [q ok] eqn:At. cbn [t_left].
  set (y0 := {| y_task := t_no t; y_fact := t_fact t; y_request := q; y_reply := r; y_done := ok && a |}).
  assert (Ly : forall q', q = Some q' -> exists c now b, body_of (msg_of f) = Some b /\ q' = request_of v c now b).
  { intros q' ->. unfold attempt in At. destruct (String.eqb (c_url c) ""); [discriminate At|]. rewrite Em in At. destruct (body_of (msg_of f)) as [b|] eqn:B; [|discriminate At].
    injection At as <- _. exists c, now, b. auto. }
  assert (Co : forall n g, nth_error (w_facts w) n = Some g -> forall tk gn, count (task_of n) tk + count (given_up n) gn + (if Nat.eqb (t_fact t) n && (ok && a) then 1 else 0)
      <= (if Nat.eqb (t_fact t) n then 1 else 0) + count (task_of n) (drop_nth i (w_tasks w)) + count (given_up n) (w_gone w) ->
      count (due_of n) (w_due w) + count (task_of n) tk + (count (settled n) (w_log w ++ [y0]) + count (given_up n) gn) <= senders (f_what g)).
  { intros n g H tk gn Q. pose proof (C n g H) as Cn. unfold open, over in Cn. rewrite (count_drop (task_of n) i (w_tasks w) t E) in Cn. rewrite count_app, count_cons. change (count (settled n) []) with 0.
    unfold task_of at 1 in Cn. unfold NoticeSpec.settled at 2. cbn [y0 y_fact y_done]. lia. }
  assert (Af : forall a0 x b g, w_log w ++ [y0] = a0 ++ x :: b -> y_done x = true -> nth_error (w_facts w) (y_fact x) = Some g -> senders (f_what g) = 1 -> forall y, In y b -> y_fact y <> y_fact x).
  { intros a0 x b g El Dx Hx Sx y Iy. apply last_cases in El as [(-> & _ & _)|(b' & -> & El)]; [destruct Iy|]. apply in_app_or in Iy as [Iy|[<-|[]]]; [eapply A; eauto|].
    cbn. intros Q. pose proof (C _ g Hx) as Cn. unfold open, over in Cn.
    assert (1 <= count (task_of (y_fact x)) (w_tasks w)) by (eapply count_in; [exact It|unfold task_of; apply Nat.eqb_eq; exact Q]).
    assert (1 <= count (settled (y_fact x)) (w_log w)); [|lia]. apply (count_in _ _ x); [rewrite El; apply in_or_app; right; left; reflexivity|]. unfold NoticeSpec.settled. rewrite Nat.eqb_refl, Dx. reflexivity. }
  assert (Lg : forall y, In y (w_log w ++ [y0]) -> y_task y < w_next w /\ (exists f, nth_error (w_facts w) (y_fact y) = Some f /\ 1 <= senders (f_what f) /\
          forall q, y_request y = Some q -> exists c now b, body_of (msg_of f) = Some b /\ q = request_of v c now b)).
  { intros y I. apply in_app_or in I as [I|[<-|[]]]; [destruct (L y I) as (L1 & L2 & _); auto|]. split; [exact T2|]. exists f. auto. }
  assert (Lt : forall y t', In y (w_log w ++ [y0]) -> In t' (drop_nth i (w_tasks w)) -> t_no t' = y_task y -> t_fact t' = y_fact y).
  { intros y t' I I' Q. apply in_app_or in I as [I|[<-|[]]]; [|exfalso; exact (Ot t' I' Q)]. destruct (L y I) as (_ & _ & L3). apply L3; [eapply drop_in; exact I'|exact Q]. }
  assert (Ls : forall y, In y (w_log w ++ [y0]) -> t_no t = y_task y -> t_fact t = y_fact y).
  { intros y I Q. apply in_app_or in I as [I|[<-|[]]]; [|reflexivity]. destruct (L y I) as (_ & _ & L3). apply L3; auto. }
  assert (Fo : forall k, k <> t_no t -> count (failed k) (w_log w ++ [y0]) = count (failed k) (w_log w)).
  { intros k K. rewrite count_app, count_cons. unfold failed at 2. cbn [y0 y_task]. destruct (Nat.eqb_spec (t_no t) k); [congruence|]. change (count (failed k) []) with 0. cbn [andb]. lia. }
  assert (Tr : forall t', In t' (drop_nth i (w_tasks w)) -> tells w (t_fact t') (t_msg t') /\ t_no t' < w_next w /\ 1 <= t_left t' /\ count (failed (t_no t')) (w_log w ++ [y0]) + t_left t' = attempts).
  { intros t' I'. destruct (T t' (drop_in _ _ _ I')) as (A1 & A2 & A3 & A4). rewrite Fo by (apply Ot, I'). auto. }
  assert (Gr : forall g, In g (w_gone w) -> tells w (t_fact g) (t_msg g) /\ count (failed (t_no g)) (w_log w ++ [y0]) = attempts /\
           (forall y, In y (w_log w ++ [y0]) -> y_task y = t_no g -> y_fact y = t_fact g) /\ t_no g < w_next w /\ t_no g <> t_no t /\ (forall t', In t' (drop_nth i (w_tasks w)) -> t_no t' <> t_no g)).
  { intros g Ig. destruct (G g Ig) as (G1 & G2 & G3 & G4 & G5). pose proof (G5 t It) as Ng. split; [exact G1|]. rewrite Fo by congruence. split; [exact G2|]. split.
    - intros y I Q. apply in_app_or in I as [I|[<-|[]]]; [apply G3; auto|]. cbn in Q. congruence.
    - split; [exact G4|]. split; [congruence|]. intros t' I'. apply G5. eapply drop_in; exact I'. }
  destruct (ok && a) eqn:Ok.
  - split; cbn [w_facts w_due w_tasks w_next w_log w_gone]; auto.
    + intros g Ig. destruct (Gr g Ig) as (G1 & G2 & G3 & G4 & _ & G5). auto.
    + intros y I. destruct (Lg y I) as (L1 & L2). split; [exact L1|]. split; [exact L2|]. intros t' I'. apply Lt; auto.
    + intros n g H. unfold open, over. cbn [w_due w_tasks w_log w_gone]. apply (Co n g H). rewrite andb_true_r. lia.
  - assert (Ft : count (failed (t_no t)) (w_log w ++ [y0]) = S (count (failed (t_no t)) (w_log w))).
    { rewrite count_app, count_cons. unfold failed at 2. cbn [y0 y_task y_done]. rewrite Nat.eqb_refl. change (count (failed (t_no t)) []) with 0. cbn. lia. }
    destruct (pred (t_left t)) as [|l'] eqn:Pl.
    + split; cbn [w_facts w_due w_tasks w_next w_log w_gone]; auto.
      * intros g Ig. apply in_app_or in Ig as [Ig|[<-|[]]].
        { destruct (Gr g Ig) as (G1 & G2 & G3 & G4 & _ & G5). auto. }
        cbn [t_no t_fact t_msg]. split; [exists f; auto|]. rewrite Ft. split; [lia|]. split; [intros y I Q; symmetry; apply Ls; auto|]. split; [exact T2|exact Ot].
      * intros y I. destruct (Lg y I) as (L1 & L2). split; [exact L1|]. split; [exact L2|]. intros t' I'. apply Lt; auto.
      * intros n g H. unfold open, over. cbn [w_due w_tasks w_log w_gone]. apply (Co n g H). rewrite count_app, count_cons. change (count (given_up n) []) with 0. unfold given_up at 2. cbn [t_fact]. rewrite andb_false_r. lia.
    + split; cbn [w_facts w_due w_tasks w_next w_log w_gone]; auto.
      * intros t' I'. apply in_app_or in I' as [I'|[<-|[]]]; [apply Tr, I'|]. cbn. split; [exists f; auto|]. split; [exact T2|]. split; [lia|]. rewrite Ft. lia.
      * rewrite map_app. eapply Permutation_NoDup; [apply Permutation_cons_append|]. cbn. constructor; [exact Nt|exact Nr].
      * intros g Ig. destruct (Gr g Ig) as (G1 & G2 & G3 & G4 & Gn & G5). split; [exact G1|]. split; [exact G2|]. split; [exact G3|]. split; [exact G4|].
        intros t' I'. apply in_app_or in I' as [I'|[<-|[]]]; [apply G5, I'|cbn; congruence].
      * intros y I. destruct (Lg y I) as (L1 & L2). split; [exact L1|]. split; [exact L2|]. intros t' I'. apply in_app_or in I' as [I'|[<-|[]]]; [apply Lt; auto|cbn; apply Ls; auto].
      * intros n g H. unfold open, over. cbn [w_due w_tasks w_log w_gone]. apply (Co n g H). rewrite count_app, count_cons. change (count (task_of n) []) with 0. unfold task_of at 2. cbn [t_fact]. rewrite andb_false_r. lia.
Qed.
Theorem inv_happen v e w : inv v w -> inv v (happen v e w).
Proof. destruct e; [apply inv_fact|apply inv_send|apply inv_drop|apply inv_try]. Qed.
Lemma play_snoc v es e w : play v (es ++ [e]) w = happen v e (play v es w).
Proof. unfold play. rewrite fold_left_app. reflexivity. Qed.
Lemma play_app v es es' w : play v (es ++ es') w = play v es' (play v es w).
Proof. unfold play. apply fold_left_app. Qed.
Theorem inv_play v es : inv v (play v es blank).
Proof. induction es as [|e es IH] using rev_ind; [apply inv_blank|]. rewrite play_snoc. apply inv_happen, IH. Qed.
