(** How many requests a hook gets. *)
From Coq Require Import List String Bool Arith ZArith Lia.
From Verif Require Import HookModel HookSpec HookBase HookInv.
Import ListNotations.
Local Open Scope string_scope.
Local Open Scope nat_scope.
Local Open Scope list_scope.

Local Arguments list_sum : simpl never.
Lemma sum_cons : forall (x : nat) l, list_sum (x :: l) = x + list_sum l.
Proof. reflexivity. Qed.
Lemma sum_nil : list_sum [] = 0.
Proof. reflexivity. Qed.
Lemma sum_set_nth : forall i l (n m : nat), nth_error l i = Some n -> list_sum (set_nth i m l) + n = list_sum l + m.
Proof.
  intro i. induction i as [| i IH]; intros [| x l] n m H; cbn in *; try discriminate.
  - injection H as ->. rewrite !sum_cons. lia.
  - specialize (IH l n m H). rewrite !sum_cons. lia.
Qed.
Lemma sum_app_one : forall l (n : nat), list_sum (l ++ [n]) = list_sum l + n.
Proof. intros l n. rewrite list_sum_app, sum_cons, sum_nil. lia. Qed.

Section Target.
  Variables (st txn id : string) (R : nat).

  Definition speaks (n : notice) : bool := String.eqb (n_stage n) st && String.eqb (n_txn n) txn.
  Definition hits (h : hook) (n : notice) : bool := String.eqb (h_id h) id && speaks n.

  (** At most so many calls of the kind looked for are queued. *)
  Fixpoint most (p : prog) (c : nat) : Prop :=
    match p with
    | Done _ => True
    | Get x k => forall s, (match s with Got h => h_id h = x | _ => True end) -> most (k s) c
    | Put _ _ k | Del _ k | Add _ _ k | Rem _ _ k => forall b, most (k b) c
    | Members _ k => forall o, roll o -> most (k o) c
    | Enqueue h n k => if hits h n then exists d, c = S d /\ forall b, most (k b) d else forall b, most (k b) c
    | Send _ _ k => forall r, most (k r) c
    end.
  (** At most so many requests are made. *)
  Fixpoint sends (p : prog) (c : nat) : Prop :=
    match p with
    | Done _ => True
    | Get x k => forall s, sends (k s) c
    | Put _ _ k | Del _ k | Add _ _ k | Rem _ _ k => forall b, sends (k b) c
    | Members _ k => forall o, sends (k o) c
    | Enqueue h n k => forall b, sends (k b) c
    | Send _ _ k => exists d, c = S d /\ forall r, sends (k r) d
    end.

  Lemma most_up : forall p c d, c <= d -> most p c -> most p d.
  Proof.
    intro p. induction p as [x | x k IH | x h k IH | x k IH | s x k IH | s x k IH | s k IH | h n k IH | h n k IH];
      intros c d L H; cbn in *; auto; try (intros; eapply IH; [exact L | auto]; fail).
    destruct (hits h n).
    - destruct H as (c' & -> & H). destruct d as [| d]; [lia |]. exists d. split; [reflexivity |].
      intro b. apply (IH b c' d); [lia | auto].
    - intro b. exact (IH b c d L (H b)).
  Qed.

  Lemma gather_most : forall ids acc k c, NoDup ids -> NoDup (map h_id acc) ->
    (forall h, In h acc -> ~ In (h_id h) ids) ->
    (forall l, NoDup (map h_id l) -> most (k l) c) -> most (gather ids acc k) c.
  Proof.
    intro ids. induction ids as [| x ids IH]; intros acc k c Hi Ha Hd Hk; cbn; auto.
    inversion Hi as [| y l n Hi']; subst.
    assert (forall h, In h acc -> ~ In (h_id h) ids) as Hd' by (intros h i j; apply (Hd h i); right; exact j).
    intros [| | h] Hs; try (apply IH; auto; fail). apply IH; auto.
    - rewrite map_app. apply nodup_app; auto; [constructor; [intros [] | constructor] |].
      cbn. intros y i [<- | []]. apply in_map_iff in i. destruct i as (g & e & i).
      apply (Hd g i). left. congruence.
    - intros g i. apply in_app_or in i. destruct i as [i | [<- | []]]; auto. congruence.
  Qed.

  Lemma listing_most : forall t k c, most (k None) c ->
    (forall l, NoDup (map h_id l) -> most (k (Some l)) c) -> most (listing t k) c.
  Proof.
    intros t k c Hn Hk. unfold listing. destruct (String.eqb t ""); cbn.
    - intros [a |] Ha; cbn; auto. intros [b |] Hb; auto. apply gather_most; auto; try (constructor; fail).
      apply nodup_app; auto; [apply nodup_filter; exact Hb |].
      intros x i j. apply filter_In in j. destruct j as (_ & j). apply negb_true_iff, mem_not in j. contradiction.
    - intros [a |] Ha; cbn; auto. apply gather_most; auto. constructor.
  Qed.

  Lemma queue_all_none : forall hs n k c, ~ In id (map h_id hs) \/ speaks n = false -> most k c -> most (queue_all hs n k) c.
  Proof.
    intros hs n k c. induction hs as [| h hs IH]; intros H Hk; cbn; auto.
    assert (most (queue_all hs n k) c) as G by (apply IH; [destruct H as [H | H]; [left; intro K; apply H; right; exact K | auto] | exact Hk]).
    destruct (h_active h); [| exact G]. cbn.
    assert (hits h n = false) as ->; [| auto].
    unfold hits. destruct H as [H | H]; [| rewrite H; apply andb_false_r].
    destruct (String.eqb_spec (h_id h) id) as [e | e]; [| reflexivity]. exfalso. apply H. left. exact e.
  Qed.
  Lemma queue_all_most : forall hs n k c, NoDup (map h_id hs) -> most k c ->
    most (queue_all hs n k) ((if speaks n then 1 else 0) + c).
  Proof.
    intros hs n k c H Hk. destruct (speaks n) eqn:e; [| apply queue_all_none; auto].
    induction hs as [| h hs IH]; cbn; [apply (most_up k c); [lia | exact Hk] |].
    inversion H as [| x l N H']; subst.
    destruct (h_active h); [| exact (IH H')]. cbn [most]. unfold hits. rewrite e, andb_true_r.
    destruct (String.eqb_spec (h_id h) id) as [e' | e'].
    - exists c. split; [reflexivity |]. intros _. apply queue_all_none; [left; congruence | exact Hk].
    - intros _. exact (IH H').
  Qed.
  Lemma queue_each_most : forall hs ns, NoDup (map h_id hs) ->
    most (queue_each hs ns (Done AOk)) (List.length (filter speaks ns)).
  Proof.
    intros hs ns H. induction ns as [| n ns IH]; cbn; auto.
    apply (most_up _ ((if speaks n then 1 else 0) + List.length (filter speaks ns))); [destruct (speaks n); cbn; lia |].
    apply queue_all_most; assumption.
  Qed.

  Lemma spoken : forall t ts, List.length (filter speaks (map (fun x => {| n_txn := fst x; n_stage := t; n_data := snd x |}) ts))
    = if String.eqb t st then List.length (filter (fun x : string * string => String.eqb (fst x) txn) ts) else 0.
  Proof.
    intros t ts. induction ts as [| x ts IH]; cbn; [destruct (String.eqb t st); reflexivity |].
    unfold speaks at 1. cbn [n_txn n_stage]. destruct (String.eqb t st); cbn [andb]; [| exact IH].
    destruct (String.eqb (fst x) txn); cbn; rewrite IH; reflexivity.
  Qed.

  Lemma start_most : forall q, most (start q) (rounds st txn (EStart q)).
  Proof.
    intro q. destruct q; cbn [start rounds].
    - unfold register. destruct (settle _); cbn; auto. intros []; cbn; auto.
    - unfold update. cbn. intros [| | old] _; cbn; auto. destruct (String.eqb _ _); cbn; auto.
      intros []; cbn; auto. intros []; cbn; auto.
    - unfold delete. cbn. intros [| | h] _; cbn; auto.
    - unfold show. cbn. intros [| | h] _; cbn; auto.
    - apply listing_most; cbn; auto.
    - unfold stage. apply listing_most; [exact Logic.I |]. intros l Hl. cbv zeta.
      rewrite (String.eqb_sym st). rewrite <- spoken. apply queue_each_most. exact Hl.
    - unfold stage. apply listing_most; [exact Logic.I |]. intros l Hl. cbv zeta.
      rewrite (String.eqb_sym st). rewrite <- spoken. apply queue_each_most. exact Hl.
  Qed.
  Lemma attempt_most : forall now h n, most (attempt now h n) 0.
  Proof. intros now h n. unfold attempt. destruct (_ <=? _)%Z; cbn; auto. Qed.
  Lemma attempt_sends : forall now h n, sends (attempt now h n) 1.
  Proof. intros now h n. unfold attempt. destruct (_ <=? _)%Z; cbn; auto. exists 0. auto. Qed.

  Definition waiting (x : task * nat) : nat := if about st txn id (fst x) then snd x else 0.
  Definition pending (w : world) : nat := list_sum (map waiting (w_queue w)).

  Definition worth (j : job) (p : prog) (n : nat) : Prop :=
    match j with
    | JCall _ => exists c, most p c /\ c * S R <= n
    | JTry t m => most p 0 /\ (about st txn id t = true -> exists c, sends p c /\ c + m <= n)
    | JOver => is_done p
    end.

  Definition counted (es : list event) (w : world) : Prop :=
    exists ps, List.length ps = List.length (w_runs w)
      /\ (forall i j p, nth_error (w_runs w) i = Some (j, p) -> exists n, nth_error ps i = Some n /\ worth j p n)
      /\ requests st txn id w + pending w + list_sum ps <= all_rounds st txn es * S R.

  Definition bounded (es : list event) : Prop := forall q r, In (EStart q) es -> asks_retries q id r -> r <= R.

  Lemma all_rounds_more : forall es e, all_rounds st txn (es ++ [e]) = all_rounds st txn es + rounds st txn e.
  Proof. intros es e. unfold all_rounds. rewrite map_app. cbn. apply sum_app_one. Qed.

  Lemma sum_drop_nth : forall l i x, nth_error l i = Some x ->
    list_sum (map waiting (drop_nth i l)) + waiting x = list_sum (map waiting l).
  Proof.
    intro l. induction l as [| y l IH]; intros [| i] x H; cbn in *; try discriminate.
    - injection H as ->. rewrite sum_cons. lia.
    - specialize (IH i x H). rewrite !sum_cons. lia.
  Qed.

  Lemma worth_replace : forall (ps : list nat) runs i n m j p p',
    nth_error ps i = Some n -> nth_error runs i = Some (j, p) -> List.length ps = List.length runs ->
    (forall i j p, nth_error runs i = Some (j, p) -> exists n, nth_error ps i = Some n /\ worth j p n) ->
    forall j', worth j' p' m ->
    List.length (set_nth i m ps) = List.length (set_nth i (j', p') runs)
    /\ (forall x j p, nth_error (set_nth i (j', p') runs) x = Some (j, p) ->
          exists n, nth_error (set_nth i m ps) x = Some n /\ worth j p n)
    /\ list_sum (set_nth i m ps) + n = list_sum ps + m.
  Proof.
    intros ps runs i n m j p p' Hn Hr L H j' W. split; [rewrite !length_set_nth; exact L |].
    split; [| apply sum_set_nth; exact Hn].
    intros x jx px K. apply nth_set_nth_in in K. destruct K as [(<- & K) | (ne & K)].
    - injection K as -> ->. exists m. split; [| exact W]. rewrite nth_set_nth, Nat.eqb_refl, Hn. reflexivity.
    - destruct (H x jx px K) as (y & a & b). exists y. split; [| exact b]. rewrite nth_set_nth.
      apply Nat.eqb_neq in ne. rewrite ne. exact a.
  Qed.

  Lemma happen_counted : forall es e w, w = play es blank -> bounded (es ++ [e]) -> counted es w -> counted (es ++ [e]) (happen e w).
  Proof.
    intros es e w Ew B (ps & L & H & T). pose proof (play_fine es) as F. rewrite <- Ew in F.
    unfold counted. rewrite all_rounds_more.
    destruct e as [q | i now | i o order r | i]; cbn [happen].
    - exists (ps ++ [rounds st txn (EStart q) * S R]). split; [cbn; rewrite !app_length, L; reflexivity |].
      split.
      + intros x j p K. cbn in K. apply nth_app_new in K. destruct K as [K | (-> & K)].
        * destruct (H x j p K) as (n & a & b). exists n. split; [| exact b].
          rewrite nth_error_app1; [exact a |]. apply nth_error_Some. congruence.
        * injection K as -> ->. exists (rounds st txn (EStart q) * S R). split.
          -- rewrite <- L. rewrite nth_error_app2, Nat.sub_diag by lia. reflexivity.
          -- exists (rounds st txn (EStart q)). split; [apply start_most | lia].
      + change (requests st txn id (with_runs w (w_runs w ++ [(JCall q, start q)]))) with (requests st txn id w).
        change (pending (with_runs w (w_runs w ++ [(JCall q, start q)]))) with (pending w).
        rewrite sum_app_one. lia.
    - cbn [rounds]. rewrite Nat.add_0_r.
      destruct (nth_error (w_queue w) i) as [(t, [| m]) |] eqn:e; try (exists ps; auto; fail).
      pose proof (sum_drop_nth _ _ _ e) as D.
      exists (ps ++ [waiting (t, S m)]). split; [cbn; rewrite !app_length, L; reflexivity |]. split.
      + intros x j p K. cbn in K. apply nth_app_new in K. destruct K as [K | (-> & K)].
        * destruct (H x j p K) as (n & a & b). exists n. split; [| exact b].
          rewrite nth_error_app1; [exact a |]. apply nth_error_Some. congruence.
        * injection K as -> ->. exists (waiting (t, S m)). split.
          -- rewrite <- L. rewrite nth_error_app2, Nat.sub_diag by lia. reflexivity.
          -- split; [apply attempt_most |]. intro A. unfold waiting. cbn [fst snd]. rewrite A.
             exists 1. split; [apply attempt_sends | lia].
      + unfold pending in *. cbn [w_queue with_runs with_queue]. rewrite sum_app_one.
        change (requests st txn id (with_runs (with_queue w (drop_nth i (w_queue w)))
          (w_runs w ++ [(JTry t m, attempt now (t_hook t) (t_notice t))]))) with (requests st txn id w). lia.
    - cbn [rounds]. rewrite Nat.add_0_r.
      destruct (nth_error (w_runs w) i) as [(j, p) |] eqn:e; [| exists ps; auto].
      destruct (H i j p e) as (n & Hn & W).
      destruct (f_runs _ _ F i j p e) as (So & _).
      assert (sound es p) as So0 by (apply So, incl_refl).
      destruct (command i j o order r p w) as (w', p') eqn:C.
      assert (forall m, worth j p' m -> requests st txn id w' + pending w' + m <= requests st txn id w + pending w + n ->
        exists ps0, List.length ps0 = List.length (set_nth i (j, p') (w_runs w'))
          /\ (forall i0 j0 p0, nth_error (set_nth i (j, p') (w_runs w')) i0 = Some (j0, p0) -> exists n0, nth_error ps0 i0 = Some n0 /\ worth j0 p0 n0)
          /\ requests st txn id w' + pending w' + list_sum ps0 <= all_rounds st txn es * S R) as Fin.
      { intros m Wm Le. rewrite (command_runs _ _ _ _ _ _ _ _ _ C).
        destruct (worth_replace ps (w_runs w) i n m j p p' Hn e L H j Wm) as (a & b & c).
        exists (set_nth i m ps). split; [exact a |]. split; [exact b |]. lia. }
      change (exists ps0, List.length ps0 = List.length (set_nth i (j, p') (w_runs w'))
          /\ (forall i0 j0 p0, nth_error (set_nth i (j, p') (w_runs w')) i0 = Some (j0, p0) -> exists n0, nth_error ps0 i0 = Some n0 /\ worth j0 p0 n0)
          /\ requests st txn id w' + pending w' + list_sum ps0 <= all_rounds st txn es * S R).
      destruct p as [x | x k | x h k | x k | s x k | s x k | s k | h nt k | h nt k]; cbn in C; injection C as <- <-.
      + apply (Fin n); [exact W | lia].
      + apply (Fin n); [| lia]. destruct j as [q | t m |].
        * destruct W as (c & a & b). exists c. split; [| exact b]. apply a.
          destruct (told o); auto. destruct (w_hooks w x) as [h |] eqn:eh; auto. exact (proj1 (f_hooks _ _ F x h eh)).
        * destruct W as (a & b). split.
          -- apply a. destruct (told o); auto. destruct (w_hooks w x) as [h |] eqn:eh; auto. exact (proj1 (f_hooks _ _ F x h eh)).
          -- intro A. destruct (b A) as (c & d & f). exists c. split; [apply d | exact f].
        * destruct W as (a & K). discriminate.
      + apply (Fin n).
        * destruct j as [q | t m |].
          -- destruct W as (c & a & b). exists c. split; [apply a | exact b].
          -- destruct W as (a & b). split; [apply a |]. intro A. destruct (b A) as (c & d & f). exists c. split; [apply d | exact f].
          -- destruct W as (a & K). discriminate.
        * destruct (took o); reflexivity.
      + apply (Fin n).
        * destruct j as [q | t m |].
          -- destruct W as (c & a & b). exists c. split; [apply a | exact b].
          -- destruct W as (a & b). split; [apply a |]. intro A. destruct (b A) as (c & d & f). exists c. split; [apply d | exact f].
          -- destruct W as (a & K). discriminate.
        * destruct (took o); reflexivity.
      + apply (Fin n).
        * destruct j as [q | t m |].
          -- destruct W as (c & a & b). exists c. split; [apply a | exact b].
          -- destruct W as (a & b). split; [apply a |]. intro A. destruct (b A) as (c & d & f). exists c. split; [apply d | exact f].
          -- destruct W as (a & K). discriminate.
        * destruct (took o); reflexivity.
      + apply (Fin n).
        * destruct j as [q | t m |].
          -- destruct W as (c & a & b). exists c. split; [apply a | exact b].
          -- destruct W as (a & b). split; [apply a |]. intro A. destruct (b A) as (c & d & f). exists c. split; [apply d | exact f].
          -- destruct W as (a & K). discriminate.
        * destruct (took o); reflexivity.
      + assert (roll (if told o then Some (arrange order (w_sets w s)) else None)) as Ro
          by (destruct (told o); [apply nodup_arrange, (f_sets _ _ F) | exact Logic.I]).
        apply (Fin n); [| lia]. destruct j as [q | t m |].
        * destruct W as (c & a & b). exists c. split; [apply a, Ro | exact b].
        * destruct W as (a & b). split; [apply a, Ro |]. intro A. destruct (b A) as (c & d & f). exists c. split; [apply d | exact f].
        * destruct W as (a & K). discriminate.
      + destruct So0 as ((Fh & Ah & _) & _).
        assert (forall b, b = true \/ b = false) as _ by (intros []; auto).
        set (w2 := if took o then queued i h nt w else w) in *.
        assert (requests st txn id w2 = requests st txn id w) as Rq by (unfold w2; destruct (took o); reflexivity).
        assert (pending w2 <= pending w + (if hits h nt then S R else 0)) as Pd.
        { unfold w2. destruct (took o); [| lia]. unfold pending. cbn [queued w_queue].
          rewrite map_app, list_sum_app. cbn [map]. rewrite sum_cons, sum_nil. unfold waiting at 2. cbn [fst snd].
          change (about st txn id {| t_no := w_next w; t_hook := h; t_notice := nt |}) with (hits h nt).
          destruct (hits h nt) eqn:Hh; [| lia].
          unfold hits in Hh. apply andb_true_iff in Hh. destruct Hh as (Hh & _). apply String.eqb_eq in Hh.
          destruct Fh as (q & b & iq & _ & _ & _ & _ & As). rewrite Hh in As.
          assert (Z.to_nat (h_retry h) <= R) by (apply (B q); [apply in_or_app; auto | exact As]).
          lia. }
        destruct j as [q | t m |].
        * destruct W as (c & a & b). cbn in a. destruct (hits h nt).
          -- destruct a as (d & -> & a). apply (Fin (d * S R)).
             ++ exists d. split; [apply a | lia].
             ++ rewrite Rq. cbn in b. lia.
          -- apply (Fin n); [exists c; split; [apply a | exact b] | rewrite Rq; lia].
        * destruct W as (a & b). cbn in a. destruct (hits h nt); [destruct a as (d & K & _); discriminate |].
          apply (Fin n); [| rewrite Rq; lia]. split; [apply a |].
          intro A. destruct (b A) as (c & d & f). exists c. split; [apply d | exact f].
        * destruct W as (a & K). discriminate.
      + destruct j as [q | t m |].
        * apply (Fin n); [| lia]. destruct W as (c & a & b). exists c. split; [apply a | exact b].
        * destruct W as (a & b). destruct (about st txn id t) eqn:A.
          -- destruct (b eq_refl) as (c & (d & -> & f) & g).
             apply (Fin (n - 1)).
             ++ split; [apply a |]. intros _. exists d. split; [apply f | lia].
             ++ assert (requests st txn id (if took o then sent t w else w) <= requests st txn id w + 1).
                { destruct (took o); [| lia]. unfold requests. cbn [sent w_sent]. rewrite filter_app, app_length.
                  cbn. rewrite A. cbn. lia. }
                assert (pending (if took o then sent t w else w) = pending w) by (destruct (took o); reflexivity). lia.
          -- apply (Fin n).
             ++ split; [apply a |]. intro K. congruence.
             ++ assert (requests st txn id (if took o then sent t w else w) = requests st txn id w) as ->.
                { destruct (took o); [| reflexivity]. unfold requests. cbn [sent w_sent]. rewrite filter_app, app_length.
                  cbn. rewrite A. cbn. lia. }
                assert (pending (if took o then sent t w else w) = pending w) by (destruct (took o); reflexivity). lia.
        * destruct W as (a & K). discriminate.
    - cbn [rounds]. rewrite Nat.add_0_r.
      destruct (nth_error (w_runs w) i) as [(j, p) |] eqn:e; [| exists ps; auto].
      destruct (H i j p e) as (n & Hn & W).
      destruct (worth_replace ps (w_runs w) i n 0 j p (Done AErr) Hn e L H JOver (ex_intro _ AErr eq_refl)) as (a & b & c).
      set (w1 := with_runs w (set_nth i (JOver, Done AErr) (w_runs w))).
      assert (exists ps0, List.length ps0 = List.length (w_runs w1)
        /\ (forall i0 j0 p0, nth_error (w_runs w1) i0 = Some (j0, p0) -> exists n0, nth_error ps0 i0 = Some n0 /\ worth j0 p0 n0)
        /\ requests st txn id w1 + pending w1 + list_sum ps0 <= all_rounds st txn es * S R) as G.
      { exists (set_nth i 0 ps). split; [exact a |]. split; [exact b |].
        change (requests st txn id w1) with (requests st txn id w). change (pending w1) with (pending w). lia. }
      destruct j as [q | t [| m] |]; auto.
      assert (exists ps0, List.length ps0 = List.length (w_runs w1)
        /\ (forall i0 j0 p0, nth_error (w_runs w1) i0 = Some (j0, p0) -> exists n0, nth_error ps0 i0 = Some n0 /\ worth j0 p0 n0)
        /\ requests st txn id w1 + pending (with_queue w1 (w_queue w ++ [(t, S m)])) + list_sum ps0 <= all_rounds st txn es * S R) as G2.
      { exists (set_nth i 0 ps). split; [exact a |]. split; [exact b |].
        change (requests st txn id w1) with (requests st txn id w). unfold pending in *. cbn [with_queue w_queue].
        rewrite map_app, list_sum_app. cbn [map]. rewrite sum_cons, sum_nil. unfold waiting at 2. cbn [fst snd].
        destruct W as (_ & W). destruct (about st txn id t).
        - destruct (W eq_refl) as (d & _ & Le). lia.
        - lia. }
      destruct p as [[] | | | | | | | |]; auto.
  Qed.

  Theorem calls_bounded : forall es, bounded es -> requests st txn id (play es blank) <= all_rounds st txn es * S R.
  Proof.
    intros es B.
    assert (bounded es -> counted es (play es blank)) as G.
    { apply (play_ind (fun es w => bounded es -> counted es w)).
      - intros _. exists []. cbn. split; [reflexivity |]. split; [intros [| i] j p K; discriminate |]. vm_compute. constructor.
      - intros es' e w Ew IH B'. apply happen_counted; auto. apply IH. intros q r i. apply B'. apply in_or_app; auto. }
    destruct (G B) as (ps & _ & _ & T). lia.
  Qed.
End Target.

Theorem calls_eleven : forall st txn id es, (forall b, ~ In (EStart (RUpdate id b)) es) ->
  requests st txn id (play es blank) <= all_rounds st txn es * 11.
Proof.
  intros st txn id es U. apply (calls_bounded st txn id 10). intros q r i (b & [(_ & ->) | (-> & _)]).
  - unfold retries. destruct (h_retry b <? 0)%Z; [lia | apply Nat.le_min_l].
  - exfalso. exact (U b i).
Qed.
