(** The invariant holds, and what a step does. *)
From Coq Require Import List String Ascii Bool Arith Lia.
From Verif Require Import BodyModel BodyThms TokenModel TokenSpec TokenCode TokenInv.
Import ListNotations.
Local Open Scope string_scope.
Local Open Scope nat_scope.

Section Steps.
Variable k : secret.

Inductive effect : request -> (string -> option row) -> (string -> option row) -> Prop :=
| e_none q rows : effect q rows rows
| e_tok id l f n r rows : rows id = Some r -> In (f, n) l -> marked r f = false -> k_len k = 32 -> String.length n = 12 ->
    In (cap f) tokenizable ->
    effect (RTokenize id l) rows (set_row id (Some (apply (token_patch k r f n) r)) rows)
| e_meta id m r rows : rows id = Some r -> ~ In TF (map fst m) ->
    effect (RMeta id m) rows (set_row id (Some (apply {| p_text := fun _ => ""; p_meta := Some (merge (i_meta r) m) |} r)) rows)
| e_put id t m r rows : rows id = Some r -> (forall f, In f tokenizable -> colonless (t f)) ->
    (forall f, In f tokenizable -> marked r f = true -> t f = "") ->
    (forall m', m = Some m' -> get TF m' = None /\ forall f, marked r f = false) ->
    effect (RPut id t m) rows (set_row id (Some (apply {| p_text := t; p_meta := m |} r)) rows)
| e_create id t m rows : rows id = None -> (forall f, In f tokenizable -> colonless (t f)) -> get TF m = None ->
    effect (RCreate id t m) rows (set_row id (Some {| i_text := t; i_meta := m |}) rows)
| e_delete id rows : effect (RDelete id) rows (set_row id None rows).

Lemma set_same id r rows : set_row id r rows id = r.
Proof. unfold set_row. now rewrite String.eqb_refl. Qed.
Lemma set_other id r rows x : x <> id -> set_row id r rows x = rows x.
Proof. unfold set_row. intros N. now rewrite (proj2 (String.eqb_neq x id) N). Qed.

Lemma create_ok t m : (forall f, In f tokenizable -> colonless (t f)) -> get TF m = None -> row_ok k {| i_text := t; i_meta := m |}.
Proof.
  intros C E. split; [now left|]. intros f I. unfold field_ok, marked. cbn [i_meta]. rewrite E. now apply C.
Qed.

Lemma effect_rows q rows rows' : effect q rows rows' -> (forall id r, rows id = Some r -> row_ok k r) ->
  forall id r, rows' id = Some r -> row_ok k r.
Proof.
  intros E H x r0 D. destruct E; [eauto|..];
    (destruct (String.eqb_spec x id) as [->|N]; [rewrite set_same in D|rewrite set_other in D by exact N; eauto]).
  - injection D as <-. apply row_token; eauto.
  - injection D as <-. apply row_meta; eauto.
  - injection D as <-. apply row_put; eauto.
  - injection D as <-. now apply create_ok.
  - discriminate.
Qed.

Lemma tokenize_all_cons id f n l : tokenize_all k id ((f, n) :: l) = tokenize k id f n (rest_of k id l).
Proof. reflexivity. Qed.

Lemma update_store id r f n c : update id (token_patch k r f n) c = Store id (token_patch k r f n) true c.
Proof. unfold update. cbn [p_meta token_patch]. now rewrite andb_false_r. Qed.

(** From the start of a list of fields to its first call. *)
Lemma tok1_shape rows id l0 l : Forall (fun x => String.length (snd x) = 12) (l0 ++ l) ->
  l0 = [] \/ (exists r, rows id = Some r /\ k_len k = 32 /\ forall f n, In (f, n) l0 -> marked r f = true) ->
  is_done (tokenize_all k id l) \/ exists f n l', l = (f, n) :: l' /\ In (cap f) tokenizable
    /\ exists c, tokenize_all k id l = Load id c /\ forall x, c x = match x with
         | Got r => if marked r f || negb (k_len k =? 32) then Done AErr else Store id (token_patch k r f n) true (rest_of k id l')
         | _ => Done AErr end.
Proof.
  intros H D. destruct l as [|[f n] l]; [left; eexists; reflexivity|]. rewrite tokenize_all_cons. unfold tokenize.
  destruct (among (cap f) tokenizable) eqn:A; cbn [negb]; [|left; eexists; reflexivity].
  right. exists f, n, l. split; [reflexivity|]. split; [now apply among_iff|].
  eexists. split; [reflexivity|]. intros [| |r]; try reflexivity. destruct (marked r f || negb (k_len k =? 32)); [reflexivity|].
  apply update_store.
Qed.

Lemma reveal_all_quiet id l : forall acc, quiet (reveal_all k id l acc).
Proof.
  induction l as [|f l IH]; intros acc; cbn; [exact Logic.I|]. intros [| |r]; cbn; auto. destruct (reveal k r f); cbn; auto.
Qed.

Lemma call_ok rows q p o rows' p' : job_ok k rows q p -> (forall id r, rows id = Some r -> row_ok k r) ->
  call o p rows = (rows', p') ->
  job_ok k rows' q p' /\ effect q rows rows' /\ (is_done p -> rows' = rows /\ is_done p').
Proof.
  intros J R C. destruct J.
  - injection C as <- <-. split; [apply j_done|]. split; [constructor|]. intros _. split; [reflexivity|now exists a].
  - destruct p; cbn in H0; try contradiction; injection C as <- <-.
    + split; [apply j_done|]. split; [constructor|]. intros _. split; [reflexivity|now exists a].
    + split; [now apply j_quiet|]. split; [constructor|]. intros (a & E). discriminate.
  - cbn [call] in C. destruct (rows id) eqn:E; injection C as <- <-.
    + split; [apply j_done|]. split; [constructor|]. intros (a & X). discriminate.
    + split; [apply j_done|]. split; [|intros (a & X); discriminate]. destruct (took o); [now apply e_create|constructor].
  - cbn [call] in C. destruct (rows id) as [r|] eqn:E; injection C as <- <-.
    + split; [apply j_done|]. split; [|intros (a & X); discriminate]. destruct (took o); [|constructor].
      apply e_put; eauto. intros m' X. destruct (H1 m' X). split; eauto.
    + split; [apply j_done|]. split; [constructor|]. intros (a & X). discriminate.
  - cbn [call] in C. destruct (rows id) as [r|] eqn:E; injection C as <- <-.
    + split; [apply j_done|]. split; [|intros (a & X); discriminate]. destruct (took o); [apply e_delete|constructor].
    + split; [apply j_done|]. split; [constructor|]. intros (a & X). discriminate.
  - cbn [start] in C |- *. destruct (prefix "idt_" id) eqn:E.
    + cbn [call] in C. injection C as <- <-. split; [|split; [constructor|intros (a & X); discriminate]].
      destruct o; [|apply j_done|apply j_done]. destruct (rows id) eqn:X; [|apply j_done]. now apply j_meta2.
    + injection C as <- <-. split; [apply j_done|]. split; [constructor|]. intros _. split; [reflexivity|now exists AErr].
  - cbn [call] in C. rewrite H0 in C. injection C as <- <-. split; [apply j_done|].
    split; [|intros (a & X); discriminate]. destruct (took o); [now apply e_meta|constructor].
  - destruct (tok1_shape rows id l0 l H H0) as [(a & E)|(f & n & l' & -> & I & c & E & Ec)]; rewrite E in *.
    + injection C as <- <-. split; [apply j_done|]. split; [constructor|]. intros _. split; [reflexivity|now exists a].
    + cbn [call] in C. injection C as <- <-. rewrite Ec. split; [|split; [constructor|intros (a & X); discriminate]].
      destruct o; [|apply j_done|apply j_done]. cbn. destruct (rows id) as [r|] eqn:X; [|apply j_done].
      destruct (marked r f) eqn:M; cbn [orb]; [apply j_done|]. destruct (k_len k =? 32) eqn:K; cbn [negb]; [|apply j_done].
      apply Nat.eqb_eq in K. apply j_tok2; auto. intros f' n' J. destruct H0 as [->|(r' & A & _ & B)]; [destruct J|].
      assert (r = r') by congruence. subst r'. eauto.
  - cbn [call] in C. rewrite H1 in C. injection C as <- <-. split; [|split; [|intros (a & X); discriminate]].
    + unfold rest_of. destruct o; cbn [took told]; [|apply j_done|apply j_done].
      replace (l0 ++ (f, n) :: l)%list with ((l0 ++ [(f, n)]) ++ l)%list in * by (rewrite <- app_assoc; reflexivity).
      apply j_tok1; [exact H|]. right. eexists. split; [apply set_same|]. split; [assumption|]. intros f' n' J.
      destruct (R id r H1) as [M F].
      pose proof (marked_mark r f (cap f') (i_text (apply (token_patch k r f n) r)) M H4) as Q.
      change {| i_text := i_text (apply (token_patch k r f n) r); i_meta := mark r f |} with (apply (token_patch k r f n) r) in Q.
      assert (M' : marks_ok (i_meta (apply (token_patch k r f n) r))) by (cbn [i_meta apply token_patch p_meta]; now apply mark_ok).
      rewrite (marked_cap _ f' M'). apply in_app_or in J as [J|[J|[]]].
      * rewrite Q; [|apply (marked_tokenizable r f' M); eauto]. rewrite <- (marked_cap r f' M), (H0 _ _ J). apply orb_true_r.
      * injection J as -> ->. rewrite Q by exact H4. now rewrite String.eqb_refl.
    + destruct (took o); [|constructor]. apply e_tok; auto.
      * apply in_or_app. right. now left.
      * rewrite Forall_forall in H. apply (H (f, n)). apply in_or_app. right. now left.
Qed.

(** ** Jobs *)

Lemma nth_set_same {A} i (x : A) : forall l y, nth_error l i = Some y -> nth_error (set_nth i x l) i = Some x.
Proof. induction i as [|i IH]; intros [|a l] y H; cbn in *; try discriminate; eauto. Qed.
Lemma nth_set_other {A} i (x : A) : forall l j, i <> j -> nth_error (set_nth i x l) j = nth_error l j.
Proof. induction i as [|i IH]; intros [|a l] [|j] H; cbn; auto; try congruence. Qed.

Lemma effect_frame q rows rows' id : effect q rows rows' -> writes q <> Some id ->
  (forall t m, q <> RCreate id t m) -> rows' id = rows id.
Proof.
  intros E N C. destruct E; cbn in N; try reflexivity; rewrite set_other; try reflexivity; try congruence.
  intros ->. apply (C t m). reflexivity.
Qed.

Lemma start_ok y q : inv k y -> fits (EStart q) -> (forall x, keeps x (EStart q) y) -> job_ok k (y_rows y) q (start k q).
Proof.
  intros Y F P. destruct q; cbn [start] in *.
  - destruct (prefix "idt_" id); [|apply j_done]. apply j_create; [apply (P NoColon)|].
    apply not_in_get. apply (P MarksAlone).
  - apply j_quiet; [reflexivity|]. cbn. auto.
  - unfold update. destruct (_ && _); [apply j_done|]. apply j_put; [apply (P NoColon)| |].
    + exact (P NoOverwrite).
    + intros m' ->. destruct (P MarksAlone) as [A B]. split; [now apply not_in_get|exact B].
  - apply j_delete.
  - apply j_meta1. apply (P MarksAlone).
  - destruct l as [|x l]; [apply j_done|]. apply (j_tok1 k (y_rows y) id [] (x :: l)); [exact F|now left].
  - apply j_quiet; [reflexivity|]. cbn. auto.
  - apply j_quiet; [reflexivity|]. destruct l; [|apply reveal_all_quiet]. cbn. intros [| |r]; try exact Logic.I. apply reveal_all_quiet.
  - apply j_quiet; [reflexivity|]. cbn. auto.
Qed.

Lemma happen_inv y e : inv k y -> fits e -> (forall x, keeps x e y) -> inv k (happen k e y).
Proof.
  intros Y F P. pose proof Y as (R & J & W). destruct e as [q|i o]; cbn [happen].
  - split; [exact R|]. cbn [y_rows y_jobs]. split.
    + intros i q' p H. destruct (Nat.lt_ge_cases i (List.length (y_jobs y))) as [L|L].
      * rewrite nth_error_app1 in H by exact L. eauto.
      * rewrite nth_error_app2 in H by exact L. destruct (i - List.length (y_jobs y)) as [|d] eqn:E; [|destruct d; discriminate].
        injection H as <- <-. now apply start_ok.
    + assert (Z0 : forall i j q1 p1 q2 p2 id, nth_error (y_jobs y ++ [(q, start k q)])%list i = Some (q1, p1) ->
        nth_error (y_jobs y ++ [(q, start k q)])%list j = Some (q2, p2) -> i < j -> writes q1 = Some id -> writes q2 = Some id -> is_done p1 \/ is_done p2).
      { intros i j q1 p1 q2 p2 id H1 H2 L W1 W2. assert (L2 : j < List.length (y_jobs y ++ [(q, start k q)])%list) by (apply nth_error_Some; congruence).
        rewrite app_length in L2. cbn in L2. rewrite nth_error_app1 in H1 by lia.
        destruct (Nat.lt_ge_cases j (List.length (y_jobs y))) as [L'|L'].
        - rewrite nth_error_app1 in H2 by exact L'. apply (W i j q1 p1 q2 p2 id); auto. lia.
        - rewrite nth_error_app2 in H2 by exact L'. replace (j - List.length (y_jobs y)) with 0 in H2 by lia. injection H2 as <- <-.
          left. apply (P OneAtATime id q1 p1 W2); [|exact W1]. eapply nth_error_In; eauto. }
      intros i j q1 p1 q2 p2 id N H1 H2 W1 W2. destruct (Nat.lt_gt_cases i j) as [X _]. destruct (X N) as [L|L]; [eauto|].
      destruct (Z0 j i q2 p2 q1 p1 id H2 H1 L W2 W1); auto.
  - destruct (nth_error (y_jobs y) i) as [[q p]|] eqn:E; [|exact Y].
    destruct (call o p (y_rows y)) as [rows' p'] eqn:C.
    destruct (call_ok _ _ _ _ _ _ (J _ _ _ E) R C) as (J' & Ef & D). split; [|split]; cbn [y_rows y_jobs].
    + exact (effect_rows _ _ _ Ef R).
    + intros j q' p0 H. destruct (Nat.eq_dec i j) as [<-|N].
      * rewrite (nth_set_same i (q, p') _ _ E) in H. injection H as <- <-. exact J'.
      * rewrite nth_set_other in H by exact N. pose proof (J _ _ _ H) as J0.
        destruct (writes q') as [id|] eqn:Wq; [|apply (job_frame k _ _ _ _ J0); congruence].
        destruct (writes q) as [id'|] eqn:Wi.
        -- destruct (string_dec id' id) as [->|Ne].
           ++ destruct (W _ _ _ _ _ _ _ N E H Wi Wq) as [X|X].
              ** destruct (D X) as [-> _]. exact J0.
              ** destruct X as [a ->]. apply j_done.
           ++ apply (job_frame k _ _ _ _ J0). intros id0 X. assert (id0 = id) by congruence. subst id0.
              apply (effect_frame _ _ _ _ Ef); [congruence|]. intros t m ->. discriminate.
        -- inversion Ef; subst; cbn in Wi; try discriminate; [exact J0|].
           destruct (string_dec id0 id) as [->|Ne];
             [|apply (job_frame k _ _ _ _ J0); intros x X; rewrite set_other; congruence].
           inversion J0; subst; try (apply j_done); cbn in Wq; try congruence; injection Wq as ->; try congruence.
           ++ apply j_put; [assumption| |].
              ** intros r f X I M. rewrite set_same in X. injection X as <-. unfold marked in M. cbn [i_meta] in M. rewrite H2 in M. discriminate.
              ** intros m' X. destruct (H5 m' X). split; [assumption|]. intros r f X'. rewrite set_same in X'. injection X' as <-.
                 unfold marked. cbn [i_meta]. now rewrite H2.
           ++ apply j_delete.
           ++ now apply j_meta1.
           ++ apply j_tok1; [assumption|]. destruct H4 as [->|(r & A & _)]; [now left|congruence].
    + assert (Z0 : forall j q2 p2 id, i <> j -> nth_error (y_jobs y) j = Some (q2, p2) -> writes q = Some id -> writes q2 = Some id -> is_done p' \/ is_done p2).
      { intros j q2 p2 id N H W1 W2. destruct (W i j q p q2 p2 id N E H W1 W2) as [X|X]; [left; now apply D|now right]. }
      intros a b q1 p1 q2 p2 id N H1 H2 W1 W2. destruct (Nat.eq_dec i a) as [<-|Na].
      * rewrite (nth_set_same i (q, p') _ _ E) in H1. injection H1 as <- <-. rewrite nth_set_other in H2 by exact N. eauto.
      * rewrite nth_set_other in H1 by exact Na. destruct (Nat.eq_dec i b) as [<-|Nb].
        -- rewrite (nth_set_same i (q, p') _ _ E) in H2. injection H2 as <- <-. destruct (Z0 a q1 p1 id Na H1 W2 W1); auto.
        -- rewrite nth_set_other in H2 by exact Nb. eauto.
Qed.

Lemma nothing_inv : inv k nothing.
Proof.
  split; [|split]; cbn; [discriminate| |]; intros i; intros; destruct i; discriminate.
Qed.

Lemma history_inv es y : history k everything es y -> inv k y.
Proof.
  induction 1; [apply nothing_inv|]. apply happen_inv; auto. intros x. apply H1. exact Logic.I.
Qed.
End Steps.
