(** Histories of identities, proved. *)
From Coq Require Import List String Ascii Bool Arith Lia.
From Verif Require Import BodyModel BodyThms TokenModel TokenSpec TokenCode TokenInv TokenSteps.
Import ListNotations.
Local Open Scope string_scope.
Local Open Scope nat_scope.

Section Proof.
Variable k : secret.
Hypothesis O : opens k.

Definition shown_row (r : row) (f : string) : option string :=
  if marked r f then detokenize k (i_text r f) else Some (i_text r f).
Lemma shown_is y id r f : y_rows y id = Some r -> shown k y id f = shown_row r f.
Proof. unfold shown, shown_row. now intros ->. Qed.

Lemma shown_some r f : row_ok k r -> In f tokenizable -> exists v, shown_row r f = Some v /\ colonless v
  /\ (marked r f = true -> exists n, i_text r f = token k n v /\ String.length n = 12 /\ k_len k = 32).
Proof.
  intros [M F] I. specialize (F f I). unfold field_ok, shown_row in *. destruct (marked r f).
  - destruct F as (n & v & L & K & C & E). exists v. rewrite E. split; [now apply detokenize_token|]. split; [exact C|]. intros _. now exists n.
  - exists (i_text r f). split; [reflexivity|]. split; [exact F|discriminate].
Qed.

Lemma shown_token r f n g : row_ok k r -> marked r f = false -> k_len k = 32 -> String.length n = 12 ->
  In (cap f) tokenizable -> In g tokenizable ->
  shown_row (apply (token_patch k r f n) r) g = shown_row r g
  /\ marked (apply (token_patch k r f n) r) g = String.eqb g (cap f) || marked r g.
Proof.
  intros R N K L I J. pose proof R as [M F]. rewrite (marked_cap r f M) in N.
  pose proof (marked_mark r f g (i_text (apply (token_patch k r f n) r)) M I J) as Q.
  change {| i_text := i_text (apply (token_patch k r f n) r); i_meta := mark r f |} with (apply (token_patch k r f n) r) in Q.
  split; [|exact Q]. unfold shown_row. rewrite Q, (patched k r f n g I). specialize (F g J). unfold field_ok in F.
  destruct (String.eqb_spec g (cap f)) as [->|]; cbn [orb]; [|reflexivity]. rewrite N in *. now apply detokenize_token.
Qed.

(** ** One step *)

Lemma happen_step y i o q p : nth_error (y_jobs y) i = Some (q, p) ->
  y_rows (happen k (EStep i o) y) = fst (call o p (y_rows y))
  /\ nth_error (y_jobs (happen k (EStep i o) y)) i = Some (q, snd (call o p (y_rows y))).
Proof.
  intros E. cbn [happen]. rewrite E. destruct (call o p (y_rows y)) as [a b] eqn:C. cbn. split; [reflexivity|].
  eapply nth_set_same; eauto.
Qed.
Lemma step_effect y i o q p : inv k y -> nth_error (y_jobs y) i = Some (q, p) ->
  effect k q (y_rows y) (y_rows (happen k (EStep i o) y)).
Proof.
  intros (R & J & W) E. rewrite (proj1 (happen_step y i o q p E)). destruct (call o p (y_rows y)) as [a b] eqn:C.
  apply (call_ok k _ _ _ _ _ _ (J _ _ _ E) R C).
Qed.
Lemma event_rows y e : inv k y -> y_rows (happen k e y) = y_rows y
  \/ exists i o q p, e = EStep i o /\ nth_error (y_jobs y) i = Some (q, p) /\ effect k q (y_rows y) (y_rows (happen k e y)).
Proof.
  intros H. destruct e as [q|i o]; [now left|]. destruct (nth_error (y_jobs y) i) as [[q p]|] eqn:E.
  - right. exists i, o, q, p. split; [reflexivity|]. split; [exact E|]. eapply step_effect; eauto.
  - left. cbn [happen]. now rewrite E.
Qed.

Lemma put_text r t m f : In f tokenizable -> i_text (apply {| p_text := t; p_meta := m |} r) f = if String.eqb (t f) "" then i_text r f else t f.
Proof. intros I. cbn [i_text apply p_text]. rewrite (tokenizable_text f I). now destruct (String.eqb_spec (t f) ""). Qed.

Theorem kept es y e id f r r' : history k everything es y -> In f tokenizable -> y_rows y id = Some r -> y_rows (happen k e y) id = Some r' ->
  exists v, shown k y id f = Some v
  /\ (shown k (happen k e y) id f = Some v
      \/ exists t m, by_step y e (RPut id t m) /\ t f <> "" /\ shown k (happen k e y) id f = Some (t f)).
Proof.
  intros H I E E'. pose proof (history_inv k _ _ H) as Y. pose proof Y as (R & _ & _).
  destruct (shown_some r f (R _ _ E) I) as (v & V & _ & _). exists v. rewrite (shown_is _ _ _ _ E), (shown_is _ _ _ _ E').
  split; [exact V|]. destruct (event_rows y e Y) as [S0|(i & o & q & p & -> & N & Ef)]; [left; congruence|].
  remember (y_rows y) as rows. remember (y_rows (happen k (EStep i o) y)) as rows'.
  destruct Ef as [q rows0|id0 l f0 n0 r0 rows0 A B C D F G|id0 m r0 rows0 A B|id0 t m r0 rows0 A B C D|id0 t m rows0 A B C|id0 rows0]; subst rows0.
  - left. congruence.
  - destruct (string_dec id id0) as [->|Ne]; [|rewrite set_other in E' by exact Ne; left; congruence].
    rewrite set_same in E'. injection E' as <-. assert (r0 = r) by congruence. subst r0. left.
    now rewrite (proj1 (shown_token r f0 n0 f (R _ _ E) C D F G I)).
  - destruct (string_dec id id0) as [->|Ne]; [|rewrite set_other in E' by exact Ne; left; congruence].
    rewrite set_same in E'. injection E' as <-. assert (r0 = r) by congruence. subst r0. left. rewrite <- V. unfold shown_row.
    rewrite put_text by exact I. cbn [String.eqb]. rewrite (marked_same r); [reflexivity|]. now apply merge_tf.
  - destruct (string_dec id id0) as [->|Ne]; [|rewrite set_other in E' by exact Ne; left; congruence].
    rewrite set_same in E'. injection E' as <-. assert (r0 = r) by congruence. subst r0.
    destruct (row_put k r t m (R _ _ E) B C D) as [_ K].
    unfold shown_row in *. rewrite (K f I), (put_text r t m f I).
    destruct (String.eqb_spec (t f) "") as [T|T]; [now left|]. right. exists t, m. split; [now exists i, o, p|]. split; [exact T|].
    destruct (marked r f) eqn:Q; [|reflexivity]. exfalso. apply T. now apply C.
  - destruct (string_dec id id0) as [->|Ne]; [congruence|]. rewrite set_other in E' by exact Ne. left. congruence.
  - destruct (string_dec id id0) as [->|Ne]; [rewrite set_same in E'; discriminate|]. rewrite set_other in E' by exact Ne. left. congruence.
Qed.

Theorem comes_and_goes es y e id : history k everything es y ->
  (y_rows y id = None -> y_rows (happen k e y) id <> None ->
     exists t m, by_step y e (RCreate id t m) /\ forall f, In f tokenizable -> shown k (happen k e y) id f = Some (t f))
  /\ (y_rows y id <> None -> y_rows (happen k e y) id = None -> by_step y e (RDelete id)).
Proof.
  intros H. pose proof (history_inv k _ _ H) as Y.
  destruct (event_rows y e Y) as [S0|(i & o & q & p & -> & N & Ef)]; [rewrite S0; split; congruence|].
  unfold shown. remember (y_rows y) as rows. remember (y_rows (happen k (EStep i o) y)) as rows'.
  destruct Ef as [q rows0|id0 l f0 n0 r0 rows0 A B C D F G|id0 m r0 rows0 A B|id0 t m r0 rows0 A B C D|id0 t m rows0 A B C|id0 rows0]; subst rows0;
    [split; congruence|..]; (destruct (string_dec id id0) as [->|Ne]; [rewrite set_same|rewrite set_other by exact Ne; split; congruence]);
    split; try congruence.
  - intros _ _. exists t, m. split; [now exists i, o, p|]. intros f I. unfold marked. cbn [i_meta i_text]. now rewrite C.
  - intros _ _. now exists i, o, p.
Qed.

Theorem marks_stay es y e id f r r' : history k everything es y -> y_rows y id = Some r -> y_rows (happen k e y) id = Some r' ->
  In f tokenizable -> marked r f = true -> marked r' f = true.
Proof.
  intros H E E' I Q. pose proof (history_inv k _ _ H) as Y. pose proof Y as (R & _ & _).
  destruct (event_rows y e Y) as [S0|(i & o & q & p & -> & N & Ef)]; [congruence|].
  remember (y_rows y) as rows. remember (y_rows (happen k (EStep i o) y)) as rows'.
  destruct Ef as [q rows0|id0 l f0 n0 r0 rows0 A B C D F G|id0 m r0 rows0 A B|id0 t m r0 rows0 A B C D|id0 t m rows0 A B C|id0 rows0]; subst rows0;
    [congruence|..];
    (destruct (string_dec id id0) as [->|Ne]; [rewrite set_same in E'|rewrite set_other in E' by exact Ne; congruence]); [..|congruence|discriminate];
    injection E' as <-; assert (r0 = r) by congruence; subst r0.
  - rewrite (proj2 (shown_token r f0 n0 f (R _ _ E) C D F G I)). rewrite Q. apply orb_true_r.
  - rewrite (marked_same r); [exact Q|]. now apply merge_tf.
  - destruct (row_put k r t m (R _ _ E) B C D) as [_ K]. now rewrite (K f I).
Qed.

(** ** Tokenizing *)

Theorem only_those es y i o id l p : history k everything es y -> nth_error (y_jobs y) i = Some (RTokenize id l, p) ->
  (forall x, x <> id -> y_rows (happen k (EStep i o) y) x = y_rows y x)
  /\ (y_rows (happen k (EStep i o) y) id = y_rows y id
      \/ exists r r' f n, y_rows y id = Some r /\ y_rows (happen k (EStep i o) y) id = Some r'
         /\ In (f, n) l /\ In (cap f) tokenizable /\ marked r (cap f) = false /\ marked r' (cap f) = true
         /\ token_of k (i_text r (cap f)) (i_text r' (cap f))
         /\ (forall g, g <> cap f -> i_text r' g = i_text r g)
         /\ (forall g, In g tokenizable -> g <> cap f -> marked r' g = marked r g)
         /\ (forall g, g <> "tokenized_fields" -> get g (i_meta r') = get g (i_meta r))).
Proof.
  intros H E. pose proof (history_inv k _ _ H) as Y. pose proof Y as (R & _ & _).
  pose proof (step_effect y i o _ _ Y E) as Ef. split.
  - intros x N. apply (effect_frame k _ _ _ _ Ef); cbn; congruence.
  - remember (y_rows y) as rows. remember (y_rows (happen k (EStep i o) y)) as rows'. remember (RTokenize id l) as q.
    destruct Ef as [q rows0|id0 l0 f0 n0 r0 rows0 A B C D F G|id0 m r0 rows0 A B|id0 t m r0 rows0 A B C D|id0 t m rows0 A B C|id0 rows0];
      try discriminate; [now left|]. injection Heqq as -> ->. right. subst rows0.
    pose proof (R _ _ A) as R0. pose proof R0 as [M0 F0]. pose proof C as C'. rewrite (marked_cap r0 f0 M0) in C'.
    exists r0, (apply (token_patch k r0 f0 n0) r0), f0, n0. rewrite set_same. split; [exact A|]. split; [reflexivity|].
    split; [exact B|]. split; [exact G|]. split; [exact C'|]. split.
    { rewrite (proj2 (shown_token r0 f0 n0 (cap f0) R0 C D F G G)). now rewrite String.eqb_refl. }
    split.
    { rewrite (patched k r0 f0 n0 _ G), String.eqb_refl. apply token_is; auto. specialize (F0 _ G). unfold field_ok in F0. now rewrite C' in F0. }
    split; [|split].
    + intros g N. rewrite (patched k r0 f0 n0 _ G). now rewrite (proj2 (String.eqb_neq g (cap f0)) N).
    + intros g I N. rewrite (proj2 (shown_token r0 f0 n0 g R0 C D F G I)). now rewrite (proj2 (String.eqb_neq g (cap f0)) N).
    + intros g N. cbn [i_meta apply token_patch p_meta]. unfold mark. now apply get_put_other.
Qed.

Theorem confirmed es y i o id l p : history k everything es y -> nth_error (y_jobs y) i = Some (RTokenize id l, p) -> ~ is_done p ->
  nth_error (y_jobs (happen k (EStep i o) y)) i = Some (RTokenize id l, Done AOk) ->
  exists r, y_rows (happen k (EStep i o) y) id = Some r
  /\ forall f n, In (f, n) l -> In (cap f) tokenizable /\ marked r (cap f) = true
     /\ exists v, shown k (happen k (EStep i o) y) id (cap f) = Some v /\ token_of k v (i_text r (cap f)).
Proof.
  intros H E D X. pose proof (history_inv k _ _ H) as Y. pose proof Y as (R & J & W).
  destruct (happen_step y i o _ _ E) as [E1 E2]. rewrite E2 in X. injection X as X.
  pose proof (J _ _ _ E) as J0. destruct (call o p (y_rows y)) as [a b] eqn:C.
  destruct (call_ok k _ _ _ _ _ _ J0 R C) as (_ & Ef & _). pose proof (effect_rows k _ _ _ Ef R) as R'. cbn [fst snd] in *. subst b.
  assert (Q : exists r, a id = Some r /\ forall f n, In (f, n) l -> marked r f = true).
  { remember (RTokenize id l) as q. destruct J0; try discriminate.
    - exfalso. apply D. now exists a0.
    - subst q. discriminate.
    - injection Heqq as Hi Hl; subst id0 l. destruct (tok1_shape k (y_rows y) id l0 l1 H0 H1) as [Z0|(f & n & l' & -> & I & c & E0 & Ec)]; [contradiction|].
      rewrite E0 in C. cbn [call] in C. injection C as <- C. rewrite Ec in C. destruct o; try discriminate.
      destruct (y_rows y id); [|discriminate]. destruct (_ || _); discriminate.
    - injection Heqq as Hi Hl; subst id0 l. cbn [call] in C. rewrite H2 in C. injection C as <- C. unfold rest_of in C.
      destruct o; cbn [took told] in *; try discriminate. destruct l1 as [|[f' n'] l1].
      + eexists. rewrite set_same. split; [reflexivity|]. intros f' n' I.
        pose proof (R _ _ H2) as R0. pose proof R0 as [M0 F0].
        assert (L : String.length n = 12). { rewrite Forall_forall in H0. apply (H0 (f, n)). apply in_or_app. right. now left. }
        assert (M1 : marks_ok (i_meta (apply (token_patch k r f n) r))) by (cbn [i_meta apply token_patch p_meta]; now apply mark_ok).
        rewrite (marked_cap _ f' M1). apply in_app_or in I as [I|[I|[]]].
        * pose proof (H1 _ _ I) as Q. pose proof (marked_tokenizable r f' M0 Q) as T.
          rewrite (proj2 (shown_token r f n (cap f') R0 H3 H4 L H5 T)). rewrite <- (marked_cap r f' M0), Q. apply orb_true_r.
        * injection I as -> ->. rewrite (proj2 (shown_token r f' n' (cap f') R0 H3 H4 L H5 H5)). now rewrite String.eqb_refl.
      + exfalso. destruct (tok1_shape k (set_row id (Some (apply (token_patch k r f n) r)) (y_rows y)) id [] ((f', n') :: l1)) as [[z Z0]|(f2 & n2 & l' & Z1 & I & c & E0 & Ec)].
        * cbn. rewrite Forall_app in H0. exact (Forall_inv_tail (proj2 H0)).
        * now left.
        * rewrite Z0 in C. rewrite tokenize_all_cons in Z0. unfold tokenize in Z0. destruct (negb _) in Z0; [|discriminate].
          cbn in Z0. congruence.
        * rewrite E0 in C. discriminate. }
  destruct Q as (r & Q1 & Q2). exists r. rewrite E1. split; [exact Q1|]. intros f n I. pose proof (Q2 _ _ I) as M.
  pose proof (R' _ _ Q1) as R1. pose proof R1 as [M1 F1]. pose proof (marked_tokenizable r f M1 M) as T. rewrite (marked_cap r f M1) in M.
  split; [exact T|]. split; [exact M|]. destruct (shown_some r (cap f) R1 T) as (v & V & Cv & Tk). exists v.
  rewrite <- E1 in Q1. rewrite (shown_is _ _ _ _ Q1). split; [exact V|]. destruct (Tk M) as (n0 & -> & L & K). now apply token_is.
Qed.

(** ** Looking *)

(** Until its one call is made, a request that makes one call is as it was. *)
Definition one_call (q : request) : Prop := exists id c, start k q = Load id (fun x => Done (c x)).
Lemma waiting es y : forall P, history k P es y -> forall i q p, nth_error (y_jobs y) i = Some (q, p) -> one_call q -> p = start k q \/ is_done p.
Proof.
  intros P H. induction H as [|es e y H IH F K]; intros i q p E N; [destruct i; discriminate|].
  destruct e as [q0|j o]; cbn [happen] in E.
  - cbn [y_jobs] in E. destruct (Nat.lt_ge_cases i (List.length (y_jobs y))) as [L|L].
    + rewrite nth_error_app1 in E by exact L. eauto.
    + rewrite nth_error_app2 in E by exact L. destruct (i - List.length (y_jobs y)) as [|d]; [|destruct d; discriminate].
      injection E as <- <-. now left.
  - destruct (nth_error (y_jobs y) j) as [[q1 p1]|] eqn:E1; [|eauto]. destruct (call o p1 (y_rows y)) as [a b] eqn:C. cbn [y_jobs] in E.
    destruct (Nat.eq_dec j i) as [->|Ne]; [|rewrite nth_set_other in E by exact Ne; eauto].
    rewrite (nth_set_same i (q1, b) _ _ E1) in E. injection E as <- <-. right.
    destruct (IH _ _ _ E1 N) as [->|[z ->]].
    + destruct N as (id & c & N). rewrite N in C. cbn [call] in C. injection C as <- <-. eexists. reflexivity.
    + injection C as <- <-. now exists z.
Qed.

Lemma reveal_is r f : row_ok k r -> reveal k r f = if marked r (cap f) then shown_row r (cap f) else None.
Proof.
  intros [M F]. unfold reveal. rewrite (marked_cap r f M), orb_diag. destruct (marked r (cap f)) eqn:Q; [|reflexivity].
  pose proof (marked_tokenizable r (cap f) M Q) as T. rewrite cap_cap in T. rewrite (tokenizable_text _ T). unfold shown_row. now rewrite Q.
Qed.

Theorem revealed es y i id f p : history k everything es y -> nth_error (y_jobs y) i = Some (RReveal id f, p) -> ~ is_done p ->
  nth_error (y_jobs (happen k (EStep i Fine) y)) i = Some (RReveal id f, Done
    match y_rows y id with
    | Some r => if marked r (cap f) then match shown k y id (cap f) with Some v => AText v | None => AErr end else AErr
    | None => AErr
    end)
  /\ y_rows (happen k (EStep i Fine) y) = y_rows y.
Proof.
  intros H E D. pose proof (history_inv k _ _ H) as (R & _ & _). destruct (happen_step y i Fine _ _ E) as [E1 E2].
  assert (N : one_call (RReveal id f)) by (eexists; eexists; reflexivity).
  destruct (waiting _ _ _ H _ _ _ E N) as [->|Z0]; [|contradiction]. rewrite E1, E2. cbn [start call fst snd]. split; [|reflexivity].
  do 2 f_equal. destruct (y_rows y id) as [r|] eqn:Er; [|reflexivity].
  rewrite (reveal_is r f (R _ _ Er)), (shown_is _ _ _ _ Er). now destruct (marked r (cap f)).
Qed.

Lemma reveal_all_alone rows id r : rows id = Some r -> row_ok k r -> forall l acc, NoDup l -> (forall f, In f l -> get f acc = None) ->
  (forall f, In f l -> In f tokenizable /\ marked r f = true) ->
  exists out, alone (reveal_all k id l acc) rows = (rows, ATexts out)
    /\ forall f, get f out = if among f l then shown_row r f else get f acc.
Proof.
  intros E R l. induction l as [|f l IH]; intros acc ND A B.
  - exists acc. split; reflexivity.
  - destruct (B f (or_introl eq_refl)) as [T Q]. cbn [reveal_all alone]. rewrite E, (reveal_is r f R), (cap_tokenizable f T), Q.
    destruct (shown_some r f R T) as (v & V & _). rewrite V. inversion ND as [|? ? Nf ND']; subst.
    destruct (IH (put f v acc) ND') as (out & X & Y).
    + intros g I. rewrite get_put_other; [apply A; now right|]. intros ->. contradiction.
    + intros g I. apply B. now right.
    + exists out. split; [exact X|]. intros g. rewrite Y. unfold among. cbn [existsb]. fold (among g l).
      destruct (String.eqb_spec g f) as [->|Ne]; cbn [orb].
      * destruct (among f l) eqn:Z0; [apply among_iff in Z0; contradiction|]. rewrite V. apply get_put.
      * destruct (among g l); [reflexivity|]. now apply get_put_other.
Qed.

Lemma keep_true m : good_marks m -> filter (fun e : string * json => match snd e with JBool true => true | _ => false end) m = m.
Proof. intros [_ H]. induction H as [|e m (A & B) F IH]; [reflexivity|]. cbn. now rewrite B, IH. Qed.
Lemma marks_are r : row_ok k r -> NoDup (marks r) /\ forall f, In f (marks r) <-> (In f tokenizable /\ marked r f = true).
Proof.
  intros [M F]. pose proof M as [E|(m & E & G)]; unfold marks; rewrite E.
  - split; [constructor|]. intros f. unfold marked. rewrite E. cbn. intuition discriminate.
  - rewrite keep_true by exact G. pose proof G as [S0 _]. split; [now apply sorted_nodup|]. intros f. split.
    + intros I. assert (T : In f tokenizable) by now apply (good_names m f G). split; [exact T|]. now apply (marked_in r m f E G T).
    + intros [T Q]. now apply (marked_in r m f E G T).
Qed.

Theorem revealed_all es y id : history k everything es y ->
  match y_rows y id with
  | None => alone (start k (RRevealAll id [])) (y_rows y) = (y_rows y, AErr)
  | Some r => exists out, alone (start k (RRevealAll id [])) (y_rows y) = (y_rows y, ATexts out)
      /\ forall f, get f out = if among f tokenizable && marked r f then shown k y id f else None
  end.
Proof.
  intros H. pose proof (history_inv k _ _ H) as (R & _ & _). cbn [start alone]. destruct (y_rows y id) as [r|] eqn:E; [|reflexivity].
  destruct (marks_are r (R _ _ E)) as [ND MK].
  destruct (reveal_all_alone (y_rows y) id r E (R _ _ E) (marks r) []) as (out & X & Y); [exact ND|reflexivity|intros f I; now apply MK|].
  exists out. split; [exact X|]. intros f. rewrite Y, (shown_is _ _ _ _ E).
  destruct (among f (marks r)) eqn:A, (among f tokenizable && marked r f) eqn:B; try reflexivity.
  - apply among_iff, MK in A. destruct A as [A1 A2]. apply among_iff in A1. rewrite A1, A2 in B. discriminate.
  - apply andb_true_iff in B as [B1 B2]. apply among_iff in B1.
    assert (Z0 : among f (marks r) = true) by (apply among_iff, MK; auto). congruence.
Qed.

Theorem listed es y i id p : history k everything es y -> nth_error (y_jobs y) i = Some (RMarks id, p) -> ~ is_done p ->
  match y_rows y id with
  | None => nth_error (y_jobs (happen k (EStep i Fine) y)) i = Some (RMarks id, Done AErr)
  | Some r => exists l, nth_error (y_jobs (happen k (EStep i Fine) y)) i = Some (RMarks id, Done (ANames l))
      /\ NoDup l /\ forall f, In f l <-> (In f tokenizable /\ marked r f = true)
  end.
Proof.
  intros H E D. pose proof (history_inv k _ _ H) as (R & _ & _). destruct (happen_step y i Fine _ _ E) as [E1 E2].
  assert (N : one_call (RMarks id)) by (eexists; eexists; reflexivity).
  destruct (waiting _ _ _ H _ _ _ E N) as [->|Z0]; [|contradiction]. rewrite E2. cbn [start call fst snd].
  destruct (y_rows y id) as [r|] eqn:Er; [|reflexivity]. exists (marks r). split; [reflexivity|]. now apply marks_are, (R id).
Qed.

(** ** Refusals *)
Theorem refused es y i id l p f n : history k everything es y -> nth_error (y_jobs y) i = Some (RTokenize id ((f, n) :: l), p) ->
  p = start k (RTokenize id ((f, n) :: l)) ->
  (~ In (cap f) tokenizable \/ y_rows y id = None \/ exists r, y_rows y id = Some r /\ marked r (cap f) = true) ->
  y_rows (happen k (EStep i Fine) y) = y_rows y
  /\ nth_error (y_jobs (happen k (EStep i Fine) y)) i = Some (RTokenize id ((f, n) :: l), Done AErr).
Proof.
  intros H E -> W. pose proof (history_inv k _ _ H) as (R & _ & _). destruct (happen_step y i Fine _ _ E) as [E1 E2].
  rewrite E1, E2. clear E1 E2 E. cbn [start tokenize_all]. unfold tokenize.
  destruct (among (cap f) tokenizable) eqn:A; cbn [negb call fst snd].
  - split; [reflexivity|]. do 2 f_equal. apply among_iff in A. destruct (y_rows y id) as [r|] eqn:Er; [|reflexivity].
    destruct W as [W|[W|(r' & W & Q)]]; [contradiction|discriminate|]. injection W as <-.
    rewrite (marked_cap r f (proj1 (R _ _ Er))), Q. reflexivity.
  - split; reflexivity.
Qed.

End Proof.
