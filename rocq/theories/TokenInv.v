(** The invariant of histories of identities. *)
From Coq Require Import List String Ascii Bool Arith Lia.
From Verif Require Import BodyModel BodyThms TokenModel TokenSpec TokenCode.
Import ListNotations.
Local Open Scope string_scope.
Local Open Scope nat_scope.

Notation TF := "tokenized_fields".

(** * Names *)

Lemma among_iff s l : among s l = true <-> In s l.
Proof.
  unfold among. rewrite existsb_exists. split.
  - intros (x & I & E). apply String.eqb_eq in E. now subst.
  - intros I. exists s. split; [exact I|apply String.eqb_refl].
Qed.
Lemma cap_tokenizable : forall f, In f tokenizable -> cap f = f.
Proof. intros f I. cbn in I. repeat (destruct I as [<- | I]; [reflexivity|]). destruct I. Qed.
Lemma tokenizable_text f : In f tokenizable -> among f text_fields = true.
Proof. intros I. cbn in I. repeat (destruct I as [<- | I]; [reflexivity|]). destruct I. Qed.
Lemma cap_cap f : cap (cap f) = cap f.
Proof.
  destruct f as [|c f]; [reflexivity|]. cbn [cap]. destruct (between "a" "z" c) eqn:E; [|now rewrite E].
  unfold between in *. apply andb_true_iff in E as [A B]. apply Nat.leb_le in A, B.
  change (code "a") with 97 in *. change (code "z") with 122 in *.
  assert (X : (97 <=? code (chr (code c - 32))) = false); [|now rewrite X].
  unfold code, chr in *. rewrite nat_ascii_embedding by lia. apply Nat.leb_gt. lia.
Qed.

(** * Marks *)

Definition good_marks (m : list (string * json)) : Prop :=
  sorted m /\ Forall (fun e => In (fst e) tokenizable /\ snd e = JBool true) m.

Lemma flag_good f m : good_marks m -> flag f m = Some true \/ flag f m = None.
Proof.
  intros [_ H]. unfold flag. destruct (get f m) eqn:E; [|now right]. apply get_in in E. rewrite Forall_forall in H.
  destruct (H _ E) as [_ X]. cbn in X. subst. now left.
Qed.
Lemma flag_in f m : good_marks m -> (flag f m = Some true <-> In f (names m)).
Proof.
  intros [S0 H]. rewrite Forall_forall in H. unfold flag. split.
  - destruct (get f m) eqn:E; [|discriminate]. apply get_in in E. intros _. unfold names. apply in_map_iff. now exists (f, j).
  - intros I. unfold names in I. apply in_map_iff in I as ([f' v] & E & I). cbn in E. subst f'.
    rewrite (in_get f v m (sorted_nodup _ S0) I). destruct (H _ I) as [_ X]. cbn in X. now subst.
Qed.
Lemma good_names m f : good_marks m -> In f (names m) -> In f tokenizable.
Proof.
  intros [_ H] I. rewrite Forall_forall in H. unfold names in I. apply in_map_iff in I as (e & <- & I). apply (H _ I).
Qed.

Definition marks_ok (l : list (string * json)) : Prop :=
  get TF l = None \/ exists m, get TF l = Some (JObj m) /\ good_marks m.

Lemma marked_cap r f : marks_ok (i_meta r) -> marked r f = marked r (cap f).
Proof.
  unfold marked. intros [E|(m & E & G)]; rewrite E; [reflexivity|]. rewrite cap_cap.
  destruct (flag_good (cap f) m G) as [X|X]; rewrite X; [reflexivity|].
  destruct (flag_good f m G) as [Y|Y]; rewrite Y; [|reflexivity].
  apply (flag_in f m G) in Y. assert (C : cap f = f) by (apply cap_tokenizable; now apply (good_names m f G)).
  rewrite C in X. apply (flag_in f m G) in Y. congruence.
Qed.
Lemma marked_in r m f : get TF (i_meta r) = Some (JObj m) -> good_marks m -> In f tokenizable -> (marked r f = true <-> In f (names m)).
Proof.
  intros E G I. unfold marked. rewrite E, (cap_tokenizable f I), <- (flag_in f m G).
  destruct (flag_good f m G) as [X|X]; rewrite X; intuition congruence.
Qed.
Lemma marked_tokenizable r f : marks_ok (i_meta r) -> marked r f = true -> In (cap f) tokenizable.
Proof.
  intros M. rewrite (marked_cap r f M). destruct M as [E|(m & E & G)]; unfold marked; rewrite E; [discriminate|]. rewrite cap_cap.
  destruct (flag_good (cap f) m G) as [X|X]; rewrite X; [|discriminate]. intros _. apply (good_names m _ G). now apply flag_in.
Qed.

Lemma keep_bools m : good_marks m -> filter (fun e : string * json => match snd e with JBool _ => true | _ => false end) m = m.
Proof.
  intros [_ H]. induction H as [|e m (A & B) F IH]; [reflexivity|]. cbn. now rewrite B, IH.
Qed.

Definition marks_of (l : list (string * json)) : list (string * json) := match get TF l with Some (JObj m) => m | _ => [] end.
Lemma marks_of_good l : marks_ok l -> good_marks (marks_of l).
Proof.
  unfold marks_of. intros [E|(m & E & G)]; rewrite E; [|exact G]. split; constructor.
Qed.
Lemma mark_is r f : marks_ok (i_meta r) -> mark r f = put TF (JObj (put (cap f) (JBool true) (marks_of (i_meta r)))) (i_meta r).
Proof.
  unfold mark, marks_of. intros [E|(m & E & G)]; rewrite E; [reflexivity|]. now rewrite keep_bools.
Qed.
Lemma good_put f m : good_marks m -> In f tokenizable -> good_marks (put f (JBool true) m).
Proof.
  intros [S0 H] I. split; [now apply put_sorted|]. rewrite Forall_forall in *. intros x J. apply in_put in J as [->|J]; [now split|auto].
Qed.
Lemma mark_ok r f : marks_ok (i_meta r) -> In (cap f) tokenizable -> marks_ok (mark r f).
Proof.
  intros M I. rewrite (mark_is r f M). right. eexists. split; [apply get_put|]. apply good_put; [now apply marks_of_good|exact I].
Qed.
Lemma in_names_put {A} k (v : A) l x : In x (names (put k v l)) <-> x = k \/ In x (names l).
Proof.
  unfold names. split.
  - intros I. apply in_map_iff in I as (e & <- & I). apply in_put in I as [->|I]; [now left|]. right. now apply in_map.
  - induction l as [|[k' v'] l IH]; cbn.
    + intuition.
    + intros H. destruct (String.eqb_spec k k') as [->|N]; cbn; [intuition|]. destruct (before k k'); cbn; [intuition|]. intuition.
Qed.
Lemma marked_mark r f g t : marks_ok (i_meta r) -> In (cap f) tokenizable -> In g tokenizable ->
  marked {| i_text := t; i_meta := mark r f |} g = String.eqb g (cap f) || marked r g.
Proof.
  intros M I J. set (r' := {| i_text := t; i_meta := mark r f |}).
  assert (E : get TF (i_meta r') = Some (JObj (put (cap f) (JBool true) (marks_of (i_meta r))))).
  { unfold r'. cbn [i_meta]. rewrite (mark_is r f M). apply get_put. }
  pose proof (marks_of_good _ M) as G. pose proof (marked_in r' _ g E (good_put _ _ G I) J) as H. rewrite in_names_put in H.
  assert (K : marked r g = true <-> In g (names (marks_of (i_meta r)))).
  { unfold marks_of in *. destruct M as [X|(m & X & Y)].
    - unfold marked. rewrite X. cbn. intuition discriminate.
    - rewrite X in *. now apply (marked_in r m). }
  destruct (String.eqb_spec g (cap f)) as [E1|N]; cbn [orb].
  - apply H. now left.
  - destruct (marked r g) eqn:Q, (marked r' g) eqn:Q'; try reflexivity.
    + destruct H as [_ H]. specialize (H (or_intror (proj1 K eq_refl))). congruence.
    + destruct H as [H _]. destruct (H eq_refl) as [X|X]; [congruence|]. apply K in X. congruence.
Qed.

(** * Rows *)

Section Inv.
Variable k : secret.

Definition field_ok (r : row) (f : string) : Prop :=
  if marked r f then exists n v, String.length n = 12 /\ k_len k = 32 /\ colonless v /\ i_text r f = token k n v
  else colonless (i_text r f).
Definition row_ok (r : row) : Prop := marks_ok (i_meta r) /\ forall f, In f tokenizable -> field_ok r f.

(** Programs that write nothing. *)
Fixpoint quiet (p : prog) : Prop :=
  match p with Done _ => True | Load _ c => forall x, quiet (c x) | _ => False end.

Definition token_patch (r : row) (f n : string) : patch :=
  {| p_text := fun g => if String.eqb g (cap f) then token k n (i_text r (cap f)) else i_text r g; p_meta := Some (mark r f) |}.
Definition rest_of (id : string) (l : list (string * string)) : bool -> prog :=
  fun ok => if ok then tokenize_all k id l else Done AErr.

Inductive job_ok (rows : string -> option row) : request -> prog -> Prop :=
| j_done q a : job_ok rows q (Done a)
| j_quiet q p : writes q = None -> quiet p -> job_ok rows q p
| j_create id t m : (forall f, In f tokenizable -> colonless (t f)) -> get TF m = None ->
    job_ok rows (RCreate id t m) (Insert id {| i_text := t; i_meta := m |} confirm)
| j_put id t m : (forall f, In f tokenizable -> colonless (t f)) ->
    (forall r f, rows id = Some r -> In f tokenizable -> marked r f = true -> t f = "") ->
    (forall m', m = Some m' -> get TF m' = None /\ forall r f, rows id = Some r -> marked r f = false) ->
    job_ok rows (RPut id t m) (Store id {| p_text := t; p_meta := m |} true confirm)
| j_delete id : job_ok rows (RDelete id) (Remove id confirm)
| j_meta1 id m : ~ In TF (map fst m) -> job_ok rows (RMeta id m) (start k (RMeta id m))
| j_meta2 id m r : ~ In TF (map fst m) -> rows id = Some r ->
    job_ok rows (RMeta id m) (Store id {| p_text := fun _ => ""; p_meta := Some (merge (i_meta r) m) |} false confirm)
| j_tok1 id l0 l : Forall (fun x => String.length (snd x) = 12) (l0 ++ l) ->
    l0 = [] \/ (exists r, rows id = Some r /\ k_len k = 32 /\ forall f n, In (f, n) l0 -> marked r f = true) ->
    job_ok rows (RTokenize id (l0 ++ l)) (tokenize_all k id l)
| j_tok2 id l0 f n l r : Forall (fun x => String.length (snd x) = 12) (l0 ++ (f, n) :: l) ->
    (forall f n, In (f, n) l0 -> marked r f = true) -> rows id = Some r -> marked r f = false -> k_len k = 32 ->
    In (cap f) tokenizable ->
    job_ok rows (RTokenize id (l0 ++ (f, n) :: l)) (Store id (token_patch r f n) true (rest_of id l)).

Definition inv (y : system) : Prop :=
  (forall id r, y_rows y id = Some r -> row_ok r)
  /\ (forall i q p, nth_error (y_jobs y) i = Some (q, p) -> job_ok (y_rows y) q p)
  /\ (forall i j q p q' p' id, i <> j -> nth_error (y_jobs y) i = Some (q, p) -> nth_error (y_jobs y) j = Some (q', p') ->
        writes q = Some id -> writes q' = Some id -> is_done p \/ is_done p').

Lemma job_frame rows rows' q p : job_ok rows q p -> (forall id, writes q = Some id -> rows' id = rows id) -> job_ok rows' q p.
Proof.
  intros J H. destruct J.
  - apply j_done.
  - now apply j_quiet.
  - now apply j_create.
  - rewrite <- (H id eq_refl) in *. now apply j_put.
  - apply j_delete.
  - now apply j_meta1.
  - apply j_meta2; [assumption|]. now rewrite (H id eq_refl).
  - apply j_tok1; [assumption|]. now rewrite (H id eq_refl).
  - now apply j_tok2; rewrite ?(H id eq_refl).
Qed.

(** ** What each write does to a row *)

Lemma meta_other l l' : get TF l = get TF l' -> marks_ok l -> marks_ok l'.
Proof. unfold marks_ok. now intros ->. Qed.
Lemma merge_tf m : forall l, ~ In TF (map fst m) -> get TF (merge l m) = get TF l.
Proof.
  induction m as [|[a v] m IH]; intros l N; [reflexivity|]. cbn [map fst In] in N. unfold merge in *. cbn [fold_left fst snd].
  rewrite IH by tauto. apply get_put_other. intros E. apply N. now left.
Qed.
Lemma not_in_get {A} x (l : list (string * A)) : ~ In x (map fst l) -> get x l = None.
Proof.
  induction l as [|[a v] l IH]; [reflexivity|]. cbn. intros N. destruct (String.eqb_spec x a) as [->|]; [tauto|]. apply IH. tauto.
Qed.

Lemma token_nonempty n v : token k n v <> "".
Proof. unfold token. discriminate. Qed.

Lemma patched r f n g : In (cap f) tokenizable ->
  i_text (apply (token_patch r f n) r) g = if String.eqb g (cap f) then token k n (i_text r (cap f)) else i_text r g.
Proof.
  intros I. cbn [i_text apply token_patch p_text]. destruct (String.eqb_spec g (cap f)) as [->|N].
  - rewrite (tokenizable_text _ I). reflexivity.
  - destruct (String.eqb_spec (i_text r g) "") as [E|]; [|now destruct (among g text_fields)]. now rewrite andb_false_r.
Qed.

Lemma row_token r f n : row_ok r -> marked r f = false -> k_len k = 32 -> String.length n = 12 -> In (cap f) tokenizable ->
  row_ok (apply (token_patch r f n) r).
Proof.
  intros [M F] N K L I. rewrite (marked_cap r f M) in N. split.
  - cbn. now apply mark_ok.
  - intros g J. unfold field_ok. rewrite (patched r f n g I).
    change (marked (apply (token_patch r f n) r) g)
      with (marked {| i_text := i_text (apply (token_patch r f n) r); i_meta := mark r f |} g).
    rewrite (marked_mark r f g _ M I J). specialize (F g J). unfold field_ok in F.
    destruct (String.eqb_spec g (cap f)) as [->|]; cbn [orb]; [|exact F].
    rewrite N in F. now exists n, (i_text r (cap f)).
Qed.

Lemma marked_same r r' f : get TF (i_meta r') = get TF (i_meta r) -> marked r' f = marked r f.
Proof. unfold marked. now intros ->. Qed.

Lemma row_meta r m : row_ok r -> ~ In TF (map fst m) ->
  row_ok (apply {| p_text := fun _ => ""; p_meta := Some (merge (i_meta r) m) |} r).
Proof.
  intros [M F] N. set (r' := apply _ r). assert (E : get TF (i_meta r') = get TF (i_meta r)) by now apply merge_tf. split.
  - now apply (meta_other (i_meta r)).
  - intros f I. specialize (F f I). unfold field_ok in *. rewrite (marked_same r r' f E).
    assert (X : i_text r' f = i_text r f) by (unfold r'; cbn [i_text apply p_text]; now rewrite andb_false_r). now rewrite X.
Qed.

Lemma row_put r t m : row_ok r -> (forall f, In f tokenizable -> colonless (t f)) ->
  (forall f, In f tokenizable -> marked r f = true -> t f = "") ->
  (forall m', m = Some m' -> get TF m' = None /\ forall f, marked r f = false) ->
  row_ok (apply {| p_text := t; p_meta := m |} r) /\ (forall f, In f tokenizable -> marked (apply {| p_text := t; p_meta := m |} r) f = marked r f).
Proof.
  intros [M F] C W H. set (r' := apply _ r).
  assert (K : forall f, In f tokenizable -> marked r' f = marked r f).
  { intros f I. destruct m as [m|]; [|reflexivity]. destruct (H m eq_refl) as [E Z0]. rewrite Z0. unfold marked. unfold r'. cbn [apply i_meta p_meta]. now rewrite E. }
  split; [|exact K]. split.
  - unfold r'. cbn. destruct m as [m|]; [|exact M]. left. now apply H.
  - intros f I. unfold field_ok. rewrite (K f I). specialize (F f I). unfold field_ok in F.
    assert (X : i_text r' f = if String.eqb (t f) "" then i_text r f else t f).
    { unfold r'. cbn [i_text apply p_text]. rewrite (tokenizable_text f I). now destruct (String.eqb_spec (t f) ""). }
    rewrite X. destruct (marked r f) eqn:E.
    + now rewrite (W f I E).
    + destruct (String.eqb (t f) ""); [exact F|now apply C].
Qed.
End Inv.
