(** Queues, memory reports and pressure: proofs. *)
From Coq Require Import ZArith NArith List String Ascii Bool Lia.
From Coq Require Import Decimal DecimalString DecimalZ DecimalPos DecimalFacts.
From Verif Require Import QueueModel QueueSpec.
Import ListNotations.
Local Open Scope string_scope.
Open Scope Z_scope.

(** ** Numbers as text *)
Lemma to_int_some z : Z.to_int z <> Pos Nil /\ Z.to_int z <> Neg Nil.
Proof.
  destruct z as [|p|p]; simpl; split; try discriminate; intros H; injection H as H; apply (Unsigned.to_uint_nonnil _ H).
Qed.
Lemma int_text_back z : NilZero.int_of_string (int_text z) = Some (Z.to_int z).
Proof. unfold int_text. destruct (to_int_some z). apply NilZero.isi; assumption. Qed.
Lemma int_text_inj a b : int_text a = int_text b -> a = b.
Proof.
  intros H. pose proof (int_text_back a) as Ha. rewrite H, int_text_back in Ha. injection Ha as Ha. symmetry. apply to_int_inj, Ha.
Qed.
Lemma uint_digits d : Forall (fun c => space c = false /\ c <> "+"%char /\ c <> newline) (chars (NilEmpty.string_of_uint d)).
Proof. induction d; simpl; constructor; auto; (split; [reflexivity|split; discriminate]). Qed.
Lemma int_digits z : Forall (fun c => space c = false /\ c <> "+"%char /\ c <> newline) (chars (int_text z)).
Proof.
  assert (U : forall d, Forall (fun c => space c = false /\ c <> "+"%char /\ c <> newline) (chars (NilZero.string_of_uint d))).
  { intros d. destruct d; try apply (uint_digits _). repeat constructor; discriminate. }
  unfold int_text. destruct (Z.to_int z); simpl; [apply U|]. constructor; [split; [reflexivity|split; discriminate]|apply U].
Qed.

(** ** Queues *)
Lemma fnv_range s : forall h, 0 <= h -> 0 <= fnv h s.
Proof. induction s as [|c r IH]; simpl; intros h H; [exact H|]. apply IH. apply Z.mod_pos_bound. lia. Qed.
Lemma hash_range s : 0 <= hash_balance s.
Proof. apply fnv_range. lia. Qed.
Lemma in_upto n i : In i (upto n) <-> 1 <= i <= n.
Proof.
  unfold upto. rewrite in_map_iff. split.
  - intros (k & <- & H). apply in_seq in H. lia.
  - intros H. exists (Z.to_nat i). split; [lia|]. apply in_seq. lia.
Qed.

Theorem queue_served c lane src : 0 < q_number c -> In (queue_of c lane src) (served c).
Proof.
  intros Hn. unfold queue_of, served. destruct (q_hot c) eqn:E; simpl; right; right.
  - destruct (String.eqb lane "hot"); simpl; apply in_or_app; [right; left; reflexivity|]. left.
    apply (in_map (fun i => (q_name c ++ "_" ++ int_text i)%string)). apply in_upto.
    pose proof (Z.rem_bound_pos (hash_balance src) (q_number c) (hash_range src) Hn). lia.
  - apply in_or_app. left. apply (in_map (fun i => (q_name c ++ "_" ++ int_text i)%string)). apply in_upto.
    pose proof (Z.rem_bound_pos (hash_balance src) (q_number c) (hash_range src) Hn). lia.
Qed.

Theorem queue_same c l1 l2 src : l1 <> "hot" -> l2 <> "hot" -> queue_of c l1 src = queue_of c l2 src.
Proof.
  intros H1 H2. unfold queue_of. apply String.eqb_neq in H1. apply String.eqb_neq in H2. rewrite H1, H2, !andb_false_r. reflexivity.
Qed.

Lemma append_inj p a b : (p ++ a = p ++ b)%string -> a = b.
Proof. induction p as [|c p IH]; simpl; intros H; [exact H|]. injection H as H. auto. Qed.
Theorem queue_distinct c l1 l2 s1 s2 : l1 <> "hot" -> l2 <> "hot" ->
  queue_of c l1 s1 = queue_of c l2 s2 -> Z.rem (hash_balance s1) (q_number c) = Z.rem (hash_balance s2) (q_number c).
Proof.
  intros H1 H2. unfold queue_of. apply String.eqb_neq in H1. apply String.eqb_neq in H2. rewrite H1, H2, !andb_false_r.
  intros H. apply append_inj in H. apply (append_inj "_") in H. apply int_text_inj in H. lia.
Qed.

(** The number of queues is one of the served ones' count: each number its own name. *)
Theorem names_distinct c : NoDup (map (fun i => (q_name c ++ "_" ++ int_text i)%string) (upto (q_number c))).
Proof.
  assert (N : NoDup (upto (q_number c))).
  { unfold upto. generalize (seq_NoDup (Z.to_nat (q_number c)) 1). generalize (seq 1 (Z.to_nat (q_number c))).
    induction l as [|x l IH]; intros H; simpl; [constructor|]. inversion H as [|? ? Hx Hl]; subst. constructor; [|auto].
    rewrite in_map_iff. intros (k & Ek & Hk). apply Nat2Z.inj in Ek. subst. contradiction. }
  induction N as [|i l Hi Hl IH]; simpl; [constructor|]. constructor; [|exact IH]. rewrite in_map_iff. intros (j & Ej & Hj).
  apply append_inj in Ej. apply (append_inj "_") in Ej. apply int_text_inj in Ej. subst. contradiction.
Qed.

(** ** Memory reports *)
Lemma lines_app a b : Forall (fun c => c <> newline) (chars a) -> lines (a ++ String newline b) = a :: lines b.
Proof.
  induction a as [|c a IH]; simpl; intros H; [reflexivity|]. inversion H as [|? ? Hc Ha]; subst.
  destruct (Ascii.eqb_spec c newline) as [E|_]; [contradiction|]. rewrite IH by exact Ha. reflexivity.
Qed.
Lemma chars_app a b : chars (a ++ b) = (chars a ++ chars b)%list.
Proof. induction a; simpl; congruence. Qed.
Lemma app_assoc_s a b c : ((a ++ b) ++ c = a ++ (b ++ c))%string.
Proof. induction a; simpl; congruence. Qed.
Lemma trim_right_app a c w : space c = false -> trim_right (a ++ String c w) = (a ++ String c (trim_right w))%string.
Proof.
  intros H. induction a as [|x a IH]; simpl.
  - destruct (trim_right w); [rewrite H|]; reflexivity.
  - rewrite IH. destruct a; reflexivity.
Qed.
Lemma trim_right_cr v : Forall (fun c => space c = false) (chars v) -> trim_right (v ++ String "013" "") = v.
Proof.
  induction v as [|c v IH]; simpl; intros H; [reflexivity|]. inversion H as [|? ? Hc Hv]; subst. rewrite IH by exact Hv.
  destruct v; [rewrite Hc|]; reflexivity.
Qed.
Lemma trim_right_id v : Forall (fun c => space c = false) (chars v) -> trim_right v = v.
Proof.
  induction v as [|c v IH]; simpl; intros H; [reflexivity|]. inversion H as [|? ? Hc Hv]; subst. rewrite IH by exact Hv.
  destruct v; [rewrite Hc|]; reflexivity.
Qed.
Lemma cut_name k w : Forall (fun c => c <> ":"%char) (chars k) -> cut (k ++ String ":" w) = Some (k, w).
Proof.
  induction k as [|c k IH]; simpl; intros H; [reflexivity|]. inversion H as [|? ? Hc Hk]; subst.
  destruct (Ascii.eqb_spec c ":") as [E|_]; [contradiction|]. rewrite IH by exact Hk. reflexivity.
Qed.
Lemma parse_int_text z : int64 z = true -> parse_int (int_text z) = z.
Proof.
  intros Hz. pose proof (int_digits z) as D. unfold parse_int.
  assert (T : trim (int_text z) = int_text z).
  { unfold trim. replace (trim_left (int_text z)) with (int_text z).
    - apply trim_right_id. eapply Forall_impl; [|exact D]. simpl; tauto.
    - destruct (int_text z) as [|c r]; [reflexivity|]. inversion D as [|? ? Hc _]; subst. simpl. destruct Hc as [-> _]. reflexivity. }
  rewrite T. cbv zeta. pose proof (int_text_back z) as B. destruct (int_text z) as [|c r]; [discriminate|].
  inversion D as [|? ? Hc _]; subst. destruct (Ascii.eqb_spec c "+") as [E|_]; [exfalso; apply (proj1 (proj2 Hc)); exact E|].
  rewrite B, of_to, Hz. reflexivity.
Qed.

(** One line of a report. *)
Definition set_field (m : memory) (k v : string) : memory :=
  if String.eqb k "used_memory" then {| m_used := parse_int v; m_max := m_max m |}
  else if String.eqb k "maxmemory" then {| m_used := m_used m; m_max := parse_int v |} else m.
Lemma parse_field m k v : field_name k -> parse_line m (k ++ ":" ++ v ++ String "013" "") = set_field m k (trim_right (v ++ String "013" "")).
Proof.
  intros [Hn Hk]. unfold parse_line.
  assert (T : trim (k ++ ":" ++ v ++ String "013" "") = (k ++ String ":" (trim_right (v ++ String "013" "")))%string).
  { unfold trim. replace (trim_left (k ++ ":" ++ v ++ String "013" "")) with (k ++ String ":" (v ++ String "013" ""))%string.
    - apply trim_right_app. reflexivity.
    - destruct k as [|c k]; [contradiction|]. inversion Hk as [|? ? Hc _]; subst. simpl. destruct Hc as [-> _]. reflexivity. }
  rewrite T. cbv zeta. assert (C : cut (k ++ String ":" (trim_right (v ++ String "013" ""))) = Some (k, trim_right (v ++ String "013" ""))).
  { apply cut_name. eapply Forall_impl; [|exact Hk]. simpl. tauto. }
  rewrite C. destruct k as [|c k]; [contradiction|]. inversion Hk as [|? ? Hc _]; subst. cbn [append].
  destruct (Ascii.eqb_spec c "#") as [E|_]; [exfalso; apply (proj2 (proj2 Hc)); exact E|]. reflexivity.
Qed.

Lemma names_one_line k : Forall (fun c => space c = false /\ c <> ":"%char /\ c <> "#"%char) (chars k) -> one_line k.
Proof. apply Forall_impl. intros c [H _] ->. discriminate. Qed.
Lemma fields_lines l : Forall (fun f => field_name (fst f) /\ one_line (snd f)) l ->
  lines (fields_text l) = (map (fun f => (fst f ++ ":" ++ snd f ++ String "013" "")%string) l ++ [""])%list.
Proof.
  induction l as [|[k v] l IH]; intros H; [reflexivity|]. inversion H as [|? ? [[_ Hk] Hv] Hl]; subst.
  assert (E : fields_text ((k, v) :: l) = ((k ++ ":" ++ v ++ String "013" "") ++ String newline (fields_text l))%string).
  { cbn [fields_text]. unfold eol. rewrite !app_assoc_s. reflexivity. }
  rewrite E, lines_app; [rewrite IH by exact Hl; reflexivity|]. rewrite !chars_app. cbn [fst snd] in Hk, Hv.
  repeat (apply Forall_app; split); [apply names_one_line, Hk|repeat constructor; discriminate|exact Hv|repeat constructor; discriminate].
Qed.

Definition clean (v : string) : string := trim_right (v ++ String "013" "").
Lemma clean_int z : clean (int_text z) = int_text z.
Proof. apply trim_right_cr. eapply Forall_impl; [|apply int_digits]. simpl. tauto. Qed.
Lemma fold_fields l : Forall (fun f => field_name (fst f) /\ one_line (snd f)) l -> forall m,
  fold_left parse_line (map (fun f => fst f ++ ":" ++ snd f ++ String "013" "") l) m
  = fold_left (fun m f => set_field m (fst f) (clean (snd f))) l m.
Proof.
  induction l as [|f l IH]; intros H m; [reflexivity|]. inversion H as [|? ? [Hk _] Hl]; subst. cbn [fold_left map].
  rewrite parse_field by exact Hk. apply IH. exact Hl.
Qed.
Lemma fold_used l : forall m, NoDup (map fst l) ->
  m_used (fold_left (fun m f => set_field m (fst f) (clean (snd f))) l m)
  = match find (fun f => String.eqb (fst f) "used_memory") l with Some f => parse_int (clean (snd f)) | None => m_used m end.
Proof.
  induction l as [|[k v] l IH]; intros m H; [reflexivity|]. inversion H as [|? ? Hk Hl]; subst. simpl. rewrite IH by exact Hl.
  destruct (String.eqb_spec k "used_memory") as [->|Hn].
  - destruct (find _ l) as [f|] eqn:F; [|reflexivity]. exfalso. apply find_some in F as [F1 F2]. apply String.eqb_eq in F2.
    apply Hk. rewrite <- F2. apply in_map. exact F1.
  - destruct (find _ l) as [f|]; [reflexivity|]. unfold set_field. apply String.eqb_neq in Hn. rewrite Hn. destruct (String.eqb k "maxmemory"); reflexivity.
Qed.
Lemma fold_max l : forall m, NoDup (map fst l) ->
  m_max (fold_left (fun m f => set_field m (fst f) (clean (snd f))) l m)
  = match find (fun f => String.eqb (fst f) "maxmemory") l with Some f => parse_int (clean (snd f)) | None => m_max m end.
Proof.
  induction l as [|[k v] l IH]; intros m H; [reflexivity|]. inversion H as [|? ? Hk Hl]; subst. simpl. rewrite IH by exact Hl.
  destruct (String.eqb_spec k "maxmemory") as [->|Hn].
  - destruct (find _ l) as [f|] eqn:F; [|reflexivity]. exfalso. apply find_some in F as [F1 F2]. apply String.eqb_eq in F2.
    apply Hk. rewrite <- F2. apply in_map. exact F1.
  - destruct (find _ l) as [f|]; [reflexivity|]. unfold set_field. apply String.eqb_neq in Hn. rewrite Hn. destruct (String.eqb k "used_memory"); reflexivity.
Qed.
Lemma find_field (l : list (string * string)) k v : NoDup (map fst l) -> In (k, v) l -> find (fun f => String.eqb (fst f) k) l = Some (k, v).
Proof.
  induction l as [|[k' v'] l IH]; intros H Hi; [contradiction|]. inversion H as [|? ? Hk Hl]; subst. simpl in *.
  destruct (String.eqb_spec k' k) as [->|Hn].
  - destruct Hi as [E|Hi]; [congruence|]. exfalso. apply Hk. apply (in_map fst) in Hi. exact Hi.
  - destruct Hi as [E|Hi]; [congruence|]. auto.
Qed.

Theorem report_read l used max : reports l used max -> int64 used = true -> int64 max = true ->
  parse_memory (report l) = {| m_used := used; m_max := max |}.
Proof.
  intros (Hf & Hn & Hu & Hm) Iu Im. unfold parse_memory, report.
  replace ("# Memory" ++ eol ++ fields_text l)%string with (("# Memory" ++ String "013" "") ++ String newline (fields_text l))%string by reflexivity.
  rewrite lines_app by (repeat constructor; discriminate). rewrite fields_lines by exact Hf. cbn [fold_left].
  rewrite fold_left_app, fold_fields by exact Hf. cbn [fold_left].
  set (m0 := parse_line _ ("# Memory" ++ String "013" "")). set (m := fold_left (fun m f => set_field m (fst f) (clean (snd f))) l m0).
  assert (E : parse_line m "" = m) by reflexivity. rewrite E. destruct m as [a b] eqn:Em.
  assert (Ea : m_used m = used).
  { unfold m. rewrite fold_used by exact Hn. rewrite (find_field l "used_memory" (int_text used)) by assumption. simpl. rewrite clean_int. apply parse_int_text, Iu. }
  assert (Eb : m_max m = max).
  { unfold m. rewrite fold_max by exact Hn. rewrite (find_field l "maxmemory" (int_text max)) by assumption. simpl. rewrite clean_int. apply parse_int_text, Im. }
  rewrite Em in Ea, Eb. simpl in Ea, Eb. congruence.
Qed.

(** ** Pressure *)
Lemma total_sum count n qs : (forall q, count q = Some (n q)) -> total count qs = Some (sum_of n qs).
Proof. intros H. induction qs as [|q r IH]; simpl; [reflexivity|]. rewrite H, IH. reflexivity. Qed.

Theorem evaluate_answers c e used max n : answers e used max n -> int64 used = true -> int64 max = true ->
  evaluate c e = Some (memory_full c {| m_used := used; m_max := max |} || ((0 <? q_max_pending c) && (q_max_pending c <=? sum_of n (counted c)))).
Proof.
  intros (H1 & (l & H2 & H3) & H4 & H5) Iu Im. unfold evaluate. rewrite H1, H2, H4, (report_read l used max H3 Iu Im).
  destruct (memory_full _ _); [reflexivity|]. rewrite andb_true_r. destruct (0 <? q_max_pending c); [|reflexivity].
  rewrite (total_sum _ n) by exact H5. reflexivity.
Qed.

(** ** The remembered verdict *)
Definition binv (c : qconfig) (y : bsys) : Prop :=
  (forall at_ v, b_cache y = Some (at_, v) -> at_ <= b_now y /\ exists te e, In (te, e) (b_evals y) /\ evaluate c e = Some v /\ te <= at_)
  /\ (forall i v, nth_error (b_thr y) i = Some (Got v) -> exists te e, In (te, e) (b_evals y) /\ evaluate c e = Some v /\ te <= b_now y)
  /\ (forall t v, In (t, v) (b_dec y) -> t <= b_now y /\
        (rests_on c y t v \/ v = false /\ (q_press c = false \/ exists e, In (t, e) (b_evals y) /\ evaluate c e = None))).
Lemma nth_replace {A} (l : list A) : forall i j a x, nth_error (replace i a l) j = Some x -> x = a \/ nth_error l j = Some x.
Proof.
  induction l as [|y l IH]; intros [|i] [|j] a x H; simpl in *; try discriminate; try (inversion H; subst; auto; fail); eapply IH; exact H.
Qed.
Lemma rests_mono c y y' t v : incl (b_evals y) (b_evals y') -> rests_on c y t v -> rests_on c y' t v.
Proof. intros Hi (te & e & ts & H & R). exists te, e, ts. split; [apply Hi, H|exact R]. Qed.

Lemma nth_snoc {A} (l : list A) a i x : nth_error (l ++ [a])%list i = Some x -> x = a \/ nth_error l i = Some x.
Proof.
  revert i. induction l as [|y l IH]; intros [|i] H; simpl in *; try (inversion H; auto; fail); auto.
  destruct i; discriminate.
Qed.

Lemma bstep_inv c y ev y' : binv c y -> bstep c y ev y' -> binv c y'.
Proof.
  intros (I1 & I2 & I3) Hs.
  assert (G3 : forall y1, incl (b_evals y) (b_evals y1) -> b_now y <= b_now y1 -> forall t v, In (t, v) (b_dec y) -> t <= b_now y1 /\
        (rests_on c y1 t v \/ v = false /\ (q_press c = false \/ exists e, In (t, e) (b_evals y1) /\ evaluate c e = None))).
  { intros y1 Hi Hn t v Hd. destruct (I3 t v Hd) as [H1 H2]. split; [lia|].
    destruct H2 as [H2|[H2 [H3|(e & H3 & H4)]]]; [left; eapply rests_mono; eauto|auto|right; split; [exact H2|right; eauto]]. }
  assert (G1 : forall evs n, incl (b_evals y) evs -> b_now y <= n -> forall at_ v, b_cache y = Some (at_, v) ->
     at_ <= n /\ exists te e, In (te, e) evs /\ evaluate c e = Some v /\ te <= at_).
  { intros evs n Hi Hn at_ v Hc. destruct (I1 _ _ Hc) as (H1 & te & e & H2 & H3 & H4). split; [lia|]. exists te, e. auto. }
  assert (G2 : forall evs n, incl (b_evals y) evs -> b_now y <= n -> forall i v, nth_error (b_thr y) i = Some (Got v) ->
     exists te e, In (te, e) evs /\ evaluate c e = Some v /\ te <= n).
  { intros evs n Hi Hn i v Hc. destruct (I2 _ _ Hc) as (te & e & H2 & H3 & H4). exists te, e. repeat split; auto; lia. }
  destruct ev as [t|i t e|i t]; simpl in Hs; destruct Hs as [Hn Hs].
  - destruct (negb (q_press c)) eqn:Ep.
    { subst y'. split; [|split]; cbn [b_cache b_thr b_now b_evals b_dec].
      - apply G1; [apply incl_refl|exact Hn].
      - intros i v H. apply nth_snoc in H as [H|H]; [discriminate|]. eapply G2; [apply incl_refl|exact Hn|exact H].
      - intros t' v [E|H]; [inversion E; subst; clear E|].
        + split; [lia|]. right. split; [reflexivity|]. left. destruct (q_press c); [discriminate|reflexivity].
        + refine (G3 (Build_bsys _ _ _ _ _) _ _ _ _ H); [apply incl_refl|exact Hn]. }
    destruct (b_cache y) as [[at_ v]|] eqn:Ec; [destruct (t - at_ <? interval c) eqn:El|]; subst y'; (split; [|split]); cbn [b_cache b_thr b_now b_evals b_dec].
    + apply G1; [apply incl_refl|exact Hn].
    + intros i v' H. apply nth_snoc in H as [H|H]; [discriminate|]. eapply G2; [apply incl_refl|exact Hn|exact H].
    + intros t' v' [E|H]; [inversion E; subst; clear E|refine (G3 (Build_bsys _ _ _ _ _) _ _ _ _ H); [apply incl_refl|exact Hn]].
      split; [lia|]. left. destruct (I1 _ _ eq_refl) as (H1 & te & e & H2 & H3 & H4). apply Z.ltb_lt in El.
      exists te, e, at_. simpl. repeat split; auto; lia.
    + apply G1; [apply incl_refl|exact Hn].
    + intros i v' H. apply nth_snoc in H as [H|H]; [discriminate|]. eapply G2; [apply incl_refl|exact Hn|exact H].
    + intros t' v' H. refine (G3 (Build_bsys _ _ _ _ _) _ _ _ _ H); [apply incl_refl|exact Hn].
    + intros ? ? H. discriminate.
    + intros i v' H. apply nth_snoc in H as [H|H]; [discriminate|]. eapply G2; [apply incl_refl|exact Hn|exact H].
    + intros t' v' H. refine (G3 (Build_bsys _ _ _ _ _) _ _ _ _ H); [apply incl_refl|exact Hn].
  - destruct Hs as [Hw Hs]. destruct (evaluate c e) as [v|] eqn:Ee; subst y'; (split; [|split]); cbn [b_cache b_thr b_now b_evals b_dec].
    + apply G1; [apply incl_tl, incl_refl|exact Hn].
    + intros j v' H. apply nth_replace in H as [H|H].
      * inversion H; subst. exists t, e. simpl. split; [left; reflexivity|]. split; [exact Ee|lia].
      * eapply G2; [apply incl_tl, incl_refl|exact Hn|exact H].
    + intros t' v' H. refine (G3 (Build_bsys _ _ _ _ _) _ _ _ _ H); [apply incl_tl, incl_refl|exact Hn].
    + apply G1; [apply incl_tl, incl_refl|exact Hn].
    + intros j v' H. apply nth_replace in H as [H|H]; [discriminate|]. eapply G2; [apply incl_tl, incl_refl|exact Hn|exact H].
    + intros t' v' [E|H]; [inversion E; subst; clear E|refine (G3 (Build_bsys _ _ _ _ _) _ _ _ _ H); [apply incl_tl, incl_refl|exact Hn]].
      split; [lia|]. right. split; [reflexivity|]. right. exists e. split; [left; reflexivity|exact Ee].
  - destruct Hs as (v & Hg & ->). split; [|split]; cbn [b_cache b_thr b_now b_evals b_dec].
    + intros at_ v' H. inversion H; subst. split; [lia|]. destruct (I2 _ _ Hg) as (te & e & H2 & H3 & H4). exists te, e. repeat split; auto; lia.
    + intros j v' H. apply nth_replace in H as [H|H]; [discriminate|]. eapply G2; [apply incl_refl|exact Hn|exact H].
    + intros t' v' [E|H]; [inversion E; subst; clear E|refine (G3 (Build_bsys _ _ _ _ _) _ _ _ _ H); [apply incl_refl|exact Hn]].
      split; [lia|]. left. destruct (I2 _ _ Hg) as (te & e & H2 & H3 & H4). exists te, e, t'. simpl. repeat split; auto; lia.
Qed.

Theorem decisions c t0 y : bsteps c (binit t0) y -> forall t v, In (t, v) (b_dec y) ->
  rests_on c y t v \/ v = false /\ (q_press c = false \/ exists e, In (t, e) (b_evals y) /\ evaluate c e = None).
Proof.
  intros H. assert (I : binv c y).
  { remember (binit t0) as y0 eqn:E. induction H as [y|y1 y2 y3 ev H IH Hs].
    - subst. split; [|split]; simpl; [discriminate| |contradiction]. intros i v Hi. destruct i; discriminate.
    - eapply bstep_inv; [apply IH, E|exact Hs]. }
  intros t v Hd. apply (proj2 (proj2 I)) in Hd. apply Hd.
Qed.
