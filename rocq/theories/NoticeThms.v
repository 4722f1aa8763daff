(** What receivers of webhooks can rely on. *)
From Coq Require Import List String Bool Arith ZArith Lia Permutation.
From Verif Require Import Base BodyModel BodySpec BodyProof BodyThms BodyDemo NoticeModel NoticeSpec NoticeProof.
Import ListNotations.
Local Open Scope string_scope.
Local Open Scope nat_scope.
Local Open Scope list_scope.

(** ** Steady runs *)
Record inv_steady (w : world) : Prop := {
  s_count : forall n f, nth_error (w_facts w) n = Some f -> open w n + over w n = senders (f_what f);
  s_done : forall y, In y (w_log w) -> y_done y = true -> exists q, y_request y = Some q /\ welcome (y_reply y) = true
}.
Lemma steady_happen v e w : inv v w -> inv_steady w -> steady e -> inv_steady (happen v e w).
Proof.
  intros V [C D] S. destruct e as [f|i url ok|i|i c now r a]; cbn [happen steady] in *.
  - split; cbn [w_facts w_due w_tasks w_next w_log w_gone]; [|exact D]. intros n g H. apply fact_cases in H as [H|[-> ->]].
    + rewrite <- (C n g H). unfold open, over. cbn [w_due w_tasks w_log w_gone]. rewrite count_app, count_repeat. unfold due_of at 2. cbn [fst].
      destruct (Nat.eqb_spec (List.length (w_facts w)) n) as [E|_]; [|lia]. assert (n < List.length (w_facts w)) by (apply nth_error_Some; congruence). lia.
    + pose proof (i_count v _ (inv_fact v w f V) (List.length (w_facts w)) f) as L. cbn [happen w_facts] in L. specialize (L ltac:(rewrite nth_error_app2 by lia; rewrite Nat.sub_diag; reflexivity)).
      apply Nat.le_antisymm; [exact L|]. unfold open, over. cbn [w_due w_tasks w_log w_gone]. rewrite count_app, count_repeat. unfold due_of at 2. cbn [fst]. rewrite Nat.eqb_refl. lia.
  - destruct S as [U ->]. destruct (nth_error (w_due w) i) as [[n m]|] eqn:E; [|split; auto]. apply String.eqb_neq in U. rewrite U. cbn [negb andb].
    split; cbn [w_facts w_due w_tasks w_next w_log w_gone]; [|exact D]. intros k f H. rewrite <- (C k f H). unfold open, over. cbn [w_due w_tasks w_log w_gone].
    rewrite (count_drop (due_of k) i (w_due w) (n, m) E), count_app, count_cons. unfold due_of at 2. unfold task_of at 2. cbn [fst t_fact]. change (count (task_of k) []) with 0. lia.
  - destruct S.
  - destruct (nth_error (w_tasks w) i) as [t|] eqn:E; [|split; auto]. destruct (attempt v c now r (t_msg t)) as [q ok] eqn:At. cbn [t_left].
    assert (Dn : forall y, In y (w_log w ++ [{| y_task := t_no t; y_fact := t_fact t; y_request := q; y_reply := r; y_done := ok && a |}]) -> y_done y = true -> exists q, y_request y = Some q /\ welcome (y_reply y) = true).
    { intros y I Y. apply in_app_or in I as [I|[<-|[]]]; [apply D; auto|]. cbn in *. apply andb_prop in Y as [Y _]. unfold attempt in At. apply String.eqb_neq in S. rewrite S in At.
      destruct (body_of (t_msg t)); injection At as <- <-; [eauto|discriminate Y]. }
    assert (Ct : forall n, count (task_of n) (w_tasks w) = (if Nat.eqb (t_fact t) n then 1 else 0) + count (task_of n) (drop_nth i (w_tasks w))) by (intros n; exact (count_drop (task_of n) _ _ _ E)).
    assert (Cs : forall n d, count (settled n) (w_log w ++ [{| y_task := t_no t; y_fact := t_fact t; y_request := q; y_reply := r; y_done := d |}]) = count (settled n) (w_log w) + (if Nat.eqb (t_fact t) n && d then 1 else 0)).
    { intros n d. rewrite count_app, count_cons. unfold NoticeSpec.settled at 2. cbn [y_fact y_done]. change (count (settled n) []) with 0. lia. }
    assert (Cg : forall n l, count (given_up n) (w_gone w ++ [{| t_no := t_no t; t_fact := t_fact t; t_msg := t_msg t; t_left := l |}]) = count (given_up n) (w_gone w) + (if Nat.eqb (t_fact t) n then 1 else 0)).
    { intros n l. rewrite count_app, count_cons. unfold given_up at 2. cbn [t_fact]. change (count (given_up n) []) with 0. lia. }
    assert (Ck : forall n l, count (task_of n) (drop_nth i (w_tasks w) ++ [{| t_no := t_no t; t_fact := t_fact t; t_msg := t_msg t; t_left := l |}]) = count (task_of n) (drop_nth i (w_tasks w)) + (if Nat.eqb (t_fact t) n then 1 else 0)).
    { intros n l. rewrite count_app, count_cons. unfold task_of at 2. cbn [t_fact]. change (count (task_of n) []) with 0. lia. }
    destruct (ok && a) eqn:Ok; [|destruct (pred (t_left t)) as [|l']]; (split; cbn [w_facts w_due w_tasks w_next w_log w_gone]; [|exact Dn]); intros n f H; rewrite <- (C n f H); unfold open, over; cbn [w_due w_tasks w_log w_gone];
      rewrite Ct, Cs, ?Cg, ?Ck, ?andb_true_r, ?andb_false_r; lia.
Qed.
Theorem steady_play v es : Forall steady es -> inv_steady (play v es blank).
Proof.
  induction es as [|e es IH] using rev_ind; intros F; [split; cbn; [intros n f H; destruct n; discriminate H|intros; contradiction]|].
  apply Forall_app in F as [F1 F2]. inversion F2; subst. rewrite play_snoc. apply steady_happen; auto. apply inv_play.
Qed.

(** ** The theorems *)
Theorem announced v es n f : Forall steady es -> quiet (play v es blank) -> nth_error (w_facts (play v es blank)) n = Some f -> f_what f <> Waits ->
  (exists y q, In y (w_log (play v es blank)) /\ y_fact y = n /\ y_request y = Some q /\ welcome (y_reply y) = true) \/
  (exists k, count (fun y => Nat.eqb (y_task y) k && Nat.eqb (y_fact y) n && negb (y_done y)) (w_log (play v es blank)) = 26).
Proof.
  intros S [Q1 Q2] H W. pose proof (inv_play v es) as V. destruct (steady_play v es S) as [C D]. specialize (C n f H). set (w := play v es blank) in *. unfold open in C. rewrite Q1, Q2 in C. cbn in C.
  assert (P : 1 <= over w n) by (rewrite C; destruct (f_what f); cbn; try lia; contradiction). unfold over in P.
  destruct (count (settled n) (w_log w)) as [|k] eqn:E.
  - right. destruct (count_some (given_up n) (w_gone w)) as (t & It & Gt); [cbn in P; exact P|]. destruct (i_gone v w V t It) as (_ & G2 & G3 & _). exists (t_no t). change 26 with attempts. rewrite <- G2. unfold count. f_equal.
    apply filter_ext_in. intros y Iy. unfold failed. destruct (Nat.eqb_spec (y_task y) (t_no t)) as [Ey|]; cbn [andb]; [|reflexivity]. rewrite (G3 y Iy Ey). unfold given_up in Gt. rewrite Gt. reflexivity.
  - left. destruct (count_some (settled n) (w_log w)) as (y & Iy & Sy); [lia|]. unfold NoticeSpec.settled in Sy. apply andb_prop in Sy as [S1 S2]. apply Nat.eqb_eq in S1. destruct (D y Iy S2) as (q & Eq & Wq). exists y, q. auto.
Qed.
Theorem at_most v es n f : nth_error (w_facts (play v es blank)) n = Some f -> count (settled n) (w_log (play v es blank)) <= senders (f_what f).
Proof. intros H. pose proof (i_count v _ (inv_play v es) n f H) as C. unfold over in C. lia. Qed.

(** What is answered well is not sent again. *)
Lemma acked_done v es : Forall acked es -> forall y q, In y (w_log (play v es blank)) -> y_request y = Some q -> welcome (y_reply y) = true -> y_done y = true.
Proof.
  induction es as [|e es IH] using rev_ind; intros F; [intros y q []|]. apply Forall_app in F as [F1 F2]. inversion F2 as [|x l A _]; subst. specialize (IH F1). rewrite play_snoc. set (w := play v es blank) in *.
  intros y q I. destruct e as [f|i url ok|i|i c now r a]; cbn [happen] in I.
  - apply IH, I.
  - destruct (nth_error (w_due w) i) as [[n m]|]; apply IH, I.
  - apply IH, I.
  - destruct (nth_error (w_tasks w) i) as [t|]; [|apply IH, I]. cbn in A. subst a. destruct (attempt v c now r (t_msg t)) as [q0 ok] eqn:At. cbn [w_log] in I.
    apply in_app_or in I as [I|[<-|[]]]; [apply IH, I|]. cbn. intros -> Wl. rewrite andb_true_r. unfold attempt in At. destruct (String.eqb (c_url c) ""); [discriminate At|].
    destruct (body_of (t_msg t)); [injection At as _ <-; exact Wl|discriminate At].
Qed.
Theorem once v es a x b q f : Forall acked es -> w_log (play v es blank) = a ++ x :: b -> y_request x = Some q -> welcome (y_reply x) = true ->
  nth_error (w_facts (play v es blank)) (y_fact x) = Some f -> f_what f <> RejectedByWorker -> forall y, In y b -> y_fact y <> y_fact x.
Proof.
  intros F E Q Wl H N. pose proof (inv_play v es) as V. assert (Ix : In x (w_log (play v es blank))) by (rewrite E; apply in_or_app; right; left; reflexivity).
  pose proof (acked_done v es F x q Ix Q Wl) as Dx. eapply (i_after v _ V); eauto. destruct (i_log v _ V x Ix) as (_ & (g & Eg & Sg & _) & _). rewrite H in Eg. injection Eg as <-.
  destruct (f_what f); cbn in *; try lia; contradiction.
Qed.

(** What is sent is what happened. *)
Theorem truthful v es y q : In y (w_log (play v es blank)) -> y_request y = Some q ->
  exists f d, nth_error (w_facts (play v es blank)) (y_fact y) = Some f /\ f_what f <> Waits /\ remarshal (f_doc f) = Some d /\
    q_json q = JObj [("event", JText (name_of (f_what f))); ("data", d)] /\ q_text q = v_text v (q_json q).
Proof.
  intros I Q. destruct (i_log v _ (inv_play v es) y I) as (_ & (f & Ef & Sf & Hf) & _). destruct (Hf q Q) as (c & now & b & B & ->). unfold body_of in B. cbn [msg_of m_data m_event] in B.
  destruct (remarshal (f_doc f)) as [d|] eqn:R; [|discriminate B]. injection B as <-. exists f, d. split; [exact Ef|]. split; [intros W; rewrite W in Sf; cbn in Sf; lia|]. split; [exact R|]. split; reflexivity.
Qed.
Lemma remarshal_exact v v' : tidy v -> small v -> remarshal v = Some v' -> alike exactly v v'.
Proof.
  apply remarshal_alike.
  - intros l. rewrite small_l. induction l as [|x r IH]; intros S0; constructor; [apply S0|apply IH, S0].
  - intros l. rewrite small_o. induction l as [|[k x] r IH]; intros S0; constructor; [apply S0|apply IH, S0].
  - intros p n f [-> B] E. destruct (show_small n B) as (f' & E' & Sh). rewrite E in E'. injection E' as <-. rewrite Sh. constructor. reflexivity.
Qed.
Lemma remarshal_float v v' : tidy v -> remarshal v = Some v' -> alike as_float v v'.
Proof.
  intros T. apply (remarshal_alike as_float (fun _ => True)); auto.
  - intros; apply Forall_forall; auto.
  - intros; apply Forall_forall; auto.
  - intros p n f _ E. destruct (show_reads n f E) as (p' & m & -> & E'). constructor. unfold as_float. simpl. congruence.
Qed.
Theorem content v es y q : In y (w_log (play v es blank)) -> y_request y = Some q ->
  exists f d, nth_error (w_facts (play v es blank)) (y_fact y) = Some f /\ q_json q = JObj [("event", JText (name_of (f_what f))); ("data", d)] /\
    (tidy (f_doc f) -> alike as_float (f_doc f) d) /\ (tidy (f_doc f) -> small (f_doc f) -> alike exactly (f_doc f) d).
Proof.
  intros I Q. destruct (truthful v es y q I Q) as (f & d & Ef & _ & R & Ej & _). exists f, d. split; [exact Ef|]. split; [exact Ej|]. split; intros T.
  - eapply remarshal_float; eauto.
  - intros S. eapply remarshal_exact; eauto.
Qed.
(** All requests about one fact say the same, and those about different records differ. *)
Theorem same_text v es y y' q q' : In y (w_log (play v es blank)) -> In y' (w_log (play v es blank)) -> y_fact y = y_fact y' -> y_request y = Some q -> y_request y' = Some q' ->
  q_text q = q_text q' /\ q_json q = q_json q'.
Proof.
  intros I I' E Q Q'. destruct (truthful v es y q I Q) as (f & d & F1 & _ & R & J & T). destruct (truthful v es y' q' I' Q') as (f' & d' & F2 & _ & R' & J' & T').
  rewrite E, F2 in F1. injection F1 as ->. rewrite R in R'. injection R' as <-. rewrite T, T', J, J'. auto.
Qed.
Lemma text_kept N v v' s : alike N v v' -> v = JText s -> v' = JText s.
Proof. intros A E. subst v. inversion A. reflexivity. Qed.
Lemma field_text l d k s : tidy (JObj l) -> remarshal (JObj l) = Some d -> field k l = Some (JText s) -> exists l', d = JObj l' /\ field k l' = Some (JText s).
Proof.
  intros T R F. pose proof (remarshal_float _ _ T R) as A. inversion A as [| | | | |l0 l' A1 A2]; subst. exists l'. split; [reflexivity|]. specialize (A1 k). rewrite F in A1. inversion A1 as [|a b A3]; subst. f_equal.
  eapply text_kept; eauto.
Qed.
Theorem apart v es y y' q q' f f' l l' k s s' : In y (w_log (play v es blank)) -> In y' (w_log (play v es blank)) -> y_request y = Some q -> y_request y' = Some q' ->
  nth_error (w_facts (play v es blank)) (y_fact y) = Some f -> nth_error (w_facts (play v es blank)) (y_fact y') = Some f' ->
  f_doc f = JObj l -> f_doc f' = JObj l' -> tidy (f_doc f) -> tidy (f_doc f') -> field k l = Some (JText s) -> field k l' = Some (JText s') -> s <> s' -> q_json q <> q_json q'.
Proof.
  intros I I' Q Q' F F' Dl Dl' T T' K K' N E. destruct (truthful v es y q I Q) as (g & d & G1 & _ & R & J & _). destruct (truthful v es y' q' I' Q') as (g' & d' & G2 & _ & R' & J' & _).
  rewrite F in G1. injection G1 as <-. rewrite F' in G2. injection G2 as <-. rewrite J, J' in E. injection E as _ E. rewrite Dl in R, T. rewrite Dl' in R', T'.
  destruct (field_text _ _ _ _ T R K) as (m & -> & K1). destruct (field_text _ _ _ _ T' R' K') as (m' & -> & K1'). injection E as ->. rewrite K1 in K1'. injection K1' as ->. apply N. reflexivity.
Qed.

(** ** The signature *)
Lemma header_set k v h k' : header k' (set_header k v h) = if String.eqb (lower k) (lower k') then Some v else header k' h.
Proof.
  unfold set_header. cbn [header]. destruct (String.eqb_spec (lower k) (lower k')) as [E|E]; [reflexivity|]. induction h as [|[x u] h IH]; [reflexivity|]. cbn [filter fst].
  destruct (String.eqb_spec (lower x) (lower k)) as [X|X]; cbn [negb].
  - rewrite IH. cbn [header]. destruct (String.eqb_spec (lower x) (lower k')); [congruence|reflexivity].
  - cbn [header]. rewrite IH. reflexivity.
Qed.
Lemma header_sets k' l : forall h, (forall k v, In (k, v) l -> lower k <> lower k') -> header k' (fold_left (fun h x => set_header (fst x) (snd x) h) l h) = header k' h.
Proof.
  induction l as [|[k v] l IH]; intros h H; [reflexivity|]. cbn [fold_left fst snd]. rewrite IH by (intros a b I; apply (H a b); right; exact I). rewrite header_set.
  destruct (String.eqb_spec (lower k) (lower k')) as [E|]; [|reflexivity]. exfalso. exact (H k v (or_introl eq_refl) E).
Qed.
Lemma request_signed v c now b : c_secret c <> "" -> plain_headers c ->
  header "X-Blnk-Timestamp" (q_headers (request_of v c now b)) = Some (v_digits v now) /\
  header "X-Blnk-Signature" (q_headers (request_of v c now b)) = Some (v_mac v (c_secret c) (v_digits v now ++ "." ++ q_text (request_of v c now b))%string).
Proof.
  intros S P. unfold request_of. apply String.eqb_neq in S. rewrite S. cbn [q_headers q_text]. split.
  - rewrite header_sets by (intros k u I; apply (P k u I)). rewrite header_set. reflexivity.
  - rewrite header_sets by (intros k u I; apply (P k u I)). rewrite !header_set. reflexivity.
Qed.
Lemma request_unsigned v c now b : c_secret c = "" -> plain_headers c -> header "X-Blnk-Signature" (q_headers (request_of v c now b)) = None.
Proof. intros S P. unfold request_of. rewrite S. cbn [q_headers String.eqb]. rewrite header_sets by (intros k u I; apply (P k u I)). rewrite header_set. reflexivity. Qed.
Definition with_secret (s : string) (e : event) : Prop := match e with ETry _ c _ _ _ => c_secret c = s /\ plain_headers c | _ => True end.
Lemma requests v (P : request -> Prop) es : (forall i c now r a b, In (ETry i c now r a) es -> P (request_of v c now b)) -> forall y q, In y (w_log (play v es blank)) -> y_request y = Some q -> P q.
Proof.
  induction es as [|e es IH] using rev_ind; intros F; [intros y q []|]. rewrite play_snoc. set (w := play v es blank) in *.
  assert (IH' : forall y q, In y (w_log w) -> y_request y = Some q -> P q) by (apply IH; intros i c now r a b I; apply (F i c now r a b), in_or_app; left; exact I). clear IH.
  intros y q I. destruct e as [f|i url ok|i|i c now r a]; cbn [happen] in I.
  - apply IH', I.
  - destruct (nth_error (w_due w) i) as [[n m]|]; apply IH', I.
  - apply IH', I.
  - destruct (nth_error (w_tasks w) i) as [t|]; [|apply IH', I]. destruct (attempt v c now r (t_msg t)) as [q0 ok] eqn:At. cbn [w_log] in I. apply in_app_or in I as [I|[<-|[]]]; [apply IH', I|]. cbn. intros ->.
    unfold attempt in At. destruct (String.eqb (c_url c) ""); [discriminate At|]. destruct (body_of (t_msg t)) as [b|]; [|discriminate At]. injection At as <- _. apply (F i c now r a b), in_or_app. right. left. reflexivity.
Qed.
Theorem signed v es s : s <> "" -> Forall (with_secret s) es -> forall y q, In y (w_log (play v es blank)) -> y_request y = Some q ->
  exists stamp, header "X-Blnk-Timestamp" (q_headers q) = Some stamp /\ header "X-Blnk-Signature" (q_headers q) = Some (v_mac v s (stamp ++ "." ++ q_text q)%string).
Proof.
  intros Ns F. apply requests. intros i c now r a b I. rewrite Forall_forall in F. destruct (F _ I) as [Sc P]. exists (v_digits v now). rewrite <- Sc. apply request_signed; [congruence|exact P].
Qed.
Theorem unsigned v es : Forall (with_secret "") es -> forall y q, In y (w_log (play v es blank)) -> y_request y = Some q -> header "X-Blnk-Signature" (q_headers q) = None.
Proof.
  intros F. apply requests. intros i c now r a b I. rewrite Forall_forall in F. destruct (F _ I) as [Sc P]. apply request_unsigned; auto.
Qed.

(** ** Names *)
Theorem names s i : known s -> name_of (Posted s i) = if i then "transaction.inflight" else if String.eqb s "VOID" then "transaction.void" else "transaction.applied".
Proof. intros K. destruct i; [reflexivity|]. cbn in K. destruct K as [<-|[<-|[<-|[<-|[<-|[]]]]]]; reflexivity. Qed.

(** ** It can still be delivered *)
Theorem deliverable v es n f : Forall steady es -> nth_error (w_facts (play v es blank)) n = Some f -> f_what f <> Waits -> remarshal (f_doc f) <> None ->
  over (play v es blank) n = 0 -> exists es', Forall steady es' /\ exists y q, In y (w_log (play v (es ++ es') blank)) /\ y_fact y = n /\ y_request y = Some q /\ welcome (y_reply y) = true.
Proof.
  intros S H W R O. pose proof (inv_play v es) as V. destruct (steady_play v es S) as [C _]. specialize (C n f H).
  set (c := {| c_url := "u"; c_secret := ""; c_headers := [] |}).
  assert (Go : forall w t i, inv v w -> nth_error (w_tasks w) i = Some t -> t_fact t = n -> nth_error (w_facts w) n = Some f ->
    exists y q, In y (w_log (happen v (ETry i c 0%Z (Status 200) true) w)) /\ y_fact y = n /\ y_request y = Some q /\ welcome (y_reply y) = true).
  { intros w t i Vw Et Ft Hw. destruct (i_task v w Vw t (nth_error_In _ _ Et)) as ((g & Eg & Em & _) & _). rewrite Ft, Hw in Eg. injection Eg as <-. cbn [happen]. rewrite Et, Em. unfold attempt, body_of. cbn [c c_url String.eqb msg_of m_data m_event].
    destruct (remarshal (f_doc f)) as [d|]; [|contradiction]. cbn [w_log]. eexists _, _. split; [apply in_or_app; right; left; reflexivity|]. cbn. auto. }
  assert (P : 1 <= open (play v es blank) n) by (destruct (f_what f); cbn in C; try lia; contradiction). unfold open in P.
  destruct (count (task_of n) (w_tasks (play v es blank))) as [|k] eqn:E.
  - destruct (count_some (due_of n) (w_due (play v es blank))) as ([n' m] & Id & Dn); [lia|]. unfold due_of in Dn. cbn in Dn. apply Nat.eqb_eq in Dn. subst n'. apply In_nth_error in Id as (i & Ei).
    set (e1 := ESend i "u" true). set (w1 := happen v e1 (play v es blank)).
    assert (T1 : nth_error (w_tasks w1) (List.length (w_tasks (play v es blank))) = Some {| t_no := w_next (play v es blank); t_fact := n; t_msg := m; t_left := attempts |}).
    { unfold w1, e1. cbn [happen]. rewrite Ei. cbn [String.eqb negb andb w_tasks]. rewrite nth_error_app2 by lia. rewrite Nat.sub_diag. reflexivity. }
    exists [e1; ETry (List.length (w_tasks (play v es blank))) c 0%Z (Status 200) true]. split; [repeat constructor; discriminate|]. rewrite play_app. change (play v [e1; ETry (List.length (w_tasks (play v es blank))) c 0%Z (Status 200) true] (play v es blank))
      with (happen v (ETry (List.length (w_tasks (play v es blank))) c 0%Z (Status 200) true) w1). eapply Go; [apply inv_happen; exact V|exact T1|reflexivity|]. unfold w1, e1. cbn [happen]. rewrite Ei. exact H.
  - destruct (count_some (task_of n) (w_tasks (play v es blank))) as (t & It & Ft); [lia|]. apply Nat.eqb_eq in Ft. apply In_nth_error in It as (i & Ei).
    exists [ETry i c 0%Z (Status 200) true]. split; [repeat constructor; discriminate|]. rewrite play_snoc. eapply Go; eauto.
Qed.

(** ** As stated *)
Lemma name_told h : proper h -> name_of h = told h.
Proof. destruct h as [s i| | | | | | | |]; cbn [proper told]; intros K; try reflexivity. rewrite (names s i K). destruct i; reflexivity. Qed.
Theorem says v es y q : In y (w_log (play v es blank)) -> y_request y = Some q ->
  exists f d, nth_error (w_facts (play v es blank)) (y_fact y) = Some f /\ f_what f <> Waits /\
    q_text q = v_text v (q_json q) /\
    (proper (f_what f) -> q_json q = JObj [("event", JText (told (f_what f))); ("data", d)]) /\
    (tidy (f_doc f) -> alike as_float (f_doc f) d) /\ (tidy (f_doc f) -> small (f_doc f) -> alike exactly (f_doc f) d).
Proof.
  intros I Q. destruct (truthful v es y q I Q) as (f & d & Ef & W & R & Ej & T). exists f, d. split; [exact Ef|]. split; [exact W|]. split; [exact T|]. split; [intros P; rewrite <- (name_told _ P); exact Ej|]. split; intros Y.
  - eapply remarshal_float; eauto.
  - intros S. eapply remarshal_exact; eauto.
Qed.
Theorem still v es n f : Forall steady es -> nth_error (w_facts (play v es blank)) n = Some f -> f_what f <> Waits -> remarshal (f_doc f) <> None ->
  count (settled n) (w_log (play v es blank)) = 0 -> count (given_up n) (w_gone (play v es blank)) = 0 ->
  exists es', Forall steady es' /\ exists y q, In y (w_log (play v (es ++ es') blank)) /\ y_fact y = n /\ y_request y = Some q /\ welcome (y_reply y) = true.
Proof. intros S H W R A B. eapply deliverable; eauto. unfold over. rewrite A, B. reflexivity. Qed.
Theorem held_out v es n f : nth_error (w_facts (play v es blank)) n = Some f -> f_what f = Waits -> forall y, In y (w_log (play v es blank)) -> y_fact y <> n.
Proof.
  intros H W y I E. destruct (i_log v _ (inv_play v es) y I) as (_ & (g & Eg & Sg & _) & _). rewrite E, H in Eg. injection Eg as <-. rewrite W in Sg. cbn in Sg. lia.
Qed.
