(** An upload answered with success has stored the rows of the file. *)
From Coq Require Import QArith ZArith List String Bool Arith Lia Permutation.
From Verif Require Import ReconModel QueueModel UploadModel UploadSpec.
Import ListNotations.
Local Open Scope string_scope.
Local Open Scope nat_scope.
Local Open Scope list_scope.

(** ** Rows *)
Lemma nodup_short (l : list string) : List.length (nodup string_dec l) <= List.length l.
Proof. induction l as [|x l IH]; simpl; [lia|]. destruct (in_dec string_dec x l); simpl; lia. Qed.
Lemma nodup_full (l : list string) : List.length (nodup string_dec l) = List.length l -> NoDup l.
Proof.
  induction l as [|x l IH]; simpl; [constructor|]. pose proof (nodup_short l). destruct (in_dec string_dec x l); simpl; intros E; [lia|].
  constructor; [exact n|]. apply IH. lia.
Qed.
Lemma position_at hs name : forall i, position hs name = Some i -> exists h, nth_error hs i = Some h /\ normal h = name.
Proof.
  induction hs as [|h r IH]; simpl; [discriminate|]. intros i. destruct (position r name) as [j|] eqn:E.
  - intros [= <-]. apply (IH j eq_refl).
  - destruct (String.eqb_spec (normal h) name) as [N|N]; [|discriminate]. intros [= <-]. exists h. auto.
Qed.
Lemma required_says hs rec name v : NoDup (map normal hs) -> required hs rec name = Some v -> says hs rec name v.
Proof.
  intros Nd. unfold required. destruct (position hs name) as [i|] eqn:E; [|discriminate]. destruct (nth_error rec i) as [f|] eqn:F; [|discriminate].
  destruct (String.eqb_spec (trim f) "") as [B|B]; [discriminate|]. intros [= <-]. split; [exact B|].
  destruct (position_at _ _ _ E) as (h & H1 & H2). exists i, h, f. split; [exact H1|]. split; [exact H2|]. split; [|auto].
  intros k' h' K1 K2. apply (proj1 (NoDup_nth_error (map normal hs)) Nd).
  - apply nth_error_Some. rewrite (map_nth_error normal k' hs K1). discriminate.
  - rewrite (map_nth_error normal k' hs K1), (map_nth_error normal i hs H1). congruence.
Qed.
Lemma parse_stands c rec x : List.length rec = List.length (p_header c) -> parse c rec = Some x -> stands_for c rec x.
Proof.
  intros L. unfold parse, parse_row. destruct (Nat.eqb_spec (List.length rec) (columns (p_header c))) as [C|C]; [|discriminate]. simpl.
  assert (Nd : NoDup (map normal (p_header c))).
  { apply nodup_full. unfold columns in C. rewrite map_length. congruence. }
  destruct (required _ rec "id") as [i|] eqn:E1; [|discriminate]. destruct (required _ rec "amount") as [a|] eqn:E2; [|discriminate].
  destruct (required _ rec "currency") as [cu|] eqn:E3; [|discriminate]. destruct (required _ rec "reference") as [r|] eqn:E4; [|discriminate].
  destruct (required _ rec "description") as [d|] eqn:E5; [|discriminate]. destruct (required _ rec "date") as [t|] eqn:E6; [|discriminate].
  intros [= <-]. unfold stands_for. cbn [x_id x_cur x_ref x_desc x_source x_amount x_date].
  split; [apply required_says; assumption|]. split; [apply required_says; assumption|]. split; [apply required_says; assumption|].
  split; [apply required_says; assumption|]. split; [reflexivity|].
  split; [exists a|exists t]; (split; [apply required_says; assumption|]).
  - intros q Q. unfold parse_float. rewrite Q. reflexivity.
  - intros q Q. unfold parse_time. rewrite Q. reflexivity.
Qed.

(** ** Counting *)
Definition ext_dec (a b : option ext) : {a = b} + {a <> b}.
Proof. repeat decide equality. Defined.
Definition tally (z : option ext) (l : list (option ext)) : nat := count_occ ext_dec l z.
Fixpoint sumf (f : worker -> nat) (ws : list worker) : nat := match ws with [] => 0 | w :: r => f w + sumf f r end.
Lemma sumf_put f i w old : forall ws, nth_error ws i = Some old -> sumf f (put i w ws) + f old = sumf f ws + f w.
Proof. revert i. induction i as [|i IH]; intros [|x r] H; try discriminate; simpl in *; [injection H as <-; lia|]. specialize (IH r H). lia. Qed.
Lemma sumf_repeat f w n : f w = 0 -> sumf f (repeat w n) = 0.
Proof. intros H. induction n; simpl; lia. Qed.
Lemma sumf_zero f ws : (forall w, In w ws -> f w = 0) -> sumf f ws = 0.
Proof. induction ws as [|w r IH]; simpl; intros H; [reflexivity|]. rewrite IH by auto. rewrite (H w) by auto. reflexivity. Qed.
Lemma in_put i w x : forall ws, In x (put i w ws) -> x = w \/ In x ws.
Proof. revert i. induction i as [|i IH]; intros [|y r] H; simpl in *; auto; destruct H as [H|H]; auto. destruct (IH r H); auto. Qed.
Lemma put_other i w j : forall ws, j <> i -> nth_error (put i w ws) j = nth_error ws j.
Proof. revert i j. induction i as [|i IH]; intros [|j] [|y r] H; simpl in *; try reflexivity; try lia. apply IH. lia. Qed.

Section Pool.
Variables (c : pool) (t0 : table) (L0 : list line).

Definition parsed (l : line) : option ext := match read_line (p_header c) l with None => None | Some rec => parse c rec end.
Definition content (w : worker) : list (option ext) :=
  match w with
  | WIdle _ b | WFail _ b => map Some b
  | WGot _ b rec => map Some b ++ [parse c rec]
  | WStore _ _ rest | WLast _ rest => map Some rest
  | WFailBatch _ | WFailLast | WDone => []
  end.
Definition reading (r : reader) : list (option ext) := match r with RRow rec => [parse c rec] | _ => [] end.
Definition ahead (w : worker) : nat := match w with WStore _ b rest | WLast b rest => List.length b - List.length rest | _ => 0 end.
Definition fit (w : worker) : Prop := match w with WStore _ b rest | WLast b rest => List.length rest <= List.length b | _ => True end.
Definition failing (w : worker) : nat := match w with WFail _ _ | WFailBatch _ | WFailLast => 1 | _ => 0 end.
Definition bad (rec : list string) : nat := match parse c rec with None => 1 | Some _ => 0 end.
Definition wbad (w : worker) : nat := match w with WGot _ _ rec => bad rec | _ => 0 end.
Definition rfail (r : reader) : nat := match r with RErr => 1 | _ => 0 end.
Definition rbad (r : reader) : nat := match r with RRow rec => bad rec | _ => 0 end.
Fixpoint bads (rows : list (list string)) : nat := match rows with [] => 0 | r :: l => bad r + bads l end.
Definition over (w : worker) : Prop := match w with WLast _ _ | WFailLast | WDone => True | _ => False end.

Lemma bads_app a b : bads (a ++ b) = bads a + bads b.
Proof. induction a as [|x r IH]; simpl; [reflexivity|]. rewrite IH. lia. Qed.
Lemma tally_app z a b : tally z (a ++ b) = tally z a + tally z b.
Proof. apply count_occ_app. Qed.
Lemma tally_one z x : tally z [x] + 0 = if ext_dec x z then 1 else 0.
Proof. unfold tally. simpl. destruct (ext_dec x z); lia. Qed.
Lemma tally_cons z x l : tally z (x :: l) = tally z [x] + tally z l.
Proof. change (x :: l) with ([x] ++ l). apply tally_app. Qed.
Lemma faults_cons l r : faults c (l :: r) = (match parsed l with None => 1 | Some _ => 0 end) + faults c r.
Proof. unfold faults, parsed. cbn [filter]. unfold faulty at 1. destruct (read_line (p_header c) l) as [rec|]; [|reflexivity]. destruct (parse c rec); reflexivity. Qed.
Lemma stored_own x t : stored (p_id c) ((p_id c, x) :: t) = x :: stored (p_id c) t.
Proof. unfold stored. cbn [filter fst]. rewrite String.eqb_refl. reflexivity. Qed.

(** The books of an upload that has not been cut off. *)
Record books (s : upl) : Prop := {
  k_off : u_off s = false;
  k_alive : u_crashed s = false;
  k_shut : u_shut s = true -> u_answer s <> None;
  k_closed : u_open s = false <-> u_reader s = REnd;
  k_end : u_reader s = REnd -> u_lines s = [];
  k_over : forall w, In w (u_workers s) -> over w -> u_open s = false /\ u_rows s = [];
  k_fit : forall w, In w (u_workers s) -> fit w;
  k_number : List.length (u_workers s) = p_workers c;
  k_errs : u_errs s <= p_workers c;
  k_faults : u_errs s + rfail (u_reader s) + sumf failing (u_workers s)
             + faults c (u_lines s) + rbad (u_reader s) + bads (u_rows s) + sumf wbad (u_workers s) = faults c L0 + u_missed s;
  k_rows : u_missed s = 0 -> u_errs s = 0 -> rfail (u_reader s) = 0 -> sumf failing (u_workers s) = 0 ->
    (forall z, tally z (map parsed L0) = tally z (map parsed (u_lines s)) + tally z (reading (u_reader s)) + tally z (map (parse c) (u_rows s))
       + sumf (fun w => tally z (content w)) (u_workers s) + tally z (map Some (stored (p_id c) (u_table s))))
    /\ u_total s + sumf ahead (u_workers s) = List.length (stored (p_id c) (u_table s));
  k_answer : forall a, u_answer s = Some a -> forallb UploadModel.is_done (u_workers s) = true /\ a = (if u_errs s =? 0 then Some (u_total s) else None);
  k_keeps : forall r, In r t0 -> In r (u_table s) }.

Hypothesis Hfresh : forall r, In r t0 -> fst r <> p_id c.
Hypothesis Hw : 1 <= p_workers c.

Lemma stored_fresh t : (forall r, In r t -> fst r <> p_id c) -> stored (p_id c) t = [].
Proof.
  intros H. unfold stored. induction t as [|r l IH]; [reflexivity|]. cbn [filter]. destruct (String.eqb_spec (fst r) (p_id c)) as [E|E].
  - exfalso. apply (H r); [left; reflexivity|exact E].
  - apply IH. intros x Hx. apply H. right. exact Hx.
Qed.
Lemma in_repeat {A} (x y : A) n : In x (repeat y n) -> x = y. Proof. apply repeat_spec. Qed.
Lemma books_start : books (ustart c t0 L0).
Proof.
  constructor; simpl; auto.
  - discriminate.
  - split; discriminate.
  - discriminate.
  - intros w I O. apply in_repeat in I. subst w. destruct O.
  - intros w I. apply in_repeat in I. subst w. exact Logic.I.
  - apply repeat_length.
  - lia.
  - rewrite !sumf_repeat by reflexivity. lia.
  - intros _ _ _ _. rewrite (stored_fresh t0 Hfresh). split; [|rewrite sumf_repeat by reflexivity; reflexivity].
    intros z. rewrite sumf_repeat by reflexivity. simpl. lia.
  - discriminate.
Qed.

Lemma done_in ws i : forallb UploadModel.is_done ws = true -> forall w, nth_error ws i = Some w -> w = WDone.
Proof. intros H w E. apply nth_error_In in E. rewrite forallb_forall in H. specialize (H w E). destruct w; try discriminate H; reflexivity. Qed.

(** One worker moves. *)
Lemma books_worker s i old w rows errs total missed t : books s -> nth_error (u_workers s) i = Some old -> old <> WDone ->
  (over w -> u_open s = false /\ rows = []) -> (u_rows s = [] -> rows = []) -> fit w -> errs <= p_workers c ->
  errs + failing w + bads rows + wbad w + u_missed s = u_errs s + failing old + bads (u_rows s) + wbad old + missed ->
  (missed = 0 -> errs = 0 -> failing w = 0 -> u_missed s = 0 /\ u_errs s = 0 /\ failing old = 0
     /\ (forall z, tally z (map (parse c) rows) + tally z (content w) + tally z (map Some (stored (p_id c) t))
                   = tally z (map (parse c) (u_rows s)) + tally z (content old) + tally z (map Some (stored (p_id c) (u_table s))))
     /\ total + ahead w + List.length (stored (p_id c) (u_table s)) = u_total s + ahead old + List.length (stored (p_id c) t)) ->
  (forall r, In r (u_table s) -> In r t) ->
  books (with_worker s i w rows errs total missed t).
Proof.
  intros K E Nd O1 O2 F Le Eq Cl Kp.
  assert (An : u_answer s = None).
  { destruct (u_answer s) as [a|] eqn:A; [|reflexivity]. destruct (k_answer s K a A) as [D _]. pose proof (done_in _ _ D _ E). contradiction. }
  constructor; unfold with_worker; cbn [u_lines u_reader u_rows u_open u_errs u_shut u_workers u_total u_table u_off u_missed u_crashed u_answer].
  - apply (k_off s K).
  - apply (k_alive s K).
  - apply (k_shut s K).
  - apply (k_closed s K).
  - apply (k_end s K).
  - intros x I O. apply in_put in I as [->|I]; [auto|]. destruct (k_over s K x I O) as [A B]. auto.
  - intros x I. apply in_put in I as [->|I]; [exact F|]. apply (k_fit s K x I).
  - rewrite <- (k_number s K). generalize (u_workers s). clear. revert i. induction i as [|i IH]; intros [|x r]; simpl; auto.
  - exact Le.
  - pose proof (k_faults s K). pose proof (sumf_put failing i w old _ E). pose proof (sumf_put wbad i w old _ E). lia.
  - intros M0 E0 R0 F0. pose proof (sumf_put failing i w old _ E) as P1.
    assert (Fw : failing w = 0) by (clear -F0 E; revert i E F0; generalize (u_workers s); induction l as [|x r IH]; intros [|i] E F0; try discriminate; simpl in *; [lia|apply (IH i); [exact E|lia]]).
    destruct (Cl M0 E0 Fw) as (Cm & Ce & Cf & Ct & Cn).
    destruct (k_rows s K Cm Ce R0 ltac:(lia)) as [T N]. split.
    + intros z. rewrite T. specialize (Ct z). pose proof (sumf_put (fun w => tally z (content w)) i w old _ E) as P2. cbv beta in P2. lia.
    + pose proof (sumf_put ahead i w old _ E) as P3. lia.
  - rewrite An. discriminate.
  - intros r I. apply Kp, (k_keeps s K), I.
Qed.

Lemma store_own fine x s t : store c fine x s = Some t -> t = (p_id c, x) :: u_table s.
Proof. unfold store. destruct (_ && _); [|discriminate]. congruence. Qed.

Lemma books_step e s s' : e <> CutOff -> books s -> ustep c e s = Some s' -> books s'.
Proof.
  intros Ne K E. unfold ustep in E. rewrite (k_alive s K) in E. destruct e as [| |i fine| | |u x].
  - (* the reader *)
    assert (Op : u_reader s <> REnd -> u_open s = true).
    { intros N. destruct (u_open s) eqn:O; [reflexivity|]. exfalso. apply N, (k_closed s K), O. }
    assert (Nf : u_reader s <> REnd -> forall w, In w (u_workers s) -> ~ over w).
    { intros N w I O. destruct (k_over s K w I O) as [A _]. rewrite (Op N) in A. discriminate. }
    pose proof (k_faults s K) as Fa. pose proof (k_rows s K) as Ro.
    unfold reader_step in E. destruct (u_reader s) as [| |rec|] eqn:R; [| | |discriminate].
    + specialize (Op ltac:(discriminate)). specialize (Nf ltac:(discriminate)). destruct (u_lines s) as [|l r] eqn:L.
      * injection E as <-. constructor; cbn [with_reader u_lines u_reader u_rows u_open u_errs u_shut u_workers u_total u_table u_off u_missed u_crashed u_answer]; try apply K.
        -- split; reflexivity.
        -- reflexivity.
        -- intros w I O. destruct (Nf w I O).
        -- exact Fa.
        -- exact Ro.
      * assert (Ep : parsed l = match read_line (p_header c) l with None => None | Some rec => parse c rec end) by reflexivity.
        rewrite faults_cons in Fa. destruct (read_line (p_header c) l) as [rec|].
        -- injection E as <-. constructor; cbn [with_reader u_lines u_reader u_rows u_open u_errs u_shut u_workers u_total u_table u_off u_missed u_crashed u_answer]; try apply K.
           ++ rewrite Op. split; discriminate.
           ++ discriminate.
           ++ cbn [rfail rbad] in *. unfold bad. rewrite Ep in Fa. lia.
           ++ intros A1 A2 A3 A4. destruct (Ro A1 A2 A3 A4) as [T N]. split; [|exact N]. intros z. rewrite (T z). cbn [map reading]. rewrite tally_cons, Ep.
              simpl. lia.
        -- injection E as <-. constructor; cbn [with_reader u_lines u_reader u_rows u_open u_errs u_shut u_workers u_total u_table u_off u_missed u_crashed u_answer]; try apply K.
           ++ rewrite Op. split; discriminate.
           ++ discriminate.
           ++ cbn [rfail rbad] in *. rewrite Ep in Fa. lia.
           ++ discriminate.
    + specialize (Op ltac:(discriminate)). specialize (Nf ltac:(discriminate)).
      assert (Sh : u_shut s = false).
      { destruct (u_shut s) eqn:Sh; [|reflexivity]. exfalso. pose proof (k_shut s K Sh) as A. destruct (u_answer s) as [a|] eqn:A'; [|contradiction].
        destruct (k_answer s K a A') as [D _]. pose proof (k_number s K) as Nu. destruct (u_workers s) as [|w ws] eqn:W; [simpl in Nu; lia|].
        apply (Nf w); [left; reflexivity|]. rewrite (done_in _ 0 D w eq_refl). exact Logic.I. }
      rewrite Sh in E. destruct (Nat.ltb_spec (u_errs s) (p_workers c)) as [Lt|]; [|discriminate]. injection E as <-.
      constructor; cbn [with_reader u_lines u_reader u_rows u_open u_errs u_shut u_workers u_total u_table u_off u_missed u_crashed u_answer]; try apply K.
      * rewrite Op. split; discriminate.
      * discriminate.
      * lia.
      * cbn [rfail rbad] in *. lia.
      * discriminate.
      * intros a A. exfalso. destruct (k_answer s K a A) as [D _]. pose proof (k_number s K) as Nu. destruct (u_workers s) as [|w ws] eqn:W; [simpl in Nu; lia|].
        apply (Nf w); [left; reflexivity|]. rewrite (done_in _ 0 D w eq_refl). exact Logic.I.
    + specialize (Op ltac:(discriminate)). specialize (Nf ltac:(discriminate)).
      destruct (Nat.ltb_spec (List.length (u_rows s)) (p_room c)) as [Lt|]; [|discriminate]. injection E as <-.
      constructor; cbn [with_reader u_lines u_reader u_rows u_open u_errs u_shut u_workers u_total u_table u_off u_missed u_crashed u_answer]; try apply K.
      * rewrite Op. split; discriminate.
      * discriminate.
      * intros w I O. destruct (Nf w I O).
      * rewrite bads_app. cbn [rfail rbad bads] in *. lia.
      * intros A1 A2 A3 A4. destruct (Ro A1 A2 A3 A4) as [T N]. split; [|exact N]. intros z. rewrite (T z), map_app, tally_app. cbn [map reading]. simpl. lia.
  - unfold reader_quit in E. rewrite (k_off s K) in E. destruct (u_reader s); discriminate.
  - (* a worker *)
    unfold worker_step in E. destruct (nth_error (u_workers s) i) as [w|] eqn:W; [|discriminate].
    pose proof (k_over s K w (nth_error_In _ _ W)) as Ov. pose proof (k_fit s K w (nth_error_In _ _ W)) as Fi. pose proof (k_errs s K) as Le.
    assert (Ct : forall n b, counted c s n b = WIdle (S n) b).
    { intros n b. unfold counted. rewrite (k_off s K), andb_false_r. reflexivity. }
    destruct w as [n b|n b rec|n b|n|n b rest|b rest| |].
    + destruct (u_rows s) as [|rec r] eqn:R.
      * destruct (u_open s) eqn:O; [discriminate|]. injection E as <-. destruct b as [|x b].
        -- eapply books_worker; [exact K|exact W|discriminate|auto|auto|exact Logic.I|exact Le|rewrite R; simpl; lia| |auto].
           intros A1 A2 A3. repeat split; auto. rewrite R. simpl. auto.
        -- eapply books_worker; [exact K|exact W|discriminate|auto|auto|simpl; lia|exact Le|rewrite R; simpl; lia| |auto].
           intros A1 A2 A3. repeat split; auto; [rewrite R; auto|simpl; lia].
      * injection E as <-. eapply books_worker; [exact K|exact W|discriminate|intros []|rewrite R; discriminate|exact Logic.I|exact Le|rewrite R; simpl; lia| |auto].
        intros A1 A2 A3. repeat split; auto. rewrite R. intros z. cbn [content map]. rewrite tally_app, (tally_cons z (parse c rec) (map _ r)). lia.
    + rewrite (k_off s K) in E. destruct (parse c rec) as [x|] eqn:P.
      * destruct (p_batch c <=? List.length (b ++ [x])) eqn:B; injection E as <-.
        -- eapply books_worker; [exact K|exact W|discriminate|intros []|auto|simpl; lia|exact Le|simpl; unfold bad; rewrite P; lia| |auto].
           intros A1 A2 A3. repeat split; auto; [|simpl; lia]. intros z. cbn [content]. rewrite P, map_app. reflexivity.
        -- rewrite Ct. eapply books_worker; [exact K|exact W|discriminate|intros []|auto|exact Logic.I|exact Le|simpl; unfold bad; rewrite P; lia| |auto].
           intros A1 A2 A3. repeat split; auto. intros z. cbn [content]. rewrite P, map_app. reflexivity.
      * injection E as <-. eapply books_worker; [exact K|exact W|discriminate|intros []|auto|exact Logic.I|exact Le|simpl; unfold bad; rewrite P; lia| |auto].
        discriminate.
    + destruct (Nat.ltb_spec (u_errs s) (p_workers c)) as [Lt|]; [|discriminate]. injection E as <-.
      eapply books_worker; [exact K|exact W|discriminate|intros []|auto|exact Logic.I|lia|simpl; lia| |auto]. discriminate.
    + destruct (Nat.ltb_spec (u_errs s) (p_workers c)) as [Lt|]; [|discriminate]. injection E as <-. rewrite Ct.
      eapply books_worker; [exact K|exact W|discriminate|intros []|auto|exact Logic.I|lia|simpl; lia| |auto]. discriminate.
    + destruct rest as [|x r].
      * injection E as <-. rewrite Ct. eapply books_worker; [exact K|exact W|discriminate|intros []|auto|exact Logic.I|exact Le|simpl; lia| |auto].
        intros A1 A2 A3. repeat split; auto. simpl. lia.
      * destruct (store c fine x s) as [t|] eqn:St; injection E as <-.
        -- apply store_own in St. subst t. eapply books_worker; [exact K|exact W|discriminate|intros []|auto|simpl in *; lia|exact Le|simpl; lia| |simpl; auto].
           intros A1 A2 A3. repeat split; auto; rewrite stored_own; cbn [content map ahead List.length].
           ++ intros z. rewrite (tally_cons z (Some x) (map Some r)), (tally_cons z (Some x) (map Some (stored _ _))). lia.
           ++ simpl in Fi. lia.
        -- eapply books_worker; [exact K|exact W|discriminate|intros []|auto|exact Logic.I|exact Le|simpl; lia| |auto]. discriminate.
    + destruct (Ov Logic.I) as [O1 O2]. destruct rest as [|x r].
      * injection E as <-. eapply books_worker; [exact K|exact W|discriminate|auto|auto|exact Logic.I|exact Le|simpl; lia| |auto].
        intros A1 A2 A3. repeat split; auto. simpl. lia.
      * destruct (store c fine x s) as [t|] eqn:St; injection E as <-.
        -- apply store_own in St. subst t. eapply books_worker; [exact K|exact W|discriminate|auto|auto|simpl in *; lia|exact Le|simpl; lia| |simpl; auto].
           intros A1 A2 A3. repeat split; auto; rewrite stored_own; cbn [content map ahead List.length].
           ++ intros z. rewrite (tally_cons z (Some x) (map Some r)), (tally_cons z (Some x) (map Some (stored _ _))). lia.
           ++ simpl in Fi. lia.
        -- eapply books_worker; [exact K|exact W|discriminate|auto|auto|exact Logic.I|exact Le|simpl; lia| |auto]. discriminate.
    + destruct (Ov Logic.I) as [O1 O2]. destruct (Nat.ltb_spec (u_errs s) (p_workers c)) as [Lt|]; [|discriminate]. injection E as <-.
      eapply books_worker; [exact K|exact W|discriminate|auto|auto|exact Logic.I|lia|simpl; lia| |auto]. discriminate.
    + discriminate.
  - (* the answer *)
    unfold main_step in E. destruct (u_answer s) eqn:A; [discriminate|]. destruct (forallb UploadModel.is_done (u_workers s)) eqn:D; [|discriminate]. injection E as <-.
    constructor; cbn [u_lines u_reader u_rows u_open u_errs u_shut u_workers u_total u_table u_off u_missed u_crashed u_answer]; try apply K.
    + discriminate.
    + intros a [= <-]. auto.
  - contradiction.
  - destruct (String.eqb_spec u (p_id c)) as [U|U]; [discriminate|]. simpl in E. destruct (id_taken (x_id x) (u_table s)); [discriminate|]. injection E as <-.
    assert (St : stored (p_id c) ((u, x) :: u_table s) = stored (p_id c) (u_table s)).
    { unfold stored. cbn [filter fst]. apply String.eqb_neq in U. rewrite U. reflexivity. }
    constructor; cbn [u_lines u_reader u_rows u_open u_errs u_shut u_workers u_total u_table u_off u_missed u_crashed u_answer]; rewrite ?St; try apply K; try reflexivity.
    intros r I. right. apply (k_keeps s K r I).
Qed.

Lemma books_run : forall es s s', uncut es -> books s -> uruns c es s = Some s' -> books s'.
Proof.
  induction es as [|e r IH]; intros s s' U K E; simpl in E; [congruence|]. destruct (ustep c e s) as [s1|] eqn:E1; [|discriminate].
  apply (IH s1); [intros I; apply U; right; exact I| |exact E]. apply (books_step e s s1); [intros ->; apply U; left; reflexivity|exact K|exact E1].
Qed.

(** At the answer. *)
Lemma books_done s a : books s -> u_answer s = Some a ->
  u_lines s = [] /\ u_reader s = REnd /\ u_rows s = [] /\ (forall w, In w (u_workers s) -> w = WDone) /\ u_errs s = faults c L0 + u_missed s.
Proof.
  intros K A. destruct (k_answer s K a A) as [D _].
  assert (Al : forall w, In w (u_workers s) -> w = WDone).
  { intros w I. rewrite forallb_forall in D. specialize (D w I). destruct w; try discriminate D; reflexivity. }
  pose proof (k_number s K) as Nu. destruct (u_workers s) as [|w ws] eqn:W; [simpl in Nu; lia|]. rewrite <- W in *.
  assert (I : In w (u_workers s)) by (rewrite W; left; reflexivity).
  destruct (k_over s K w I) as [O R]; [rewrite (Al w I); exact Logic.I|].
  pose proof (proj1 (k_closed s K) O) as Re. pose proof (k_end s K Re) as Li.
  split; [exact Li|]. split; [exact Re|]. split; [exact R|]. split; [exact Al|].
  pose proof (k_faults s K) as F. rewrite Li, Re, R in F.
  rewrite !(sumf_zero _ (u_workers s)) in F by (intros x Ix; rewrite (Al x Ix); reflexivity). unfold faults in F at 1. simpl in F. lia.
Qed.

Lemma all_some (f : line -> option ext) ls xs : Permutation (map f ls) (map Some xs) -> exists ys, map f ls = map Some ys /\ Permutation xs ys.
Proof. intros H. apply Permutation_map_inv in H as (l3 & E & P). exists l3. auto. Qed.

Lemma parsed_rows : forall ls ys, map parsed ls = map Some ys -> exists recs, ls = map Fields recs /\ Forall2 (stands_for c) recs ys.
Proof.
  induction ls as [|l r IH]; intros [|x ys] E; try discriminate; [exists []; split; [reflexivity|constructor]|]. simpl in E. injection E as E1 E2.
  destruct (IH ys E2) as (recs & -> & F). unfold parsed, read_line in E1. destruct l as [fs|]; [|discriminate].
  destruct (Nat.eqb_spec (List.length fs) (List.length (p_header c))) as [L|L]; [|discriminate].
  exists (fs :: recs). split; [reflexivity|]. constructor; [apply parse_stands; assumption|exact F].
Qed.

Theorem upload_complete es n s : uncut es -> answered c t0 L0 es (Some n) s ->
  exists recs xs, L0 = map Fields recs /\ n = List.length recs /\ Permutation (stored (p_id c) (u_table s)) xs /\ Forall2 (stands_for c) recs xs
    /\ forall r, In r t0 -> In r (u_table s).
Proof.
  intros U (_ & E & A). pose proof (books_run es _ _ U books_start E) as K.
  destruct (books_done s _ K A) as (Li & Re & Ro & Al & Er). destruct (k_answer s K _ A) as [_ Q].
  destruct (Nat.eqb_spec (u_errs s) 0) as [E0|E0]; [|discriminate]. injection Q as Q.
  assert (Z : forall f, f WDone = 0 -> sumf f (u_workers s) = 0) by (intros f Hf; apply sumf_zero; intros w I; rewrite (Al w I); exact Hf).
  destruct (k_rows s K) as [T N]; [lia|exact E0|rewrite Re; reflexivity|apply Z; reflexivity|].
  rewrite (Z ahead eq_refl) in N.
  assert (P : Permutation (map parsed L0) (map Some (stored (p_id c) (u_table s)))).
  { apply (Permutation_count_occ ext_dec). intros z. pose proof (T z) as Tz. rewrite Li, Re, Ro, (Z (fun w => tally z (content w)) eq_refl) in Tz. exact Tz. }
  destruct (all_some _ _ _ P) as (ys & Ey & Py). destruct (parsed_rows _ _ Ey) as (recs & Er' & F).
  exists recs, ys. split; [exact Er'|]. split; [|split; [exact Py|split; [exact F|apply K]]].
  apply Permutation_length in Py. assert (List.length recs = List.length ys) by (clear -F; induction F; simpl; congruence). lia.
Qed.

Theorem upload_too_many es s : uncut es -> p_workers c < faults c L0 -> uruns c es (ustart c t0 L0) = Some s -> u_answer s = None.
Proof.
  intros U F E. pose proof (books_run es _ _ U books_start E) as K. destruct (u_answer s) as [a|] eqn:A; [exfalso|reflexivity].
  destruct (books_done s a K A) as (_ & _ & _ & _ & Er). pose proof (k_errs s K). lia.
Qed.

Theorem upload_refused es n s : uncut es -> answered c t0 L0 es n s -> n = None <-> faults c L0 + u_missed s <> 0.
Proof.
  intros U (_ & E & A). pose proof (books_run es _ _ U books_start E) as K. destruct (books_done s n K A) as (_ & _ & _ & _ & Er).
  destruct (k_answer s K n A) as [_ Q]. rewrite Er in Q. rewrite Q. destruct (Nat.eqb_spec (faults c L0 + u_missed s) 0) as [Z|Z]; split; intros H; try congruence; try discriminate; lia.
Qed.

Theorem upload_no_crash es s : uncut es -> uruns c es (ustart c t0 L0) = Some s -> u_crashed s = false.
Proof. intros U E. apply (k_alive _ (books_run es _ _ U books_start E)). Qed.

(** ** It goes on until it is answered *)
Lemma worker_moves s i w fine : books s -> nth_error (u_workers s) i = Some w -> w <> WDone -> u_errs s + sumf failing (u_workers s) <= p_workers c ->
  (forall n b, w = WIdle n b -> u_rows s <> [] \/ u_open s = false) -> exists s', worker_step c i fine s = Some s'.
Proof.
  intros K E Nd Le Idle.
  assert (Fw : 0 < failing w -> (u_errs s <? p_workers c) = true).
  { intros P. apply Nat.ltb_lt. pose proof (sumf_put failing i WDone w _ E) as Q. simpl in Q. lia. }
  unfold worker_step. rewrite E. destruct w as [n b|n b rec|n b|n|n b rest|b rest| |]; try contradiction.
  - destruct (u_rows s) as [|r l] eqn:R; [|eauto]. destruct (Idle n b eq_refl) as [Q|Q]; [contradiction|]. rewrite Q. eauto.
  - destruct (u_off s); [eauto|]. destruct (parse c rec); [|eauto]. destruct (_ <=? _); eauto.
  - rewrite Fw by (simpl; lia). eauto.
  - rewrite Fw by (simpl; lia). eauto.
  - destruct rest; [eauto|]. destruct (store c fine e s); eauto.
  - destruct rest; [eauto|]. destruct (store c fine e s); eauto.
  - rewrite Fw by (simpl; lia). eauto.
Qed.

Hypothesis Hr : 1 <= p_room c.

Theorem upload_moves es s : uncut es -> uruns c es (ustart c t0 L0) = Some s -> u_answer s = None -> faults c L0 + u_missed s <= p_workers c ->
  exists e s', own e = true /\ ustep c e s = Some s'.
Proof.
  intros U E A F. pose proof (books_run es _ _ U books_start E) as K. pose proof (k_faults s K) as Fa.
  assert (Le : u_errs s + sumf failing (u_workers s) <= p_workers c) by lia.
  destruct (forallb UploadModel.is_done (u_workers s)) eqn:D.
  - exists Main. eexists. split; [reflexivity|]. unfold ustep, main_step. rewrite (k_alive s K), A, D. reflexivity.
  - assert (exists i w, nth_error (u_workers s) i = Some w /\ w <> WDone) as (i & w & Ei & Nd).
    { revert D. clear. generalize (u_workers s). induction l as [|x r IH]; simpl; [discriminate|]. destruct x; simpl; intros D; try (exists 0; eexists; split; [reflexivity|discriminate]; fail).
      destruct (IH D) as (i & w & Ei & Nd). exists (S i), w. auto. }
    assert (Mv : (forall n b, w = WIdle n b -> u_rows s <> [] \/ u_open s = false) -> exists e s', own e = true /\ ustep c e s = Some s').
    { intros Id. destruct (worker_moves s i w true K Ei Nd Le Id) as (s' & Es). exists (Worker i true), s'. split; [reflexivity|].
      unfold ustep. rewrite (k_alive s K). exact Es. }
    destruct (u_rows s) as [|rec l] eqn:R; [|apply Mv; intros; left; discriminate].
    destruct (u_open s) eqn:O; [|apply Mv; auto].
    exists Reader. unfold ustep. rewrite (k_alive s K). unfold reader_step. rewrite R. destruct (u_reader s) as [| |rec|] eqn:Re.
    + destruct (u_lines s) as [|x r]; [eexists; split; reflexivity|]. destruct (read_line (p_header c) x); eexists; split; reflexivity.
    + destruct (u_shut s); [eexists; split; reflexivity|]. assert ((u_errs s <? p_workers c) = true) as ->; [|eexists; split; reflexivity].
      apply Nat.ltb_lt. simpl in Fa. lia.
    + assert ((List.length (@nil (list string)) <? p_room c) = true) as -> by (apply Nat.ltb_lt; simpl; lia). eexists; split; reflexivity.
    + exfalso. apply (k_closed s K) in Re. congruence.
Qed.

End Pool.

(** ** It ends *)
Definition weight (w : worker) : nat :=
  match w with
  | WIdle _ b => 3 * List.length b + 1
  | WGot _ b _ => 3 * List.length b + 7
  | WFail _ b => 3 * List.length b + 2
  | WFailBatch _ => 2
  | WStore _ _ rest => 2 * List.length rest + 2
  | WLast _ rest => 2 * List.length rest + 1
  | WFailLast => 1
  | WDone => 0
  end.
Definition rweight (r : reader) : nat := match r with RRead => 1 | RErr => 3 | RRow _ => 11 | REnd => 0 end.
Definition effort (s : upl) : nat :=
  12 * List.length (u_lines s) + rweight (u_reader s) + 8 * List.length (u_rows s) + sumf weight (u_workers s)
  + (match u_answer s with None => 1 | Some _ => 0 end) + (if u_crashed s then 0 else 1).

Lemma effort_worker s i old w rows errs total missed t : nth_error (u_workers s) i = Some old ->
  8 * List.length rows + weight w < 8 * List.length (u_rows s) + weight old ->
  effort (with_worker s i w rows errs total missed t) < effort s.
Proof.
  intros E H. unfold effort, with_worker. cbn [u_lines u_reader u_rows u_workers u_answer u_crashed].
  pose proof (sumf_put weight i w old _ E). lia.
Qed.
Lemma counted_weight c s n b : weight (counted c s n b) <= 3 * List.length b + 1.
Proof. unfold counted. destruct (_ && _); simpl; lia. Qed.

Lemma own_effort c e s s' : own e = true -> ustep c e s = Some s' -> effort s' < effort s.
Proof.
  intros O E. unfold ustep in E. destruct (u_crashed s) eqn:C; [discriminate|]. destruct e as [| |i fine| | |u x]; try discriminate.
  - unfold reader_step in E. destruct (u_reader s) as [| |rec|] eqn:R; [| | |discriminate].
    + destruct (u_lines s) as [|l r] eqn:L; [|destruct (read_line (p_header c) l)]; injection E as <-; unfold effort;
        cbn [with_reader u_lines u_reader u_rows u_workers u_answer u_crashed]; rewrite ?L, ?R; simpl; lia.
    + destruct (u_shut s); [injection E as <-; unfold effort, crash; cbn [u_lines u_reader u_rows u_workers u_answer u_crashed]; rewrite C; lia|].
      destruct (u_errs s <? p_workers c); [|discriminate]. injection E as <-. unfold effort.
      cbn [with_reader u_lines u_reader u_rows u_workers u_answer u_crashed]; rewrite ?R; simpl; lia.
    + destruct (_ <? _); [|discriminate]. injection E as <-. unfold effort.
      cbn [with_reader u_lines u_reader u_rows u_workers u_answer u_crashed]; rewrite ?R, app_length; simpl; lia.
  - unfold reader_quit in E. destruct (u_reader s) as [| |rec|] eqn:R; try discriminate. destruct (u_off s); [|discriminate]. injection E as <-. unfold effort.
    cbn [with_reader u_lines u_reader u_rows u_workers u_answer u_crashed]; rewrite ?R; simpl; lia.
  - unfold worker_step in E. destruct (nth_error (u_workers s) i) as [w|] eqn:W; [|discriminate].
    destruct w as [n b|n b rec|n b|n|n b rest|b rest| |].
    + destruct (u_rows s) as [|rec r] eqn:R.
      * destruct (u_open s); [discriminate|]. injection E as <-. eapply effort_worker; [exact W|]. rewrite R. destruct b; simpl; lia.
      * injection E as <-. eapply effort_worker; [exact W|]. rewrite R. simpl. lia.
    + destruct (u_off s); [injection E as <-; eapply effort_worker; [exact W|]; simpl; lia|].
      destruct (parse c rec) as [x|]; [|injection E as <-; eapply effort_worker; [exact W|]; simpl; lia].
      destruct (p_batch c <=? _); injection E as <-; (eapply effort_worker; [exact W|]).
      * cbn [weight]. rewrite app_length. simpl. lia.
      * pose proof (counted_weight c s n (b ++ [x])) as Q. rewrite app_length in Q. simpl in Q |- *. lia.
    + destruct (_ <? _); [|discriminate]. injection E as <-. eapply effort_worker; [exact W|]. simpl. lia.
    + destruct (_ <? _); [|discriminate]. injection E as <-. eapply effort_worker; [exact W|]. pose proof (counted_weight c s n []). simpl in *. lia.
    + destruct rest as [|x r]; [injection E as <-; eapply effort_worker; [exact W|]; pose proof (counted_weight c s n []); simpl in *; lia|].
      destruct (store c fine x s); injection E as <-; eapply effort_worker; [exact W| |exact W|]; simpl; lia.
    + destruct rest as [|x r]; [injection E as <-; eapply effort_worker; [exact W|]; simpl; lia|].
      destruct (store c fine x s); injection E as <-; eapply effort_worker; [exact W| |exact W|]; simpl; lia.
    + destruct (_ <? _); [|discriminate]. injection E as <-. eapply effort_worker; [exact W|]. simpl. lia.
    + discriminate.
  - unfold main_step in E. destruct (u_answer s) eqn:A; [discriminate|]. destruct (forallb _ _); [|discriminate]. injection E as <-. unfold effort.
    cbn [u_lines u_reader u_rows u_workers u_answer u_crashed]. rewrite A. lia.
Qed.
Lemma other_effort c e s s' : own e = false -> ustep c e s = Some s' -> effort s' = effort s.
Proof.
  intros O E. unfold ustep in E. destruct (u_crashed s) eqn:C; [discriminate|]. destruct e as [| |i fine| | |u x]; try discriminate.
  - injection E as <-. unfold effort. simpl. rewrite C. reflexivity.
  - destruct (_ || _); [discriminate|]. injection E as <-. unfold effort. simpl. rewrite C. reflexivity.
Qed.
Lemma runs_effort c : forall es s s', uruns c es s = Some s' -> List.length (filter own es) + effort s' <= effort s.
Proof.
  induction es as [|e r IH]; intros s s' E; simpl in E; [injection E as <-; simpl; lia|]. destruct (ustep c e s) as [s1|] eqn:E1; [|discriminate].
  specialize (IH s1 s' E). simpl. destruct (own e) eqn:O; simpl.
  - pose proof (own_effort c e s s1 O E1). lia.
  - pose proof (other_effort c e s s1 O E1). lia.
Qed.
Lemma sumf_start n : sumf weight (repeat (WIdle 0 []) n) = n.
Proof. induction n as [|n IH]; simpl; [reflexivity|]. simpl in IH. rewrite IH. reflexivity. Qed.
Theorem upload_bounded c t0 L0 es s : uruns c es (ustart c t0 L0) = Some s ->
  List.length (filter own es) <= 12 * List.length L0 + p_workers c + 3.
Proof. intros E. pose proof (runs_effort c es _ _ E) as H. unfold effort at 2, ustart in H. cbn [u_lines u_reader u_rows u_workers u_answer u_crashed] in H. rewrite sumf_start in H. simpl rweight in H. simpl List.length in H at 3. lia. Qed.

(** ** JSON *)
Lemma json_stores id source k off fine e : forall items total t n t', json_rows id source k off fine items e total t = (Some n, t') ->
  exists xs, items = map Some xs /\ n = total + List.length xs /\ t' = map (fun x => (id, as_from source x)) (rev xs) ++ t /\ e <> Garbage.
Proof.
  induction items as [|[x|] r IH]; intros total t n t' E; cbn [json_rows] in E.
  - exists []. destruct e; simpl in *; try discriminate; injection E as <- <-; repeat split; auto; discriminate.
  - cbv zeta in E. fold (as_from source x) in E. destruct (fine total && _); [|discriminate]. destruct (_ && _) in E; [discriminate|].
    destruct (IH _ _ _ _ E) as (xs & -> & -> & -> & G). exists (x :: xs). repeat split; auto; [simpl; lia|].
    cbn [rev]. rewrite map_app, <- app_assoc. reflexivity.
  - discriminate.
Qed.
Theorem json_complete id source k off fine f t n t' : json_upload id source k off fine f t = (Some n, t') ->
  exists xs, j_items f = map Some xs /\ n = List.length xs /\ t' = map (fun x => (id, as_from source x)) (rev xs) ++ t.
Proof.
  unfold json_upload. destruct (j_array f); [|discriminate]. intros E. destruct (json_stores _ _ _ _ _ _ _ _ _ _ _ E) as (xs & A & B & C & _). exists xs. auto.
Qed.
