(** When an upload is not refused. *)
From Coq Require Import QArith ZArith List String Bool Arith Lia Permutation.
From Verif Require Import ReconModel QueueModel UploadModel UploadSpec UploadProof.
Import ListNotations.
Local Open Scope string_scope.
Local Open Scope nat_scope.
Local Open Scope list_scope.

(** ** Which lines are faulty *)
Lemma position_some hs name k h : nth_error hs k = Some h -> normal h = name -> exists i, position hs name = Some i.
Proof.
  revert k. induction hs as [|x r IH]; intros [|k] E N; try discriminate; simpl in E |- *.
  - injection E as ->. destruct (position r name); [eauto|]. rewrite N, String.eqb_refl. eauto.
  - destruct (IH k E N) as (i & ->). eauto.
Qed.
Lemma says_required hs rec name v : says hs rec name v -> required hs rec name = Some v.
Proof.
  intros (Nv & k & h & f & E & N & Un & F & T). unfold required. destruct (position_some hs name k h E N) as (i & P). rewrite P.
  destruct (position_at hs name i P) as (h' & E' & N'). rewrite (Un i h' E' N'), F. rewrite T.
  destruct (String.eqb_spec v "") as [C|C]; [contradiction|reflexivity].
Qed.
Lemma nodup_whole (l : list string) : NoDup l -> List.length (nodup string_dec l) = List.length l.
Proof. intros H. rewrite (nodup_fixed_point string_dec H). reflexivity. Qed.

Theorem faulty_means c l : faulty c l = false <-> sound_line c l.
Proof.
  unfold faulty, sound_line. destruct l as [rec|]; cbn [read_line].
  - destruct (Nat.eqb_spec (List.length rec) (List.length (p_header c))) as [L|L].
    + unfold parse, parse_row. split.
      * destruct (Nat.eqb_spec (List.length rec) (columns (p_header c))) as [C|C]; [|discriminate]. simpl.
        assert (Nd : NoDup (map normal (p_header c))) by (apply nodup_full; unfold columns in C; rewrite map_length; congruence).
        intros H. exists rec. split; [reflexivity|]. split; [exact L|]. split; [exact Nd|].
        assert (R : forall name, In name ["id"; "amount"; "currency"; "reference"; "description"; "date"] -> exists v, required (p_header c) rec name = Some v).
        { destruct (required _ rec "id") eqn:E1; [|discriminate]. destruct (required _ rec "amount") eqn:E2; [|discriminate].
          destruct (required _ rec "currency") eqn:E3; [|discriminate]. destruct (required _ rec "reference") eqn:E4; [|discriminate].
          destruct (required _ rec "description") eqn:E5; [|discriminate]. destruct (required _ rec "date") eqn:E6; [|discriminate].
          intros name I. simpl in I. repeat (destruct I as [<-|I]; [eauto|]). destruct I. }
        intros name I. destruct (R name I) as (v & Ev). exists v. apply required_says; assumption.
      * intros (rec' & [= <-] & _ & Nd & R). unfold columns. rewrite nodup_whole, map_length by exact Nd. rewrite L, Nat.eqb_refl. simpl.
        assert (Q : forall name, In name ["id"; "amount"; "currency"; "reference"; "description"; "date"] -> exists v, required (p_header c) rec name = Some v).
        { intros name I. destruct (R name I) as (v & Hv). exists v. apply says_required, Hv. }
        destruct (Q "id") as (? & ->); [simpl; tauto|]. destruct (Q "amount") as (? & ->); [simpl; tauto|]. destruct (Q "currency") as (? & ->); [simpl; tauto|].
        destruct (Q "reference") as (? & ->); [simpl; tauto|]. destruct (Q "description") as (? & ->); [simpl; tauto|]. destruct (Q "date") as (? & ->); [simpl; tauto|].
        reflexivity.
    + split; [discriminate|]. intros (rec' & [= <-] & L' & _). contradiction.
  - split; [discriminate|]. intros (rec' & E & _). discriminate E.
Qed.

(** ** Which rows the database refuses *)
Definition has_id (i : string) (o : option ext) : bool := match o with Some x => String.eqb (x_id x) i | None => false end.
Definition idc (i : string) (l : list (option ext)) : nat := List.length (filter (has_id i) l).
Lemma idc_app i a b : idc i (a ++ b) = idc i a + idc i b.
Proof. unfold idc. induction a as [|x a IH]; [reflexivity|]. simpl. destruct (has_id i x); simpl; lia. Qed.
Lemma idc_cons i x l : idc i (x :: l) = idc i [x] + idc i l.
Proof. change (x :: l) with ([x] ++ l). apply idc_app. Qed.
Definition tids (i : string) (t : table) : nat := idc i (map (fun r => Some (snd r)) t).
Definition oids (i : string) (es : list uevent) : nat := idc i (map (fun e => match e with Other _ x => Some x | _ => None end) es).
Lemma taken_count i t : id_taken i t = true -> 1 <= tids i t.
Proof.
  unfold tids. induction t as [|r t IH]; [discriminate|]. simpl. rewrite idc_cons. unfold idc at 1. cbn [filter has_id].
  destruct (String.eqb (x_id (snd r)) i); simpl; [lia|]. intros H. specialize (IH H). lia.
Qed.

Section Apart.
Variable c : pool.
Definition whole (i : string) (s : upl) : nat :=
  idc i (map (parsed c) (u_lines s)) + idc i (reading c (u_reader s)) + idc i (map (parse c) (u_rows s))
  + sumf (fun w => idc i (content c w)) (u_workers s) + tids i (u_table s).
Definition apart (es : list uevent) (s : upl) : Prop := u_off s = false /\ u_missed s = 0 /\ forall i, whole i s + oids i es <= 1.

Lemma idc_store i x t : tids i ((p_id c, x) :: t) = idc i [Some x] + tids i t.
Proof. unfold tids. cbn [map snd]. apply idc_cons. Qed.

Lemma apart_worker s j old w rows errs total t es : apart es s -> nth_error (u_workers s) j = Some old ->
  (forall i, idc i (map (parse c) rows) + idc i (content c w) + tids i t <= idc i (map (parse c) (u_rows s)) + idc i (content c old) + tids i (u_table s)) ->
  apart es (with_worker s j w rows errs total (u_missed s) t).
Proof.
  intros (A & M & B) E H. split; [exact A|]. split; [exact M|]. intros i. specialize (B i). specialize (H i).
  unfold whole, with_worker in *. cbn [u_lines u_reader u_rows u_workers u_table].
  pose proof (sumf_put (fun w => idc i (content c w)) j w old _ E) as P. cbv beta in P. lia.
Qed.

Lemma store_fine x s n b r j es : apart es s -> nth_error (u_workers s) j = Some (WStore n b (x :: r)) \/ nth_error (u_workers s) j = Some (WLast b (x :: r)) ->
  store c true x s = Some ((p_id c, x) :: u_table s).
Proof.
  intros (A & M & B) E. unfold store. rewrite A. destruct (id_taken (x_id x) (u_table s)) eqn:T; [exfalso|reflexivity].
  apply taken_count in T. specialize (B (x_id x)). unfold whole in B.
  assert (1 <= sumf (fun w => idc (x_id x) (content c w)) (u_workers s)); [|lia].
  assert (C : forall w, nth_error (u_workers s) j = Some w -> idc (x_id x) (content c w) <= sumf (fun w => idc (x_id x) (content c w)) (u_workers s)).
  { intros w. generalize (u_workers s). revert j E. clear. intros j _. revert j. induction j as [|j IH]; intros [|y l] E; try discriminate; simpl in *.
    - injection E as ->. lia.
    - specialize (IH l E). lia. }
  assert (Q : forall l : list ext, 1 <= idc (x_id x) (map Some (x :: l))).
  { intros l. cbn [map]. rewrite idc_cons. unfold idc. cbn [filter has_id]. rewrite String.eqb_refl. simpl. lia. }
  destruct E as [E|E]; specialize (C _ E); cbn [content] in C; specialize (Q r); lia.
Qed.

Lemma apart_step e es s s' : e <> CutOff -> (forall j f, e = Worker j f -> f = true) -> apart (e :: es) s -> ustep c e s = Some s' -> apart es s'.
Proof.
  intros Ne Fi K E. unfold ustep in E. destruct (u_crashed s); [discriminate|].
  assert (K' : match e with Other _ _ => True | _ => apart es s end).
  { destruct e; auto; destruct K as (A & M & B); (split; [exact A|split; [exact M|]]); intros i; exact (B i). }
  destruct e as [| |j fine| | |u x].
  - unfold reader_step in E. destruct K' as (A & M & B). destruct (u_reader s) as [| |rec|] eqn:R; [| | |discriminate].
    + destruct (u_lines s) as [|l r] eqn:L.
      * injection E as <-. split; [exact A|]. split; [exact M|]. intros i. specialize (B i). unfold whole in *.
        cbn [with_reader u_lines u_reader u_rows u_workers u_table]. rewrite L, R in B. exact B.
      * assert (Ep : parsed c l = match read_line (p_header c) l with None => None | Some rec => parse c rec end) by reflexivity.
        destruct (read_line (p_header c) l) as [rec|]; injection E as <-; (split; [exact A|split; [exact M|]]); intros i; specialize (B i); unfold whole in *;
          cbn [with_reader u_lines u_reader u_rows u_workers u_table reading] in *; rewrite L, R in B; cbn [map] in B; rewrite idc_cons, Ep in B; cbn [reading] in B; unfold idc in *; simpl in *; lia.
    + destruct (u_shut s); [|destruct (u_errs s <? p_workers c); [|discriminate]]; injection E as <-; (split; [exact A|split; [exact M|]]); intros i; specialize (B i); unfold whole in *;
        cbn [with_reader crash u_lines u_reader u_rows u_workers u_table]; rewrite ?R in *; exact B.
    + destruct (_ <? _); [|discriminate]. injection E as <-. split; [exact A|]. split; [exact M|]. intros i. specialize (B i). unfold whole in *.
      cbn [with_reader u_lines u_reader u_rows u_workers u_table]. rewrite R in B. rewrite map_app, idc_app. cbn [reading map] in *. unfold idc at 2. simpl. lia.
  - unfold reader_quit in E. destruct K' as (A & _). rewrite A in E. destruct (u_reader s); discriminate.
  - pose proof (Fi j fine eq_refl) as ->. unfold worker_step in E. destruct (nth_error (u_workers s) j) as [w|] eqn:W; [|discriminate].
    assert (A : u_off s = false) by apply K.
    assert (Ct : forall n b, counted c s n b = WIdle (S n) b).
    { intros n b. unfold counted. rewrite A, andb_false_r. reflexivity. }
    destruct w as [n b|n b rec|n b|n|n b rest|b rest| |].
    + destruct (u_rows s) as [|rec r] eqn:R.
      * destruct (u_open s); [discriminate|]. injection E as <-. eapply apart_worker; [exact K'|exact W|]. intros i. rewrite R. destruct b; simpl; lia.
      * injection E as <-. eapply apart_worker; [exact K'|exact W|]. intros i. rewrite R. cbn [map content]. rewrite idc_app, (idc_cons i (parse c rec) (map _ r)). lia.
    + rewrite A in E. destruct (parse c rec) as [x|] eqn:P.
      * destruct (p_batch c <=? _); injection E as <-; rewrite ?Ct; (eapply apart_worker; [exact K'|exact W|]); intros i; cbn [content]; rewrite P, map_app; simpl; lia.
      * injection E as <-. eapply apart_worker; [exact K'|exact W|]. intros i. cbn [content]. rewrite P, idc_app. lia.
    + destruct (_ <? _); [|discriminate]. injection E as <-. eapply apart_worker; [exact K'|exact W|]. intros i. simpl. lia.
    + destruct (_ <? _); [|discriminate]. injection E as <-. rewrite Ct. eapply apart_worker; [exact K'|exact W|]. intros i. simpl. lia.
    + destruct rest as [|x r]; [injection E as <-; rewrite Ct; eapply apart_worker; [exact K'|exact W|]; intros i; simpl; lia|].
      rewrite (store_fine x s n b r j es K' (or_introl W)) in E. injection E as <-. eapply apart_worker; [exact K'|exact W|].
      intros i. cbn [content map]. rewrite idc_store, (idc_cons i (Some x) (map Some r)). lia.
    + destruct rest as [|x r]; [injection E as <-; eapply apart_worker; [exact K'|exact W|]; intros i; simpl; lia|].
      rewrite (store_fine x s 0 b r j es K' (or_intror W)) in E. injection E as <-. eapply apart_worker; [exact K'|exact W|].
      intros i. cbn [content map]. rewrite idc_store, (idc_cons i (Some x) (map Some r)). lia.
    + destruct (_ <? _); [|discriminate]. injection E as <-. eapply apart_worker; [exact K'|exact W|]. intros i. simpl. lia.
    + discriminate.
  - unfold main_step in E. destruct (u_answer s); [discriminate|]. destruct (forallb _ _); [|discriminate]. injection E as <-.
    destruct K' as (A & M & B). split; [exact A|]. split; [exact M|exact B].
  - contradiction.
  - destruct (_ || _); [discriminate|]. injection E as <-. destruct K as (A & M & B). split; [exact A|]. split; [exact M|].
    intros i. specialize (B i). unfold whole, oids in *. cbn [u_lines u_reader u_rows u_workers u_table]. cbn [map] in B. rewrite idc_cons in B.
    unfold tids in *. cbn [map snd]. rewrite idc_cons. lia.
Qed.

Lemma apart_run : forall es s s', uncut es -> (forall j f, In (Worker j f) es -> f = true) -> apart es s -> uruns c es s = Some s' -> u_missed s' = 0.
Proof.
  induction es as [|e r IH]; intros s s' U F K E; simpl in E.
  - injection E as <-. apply K.
  - destruct (ustep c e s) as [s1|] eqn:E1; [|discriminate]. apply (IH s1); [intros I; apply U; right; exact I|intros j f I; apply (F j f); right; exact I| |exact E].
    apply (apart_step e r s s1); [intros ->; apply U; left; reflexivity| |exact K|exact E1]. intros j f ->. apply (F j f). left. reflexivity.
Qed.
End Apart.

Lemma nodup_occ i l : NoDup l -> List.length (filter (fun j => String.eqb j i) l) <= 1.
Proof.
  induction 1 as [|x l N _ IH]; simpl; [lia|]. destruct (String.eqb_spec x i) as [->|]; [|exact IH]. simpl.
  assert (E : filter (fun j => String.eqb j i) l = []); [|rewrite E; simpl; lia].
  clear IH. induction l as [|y l IH]; [reflexivity|]. simpl. destruct (String.eqb_spec y i) as [->|]; [exfalso; apply N; left; reflexivity|].
  apply IH. intros I. apply N. right. exact I.
Qed.
Lemma filter_app_length {A} (f : A -> bool) a b : List.length (filter f (a ++ b)) = List.length (filter f a) + List.length (filter f b).
Proof. induction a as [|x a IH]; simpl; [reflexivity|]. destruct (f x); simpl; lia. Qed.

Theorem upload_apart c t0 L0 es s : uncut es -> (forall j f, In (Worker j f) es -> f = true) ->
  NoDup (file_ids c L0 ++ map (fun r => x_id (snd r)) t0 ++ other_ids es) ->
  uruns c es (ustart c t0 L0) = Some s -> u_missed s = 0.
Proof.
  intros U F N E. apply (apart_run c es (ustart c t0 L0) s U F); [|exact E]. split; [reflexivity|]. split; [reflexivity|].
  intros i. pose proof (nodup_occ i _ N) as B. rewrite !filter_app_length in B.
  assert (B1 : idc i (map (parsed c) L0) = List.length (filter (fun j => String.eqb j i) (file_ids c L0))).
  { unfold idc, file_ids. clear. induction L0 as [|l r IH]; [reflexivity|]. cbn [map filter flat_map]. rewrite filter_app_length.
    unfold has_id at 1, parsed at 1, row_of. destruct (read_line (p_header c) l) as [rec|]; [|simpl; exact IH]. destruct (parse c rec) as [x|]; [|simpl; exact IH].
    cbn [filter]. destruct (String.eqb (x_id x) i); simpl; rewrite IH; reflexivity. }
  assert (B2 : tids i t0 = List.length (filter (fun j => String.eqb j i) (map (fun r => x_id (snd r)) t0))).
  { unfold tids, idc. clear. induction t0 as [|r t IH]; [reflexivity|]. cbn [map filter]. unfold has_id at 1. destruct (String.eqb (x_id (snd r)) i); simpl; rewrite IH; reflexivity. }
  assert (B3 : oids i es = List.length (filter (fun j => String.eqb j i) (other_ids es))).
  { unfold oids, idc, other_ids. clear. induction es as [|e r IH]; [reflexivity|]. cbn [map filter flat_map]. rewrite filter_app_length.
    unfold has_id at 1. destruct e as [| | | | |u x]; try (simpl; exact IH). cbn [filter]. destruct (String.eqb (x_id x) i); simpl; rewrite IH; reflexivity. }
  unfold whole, ustart. cbn [u_lines u_reader u_rows u_workers u_table reading map]. rewrite sumf_repeat by reflexivity. unfold idc at 2 3. simpl. lia.
Qed.

Theorem upload_taken c t0 L0 es n s :
  (forall r, In r t0 -> fst r <> p_id c) -> 1 <= p_workers c -> uncut es -> (forall j f, In (Worker j f) es -> f = true) ->
  NoDup (file_ids c L0 ++ map (fun r => x_id (snd r)) t0 ++ other_ids es) -> Forall (sound_line c) L0 ->
  answered c t0 L0 es n s -> n = Some (List.length L0).
Proof.
  intros Fr Hw U F N Sd An. assert (M : u_missed s = 0) by (apply (upload_apart c t0 L0 es s U F N), An).
  assert (Z : faults c L0 = 0).
  { unfold faults. clear -Sd. induction Sd as [|l r H _ IH]; [reflexivity|]. simpl. rewrite (proj2 (faulty_means c l) H). exact IH. }
  destruct n as [n|].
  - destruct (upload_complete c t0 L0 Fr Hw es n s U An) as (recs & xs & -> & -> & _). rewrite map_length. reflexivity.
  - exfalso. apply (proj1 (upload_refused c t0 L0 Fr Hw es None s U An) eq_refl). lia.
Qed.

(** ** JSON *)
Lemma json_rows_taken id source k off : forall xs e total t, e <> Garbage -> (forall n, off n = false) ->
  NoDup (map x_id xs ++ map (fun r => x_id (snd r)) t) ->
  json_rows id source k off (fun _ => true) (map Some xs) e total t = (Some (total + List.length xs), map (fun x => (id, as_from source x)) (rev xs) ++ t).
Proof.
  induction xs as [|x xs IH]; intros e total t Ne Of N; cbn [map json_rows].
  - simpl. rewrite Nat.add_0_r. destruct e; try reflexivity. contradiction.
  - cbv zeta. fold (as_from source x). cbn [as_from x_id].
    assert (T : id_taken (x_id x) t = false).
    { destruct (id_taken (x_id x) t) eqn:T; [|reflexivity]. exfalso. simpl in N. inversion N as [|a l Ni _]. apply Ni. apply in_or_app. right.
      unfold id_taken in T. apply existsb_exists in T as (r & Ir & Er). apply String.eqb_eq in Er. rewrite <- Er. apply (in_map (fun r => x_id (snd r)) t r Ir). }
    rewrite T. cbn [andb negb]. rewrite Of, andb_false_r. rewrite IH; [|exact Ne|exact Of|].
    + f_equal; [f_equal; simpl; lia|]. cbn [rev]. rewrite map_app, <- app_assoc. reflexivity.
    + cbn [map snd]. change (x_id (as_from source x)) with (x_id x). apply NoDup_Add with (a := x_id x) (l := map x_id xs ++ map (fun r => x_id (snd r)) t).
      * apply Add_app.
      * simpl in N. inversion N; auto.
Qed.
Theorem json_taken id source k off xs e t : e <> Garbage -> (forall n, off n = false) -> NoDup (map x_id xs ++ map (fun r => x_id (snd r)) t) ->
  json_upload id source k off (fun _ => true) {| j_array := true; j_items := map Some xs; j_end := e |} t
  = (Some (List.length xs), map (fun x => (id, as_from source x)) (rev xs) ++ t).
Proof. intros Ne Of N. unfold json_upload. cbn [j_array j_items j_end]. apply json_rows_taken; assumption. Qed.
