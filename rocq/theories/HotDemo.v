(** Concrete histories of hot pairs. *)
From Coq Require Import ZArith List String Ascii Bool Lia.
From Verif Require Import Base HotModel HotSpec HotProof.
Import ListNotations.
Local Open Scope string_scope.
Open Scope Z_scope.

Definition is_ret (q : hprog) : bool := match q with HRet => true | _ => false end.
Fixpoint barlessb (s : string) : bool :=
  match s with EmptyString => true | String c r => negb (Ascii.eqb c "|") && barlessb r end.

Definition keepsb (x : proviso) (e : event) (y : system) : bool :=
  match x, e with
  | OneAtATime, EStart (JAccept p _) =>
      forallb (fun z => match z with (JAccept p' _, r) => negb (pair_eqb p' p) || is_ret r | _ => true end) (y_jobs y)
  | NoFault, EFault i _ => match nth_error (y_jobs y) i with Some (JAccept _ _, _) => false | _ => true end
  | NoLapse, ELapse _ => false
  | Names, EStart (JAccept p _) => barlessb (p_src p) && barlessb (p_dst p) && String.eqb (upper (p_cur p)) (p_cur p)
  | _, _ => true
  end.

Lemma barlessb_ok s : barlessb s = true -> barless s.
Proof.
  induction s as [|c s IH]; simpl; [auto|]. rewrite andb_true_iff, negb_true_iff, Ascii.eqb_neq. tauto.
Qed.

Lemma keepsb_ok x e y : keepsb x e y = true -> keeps x e y.
Proof.
  destruct x, e as [[p q|p]|i|i f|i|n|k|k|k]; simpl; auto; try discriminate.
  - rewrite forallb_forall. intros H q' r Hin. specialize (H _ Hin). simpl in H. apply orb_true_iff in H.
    destruct H as [H|H]; [|destruct r; simpl in H; congruence].
    apply negb_true_iff in H. exfalso. assert (pair_eqb p p = true) by now apply pair_eqb_eq. congruence.
  - intros H p q r E. rewrite E in H. discriminate.
  - rewrite !andb_true_iff, String.eqb_eq. intros [[A B] C]. repeat split; auto using barlessb_ok.
Qed.

Fixpoint checked (cfg : hot_config) (P : list proviso) (es : list event) (y : system) : bool :=
  match es with
  | [] => true
  | e :: r => forallb (fun x => keepsb x e y) P && checked cfg P r (happen cfg e y)
  end.

Lemma checked_history cfg (P : proviso -> Prop) L es : (forall x, P x -> In x L) ->
  forall pre y, history cfg P pre y -> checked cfg L es y = true -> history cfg P (pre ++ es) (play cfg es y).
Proof.
  intros HP. induction es as [|e es IH]; intros pre y H Hc; simpl in *.
  - now rewrite app_nil_r.
  - apply andb_true_iff in Hc. destruct Hc as [H1 H2]. rewrite forallb_forall in H1.
    replace (pre ++ e :: es)%list with ((pre ++ [e]) ++ es)%list by (rewrite <- app_assoc; reflexivity).
    apply IH; [|exact H2]. constructor; [exact H|]. intros x Hx. apply keepsb_ok. auto.
Qed.

Definition all4 := [OneAtATime; NoFault; NoLapse; Names].

Lemma check_all cfg es : checked cfg all4 es nothing = true -> history cfg everything es (play cfg es nothing).
Proof.
  intros H. apply (checked_history cfg everything all4 es) with (pre := []); [|constructor|exact H].
  intros [] _; simpl; auto.
Qed.

Definition drop (a : proviso) : list proviso :=
  match a with
  | OneAtATime => [NoFault; NoLapse; Names] | NoFault => [OneAtATime; NoLapse; Names]
  | NoLapse => [OneAtATime; NoFault; Names] | Names => [OneAtATime; NoFault; NoLapse]
  end.

Lemma check_but cfg a es : checked cfg (drop a) es nothing = true -> history cfg (all_but a) es (play cfg es nothing).
Proof.
  intros H. apply (checked_history cfg (all_but a) (drop a) es) with (pre := []); [|constructor|exact H].
  intros x Hx. unfold all_but in Hx. destruct a, x; simpl; auto; congruence.
Qed.

Definition waitsb (p : pair) (l : lane) (queued : bool) (y : system) : bool :=
  existsb (fun w => pair_eqb (w_pair w) p && lane_eqb (w_lane w) l && Bool.eqb (w_queued w) queued && negb (w_child w))
          (s_rows (y_store y)).

Lemma waitsb_ok p l q y : waitsb p l q y = true -> if q then waits p l y else waits_scheduled p l y.
Proof.
  unfold waitsb. rewrite existsb_exists. intros (w & Hin & H). rewrite !andb_true_iff, pair_eqb_eq, lane_eqb_eq, negb_true_iff in H.
  destruct H as [[[A B] C] D]. apply eqb_prop in C. destruct q; exists w; auto.
Qed.

(** ** Histories *)

Definition on1 : hot_config := {| h_enabled := true; h_threshold := 1 |}.
Definition ann_bob : pair := {| p_src := "bln_ann"; p_dst := "bln_bob"; p_cur := "USD" |}.
Definition ann_bob_small : pair := {| p_src := "bln_ann"; p_dst := "bln_bob"; p_cur := "usd" |}.

Fixpoint calls (n i : nat) : list event := match n with O => [] | S n => ECall i :: calls n i end.
(** Job number [i], undisturbed. *)
Definition whole (i : nat) (j : job) : list event := EStart j :: calls 5 i.

Definition busy_day : list event :=
  whole 0 (JReport ann_bob) ++ whole 1 (JAccept ann_bob true) ++ whole 2 (JAccept ann_bob true).

Lemma busy_day_ok : history on1 everything busy_day (play on1 busy_day nothing) /\ waits ann_bob LHot (play on1 busy_day nothing).
Proof. split; [apply check_all; vm_compute; reflexivity|]. apply (waitsb_ok _ _ true). vm_compute. reflexivity. Qed.

Lemma both cfg a es p : checked cfg (drop a) es nothing = true -> waitsb p LNormal true (play cfg es nothing) = true ->
  waitsb p LHot true (play cfg es nothing) = true ->
  exists es y, history cfg (all_but a) es y /\ waits p LNormal y /\ waits p LHot y.
Proof.
  intros H A B. exists es, (play cfg es nothing). split; [now apply check_but|].
  apply waitsb_ok in A, B. auto.
Qed.

(** A request that read "normal" is overtaken by the promotion and by a second request. *)
Lemma concurrent_refuted : exists es y, history on1 (all_but OneAtATime) es y /\ waits ann_bob LNormal y /\ waits ann_bob LHot y.
Proof.
  apply (both on1 OneAtATime ([EStart (JAccept ann_bob true); ECall 0] ++ whole 1 (JReport ann_bob) ++ whole 2 (JAccept ann_bob true) ++ [ECall 0]));
    vm_compute; reflexivity.
Qed.

(** One failed read of the state sends a transaction of a hot pair to the normal lane. *)
Lemma fault_refuted : exists es y, history on1 (all_but NoFault) es y /\ waits ann_bob LNormal y /\ waits ann_bob LHot y.
Proof.
  apply (both on1 NoFault (whole 0 (JReport ann_bob) ++ whole 1 (JAccept ann_bob true) ++
     [EStart (JAccept ann_bob true); EFault 2 NoEffect; ECall 2])); vm_compute; reflexivity.
Qed.

(** The state of a hot pair runs out while its transactions wait. *)
Lemma lapse_refuted : exists es y, history on1 (all_but NoLapse) es y /\ waits ann_bob LNormal y /\ waits ann_bob LHot y.
Proof.
  apply (both on1 NoLapse (whole 0 (JReport ann_bob) ++ whole 1 (JAccept ann_bob true) ++ [ELapse (pair_key ann_bob)] ++
     whole 2 (JAccept ann_bob true))); vm_compute; reflexivity.
Qed.

(** "usd" and "USD" share their state and are counted apart. *)
Lemma spelling_refuted : exists es y, history on1 (all_but Names) es y /\ waits ann_bob_small LNormal y /\ waits ann_bob_small LHot y.
Proof.
  apply (both on1 Names (whole 0 (JAccept ann_bob_small true) ++ whole 1 (JReport ann_bob) ++ whole 2 (JAccept ann_bob true) ++
     whole 3 (JAccept ann_bob_small true))); vm_compute; reflexivity.
Qed.

(** Scheduled transactions are not counted. *)
Lemma scheduled_refuted : exists es y, history on1 everything es y /\ waits_scheduled ann_bob LNormal y /\ waits ann_bob LHot y.
Proof.
  pose (es := (whole 0 (JAccept ann_bob false) ++ whole 1 (JReport ann_bob) ++ whole 2 (JAccept ann_bob true))%list).
  exists es, (play on1 es nothing). split; [apply check_all; vm_compute; reflexivity|].
  split; [apply (waitsb_ok _ _ false)|apply (waitsb_ok _ _ true)]; vm_compute; reflexivity.
Qed.

(** A pair cooling down whose posts collide again goes to the normal lane, and the
    conflicts are forgotten. *)
Definition cooled : list event :=
  whole 0 (JReport ann_bob) ++ whole 1 (JAccept ann_bob true) ++ [EQuiet (pair_key ann_bob)] ++ whole 2 (JAccept ann_bob true) ++
  [EPosted 0; EPosted 1].

Lemma cooling_refuted : exists es y, history on1 everything es y /\ (forall x, In x (y_jobs y) -> snd x = HRet) /\
  (forall l, queue_empty ann_bob l (y_store y)) /\
  let s1 := reports on1 ann_bob (Z.to_nat (threshold on1)) (y_store y) in
  added s1 (finish (accept on1 ann_bob true) s1) {| w_pair := ann_bob; w_lane := LNormal; w_queued := true; w_child := false |} /\
  s_conflicts (finish (accept on1 ann_bob true) s1) (pair_key ann_bob) = 0.
Proof.
  exists cooled, (play on1 cooled nothing). split; [apply check_all; vm_compute; reflexivity|].
  split; [|split; [|split; vm_compute; reflexivity]].
  - assert (H : forallb (fun x => is_ret (snd x)) (y_jobs (play on1 cooled nothing)) = true) by (vm_compute; reflexivity).
    rewrite forallb_forall in H. intros x Hx. specialize (H x Hx). destruct (snd x); simpl in H; congruence.
  - assert (H : forallb w_child (s_rows (y_store (play on1 cooled nothing))) = true) by (vm_compute; reflexivity).
    rewrite forallb_forall in H. intros l w Hw _ _ _. exact (H w Hw).
Qed.

(** A quiet pair with an empty queue that is still marked hot. *)
Definition quiet_day : list event :=
  whole 0 (JReport ann_bob) ++ whole 1 (JAccept ann_bob true) ++ [EPosted 0; EQuiet (pair_key ann_bob)].
Lemma quiet_day_ok : let s := y_store (play on1 quiet_day nothing) in
  complete ann_bob /\ s_mode s (pair_key ann_bob) = MHot /\ s_active s (pair_key ann_bob) = false /\ queue_empty ann_bob LHot s.
Proof.
  split; [repeat split; discriminate|]. split; [vm_compute; reflexivity|]. split; [vm_compute; reflexivity|].
  assert (H : forallb w_child (s_rows (y_store (play on1 quiet_day nothing))) = true) by (vm_compute; reflexivity).
  rewrite forallb_forall in H. intros w Hw _ _ _. exact (H w Hw).
Qed.

Lemma history_play cfg es : history cfg none_kept es (play cfg es nothing).
Proof.
  apply (checked_history cfg none_kept [] es) with (pre := []); [intros ? []|constructor|].
  generalize nothing. induction es as [|e es IH]; simpl; auto.
Qed.

Lemma quiet_day_promotes : let s := y_store (play on1 quiet_day nothing) in
  complete ann_bob /\ 0 <= s_conflicts s (pair_key ann_bob) /\ s_mode s (pair_key ann_bob) <> MCooling /\ queue_empty ann_bob LNormal s.
Proof.
  split; [repeat split; discriminate|]. split; [vm_compute; discriminate|]. split; [vm_compute; discriminate|].
  assert (H : forallb w_child (s_rows (y_store (play on1 quiet_day nothing))) = true) by (vm_compute; reflexivity).
  rewrite forallb_forall in H. intros w Hw _ _ _. exact (H w Hw).
Qed.

Lemma promoting_met : let s := reports on1 ann_bob (Z.to_nat (threshold on1)) (y_store nothing) in
  complete ann_bob /\ h_enabled on1 = true /\ s_mode s (pair_key ann_bob) = MPromoting /\ queue_empty ann_bob LNormal s.
Proof.
  repeat split; try discriminate; try reflexivity. intros w I. destruct I.
Qed.
