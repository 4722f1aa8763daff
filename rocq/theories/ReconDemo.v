(** Reconciliations played out. *)
From Coq Require Import ZArith QArith Qabs List String Ascii Bool Lia Permutation.
From Verif Require Import Base ReconModel ReconSpec ReconRules ReconSteps ReconCount ReconSound.
Import ListNotations.
Local Open Scope string_scope.
Local Open Scope list_scope.

(** ** Checking a history *)

Definition faultlessb (m : move) : bool :=
  match m with
  | MFetch ok | MMatches _ ok | MUnmatched _ ok | MMain _ ok | MInner _ (SFetch ok) | MInner _ (GRead ok) => ok
  | _ => true
  end.
Definition keepsb (cfg : rconfig) (x : proviso) (e : event) (y : system) : bool :=
  match x, e with
  | NoFault, ERun _ m => faultlessb m
  | OwnPages, EStart _ _ | FreshGroups, EStart _ _ => match y_runs y with [] => true | _ => false end
  | Settled, EUpload u _ => forallb (fun r => negb (String.eqb (j_upload (r_job r)) u)) (y_runs y)
  | OnePage, EPost _ => (List.length (d_int (y_store y)) <? c_batch cfg)%nat
  | _, _ => true
  end.
Fixpoint checked (cfg : rconfig) (f : list proviso) (es : list event) (y : system) : bool :=
  match es with
  | [] => true
  | e :: r => forallb (fun x => keepsb cfg x e y) f && checked cfg f r (happen cfg e y)
  end.

Lemma no_runs_no_pages cfg P es y : history cfg P es y -> y_runs y = [] -> forall k, d_cache (y_store y) k = None.
Proof.
  apply (history_inv _ _ (fun y => y_runs y = [] -> forall k, d_cache (y_store y) k = None)); [reflexivity|].
  intros z e y' Hz _ Hs. inversion Hs; subst; clear Hs; auto; simpl.
  - intros H k0. unfold put_key. destruct (key_eqb _ _); auto.
  - intros H. apply Hz. destruct (y_runs z); [reflexivity|discriminate].
  - intros H. destruct (y_runs z); discriminate.
  - intros H3. destruct (y_runs z); [destruct i; discriminate|destruct i; discriminate].
Qed.

Lemma faultlessb_ok m : faultlessb m = true -> faultless m.
Proof. destruct m as [| | |w []| | | | | |]; simpl; auto. Qed.

Lemma keepsb_ok cfg P es y x e : history cfg P es y -> keepsb cfg x e y = true -> keeps cfg x e y.
Proof.
  intros H. destruct x, e; cbn [keepsb keeps]; auto.
  - apply faultlessb_ok.
  - destruct (y_runs y) eqn:E; [|discriminate]. intros _. split; [|intros r []]. intros off. eapply no_runs_no_pages; eauto.
  - intros X r Hr. rewrite forallb_forall in X. apply X, negb_true_iff, String.eqb_neq in Hr. exact Hr.
  - intros X. now apply Nat.ltb_lt.
  - destruct (y_runs y) eqn:E; [|discriminate]. intros _ c off. eapply no_runs_no_pages; eauto.
Qed.

Lemma checked_from cfg (P : proviso -> Prop) f es : (forall x, P x -> In x f) ->
  forall pre y, history cfg P pre y -> checked cfg f es y = true -> history cfg P (pre ++ es) (play cfg es y).
Proof.
  intros HP. induction es as [|e es IH]; intros pre y H C; cbn [play checked] in *; [now rewrite app_nil_r|].
  apply andb_true_iff in C. destruct C as [C1 C2]. rewrite forallb_forall in C1.
  replace (pre ++ e :: es) with ((pre ++ [e]) ++ es) by (rewrite <- app_assoc; reflexivity).
  apply IH; [|exact C2]. constructor; [exact H|]. intros x Hx. eapply keepsb_ok; eauto.
Qed.
Lemma checked_history cfg (P : proviso -> Prop) f es : (forall x, P x -> In x f) -> checked cfg f es nothing = true ->
  history cfg P es (play cfg es nothing).
Proof. intros HP C. apply (checked_from cfg P f es HP [] nothing); [constructor|exact C]. Qed.

Definition all_five : list proviso := [NoFault; OwnPages; Settled; OnePage; FreshGroups].
Lemma in_all x : In x all_five.
Proof. destruct x; simpl; auto 6. Qed.
Definition but (a : proviso) : list proviso :=
  match a with
  | NoFault => [OwnPages; Settled; OnePage; FreshGroups]
  | OwnPages => [NoFault; Settled; OnePage; FreshGroups]
  | Settled => [NoFault; OwnPages; OnePage; FreshGroups]
  | OnePage => [NoFault; OwnPages; Settled; FreshGroups]
  | FreshGroups => [NoFault; OwnPages; Settled; OnePage]
  end.
Lemma in_but a x : all_but a x -> In x (but a).
Proof. unfold all_but. destruct a, x; simpl; intuition congruence. Qed.

Ltac conjs := repeat match goal with |- _ /\ _ => split end.

(** ** Material *)

Definition tx (id : string) (amount : Z) (cur ref : string) : entry :=
  {| n_id := id; n_amount := inject_Z amount; n_date := 0; n_desc := ""; n_ref := ref; n_cur := cur; n_col := fun _ => "" |}.
Definition same_amount : rule := [{| k_field := "amount"; k_op := "equals"; k_drift := 0%Q |}].
Definition same_currency : rule := [{| k_field := "currency"; k_op := "equals"; k_drift := 0%Q |}].
Definition same_reference : rule := [{| k_field := "reference"; k_op := "equals"; k_drift := 0%Q |}].
Definition task (up strategy : string) (rules : list rule) : job :=
  {| j_upload := up; j_strategy := strategy; j_group := "reference"; j_rules := rules; j_dry := false |}.
Definition cfg1 : rconfig := {| c_workers := 1; c_batch := 10 |}.
Definition cfg2 : rconfig := {| c_workers := 2; c_batch := 10 |}.
Definition page1 : rconfig := {| c_workers := 1; c_batch := 1 |}.
Definition page2w2 : rconfig := {| c_workers := 2; c_batch := 2 |}.
Definition of_run (i : nat) (ms : list move) : list event := map (ERun i) ms.
(* reading an upload of n transactions that fit in a page *)
Definition reading (n : nat) : list move := MFetch true :: repeat MPut n ++ [MFetch true].
Definition record (w : nat) : list move := [MAnswer w; MMatches w true; MUnmatched w true].
(* the first of n candidates matches *)
Definition hit (n : nat) : list move :=
  [MTake 0; MInner 0 (SFetch true)] ++ repeat (MInner 0 SPut) n ++ [MInner 0 (SWork 0); MInner 0 (SWork 0); MInner 0 (SMain false)] ++ record 0.
Definition miss : list move :=
  [MTake 0; MInner 0 (SFetch true); MInner 0 (SWork 0); MInner 0 (SMain false)] ++ record 0.
Definition finish : list move := [MTake 0; MMain false true].

(** One uploaded transaction has a counterpart, the other has none. *)
Definition two_uploaded : list event :=
  [EPost (tx "t1" 10 "USD" "r1"); EPost (tx "t2" 7 "USD" "r2"); EUpload "A" (tx "a1" 10 "USD" "x"); EUpload "A" (tx "a2" 99 "USD" "y")].
Definition plain_job : job := task "A" "one_to_one" [same_amount].
Definition plain_run : list event :=
  two_uploaded ++ EStart plain_job true :: of_run 0 (reading 2 ++ hit 1 ++ miss ++ finish).
Definition plain : system := play cfg1 plain_run nothing.

Lemma plain_history : history cfg1 everything plain_run plain.
Proof. apply (checked_history cfg1 everything all_five); [intros; apply in_all|]. vm_compute. reflexivity. Qed.
Lemma plain_rows : run_is plain 0 plain_job /\ completed plain 0 1 1
  /\ matches_of plain 0 = [{| m_recon := 0; m_ext := "a1"; m_int := "t1" |}] /\ unmatched_of plain 0 = ["a2"].
Proof. conjs; [eexists; split; vm_compute; reflexivity|..]; vm_compute; reflexivity. Qed.
Lemma plain_uploads : uploaded plain "A" (tx "a1" 10 "USD" "x") /\ uploaded plain "A" (tx "a2" 99 "USD" "y") /\ sensible cfg1.
Proof. conjs; [vm_compute; auto..|unfold sensible; simpl; lia]. Qed.
Lemma plain_reach : posted_before plain 0 (tx "t2" 7 "USD" "r2") /\ within_reach [same_amount] same_amount (tx "a2" 99 "USD" "y") (tx "t2" 7 "USD" "r2").
Proof.
  split; [eexists; split; [vm_compute; reflexivity|]; vm_compute; auto|]. split; [right|split; [left|right]].
  - split; [eexists; split; [left; reflexivity|]; split; [split; reflexivity|vm_compute; discriminate]|]. vm_compute. discriminate.
  - intros r c [<-|[]] [<-|[]] [H _]. discriminate.
  - reflexivity.
Qed.

(** A dry run of the same. *)
Definition dry_job : job := {| j_upload := "A"; j_strategy := "one_to_one"; j_group := "reference"; j_rules := [same_amount]; j_dry := true |}.
Definition dry_hit : list move :=
  [MTake 0; MInner 0 (SFetch true); MInner 0 SPut; MInner 0 (SWork 0); MInner 0 (SWork 0); MInner 0 (SMain false); MAnswer 0].
Definition dry_run : list event := two_uploaded ++ EStart dry_job true :: of_run 0 (reading 2 ++ dry_hit).
Definition dry : system := play cfg1 dry_run nothing.
Lemma dry_history : history cfg1 everything dry_run dry /\ run_is dry 0 dry_job /\ exists r, nth_error (y_runs dry) 0 = Some r /\ r_matched r = 1%nat.
Proof.
  split; [|split; eexists; split; vm_compute; reflexivity].
  apply (checked_history cfg1 everything all_five); [intros; apply in_all|]. vm_compute. reflexivity.
Qed.

(** Two internal transactions of one reference make up one uploaded one. *)
Definition group_job : job := task "A" "one_to_many" [same_amount].
Definition group_hit (k : string) : list move :=
  [MTake 0; MInner 0 (GRead true); MInner 0 (GGo 0 k); MInner 0 GCheck; MInner 0 (GRead true)] ++ record 0.
Definition group_miss : list move :=
  [MTake 0; MInner 0 (GRead true); MInner 0 (GGo 0 ""); MInner 0 (GGo 0 ""); MInner 0 GCheck; MInner 0 (GRead true)] ++ record 0.
Definition group_run : list event :=
  [EPost (tx "t1" 4 "USD" "r1"); EPost (tx "t2" 7 "USD" "r2"); EPost (tx "t3" 6 "USD" "r1");
   EUpload "A" (tx "a1" 10 "USD" "x"); EUpload "A" (tx "a2" 99 "USD" "y")]
  ++ EStart group_job true :: of_run 0 (reading 2 ++ group_hit "r1" ++ group_miss ++ finish).
Definition groups : system := play cfg1 group_run nothing.
Lemma group_history : history cfg1 everything group_run groups.
Proof. apply (checked_history cfg1 everything all_five); [intros; apply in_all|]. vm_compute. reflexivity. Qed.
Lemma group_rows_of : run_is groups 0 group_job /\ completed groups 0 2 1
  /\ matched_to groups 0 "a1" = ["t1"; "t3"] /\ matched_to groups 0 "a2" = [] /\ times_unmatched groups 0 "a2" = 1%nat
  /\ uploaded groups "A" (tx "a1" 10 "USD" "x") /\ uploaded groups "A" (tx "a2" 99 "USD" "y").
Proof. conjs; [eexists; split; vm_compute; reflexivity|..]; vm_compute; auto. Qed.

(** ** What goes wrong *)

(** The transactions of another upload. *)
Definition other_first : list event :=
  [EUpload "A" (tx "a1" 99 "USD" "x"); EUpload "B" (tx "b1" 98 "USD" "y"); EStart (task "A" "one_to_one" [same_amount]) true]
  ++ of_run 0 (reading 1 ++ miss ++ finish).
Definition job_b : job := task "B" "one_to_one" [same_amount].
Definition other_then : list event := of_run 1 (reading 1 ++ miss ++ finish).
Definition other_run : list event := (other_first ++ [EStart job_b true]) ++ other_then.
Definition other : system := play cfg1 other_then (happen cfg1 (EStart job_b true) (play cfg1 other_first nothing)).
Lemma other_history : history cfg1 (all_but OwnPages) other_run other.
Proof.
  apply (checked_from cfg1 (all_but OwnPages) (but OwnPages) other_then); [apply in_but| |vm_compute; reflexivity].
  constructor; [apply (checked_history cfg1 (all_but OwnPages) (but OwnPages)); [apply in_but|vm_compute; reflexivity]|].
  intros [] X; cbn [keeps]; try exact I; try (now elim X). intros c off. vm_compute. reflexivity.
Qed.
Lemma other_upload : exists cfg es y i j m u e e', sensible cfg /\ history cfg (all_but OwnPages) es y /\ run_is y i j
  /\ j_strategy j = "one_to_one" /\ j_dry j = false /\ completed y i m u
  /\ uploaded y (j_upload j) e /\ matched_to y i (n_id e) = [] /\ times_unmatched y i (n_id e) = O
  /\ (forall v, uploaded y v e' -> v <> j_upload j) /\ times_unmatched y i (n_id e') = 1%nat.
Proof.
  exists cfg1, other_run, other, 1%nat, job_b, 0%nat, 1%nat, (tx "b1" 98 "USD" "y"), (tx "a1" 99 "USD" "x").
  split; [split; cbn; lia|]. split; [exact other_history|].
  split; [eexists; split; vm_compute; reflexivity|]. conjs; try match goal with |- _ = _ => vm_compute; reflexivity | |- completed _ _ _ _ => vm_compute; reflexivity end.
  - vm_compute. auto.
  - intros v H. vm_compute in H. destruct H as [H|[H|[]]]; injection H as <-; vm_compute; discriminate.
Qed.

(** Groups as they were before the reconciliation started. *)
Definition stale_first : list event :=
  [EPost (tx "t1" 4 "USD" "r1"); EUpload "A" (tx "a1" 10 "USD" "x"); EUpload "B" (tx "b1" 10 "USD" "y"); EStart group_job true]
  ++ of_run 0 (reading 1 ++ group_miss ++ finish) ++ [EPost (tx "t2" 10 "USD" "r2"); EExpire (KExt 0)].
Definition group_b : job := task "B" "one_to_many" [same_amount].
Definition stale_then : list event := of_run 1 (reading 1 ++ group_miss ++ finish).
Definition stale_run : list event := (stale_first ++ [EStart group_b true]) ++ stale_then.
Definition stale : system := play cfg1 stale_then (happen cfg1 (EStart group_b true) (play cfg1 stale_first nothing)).
Lemma all_gone_now l : forallb (fun r => fetcher_gone (r_fetch r)) l = true -> forall r, In r l -> r_fetch r = FGone.
Proof. intros H r Hr. rewrite forallb_forall in H. apply H in Hr. destruct (r_fetch r); [discriminate..|reflexivity]. Qed.
Lemma stale_history : history cfg1 (all_but FreshGroups) stale_run stale.
Proof.
  apply (checked_from cfg1 (all_but FreshGroups) (but FreshGroups) stale_then); [apply in_but| |vm_compute; reflexivity].
  constructor; [apply (checked_history cfg1 (all_but FreshGroups) (but FreshGroups)); [apply in_but|vm_compute; reflexivity]|].
  intros [] X; cbn [keeps]; try exact I; try (now elim X). split; [intros [|off]; vm_compute; reflexivity|].
  intros r Hr. right. revert r Hr. apply all_gone_now. vm_compute. reflexivity.
Qed.
Lemma stale_groups : exists cfg es y i j m u e t, sensible cfg /\ history cfg (all_but FreshGroups) es y /\ run_is y i j
  /\ j_strategy j = "one_to_many" /\ j_dry j = false /\ completed y i m u
  /\ uploaded y (j_upload j) e /\ posted_before y i t /\ whole_group (j_group j) (n_ref t) (d_int (y_store y)) [t]
  /\ stands_for [t] t /\ fulfils (j_rules j) e t
  /\ matched_to y i (n_id e) = [] /\ times_unmatched y i (n_id e) = 1%nat.
Proof.
  exists cfg1, stale_run, stale, 1%nat, group_b, 0%nat, 1%nat, (tx "b1" 10 "USD" "y"), (tx "t2" 10 "USD" "r2").
  split; [split; cbn; lia|]. split; [exact stale_history|].
  split; [eexists; split; vm_compute; reflexivity|]. conjs; try match goal with |- _ = _ => vm_compute; reflexivity | |- completed _ _ _ _ => vm_compute; reflexivity end.
  - vm_compute. auto.
  - eexists. split; [vm_compute; reflexivity|]. vm_compute. auto.
  - unfold whole_group. vm_compute. reflexivity.
  - constructor; simpl; [reflexivity| |reflexivity|reflexivity|].
    + split; [eauto|]. intros t [<-|[]]. apply Z.le_refl.
    + left. intros t [<-|[]]. reflexivity.
  - apply rules_ok. vm_compute. reflexivity.
Qed.

(** One internal transaction for two uploaded ones. *)
Definition twice_run : list event :=
  [EPost (tx "t1" 10 "USD" "r1"); EUpload "A" (tx "a1" 10 "USD" "x"); EUpload "A" (tx "a2" 10 "USD" "y"); EStart plain_job true]
  ++ of_run 0 (reading 2 ++ hit 1 ++ hit 1 ++ finish).
Lemma internal_twice : exists cfg es y i j m u x x' t, sensible cfg /\ history cfg everything es y /\ run_is y i j
  /\ j_strategy j = "one_to_one" /\ j_dry j = false /\ completed y i m u /\ x <> x'
  /\ matched_to y i x = [t] /\ matched_to y i x' = [t].
Proof.
  exists cfg1, twice_run, (play cfg1 twice_run nothing), 0%nat, plain_job, 2%nat, 0%nat, "a1", "a2", "t1".
  split; [repeat constructor|]. split; [apply (checked_history cfg1 everything all_five); [intros; apply in_all|vm_compute; reflexivity]|].
  split; [eexists; split; vm_compute; reflexivity|]. conjs; try match goal with |- _ = _ => vm_compute; reflexivity | |- completed _ _ _ _ => vm_compute; reflexivity end. discriminate.
Qed.

(** Two internal transactions for one uploaded one. *)
Definition both_run : list event :=
  [EPost (tx "t1" 10 "USD" "r1"); EPost (tx "t2" 10 "USD" "r2"); EUpload "A" (tx "a1" 10 "USD" "x"); EStart plain_job true]
  ++ of_run 0 (reading 1 ++ [MTake 0; MInner 0 (SFetch true); MInner 0 SPut; MInner 0 SPut; MInner 0 (SWork 0); MInner 0 (SWork 1);
       MInner 0 (SWork 0); MInner 0 (SWork 1); MInner 0 (SMain false)] ++ record 0 ++ [MTake 0; MTake 1; MMain false true]).
Lemma external_twice : exists cfg es y i j m u x t t', sensible cfg /\ history cfg everything es y /\ run_is y i j
  /\ j_strategy j = "one_to_one" /\ j_dry j = false /\ completed y i m u /\ t <> t' /\ matched_to y i x = [t; t'].
Proof.
  exists cfg2, both_run, (play cfg2 both_run nothing), 0%nat, plain_job, 2%nat, 0%nat, "a1", "t1", "t2".
  split; [repeat constructor|]. split; [apply (checked_history cfg2 everything all_five); [intros; apply in_all|vm_compute; reflexivity]|].
  split; [eexists; split; vm_compute; reflexivity|]. conjs; try match goal with |- _ = _ => vm_compute; reflexivity | |- completed _ _ _ _ => vm_compute; reflexivity end. discriminate.
Qed.

(** A transaction that meets a rule is not looked at: another spelling of the currency; the
    bounds of another rule. *)
Definition spelled_job : job := task "A" "one_to_one" [same_currency].
Definition spelled_run : list event :=
  [EPost (tx "t1" 10 "usd" "r1"); EUpload "A" (tx "a1" 10 "USD" "x"); EStart spelled_job true] ++ of_run 0 (reading 1 ++ miss ++ finish).
Definition bounds_job : job := task "A" "one_to_one" [same_reference; same_amount].
Definition bounds_run : list event :=
  [EPost (tx "t1" 11 "USD" "x"); EUpload "A" (tx "a1" 10 "USD" "x"); EStart bounds_job true] ++ of_run 0 (reading 1 ++ miss ++ finish).
Definition missed (j : job) (es : list event) : Prop :=
  exists i m u e t, history cfg1 everything es (play cfg1 es nothing) /\ run_is (play cfg1 es nothing) i j
    /\ j_strategy j = "one_to_one" /\ j_dry j = false /\ completed (play cfg1 es nothing) i m u
    /\ uploaded (play cfg1 es nothing) (j_upload j) e /\ posted_before (play cfg1 es nothing) i t /\ fulfils (j_rules j) e t
    /\ matched_to (play cfg1 es nothing) i (n_id e) = [] /\ times_unmatched (play cfg1 es nothing) i (n_id e) = 1%nat.
Lemma missed_spelling : missed spelled_job spelled_run.
Proof.
  exists 0%nat, 0%nat, 1%nat, (tx "a1" 10 "USD" "x"), (tx "t1" 10 "usd" "r1").
  split; [apply (checked_history cfg1 everything all_five); [intros; apply in_all|vm_compute; reflexivity]|].
  split; [eexists; split; vm_compute; reflexivity|]. conjs; try match goal with |- _ = _ => vm_compute; reflexivity | |- completed _ _ _ _ => vm_compute; reflexivity end.
  - vm_compute. auto.
  - eexists. split; [vm_compute; reflexivity|]. vm_compute. auto.
  - apply rules_ok. vm_compute. reflexivity.
Qed.
Lemma missed_bounds : missed bounds_job bounds_run.
Proof.
  exists 0%nat, 0%nat, 1%nat, (tx "a1" 10 "USD" "x"), (tx "t1" 11 "USD" "x").
  split; [apply (checked_history cfg1 everything all_five); [intros; apply in_all|vm_compute; reflexivity]|].
  split; [eexists; split; vm_compute; reflexivity|]. conjs; try match goal with |- _ = _ => vm_compute; reflexivity | |- completed _ _ _ _ => vm_compute; reflexivity end.
  - vm_compute. auto.
  - eexists. split; [vm_compute; reflexivity|]. vm_compute. auto.
  - apply rules_ok. vm_compute. reflexivity.
Qed.

(** With more than one page of groups: matched and unmatched at once. *)
Definition pages_run : list event :=
  [EPost (tx "t1" 10 "USD" "r1"); EPost (tx "t2" 3 "USD" "r2"); EUpload "A" (tx "a1" 10 "USD" "x"); EStart group_job true]
  ++ of_run 0 ([MFetch true; MPut; MFetch true; MTake 0; MInner 0 (GRead true); MInner 0 GCheck; MInner 0 (GRead true); MInner 0 GCheck;
       MInner 0 (GRead true); MInner 0 (GGo 0 "r1"); MInner 0 (GGo 1 "r2"); MInner 0 (GGo 1 "r2")] ++ record 0 ++ finish).
Lemma both_ways : exists cfg es y i j m u x t, sensible cfg /\ history cfg (all_but OnePage) es y /\ run_is y i j
  /\ j_strategy j = "one_to_many" /\ j_dry j = false /\ completed y i m u
  /\ matched_to y i x = [t] /\ times_unmatched y i x = 1%nat.
Proof.
  exists page1, pages_run, (play page1 pages_run nothing), 0%nat, group_job, 1%nat, 1%nat, "a1", "t1".
  split; [repeat constructor|]. split; [apply (checked_history page1 (all_but OnePage) (but OnePage)); [apply in_but|vm_compute; reflexivity]|].
  split; [eexists; split; vm_compute; reflexivity|]. conjs; vm_compute; reflexivity.
Qed.

(** ... or never finished. *)
Definition hang_run : list event :=
  [EPost (tx "t1" 4 "USD" "r1"); EPost (tx "t2" 3 "USD" "r2"); EUpload "A" (tx "a1" 10 "USD" "x"); EStart group_job true]
  ++ of_run 0 [MFetch true; MPut; MFetch true; MTake 0; MInner 0 (GRead true); MInner 0 GCheck; MInner 0 (GRead true); MInner 0 GCheck;
       MInner 0 (GRead true); MInner 0 (GGo 0 ""); MInner 0 (GGo 0 ""); MInner 0 (GGo 1 "")].
Definition blocked (r : run) : Prop :=
  exists e ext g v p, r_work r = [OBusy e (IMany ext g)] /\ g_loop g = LEnd /\ nth_error (g_go g) v = Some (GLost p)
    /\ (1 <= g_buf g)%nat /\ r_fetch r = FGone /\ r_err r = false /\ r_end r = false.
Definition stuck (i : nat) (y : system) : Prop :=
  (exists r, nth_error (y_runs y) i = Some r /\ blocked r) /\ nth_error (d_recon (y_store y)) i = Some RRunning.

Lemma gmove_stuck cfg j ext e m s g v p s' g' : g_loop g = LEnd -> nth_error (g_go g) v = Some (GLost p) -> (1 <= g_buf g)%nat ->
  gmove cfg j ext e m s g = (s', g') -> s' = s /\ g_loop g' = LEnd /\ nth_error (g_go g') v = Some (GLost p) /\ (1 <= g_buf g')%nat.
Proof.
  intros L V B H. destruct m as [ | | | |ok| |w k]; cbn [gmove] in H; try (injection H as <- <-; auto); try (rewrite L in H; injection H as <- <-; auto).
  destruct (Nat.eq_dec w v) as [->|N].
  - rewrite V in H. destruct (g_buf g <? 1)%nat eqn:E; [apply Nat.ltb_lt in E; lia|]. injection H as <- <-. auto.
  - destruct (nth_error (g_go g) w) as [[q|q|n]|]; try (injection H as <- <-; auto; fail).
    + destruct (_ && _); [injection H as <- <-; simpl; rewrite set_at_other by auto; auto|].
      match type of H with (if ?b then _ else _) = _ => destruct b end; injection H as <- <-; simpl; rewrite ?set_at_other by auto; auto.
    + destruct (g_buf g <? 1)%nat eqn:E; injection H as <- <-; simpl; rewrite ?set_at_other by auto; auto.
Qed.

Lemma busy_waits e ext g v p : nth_error (g_go g) v = Some (GLost p) -> answer_of e (IMany ext g) = None.
Proof.
  intros V. cbn [answer_of]. destruct (g_loop g); [reflexivity..|]. destruct (forallb gdone (g_go g)) eqn:A; [|reflexivity].
  rewrite forallb_forall in A. apply nth_error_In in V. apply A in V. discriminate.
Qed.
Lemma blocked_step cfg i s r m s' r' : blocked r -> rstep cfg i s r m s' r' -> blocked r' /\ d_recon s' = d_recon s.
Proof.
  intros (x & ext & g & v & p & W & L & V & B & F & E & N) H.
  assert (X : forall k q, nth_error (r_work r) k = Some q -> k = O /\ q = OBusy x (IMany ext g)).
  { intros k q Hq. rewrite W in Hq. destruct k as [|[|k]]; simpl in Hq; [|discriminate..]. split; congruence. }
  destruct H as [off s' q H1 H2|off H1|e l off H1|w e l H1 H2|w H1 H2 H3|w im e a s' a' H1 H2|w e a ms us H1 H2 H3|w e a ms us H1 H2 H3|w e us ok H1
    |w e ms us H1|w e ms us H1|w e ms ok H1|w e ms us H1|w e ms us H1|t l H1|k w e q H1|err ok H1 H2|ok H1 H2 H3];
    try congruence; try (destruct (X _ _ H1) as [-> Q]; first [discriminate Q|injection Q as -> ->]).
  - cbn [inner_move] in H2. destruct (gmove _ _ _ _ _ _ _) as [s1 g1] eqn:M. injection H2 as <- <-.
    destruct (gmove_stuck _ _ _ _ _ _ _ _ _ _ _ L V B M) as (-> & L1 & V1 & B1). split; [|reflexivity].
    exists x, ext, g1, v, p. cbn. rewrite W. cbn. auto 10.
  - exfalso. rewrite (busy_waits _ _ _ _ _ V) in H2; discriminate.
  - exfalso. rewrite (busy_waits _ _ _ _ _ V) in H2; discriminate.
  - split; [|reflexivity]. exists x, ext, g, v, p. cbn. auto 10.
  - split; [|reflexivity]. exists x, ext, g, v, p. cbn. auto 10.
  - exfalso. rewrite W in H2. cbn in H2. destruct H2 as [[_ H2]|(_ & H2 & _)]; congruence.
  - exfalso. rewrite W in H2. discriminate H2.
Qed.

Lemma stuck_step cfg i y e : stuck i y -> stuck i (happen cfg e y).
Proof.
  intros [(r & Hr & Bl) St]. pose proof (happen_cases cfg e y) as Hs.
  revert Hs. generalize (happen cfg e y). intros y' Hs.
  destruct Hs as [e|t|u x H|k|e n|j ok|k m r0 s' r' H1 H2 H3 H4].
  - split; eauto.
  - split; [exists r; auto|exact St].
  - split; [exists r; auto|exact St].
  - split; [exists r; auto|exact St].
  - split; [|exact St]. exists (with_dead r). cbn. rewrite nth_error_map, Hr. split; [reflexivity|exact Bl].
  - split; cbn; [exists r; split; [|exact Bl]|]; rewrite nth_error_app1 by (eapply nth_lt; eauto); assumption.
  - destruct (Nat.eq_dec k i) as [->|Ne].
    + assert (r0 = r) by congruence. subst r0. destruct (blocked_step _ _ _ _ _ _ _ Bl H4) as [Bl' Ed].
      split; cbn; [exists r'; split; [apply set_at_same; eapply nth_lt; eauto|exact Bl']|]. rewrite Ed. exact St.
    + split; cbn; [exists r; split; [rewrite set_at_other by exact Ne; exact Hr|exact Bl]|].
      rewrite (to_recon _ _ _ (rstep_touches _ _ _ _ _ _ _ H4)) by auto. exact St.
Qed.
Lemma stuck_for_ever cfg i es : forall y, stuck i y -> nth_error (d_recon (y_store (play cfg es y))) i = Some RRunning.
Proof.
  induction es as [|e es IH]; intros y H; cbn [play]; [exact (proj2 H)|]. apply IH. now apply stuck_step.
Qed.
Lemma hangs : exists cfg es y i j, sensible cfg /\ history cfg (all_but OnePage) es y /\ run_is y i j /\ j_strategy j = "one_to_many"
  /\ forall later, nth_error (d_recon (y_store (play cfg later y))) i = Some RRunning.
Proof.
  exists page1, hang_run, (play page1 hang_run nothing), 0%nat, group_job.
  split; [split; cbn; lia|]. split; [apply (checked_history page1 (all_but OnePage) (but OnePage)); [apply in_but|vm_compute; reflexivity]|].
  split; [eexists; split; vm_compute; reflexivity|]. split; [reflexivity|].
  intros later. apply stuck_for_ever. split; [|vm_compute; reflexivity].
  eexists. split; [vm_compute; reflexivity|]. eexists _, _, _, 1%nat, _. conjs; first [cbn; reflexivity|cbn; lia].
Qed.

(** A restart of the server: the run is never taken up again. *)
Definition dead (i : nat) (y : system) : Prop :=
  (exists r, nth_error (y_runs y) i = Some r /\ r_dead r = true) /\ nth_error (d_recon (y_store y)) i = Some RRunning.
Lemma dead_step cfg i y e : dead i y -> dead i (happen cfg e y).
Proof.
  intros [(r & Hr & Bl) St]. pose proof (happen_cases cfg e y) as Hs.
  revert Hs. generalize (happen cfg e y). intros y' Hs.
  destruct Hs as [e|t|u x H|k|e n|j ok|k m r0 s' r' H1 H2 H3 H4].
  - split; eauto.
  - split; [exists r; auto|exact St].
  - split; [exists r; auto|exact St].
  - split; [exists r; auto|exact St].
  - split; [|exact St]. exists (with_dead r). cbn. rewrite nth_error_map, Hr. split; reflexivity.
  - split; cbn; [exists r; split; [|exact Bl]|]; rewrite nth_error_app1 by (eapply nth_lt; eauto); assumption.
  - destruct (Nat.eq_dec k i) as [->|Ne]; [congruence|].
    split; cbn; [exists r; split; [rewrite set_at_other by exact Ne; exact Hr|exact Bl]|].
    rewrite (to_recon _ _ _ (rstep_touches _ _ _ _ _ _ _ H4)) by auto. exact St.
Qed.
Lemma dead_for_ever cfg i es : forall y, dead i y -> nth_error (d_recon (y_store (play cfg es y))) i = Some RRunning.
Proof.
  induction es as [|e es IH]; intros y H; cbn [play]; [exact (proj2 H)|]. apply IH. now apply dead_step.
Qed.
Definition restart_run : list event := two_uploaded ++ EStart plain_job true :: of_run 0 (reading 2 ++ hit 1) ++ [ERestart].
Lemma abandoned : exists cfg es y i j, sensible cfg /\ history cfg everything es y /\ run_is y i j /\ matches_of y i <> []
  /\ forall later, nth_error (d_recon (y_store (play cfg later y))) i = Some RRunning.
Proof.
  exists cfg1, restart_run, (play cfg1 restart_run nothing), 0%nat, plain_job.
  split; [split; cbn; lia|]. split; [apply (checked_history cfg1 everything all_five); [intros; apply in_all|vm_compute; reflexivity]|].
  split; [eexists; split; vm_compute; reflexivity|]. split; [vm_compute; discriminate|].
  intros later. apply dead_for_ever. split; [|vm_compute; reflexivity].
  eexists. split; vm_compute; reflexivity.
Qed.

(** A read that fails is forgotten: the run completes without the rest of the upload. *)
Definition fault_run : list event :=
  [EPost (tx "t1" 10 "USD" "r1"); EUpload "A" (tx "a1" 10 "USD" "x"); EUpload "A" (tx "a2" 7 "USD" "y"); EStart plain_job true]
  ++ of_run 0 ([MFetch true; MPut; MFetch false] ++ hit 1 ++ finish).
Lemma forgotten : exists cfg es y i j m u e, sensible cfg /\ history cfg (all_but NoFault) es y /\ run_is y i j
  /\ j_strategy j = "one_to_one" /\ j_dry j = false /\ completed y i m u
  /\ uploaded y (j_upload j) e /\ matched_to y i (n_id e) = [] /\ times_unmatched y i (n_id e) = O.
Proof.
  exists page1, fault_run, (play page1 fault_run nothing), 0%nat, plain_job, 1%nat, 0%nat, (tx "a2" 7 "USD" "y").
  split; [split; cbn; lia|]. split; [apply (checked_history page1 (all_but NoFault) (but NoFault)); [apply in_but|vm_compute; reflexivity]|].
  split; [eexists; split; vm_compute; reflexivity|]. conjs; try match goal with |- _ = _ => vm_compute; reflexivity | |- completed _ _ _ _ => vm_compute; reflexivity end. vm_compute. auto.
Qed.

(** A read that fails while a candidate is being handed over: the uploaded transaction is
    reported both ways and the server goes down. *)
Definition crash_run : list event :=
  [EPost (tx "t1" 10 "USD" "r1"); EPost (tx "t2" 10 "USD" "r2"); EUpload "A" (tx "a1" 10 "USD" "x"); EStart plain_job true]
  ++ of_run 0 [MFetch true; MPut; MFetch true; MTake 0; MInner 0 (SFetch true); MInner 0 SPut; MInner 0 SPut; MInner 0 (SWork 0);
       MInner 0 (SWork 1); MInner 0 (SWork 0); MInner 0 (SFetch false); MInner 0 (SMain true); MAnswer 0; MMatches 0 true; MUnmatched 0 true].
Lemma crashes : exists cfg es es' y y' i j x t, sensible cfg /\ history cfg (all_but NoFault) es y /\ run_is y i j
  /\ j_strategy j = "one_to_one" /\ j_dry j = false
  /\ matched_to y i x = [t] /\ times_unmatched y i x = 1%nat
  /\ y_panics y = O /\ history cfg (all_but NoFault) (es ++ es') y' /\ Forall (fun e => exists m, e = ERun i m /\ faultless m) es' /\ y_panics y' = 1%nat
  /\ forall later, nth_error (d_recon (y_store (play cfg later y'))) i = Some RRunning.
Proof.
  exists page2w2, crash_run, [ERun 0 (MOrphan 0 1)], (play page2w2 crash_run nothing), (play page2w2 (crash_run ++ [ERun 0 (MOrphan 0 1)]) nothing), 0%nat, plain_job, "a1", "t1".
  split; [split; cbn; lia|]. split; [apply (checked_history page2w2 (all_but NoFault) (but NoFault)); [apply in_but|vm_compute; reflexivity]|].
  split; [eexists; split; vm_compute; reflexivity|]. conjs; try match goal with |- _ = _ => vm_compute; reflexivity | |- completed _ _ _ _ => vm_compute; reflexivity end.
  - apply (checked_history page2w2 (all_but NoFault) (but NoFault)); [apply in_but|vm_compute; reflexivity].
  - constructor; [|constructor]. eexists. split; [reflexivity|exact I].
  - intros later. apply dead_for_ever. split; [|vm_compute; reflexivity]. eexists. split; vm_compute; reflexivity.
Qed.

(** A strategy nobody knows. *)
Definition unknown_job : job := task "A" "best_effort" [same_amount].
Definition unknown_run : list event :=
  [EPost (tx "t1" 10 "USD" "r1"); EUpload "A" (tx "a1" 10 "USD" "x"); EStart unknown_job true]
  ++ of_run 0 (reading 1 ++ [MTake 0] ++ record 0 ++ finish).
Lemma unknown_strategy : exists cfg es y i j e t, sensible cfg /\ history cfg everything es y /\ run_is y i j
  /\ j_dry j = false /\ completed y i 0 0 /\ uploaded y (j_upload j) e /\ posted_before y i t /\ fulfils (j_rules j) e t
  /\ matched_to y i (n_id e) = [] /\ times_unmatched y i (n_id e) = O.
Proof.
  exists cfg1, unknown_run, (play cfg1 unknown_run nothing), 0%nat, unknown_job, (tx "a1" 10 "USD" "x"), (tx "t1" 10 "USD" "r1").
  split; [split; cbn; lia|]. split; [apply (checked_history cfg1 everything all_five); [intros; apply in_all|vm_compute; reflexivity]|].
  split; [eexists; split; vm_compute; reflexivity|]. conjs; try match goal with |- _ = _ => vm_compute; reflexivity | |- completed _ _ _ _ => vm_compute; reflexivity end.
  - vm_compute. auto.
  - eexists. split; [vm_compute; reflexivity|]. vm_compute. auto.
  - apply rules_ok. vm_compute. reflexivity.
Qed.
