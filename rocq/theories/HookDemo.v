(** Hooks at work, and where what one would expect fails. *)
From Coq Require Import List String Bool Arith ZArith Lia.
From Verif Require Import HookModel HookSpec HookBase HookInv HookCount HookStage HookGone HookOrder.
Import ListNotations.
Local Open Scope string_scope.
Local Open Scope nat_scope.
Local Open Scope list_scope.

Definition body_of (id name url ty : string) (on : bool) (timeout retry : Z) : hook :=
  {| h_id := id; h_name := name; h_url := url; h_type := ty; h_active := on; h_timeout := timeout; h_retry := retry;
     h_created := 0; h_last := 0; h_good := false |}.
Definition audit : hook := body_of "audit" "Audit" "https://audit" pre_type true 5 1.
Definition audit_off : hook := body_of "audit" "Audit" "https://audit" pre_type false 5 1.
Definition audit_post : hook := body_of "audit" "Audit" "https://audit/done" post_type true 5 1.
Definition mail : hook := body_of "mail" "Mail" "https://mail" post_type true 0 (-1).

Definition step (i : nat) : event := EStep i Fine [] (Reply 200 Empty).
Definition bad (i : nat) : event := EStep i Fine [] (Reply 503 Text).

(** A hook is registered, a transaction runs, the hook's server fails and then answers. *)
Definition story : list event :=
  [EStart (RRegister "hook_1" 1 audit); step 0; step 0;
   EStart (RBefore [("t1", "{}")]); step 1; step 1; step 1;
   ETake 0 2; bad 2; bad 2; EStop 2; ETake 0 3; step 3; step 3].
Example story_sent : map (fun t => (h_url (t_hook t), n_txn (t_notice t))) (w_sent (play story blank))
  = [("https://audit", "t1"); ("https://audit", "t1")].
Proof. vm_compute. reflexivity. Qed.
(** The bound is met. *)
Example story_bound : bounded "audit" 1 story /\ requests pre_type "t1" "audit" (play story blank) = 2
  /\ all_rounds pre_type "t1" story * 2 = 2.
Proof.
  split; [| split; vm_compute; reflexivity].
  intros q r i (b & [((gen & now & -> & E) & ->) | (-> & ->)]); cbn in i; decompose [or] i; try discriminate; try contradiction.
  injection H as <- <- <-. vm_compute. constructor.
Qed.
Example story_done : exists t, nth_error (w_runs (play story blank)) 3 = Some (JTry t 0, Done AOk)
  /\ requests_of (t_no t) (play story blank) = 2.
Proof. eexists. split; vm_compute; reflexivity. Qed.

(** A stage beside which another hook is registered. *)
Definition settled_in : list event := [EStart (RRegister "" 1 audit); step 0; step 0].
Definition meanwhile : list event := [step 1; EStart (RRegister "" 2 mail); step 2; step 1; step 2; step 1; step 1].
Example meanwhile_stands :
  stands_through "audit" pre_type meanwhile (happen (EStart (RBefore [("t1", "{}"); ("t2", "{}")])) (play settled_in blank))
  /\ nth_error (w_runs (play meanwhile (happen (EStart (RBefore [("t1", "{}"); ("t2", "{}")])) (play settled_in blank)))) 1
     = Some (JCall (RBefore [("t1", "{}"); ("t2", "{}")]), Done AOk).
Proof.
  split; [| vm_compute; reflexivity].
  cbn [stands_through meanwhile].
  repeat (split; [split; [vm_compute; tauto | eexists; split; vm_compute; reflexivity] |]). exact Logic.I.
Qed.
(** A stage whose list cannot be read. *)
Example stage_fails : nth_error (w_runs (play (settled_in ++ [EStart (RBefore [("t1", "{}")]); EStep 1 Lost [] Dead]) blank)) 1
  = Some (JCall (RBefore [("t1", "{}")]), Done AErr).
Proof. vm_compute. reflexivity. Qed.

(** Deleted with a call still waiting, and not called for the next transaction. *)
Definition before_delete : list event := settled_in ++ [EStart (RBefore [("t1", "{}")]); step 1; step 1; step 1].
Definition during_delete : list event := [step 2; step 2; step 2].
Definition after_delete : list event :=
  [ETake 0 9; step 3; step 3; EStop 3; EStart (RBefore [("t2", "{}")]); step 4; EStart (RList ""); step 5; step 5].
Example deleted_fits : typed "audit" pre_type (before_delete ++ during_delete ++ after_delete)
  /\ (forall i q p b, nth_error (w_runs (play before_delete blank)) i = Some (JCall q, p) -> changes q "audit" b -> is_done p)
  /\ (forall q b, In (EStart q) (during_delete ++ after_delete) -> ~ changes q "audit" b)
  /\ nth_error (w_runs (play during_delete (happen (EStart (RDelete "audit")) (play before_delete blank))))
       (List.length (w_runs (play before_delete blank))) = Some (JCall (RDelete "audit"), Done AOk).
Proof.
  split; [| split; [| split]].
  - intros q b i [(gen & now & -> & E) | ->]; cbn in i; decompose [or] i; try discriminate; try contradiction.
    injection H as <- <- <-. reflexivity.
  - assert (w_runs (play before_delete blank) = [(JCall (RRegister "" 1 audit), Done (AShow (match settle (named "" 1 audit) with Some h => h | None => audit end)));
      (JCall (RBefore [("t1", "{}")]), Done AOk)]) as -> by (vm_compute; reflexivity).
    intros [| [| i]] q p b H _; cbn in H; try (injection H as _ <-; eexists; reflexivity). destruct i; discriminate.
  - intros q b i [(gen & now & -> & E) | ->]; cbn in i; decompose [or] i; try discriminate; try contradiction.
  - vm_compute. reflexivity.
Qed.
Example deleted_quiet : map (fun x => (fst x, n_txn (t_notice (snd x))))
  (w_made (play after_delete (play during_delete (happen (EStart (RDelete "audit")) (play before_delete blank))))) = [(1, "t1")].
Proof. vm_compute. reflexivity. Qed.

(** One thing after the other: two hooks, one transaction, an update, a deletion. *)
Definition day : list move :=
  [MCall (RRegister "" 1 audit) []; MCall (RRegister "" 2 mail) []; MCall (RBefore [("t1", "{}")]) [];
   MTry 0 3 (Reply 500 Text); MTry 0 4 (Reply 200 (Verdict true)); MCall (RUpdate "audit" audit_post) [];
   MCall (RAfter [("t1", "{1}"); ("t2", "{2}")]) ["mail"]].
Fixpoint go (ms : list move) (w : world) (g : registry) : world * registry :=
  match ms with [] => (w, g) | m :: r => go r (move_on m w) (expects m g) end.

Lemma go_orderly : forall P ms ms0 w g, orderly P ms0 w g ->
  (fix ok (ms : list move) (w : world) (g : registry) : Prop :=
     match ms with [] => True | m :: r => (forall x, P x -> keeps x m w g) /\ ok r (move_on m w) (expects m g) end) ms w g ->
  orderly P (ms0 ++ ms) (fst (go ms w g)) (snd (go ms w g)).
Proof.
  intros P ms. induction ms as [| m ms IH]; intros ms0 w g H K; cbn.
  - rewrite app_nil_r. exact H.
  - destruct K as (K & L). replace (ms0 ++ m :: ms) with ((ms0 ++ [m]) ++ ms) by (rewrite <- app_assoc; reflexivity).
    apply IH; [constructor; assumption | exact L].
Qed.

Definition idleb (id : string) (w : world) : bool := forallb (fun x => negb (String.eqb (h_id (t_hook (fst x))) id)) (w_queue w).
Lemma idleb_idle : forall id w, idleb id w = true -> idle id w.
Proof.
  intros id w H x i. unfold idleb in H. rewrite forallb_forall in H. specialize (H x i).
  apply negb_true_iff, String.eqb_neq in H. exact H.
Qed.
Definition keepsb (x : proviso) (m : move) (w : world) (g : registry) : bool :=
  match x, m with
  | Unhurried, MCall (RRegister gen _ b) _ => idleb (if String.eqb (h_id b) "" then gen else h_id b) w
  | Unhurried, MCall (RUpdate id _) _ => idleb id w
  | Unhurried, MCall (RDelete id) _ => idleb id w
  | Same_type, MCall (RRegister gen _ b) _ =>
    match g (if String.eqb (h_id b) "" then gen else h_id b) with Some c => String.eqb (c_type c) (h_type b) | None => true end
  | _, _ => true
  end.
Lemma keepsb_keeps : forall x m w g, keepsb x m w g = true -> keeps x m w g.
Proof.
  intros x m w g H. destruct x, m as [q order | i now r]; try exact Logic.I; destruct q; try exact Logic.I; cbn in *; try (apply idleb_idle; exact H).
  intros c E. rewrite E in H. apply String.eqb_eq. exact H.
Qed.
Fixpoint lawful (l : list proviso) (ms : list move) (w : world) (g : registry) : bool :=
  match ms with
  | [] => true
  | m :: r => forallb (fun x => keepsb x m w g) l && lawful l r (move_on m w) (expects m g)
  end.
Lemma lawful_orderly : forall (P : proviso -> Prop) l ms, (forall x, P x -> In x l) -> lawful l ms blank (fun _ => None) = true ->
  orderly P ms (fst (go ms blank (fun _ => None))) (snd (go ms blank (fun _ => None))).
Proof.
  intros P l ms Hl H. apply (go_orderly P ms []); [constructor |]. revert H. generalize blank (fun _ : string => @None card).
  induction ms as [| m ms IH]; intros w g H; [exact Logic.I |]. cbn in H. apply andb_true_iff in H. destruct H as (H & K). split.
  - intros x p. apply keepsb_keeps. rewrite forallb_forall in H. apply H, Hl, p.
  - apply IH. exact K.
Qed.
Lemma all_in : forall x, everything x -> In x [Unhurried; Same_type].
Proof. intros [] _; cbn; auto. Qed.
Lemma but_hurry : forall x, all_but Unhurried x -> In x [Same_type].
Proof. intros [] H; cbn; auto; exfalso; apply H; reflexivity. Qed.
Lemma but_type : forall x, all_but Same_type x -> In x [Unhurried].
Proof. intros [] H; cbn; auto; exfalso; apply H; reflexivity. Qed.

Definition at_end (ms : list move) : world := fst (go ms blank (fun _ => None)).
Definition set_at_end (ms : list move) : registry := snd (go ms blank (fun _ => None)).

Example day_orderly : orderly everything day (at_end day) (set_at_end day).
Proof. apply (lawful_orderly everything [Unhurried; Same_type]); [exact all_in | vm_compute; reflexivity]. Qed.
Example day_made : map (fun x => (h_id (t_hook (snd x)), n_txn (t_notice (snd x)))) (w_made (at_end day))
  = [("audit", "t1"); ("mail", "t1"); ("audit", "t1"); ("mail", "t2"); ("audit", "t2")]
  /\ option_map c_retry (set_at_end day "mail") = Some 3%Z /\ option_map c_timeout (shown "mail" (at_end day)) = Some 30%Z.
Proof. vm_compute. auto. Qed.

(** * What fails *)

(** A hook switched off while a call to it waits is on again once the call was tried, and is called. *)
Definition hurried : list move :=
  [MCall (RRegister "" 1 audit) []; MCall (RBefore [("t1", "{}")]) []; MCall (RUpdate "audit" audit_off) [];
   MTry 0 3 (Reply 200 Empty)].
Theorem undone_refuted : exists ms w g id c, orderly (all_but Unhurried) ms w g
  /\ g id = Some c /\ c_active c = false
  /\ (exists c', shown id w = Some c' /\ c_active c' = true)
  /\ exists t, In t (new_calls (RBefore [("t2", "{}")]) [] w) /\ h_id (t_hook t) = id.
Proof.
  exists hurried, (at_end hurried), (set_at_end hurried), "audit", (card_of audit_off).
  split; [apply (lawful_orderly _ [Same_type]); [exact but_hurry | vm_compute; reflexivity] |].
  split; [vm_compute; reflexivity |]. split; [reflexivity |]. split.
  - eexists. split; vm_compute; reflexivity.
  - eexists. split; [vm_compute; left; reflexivity | reflexivity].
Qed.

(** A deleted hook is shown again. *)
Definition hurried_delete : list move :=
  [MCall (RRegister "" 1 audit) []; MCall (RBefore [("t1", "{}")]) []; MCall (RDelete "audit") [];
   MTry 0 3 (Reply 200 Empty)].
Theorem back_refuted : exists ms w g id, orderly (all_but Unhurried) ms w g /\ g id = None /\ shown id w <> None.
Proof.
  exists hurried_delete, (at_end hurried_delete), (set_at_end hurried_delete), "audit".
  split; [apply (lawful_orderly _ [Same_type]); [exact but_hurry | vm_compute; reflexivity] |].
  split; [vm_compute; reflexivity | vm_compute; discriminate].
Qed.

(** A hook registered again with the other type is called at both stages, and deleting it leaves it so listed
    that registering it once more brings both back. *)
Definition twice : list move := [MCall (RRegister "" 1 audit) []; MCall (RRegister "" 2 audit_post) []].
Theorem both_refuted : exists ms w g id c, orderly (all_but Same_type) ms w g
  /\ g id = Some c /\ c_type c = post_type
  /\ (exists t, In t (new_calls (RBefore [("t1", "{}")]) [] w) /\ h_id (t_hook t) = id)
  /\ (exists t, In t (new_calls (RAfter [("t1", "{}")]) [] w) /\ h_id (t_hook t) = id).
Proof.
  exists twice, (at_end twice), (set_at_end twice), "audit", (card_of audit_post).
  split; [apply (lawful_orderly _ [Unhurried]); [exact but_type | vm_compute; reflexivity] |].
  split; [vm_compute; reflexivity |]. split; [reflexivity |].
  split; eexists; (split; [vm_compute; left; reflexivity | reflexivity]).
Qed.

(** Where the type was changed while calls waited, a deleted hook is called for later transactions. *)
Definition moved : list event :=
  settled_in ++ [EStart (RBefore [("t1", "{}")]); step 1; step 1; step 1;
   EStart (RUpdate "audit" audit_post); step 2; step 2; step 2; step 2;
   EStart (RAfter [("t1", "{}")]); step 3; step 3; step 3;
   ETake 0 5; step 4; step 4; EStop 4].
Definition struck : list event := [step 5; step 5; step 5].
Definition later : list event := [ETake 0 6; step 6; step 6; EStop 6; EStart (RAfter [("t9", "{}")]); step 7; step 7; step 7].
Theorem deleted_refuted : exists es1 es2 es3 id,
  let w1 := play es1 blank in
  (forall i q p b, nth_error (w_runs w1) i = Some (JCall q, p) -> changes q id b -> is_done p)
  /\ (forall q b, In (EStart q) (es2 ++ es3) -> ~ changes q id b)
  /\ let w2 := play es2 (happen (EStart (RDelete id)) w1) in
     nth_error (w_runs w2) (List.length (w_runs w1)) = Some (JCall (RDelete id), Done AOk)
     /\ exists i t, In (i, t) (w_made (play es3 w2)) /\ List.length (w_runs w2) <= i /\ h_id (t_hook t) = id.
Proof.
  exists moved, struck, later, "audit". cbv zeta. split; [| split; [| split]].
  - assert (forallb (fun x : job * prog => match snd x with Done _ => true | _ => false end) (w_runs (play moved blank)) = true) as K
      by (vm_compute; reflexivity).
    intros i q p b H _. rewrite forallb_forall in K. apply nth_error_In in H. specialize (K _ H). cbn in K.
    destruct p; try discriminate K. eexists; reflexivity.
  - intros q b i [(gen & now & -> & E) | ->]; cbn in i; decompose [or] i; try discriminate; try contradiction.
  - vm_compute. reflexivity.
  - exists 7. eexists. split; [| split].
    + vm_compute. right. right. left. reflexivity.
    + vm_compute. repeat constructor.
    + reflexivity.
Qed.

(** An update is not checked: with no time allowed, a hook that is on and listed is never reached, however often
    it is tried. *)
Definition audit_zero : hook := body_of "audit" "Audit" "https://audit" pre_type true 0 50.
Definition zero : list move := [MCall (RRegister "" 1 audit) []; MCall (RUpdate "audit" audit_zero) []; MCall (RBefore [("t1", "{}")]) []].
Theorem silent_refuted : exists ms w g id c, orderly everything ms w g /\ g id = Some c /\ c_active c = true /\ c_retry c = 50%Z
  /\ (exists t, w_queue w = [(t, 51)] /\ h_id (t_hook t) = id)
  /\ forall rs, List.length rs = 51 ->
       let w' := fold_left (fun w r => move_on (MTry 0 7 r) w) rs w in w_queue w' = [] /\ w_sent w' = [].
Proof.
  exists zero, (at_end zero), (set_at_end zero), "audit", (card_of audit_zero).
  split; [apply (lawful_orderly everything [Unhurried; Same_type]); [exact all_in | vm_compute; reflexivity] |].
  split; [vm_compute; reflexivity |]. split; [reflexivity |]. split; [reflexivity |]. split.
  - eexists. split; [vm_compute; reflexivity | reflexivity].
  - assert (exists t, w_queue (at_end zero) = [(t, 51)] /\ h_timeout (t_hook t) = 0%Z) as (t & Q & Z0)
      by (eexists; split; [vm_compute; reflexivity | reflexivity]).
    assert (w_sent (at_end zero) = []) as S0 by (vm_compute; reflexivity).
    assert (forall n rs w, List.length rs = n -> w_queue w = (if Nat.eqb n 0 then [] else [(t, n)]) -> w_sent w = [] ->
      let w' := fold_left (fun w r => move_on (MTry 0 7 r) w) rs w in w_queue w' = [] /\ w_sent w' = []) as K.
    { intro n. induction n as [| n IH]; intros rs w L Q1 S1.
      - destruct rs; [| discriminate]. cbn. auto.
      - destruct rs as [| r rs]; [discriminate |]. cbn [fold_left]. cbn [Nat.eqb] in Q1.
        assert (nth_error (w_queue w) 0 = Some (t, S n)) as N by (rewrite Q1; reflexivity).
        destruct (tried 0 7%Z r w t n N) as (A & B & _). rewrite Z0 in A, B. change (0 <? 0)%Z with false in A, B.
        apply IH.
        + cbn in L. lia.
        + rewrite B, Q1. cbn. destruct n; reflexivity.
        + rewrite A, S1. reflexivity. }
    intros rs L. apply (K 51); [exact L | exact Q | exact S0].
Qed.
