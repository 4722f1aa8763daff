(** Lineage reports at work, and where they mislead. *)
From Coq Require Import ZArith List String Bool Lia Arith.
From Verif Require Import Base ChainModel LineageModel LineageSpec AllocProof LineageProof LineageBudget LineageLocks LineageDone LineageDemo LineageReport.
Import ListNotations.
Local Open Scope string_scope.
Open Scope Z_scope.
Local Open Scope list_scope.

(** Identifiers that differ and are of one length keep the shadow balances apart. *)
Lemma same_tail a : forall b x y, String.length x = String.length y -> (a ++ x = b ++ y)%string -> x = y.
Proof.
  assert (L : forall c x, String.length (c ++ x)%string = (String.length c + String.length x)%nat) by (induction c as [|h c IH]; intros x; cbn; [reflexivity|rewrite IH; reflexivity]).
  induction a as [|h a IH]; intros b x y E Q.
  - destruct b as [|g b]; [exact Q|]. exfalso. cbn in Q. pose proof (f_equal String.length Q) as X. cbn in X. rewrite L in X. lia.
  - destruct b as [|g b]; cbn in Q.
    + exfalso. pose proof (f_equal String.length Q) as X. cbn in X. rewrite L in X. lia.
    + injection Q as _ Q. eapply IH; eauto.
Qed.
Lemma tail_kept (t : string) x y : (x ++ t = y ++ t)%string -> x = y.
Proof.
  assert (L : forall c z, String.length (c ++ z)%string = (String.length c + String.length z)%nat) by (induction c as [|h c IH]; intros z; cbn; [reflexivity|rewrite IH; reflexivity]).
  revert y. induction x as [|h x IH]; intros [|g y] Q; cbn in Q; [reflexivity| | |].
  - exfalso. pose proof (f_equal String.length Q) as X. cbn in X. rewrite L in X. lia.
  - exfalso. pose proof (f_equal String.length Q) as X. cbn in X. rewrite L in X. lia.
  - injection Q as -> Q. rewrite (IH y Q). reflexivity.
Qed.
Definition ownb (k : lcfg) (s : lst) (b : string) : bool :=
  forallb (fun e => forallb (fun b' => String.eqb b' b || (Nat.eqb (String.length (k_ident k b')) (String.length (k_ident k b)) && negb (String.eqb (k_ident k b') (k_ident k b)))) [en_src e; en_dst e]) (l_entries s).
Lemma str_assoc (a b c : string) : ((a ++ b) ++ c = a ++ (b ++ c))%string.
Proof. induction a as [|h a IH]; cbn; [reflexivity|]. rewrite IH. reflexivity. Qed.
Lemma ownb_own k s b : ownb k s b = true -> own k s b.
Proof.
  intros H e b' p p' Ie B Q. unfold ownb in H. rewrite forallb_forall in H. specialize (H e Ie). rewrite forallb_forall in H. specialize (H b').
  assert (I : In b' [en_src e; en_dst e]) by (destruct B as [->| ->]; cbn; auto). specialize (H I). apply orb_prop in H as [H|H]; [apply String.eqb_eq, H|].
  apply andb_prop in H as [H1 H2]. apply Nat.eqb_eq in H1. apply negb_true_iff, String.eqb_neq in H2. exfalso. apply H2.
  unfold shadow_of in Q.
  assert (R : forall i q, ("@" ++ q ++ "_" ++ i ++ "_lineage" = (("@" ++ q ++ "_") ++ i) ++ "_lineage")%string) by (intros i q; cbn [append]; rewrite !str_assoc; reflexivity).
  rewrite !R in Q. apply tail_kept in Q. eapply same_tail; eauto.
Qed.

(** Runs without failures between a payment and its noting. *)
Definition notedb (s : lst) (ev : levent) : bool :=
  match ev with
  | LStep id o => match find_att (l_atts s) id with
                  | Some a => match at_todo a with
                              | x :: _ => (negb (noting x) || match o with OFail => false | _ => true end) && (negb (paying x) || match o with OLost => false | _ => true end)
                              | [] => true end
                  | None => true end
  | LCrash id => match find_att (l_atts s) id with Some a => match at_todo a with x :: _ => negb (noting x) | [] => true end | None => true end
  | _ => true
  end.
Lemma notedb_noted s ev : notedb s ev = true -> noted s ev.
Proof.
  destruct ev as [ | | |id o| |id| | | ]; cbn [notedb noted]; try (intros; exact Logic.I); intros H a x rest F T; rewrite F, T in H.
  - apply andb_prop in H as [H1 H2]. split.
    + intros N. rewrite N in H1. destruct o; cbn in H1; congruence.
    + intros N. rewrite N in H2. destruct o; cbn in H2; congruence.
  - apply negb_true_iff, H.
Qed.
Fixpoint all_noted (k : lcfg) (s : lst) (es : list levent) : bool :=
  match es with
  | [] => true
  | e :: r => notedb s e && match lstep k s e with Some s' => all_noted k s' r | None => false end
  end.
Lemma all_noted_along k es : forall s, all_noted k s es = true -> along k noted s es.
Proof.
  induction es as [|e es IH]; intros s H; cbn [all_noted along] in *; [exact Logic.I|]. apply andb_true_iff in H. destruct H as [H1 H2]. split; [apply notedb_noted, H1|].
  destruct (lstep k s e); [apply IH; exact H2|discriminate H2].
Qed.
Lemma noted_reach k es : all_noted k linit es = true -> ran k es = true -> lreach_with k noted (state k es).
Proof. intros T R. exists es. split; [apply all_noted_along; exact T|]. unfold ran, state in *. destruct (lruns k linit es); [reflexivity|discriminate R]. Qed.

(** Each of Alice, Bob and the others with an identity of their own. *)
Definition ident (b : string) : string := if String.eqb b "alice" then "alice_idt_1a2b" else if String.eqb b "bob" then "bob_x_idt_77c0" else "other_idt_fe01".
Definition rk : lcfg := {| k_track := tracks; k_ident := ident; k_strat := fun _ => "FIFO"; k_lock := 30 |}.
Definition L (p : string) (a s v : Z) : line := {| li_prov := p; li_amount := a; li_spent := s; li_available := v |}.
Lemma pay_report : let s := state rk pay in
  lreach_with rk in_time s /\ lreach_with rk noted s /\ own rk s "alice" /\ own rk s "bob" /\ l_atts s = [] /\
  report rk (fun _ => true) s "alice" = Some ([L "p1" 100 100 0; L "p2" 100 50 50], 50) /\
  report rk (fun _ => true) s "bob" = Some ([L "p1" 100 0 100; L "p2" 50 0 50], 150) /\
  report rk (fun _ => true) s "world" = None /\
  all_paid_in s "bob" = 150 /\ all_drawn s "alice" = 150 /\ debits s "alice" = 150.
Proof.
  cbv zeta. split; [apply timely_reach; vm_compute; reflexivity|]. split; [apply noted_reach; vm_compute; reflexivity|].
  split; [apply ownb_own; vm_compute; reflexivity|]. split; [apply ownb_own; vm_compute; reflexivity|]. vm_compute. repeat split.
Qed.
(** A shadow balance that cannot be read is left out of the report, and of its total. *)
Lemma unread_report : let s := state rk pay in
  report rk (fun sh => negb (String.eqb sh (shadow_of rk "bob" "p1"))) s "bob" = Some ([L "p2" 50 0 50], 50).
Proof. vm_compute. reflexivity. Qed.
(** A hold is not in it until it is committed. *)
Definition hold_pay : list levent := (funded ++ [LTick 1; LAccept (hold (ent "t" 150 "alice" "bob" ""))] ++ attempt_ok 2 2 12)%list.
Lemma hold_report : let s := state rk hold_pay in
  lreach_with rk noted s /\ report rk (fun _ => true) s "alice" = Some ([L "p1" 100 0 100; L "p2" 100 0 100], 200) /\
  report rk (fun _ => true) s "bob" = Some ([L "p1" 0 0 0; L "p2" 0 0 0], 0).
Proof. cbv zeta. split; [apply noted_reach; vm_compute; reflexivity|]. vm_compute. split; reflexivity. Qed.

(** Two balances of one identity: both report the money of both. *)
Definition one_id : lcfg := {| k_track := tracks; k_ident := fun _ => "ann_lee_idt_1a2b"; k_strat := fun _ => "FIFO"; k_lock := 30 |}.
Definition both : list levent :=
  ([LTick 1; LAccept (ent "c1" 100 "world" "alice" "p1")] ++ attempt_ok 0 0 5 ++ [LTick 1; LAccept (ent "c2" 40 "world" "bob" "p1")] ++ attempt_ok 1 1 5)%list.
Lemma both_report : let s := state one_id both in
  lreach_with one_id in_time s /\ lreach_with one_id noted s /\ l_atts s = [] /\
  report one_id (fun _ => true) s "alice" = Some ([L "p1" 140 0 140], 140) /\ all_paid_in s "alice" = 100 /\
  report one_id (fun _ => true) s "bob" = Some ([L "p1" 140 0 140], 140) /\ all_paid_in s "bob" = 40.
Proof. cbv zeta. split; [apply timely_reach; vm_compute; reflexivity|]. split; [apply noted_reach; vm_compute; reflexivity|]. vm_compute. repeat split. Qed.

(** The noting of the provider fails, which is only logged: the entry is completed, the money
    paid in, and the report does not show it. *)
Definition unnoted : list levent :=
  ([LTick 1; LAccept (ent "c1" 100 "world" "alice" "p1"); LClaim 0] ++ oks 0 3 ++ [LStep 0 OFail; LStep 0 OOk; LFinish 0])%list.
Lemma unnoted_report : let s := state rk unnoted in
  lreach_with rk in_time s /\ own rk s "alice" /\ l_atts s = [] /\ map en_status (l_entries s) = [ECompleted] /\
  report rk (fun _ => true) s "alice" = Some ([], 0) /\ all_paid_in s "alice" = 100.
Proof. cbv zeta. split; [apply timely_reach; vm_compute; reflexivity|]. split; [apply ownb_own; vm_compute; reflexivity|]. vm_compute. repeat split. Qed.

(** Two holds on the same money, both committed: less than nothing is left. *)
Lemma holds_report : let s := state rk two_holds in
  lreach_with rk in_time s /\ exists ls t, report rk (fun _ => true) s "alice" = Some (ls, t) /\ t < 0.
Proof. cbv zeta. split; [apply timely_reach; vm_compute; reflexivity|]. eexists _, _. split; [vm_compute; reflexivity|reflexivity]. Qed.

Lemma shared_refute : exists k s b ls t, lreach_with k in_time s /\ lreach_with k noted s /\ l_atts s = [] /\ report k (fun _ => true) s b = Some (ls, t) /\ all_paid_in s b - all_drawn s b < t.
Proof.
  destruct both_report as (A & B & C & D & E & _). exists one_id, (state one_id both), "alice", [L "p1" 140 0 140], 140. split; [exact A|]. split; [exact B|]. split; [exact C|]. split; [exact D|]. vm_compute. reflexivity.
Qed.
Lemma unnoted_refute : exists k s b ls t, lreach_with k in_time s /\ own k s b /\ l_atts s = [] /\ (forall e, In e (l_entries s) -> en_status e = ECompleted) /\
  report k (fun _ => true) s b = Some (ls, t) /\ t < all_paid_in s b - all_drawn s b.
Proof.
  destruct unnoted_report as (A & B & C & D & E & F). exists rk, (state rk unnoted), "alice", (@nil line), 0. split; [exact A|]. split; [exact B|]. split; [exact C|]. split.
  - intros e I. apply (in_map en_status) in I. rewrite D in I. destruct I as [I|[]]. symmetry. exact I.
  - split; [exact E|]. vm_compute. reflexivity.
Qed.
Lemma holds_report_refute : exists k s b ls t, lreach_with k in_time s /\ report k (fun _ => true) s b = Some (ls, t) /\ t < 0.
Proof. destruct holds_report as (A & ls & t & B & C). exists rk, (state rk two_holds), "alice", ls, t. auto. Qed.
