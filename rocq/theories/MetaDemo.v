(** Updates of metadata, played. *)
From Coq Require Import List String Bool Arith Lia ZArith.
From Verif Require Import BodyModel MetaModel MetaSpec MetaProof.
Import ListNotations.
Local Open Scope string_scope.
Local Open Scope nat_scope.
Local Open Scope list_scope.

Definition doneb (p : prog) : bool := match p with Done _ => true | _ => false end.
Definition aloneb (e : event) (y : system) : bool :=
  match e with
  | EStart id _ | EWrite (WReplace id _) | EWrite (WRemove id) =>
    is_txn id || forallb (fun j => negb (String.eqb (j_id j) id) || doneb (j_prog j)) (y_jobs y)
  | _ => true
  end.
Lemma aloneb_ok e y : aloneb e y = true -> alone e y.
Proof.
  assert (X : forall id, is_txn id || forallb (fun j => negb (String.eqb (j_id j) id) || doneb (j_prog j)) (y_jobs y) = true ->
    is_txn id = true \/ forall j, In j (y_jobs y) -> j_id j = id -> is_done (j_prog j)).
  { intros id H. apply orb_true_iff in H as [H|H]; [now left|]. right. intros j I E. rewrite forallb_forall in H. specialize (H j I).
    rewrite E, String.eqb_refl in H. destruct (j_prog j); try discriminate. eexists. reflexivity. }
  destruct e as [| |[]]; cbn [aloneb alone]; auto.
Qed.
Fixpoint distinct (l : list string) : bool :=
  match l with [] => true | x :: r => negb (existsb (String.eqb x) r) && distinct r end.
Lemma distinct_ok l : distinct l = true -> NoDup l.
Proof.
  induction l as [|x l IH]; [constructor|]. cbn. intros H. apply andb_true_iff in H as [A B]. constructor; [|auto].
  intros I. apply negb_true_iff in A. assert (Z0 : existsb (String.eqb x) l = true); [|congruence].
  apply existsb_exists. exists x. split; [exact I|apply String.eqb_refl].
Qed.
Definition fitsb (e : event) : bool := match e with EStart _ m => distinct (map fst m) | _ => true end.
Lemma fitsb_ok e : fitsb e = true -> fits e.
Proof. destruct e; cbn; auto. apply distinct_ok. Qed.

Fixpoint legal (one : bool) (es : list event) (y : system) : bool :=
  match es with [] => true | e :: r => fitsb e && (negb one || aloneb e y) && legal one r (happen e y) end.
Lemma legal_from (one : bool) es : forall pre y, history (if one then alone else anything) pre y -> legal one es y = true ->
  history (if one then alone else anything) (pre ++ es) (play es y).
Proof.
  induction es as [|e es IH]; intros pre y H L; cbn [play].
  - now rewrite app_nil_r.
  - cbn [legal] in L. apply andb_true_iff in L as [L1 L2]. apply andb_true_iff in L1 as [L0 L1].
    change (e :: es) with ([e] ++ es). rewrite app_assoc. apply IH; [|exact L2]. constructor; [exact H|now apply fitsb_ok|].
    destruct one; [|exact Logic.I]. cbn in L1. now apply aloneb_ok.
Qed.
Lemma legal_alone es : legal true es nothing = true -> history alone es (play es nothing).
Proof. intros L. apply (legal_from true es []); [constructor|exact L]. Qed.
Lemma legal_any es : legal false es nothing = true -> history anything es (play es nothing).
Proof. intros L. apply (legal_from false es []); [constructor|exact L]. Qed.

Definition num (z : Z) : json := JNum true z.
Definition answers (y : system) : list (option answer) :=
  map (fun j => match j_prog j with Done a => Some a | _ => None end) (y_jobs y).

(** A ledger with metadata, one update waiting to be stored. *)
Definition ledger_day : list event :=
  [EWrite (WCreate KLedger "ldg_1" (Some [("a", num 1); ("b", num 2)])); EStart "ldg_1" [("b", num 3); ("c", JText "x")]; EStep 0 Fine].
Lemma ledger_met : exists es y j, history alone es y /\ nth_error (y_jobs y) 0 = Some j /\ is_txn (j_id j) = false /\ ~ is_done (j_prog j)
  /\ nth_error (y_jobs (happen (EStep 0 Fine) y)) 0
     = Some {| j_id := j_id j; j_sent := j_sent j; j_prog := Done (MOk [("a", num 1); ("b", num 3); ("c", JText "x")]) |}.
Proof.
  exists ledger_day, (play ledger_day nothing). eexists. split; [apply legal_alone; vm_compute; reflexivity|].
  split; [reflexivity|]. split; [reflexivity|]. split; [intros [a X]; discriminate|]. reflexivity.
Qed.

(** A transaction without metadata and one of its parts, updated by two at once. *)
Definition txn_day : list event :=
  [EWrite (WRecord "txn_1" "" None); EWrite (WRecord "txn_2" "txn_1" (Some [("k", num 1)])); EWrite (WRecord "txn_3" "" (Some [("k", num 1)]));
   EStart "txn_1" [("k", num 7)]; EStart "txn_1" [("l", num 8)]; EStep 0 Fine; EStep 1 Fine; EStep 0 Fine].
Lemma txn_met : exists es y j, history anything es y /\ nth_error (y_jobs y) 1 = Some j /\ is_txn (j_id j) = true /\ ~ is_done (j_prog j)
  /\ nth_error (y_jobs (happen (EStep 1 Fine) y)) 1 = Some {| j_id := j_id j; j_sent := j_sent j; j_prog := Done (MOk [("l", num 8)]) |}
  /\ map (fun x => meta_of (happen (EStep 1 Fine) y) (Txn x)) ["txn_1"; "txn_2"; "txn_3"]
     = [Some (JObj [("k", num 7); ("l", num 8)]); Some (JObj [("k", num 7); ("l", num 8)]); Some (JObj [("k", num 1)])].
Proof.
  exists txn_day, (play txn_day nothing). eexists. split; [apply legal_any; vm_compute; reflexivity|].
  split; [reflexivity|]. split; [reflexivity|]. split; [intros [a X]; discriminate|]. split; reflexivity.
Qed.

Lemma refused_met : exists es y, history alone es y
  /\ nth_error (y_jobs y) 0 = Some {| j_id := "acc_1"; j_sent := [("a", num 1)]; j_prog := update "acc_1" [("a", num 1)] |}
  /\ forall x, ~ meant y "acc_1" x \/ meta_of y x = None.
Proof.
  exists [EStart "acc_1" [("a", num 1)]], (play [EStart "acc_1" [("a", num 1)]] nothing). split; [apply legal_alone; vm_compute; reflexivity|].
  split; [reflexivity|]. intros [k id|id]; right; reflexivity.
Qed.

(** ** What goes wrong *)

(** Two updates of a ledger at once: both confirmed, the first is gone. *)
Definition race : list event :=
  [EWrite (WCreate KLedger "ldg_1" None); EStart "ldg_1" [("a", num 1)]; EStart "ldg_1" [("b", num 2)]; EStep 0 Fine; EStep 1 Fine; EStep 0 Fine; EStep 1 Fine].
Lemma race_refuted : exists es y, history anything es y
  /\ answers y = [Some (MOk [("a", num 1)]); Some (MOk [("b", num 2)])] /\ meta_of y (One KLedger "ldg_1") = Some (JObj [("b", num 2)]).
Proof. exists race, (play race nothing). split; [apply legal_any; vm_compute; reflexivity|]. split; reflexivity. Qed.

(** An identity deleted meanwhile: confirmed. *)
Definition removed : list event :=
  [EWrite (WCreate KIdentity "idt_1" None); EStart "idt_1" [("a", num 1)]; EStep 0 Fine; EWrite (WRemove "idt_1"); EStep 0 Fine].
Lemma removed_refuted : exists es y, history anything es y
  /\ answers y = [Some (MOk [("a", num 1)])] /\ meta_of y (One KIdentity "idt_1") = None.
Proof. exists removed, (play removed nothing). split; [apply legal_any; vm_compute; reflexivity|]. split; reflexivity. Qed.

(** The answer for a transaction holds what was sent only. *)
Definition partial_answer : list event :=
  [EWrite (WRecord "txn_1" "" (Some [("k", num 1)])); EStart "txn_1" [("l", num 2)]; EStep 0 Fine; EStep 0 Fine].
Lemma answer_refuted : exists es y, history alone es y
  /\ answers y = [Some (MOk [("l", num 2)])] /\ meta_of y (Txn "txn_1") = Some (JObj [("k", num 1); ("l", num 2)]).
Proof. exists partial_answer, (play partial_answer nothing). split; [apply legal_alone; vm_compute; reflexivity|]. split; reflexivity. Qed.
