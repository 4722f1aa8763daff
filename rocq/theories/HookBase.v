(** Lists and sets under C42. *)
From Coq Require Import List String Bool Arith ZArith Lia.
From Verif Require Import HookModel HookSpec.
Import ListNotations.
Local Open Scope string_scope.
Local Open Scope nat_scope.
Local Open Scope list_scope.

Lemma mem_in : forall x l, mem x l = true <-> In x l.
Proof.
  intros x l. unfold mem. rewrite existsb_exists. split.
  - intros (y & i & e). apply String.eqb_eq in e. subst. exact i.
  - intro i. exists x. split; [exact i | apply String.eqb_refl].
Qed.
Lemma mem_not : forall x l, mem x l = false <-> ~ In x l.
Proof.
  intros x l. rewrite <- mem_in. destruct (mem x l); split; intro H; try reflexivity; try discriminate.
  exfalso. apply H. reflexivity.
Qed.

Lemma in_without : forall x y l, In y (without x l) <-> In y l /\ y <> x.
Proof.
  intros x y l. unfold without. rewrite filter_In. split; intros (a & b); split; auto.
  - intro e. subst. rewrite String.eqb_refl in b. discriminate.
  - apply negb_true_iff, String.eqb_neq. congruence.
Qed.
Lemma in_insert : forall x y l, In y (insert x l) <-> y = x \/ In y l.
Proof.
  intros x y l. unfold insert. destruct (mem x l) eqn:e.
  - split; auto. intros [-> | H]; [apply mem_in; exact e | exact H].
  - cbn. split; intros [H | H]; auto.
Qed.
Lemma nodup_filter : forall A (f : A -> bool) l, NoDup l -> NoDup (filter f l).
Proof.
  intros A f l H. induction H as [| x l n _ IH]; cbn; [constructor |].
  destruct (f x); auto. constructor; auto. rewrite filter_In. tauto.
Qed.
Lemma nodup_insert : forall x l, NoDup l -> NoDup (insert x l).
Proof.
  intros x l H. unfold insert. destruct (mem x l) eqn:e; auto. constructor; auto. apply mem_not; exact e.
Qed.

Lemma in_once : forall x l, In x (once l) <-> In x l.
Proof.
  intros x l. induction l as [| y l IH]; cbn; [tauto |]. rewrite filter_In, IH. split.
  - tauto.
  - intros [-> | H]; auto. destruct (String.eqb y x) eqn:e; auto. left. apply String.eqb_eq; exact e.
Qed.
Lemma nodup_once : forall l, NoDup (once l).
Proof.
  intro l. induction l as [| y l IH]; cbn; [constructor |]. constructor.
  - rewrite filter_In, String.eqb_refl. intros (_ & H). discriminate.
  - apply nodup_filter; exact IH.
Qed.
Lemma in_arrange : forall x order l, In x (arrange order l) <-> In x l.
Proof.
  intros x order l. unfold arrange. rewrite in_app_iff, in_once, !filter_In, mem_in, negb_true_iff. split.
  - tauto.
  - intro H. destruct (mem x order) eqn:e; auto. apply mem_in in e. auto.
Qed.
Lemma nodup_app : forall A (a b : list A), NoDup a -> NoDup b -> (forall x, In x a -> In x b -> False) -> NoDup (a ++ b).
Proof.
  intros A a b Ha Hb H. induction Ha as [| x a n Ha IH]; cbn; auto. constructor.
  - rewrite in_app_iff. intros [K | K]; [auto | eapply H; [left; reflexivity | exact K]].
  - apply IH. intros y i. apply H. right; exact i.
Qed.
Lemma nodup_arrange : forall order l, NoDup l -> NoDup (arrange order l).
Proof.
  intros order l H. unfold arrange. apply nodup_app.
  - apply nodup_once.
  - apply nodup_filter; exact H.
  - intros x a b. rewrite in_once, filter_In in a. rewrite filter_In, negb_true_iff, mem_not in b. tauto.
Qed.

Lemma shelf_eqb_eq : forall a b, shelf_eqb a b = true <-> a = b.
Proof. intros [] []; cbn; split; intro; congruence. Qed.
Lemma shelf_eqb_refl : forall a, shelf_eqb a a = true.
Proof. intros []; reflexivity. Qed.

Lemma set_shelf_same : forall s l m, set_shelf s l m s = l.
Proof. intros. unfold set_shelf. rewrite shelf_eqb_refl. reflexivity. Qed.
Lemma set_shelf_other : forall s t l m, t <> s -> set_shelf s l m t = m t.
Proof. intros s t l m n. unfold set_shelf. destruct (shelf_eqb t s) eqn:e; auto. apply shelf_eqb_eq in e. contradiction. Qed.

Lemma nth_set_nth : forall A i j (x : A) l,
  nth_error (set_nth i x l) j = if Nat.eqb i j then match nth_error l j with Some _ => Some x | None => None end else nth_error l j.
Proof.
  intros A i. induction i as [| i IH]; intros j x [| y l]; cbn.
  - destruct j; cbn; reflexivity.
  - destruct j; cbn; reflexivity.
  - destruct j; cbn; [reflexivity | destruct (Nat.eqb i j); reflexivity].
  - destruct j; cbn; [reflexivity | apply IH].
Qed.
Lemma length_set_nth : forall A i (x : A) l, List.length (set_nth i x l) = List.length l.
Proof. intros A i. induction i as [| i IH]; intros x [| y l]; cbn; congruence. Qed.
Lemma in_drop_nth : forall A i (x : A) l, In x (drop_nth i l) -> In x l.
Proof.
  intros A i. induction i as [| i IH]; intros x [| y l]; cbn; auto. intros [H | H]; eauto.
Qed.
Lemma nth_app_new : forall A (l : list A) x i y, nth_error (l ++ [x]) i = Some y ->
  nth_error l i = Some y \/ (i = List.length l /\ y = x).
Proof.
  intros A l x i y H. destruct (lt_dec i (List.length l)) as [a | a].
  - rewrite nth_error_app1 in H by exact a. auto.
  - rewrite nth_error_app2 in H by lia. right. destruct (i - List.length l) eqn:e.
    + cbn in H. injection H as <-. split; [lia | reflexivity].
    + cbn in H. destruct n; discriminate.
Qed.
Lemma nth_set_nth_in : forall A i j (x y : A) l, nth_error (set_nth i x l) j = Some y ->
  (i = j /\ y = x) \/ (i <> j /\ nth_error l j = Some y).
Proof.
  intros A i j x y l H. rewrite nth_set_nth in H. destruct (Nat.eqb i j) eqn:e.
  - apply Nat.eqb_eq in e. destruct (nth_error l j); [| discriminate]. injection H as <-. auto.
  - apply Nat.eqb_neq in e. auto.
Qed.

Lemma play_app : forall a b w, play (a ++ b) w = play b (play a w).
Proof. intros a. induction a as [| e a IH]; intros b w; cbn; auto. Qed.

Lemma set_hook_same : forall id h m, set_hook id h m id = h.
Proof. intros. unfold set_hook. rewrite String.eqb_refl. reflexivity. Qed.
Lemma set_hook_other : forall id x h m, x <> id -> set_hook id h m x = m x.
Proof. intros id x h m n. unfold set_hook. apply String.eqb_neq in n. rewrite n. reflexivity. Qed.

(** Stepping leaves the runs alone, but for the one that steps. *)
Lemma command_runs : forall i j o order r p w w' p', command i j o order r p w = (w', p') -> w_runs w' = w_runs w.
Proof.
  intros i j o order r p w w' p' H.
  destruct p; cbn in H; injection H as <- <-; try reflexivity; try (destruct (took o); reflexivity).
  destruct j; try reflexivity. destruct (took o); reflexivity.
Qed.
