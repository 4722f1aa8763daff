(** Pages of a table whose rows were created at different times. *)
From Coq Require Import List String Bool Arith ZArith Lia Permutation Sorted.
From Verif Require Import SearchModel SearchSpec.
Import ListNotations.
Local Open Scope string_scope.
Local Open Scope nat_scope.
Local Open Scope list_scope.

(** How many rows were created after [z]. *)
Definition later (z : Z) (t : list row) : nat := List.length (filter (fun x => (z <? r_created x)%Z) t).

Lemma insert_perm : forall tie r l, Permutation (insert tie r l) (r :: l).
Proof.
  intros tie r l. induction l as [|x l IH]; cbn; [reflexivity|]. destruct (before tie r x); [reflexivity|].
  rewrite IH. apply perm_swap.
Qed.
Lemma sort_perm : forall tie l, Permutation (sort tie l) l.
Proof. intros tie l. induction l as [|x l IH]; cbn; [reflexivity|]. unfold sort in IH. rewrite insert_perm, IH. reflexivity. Qed.

Definition newer (a b : row) : Prop := (r_created b <= r_created a)%Z.
Lemma insert_sorted : forall tie r l, StronglySorted newer l -> StronglySorted newer (insert tie r l).
Proof.
  intros tie r l S. induction S as [|x l S IH F]; cbn; [repeat constructor|].
  destruct (before tie r x) eqn:B.
  - assert (L : (r_created x <= r_created r)%Z).
    { unfold before in B. apply orb_prop in B as [B|B]; [apply Z.ltb_lt in B; lia|].
      apply andb_prop in B as [B _]. apply Z.eqb_eq in B. lia. }
    constructor; [constructor; assumption|]. constructor; [exact L|].
    eapply Forall_impl; [|exact F]. unfold newer. intros a H. lia.
  - constructor; [exact IH|]. rewrite Forall_forall. intros a I.
    apply (Permutation_in _ (insert_perm tie r l)) in I. destruct I as [<-|I].
    + unfold newer. unfold before in B. apply orb_false_elim in B as [B _]. apply Z.ltb_ge in B. exact B.
    + rewrite Forall_forall in F. apply F, I.
Qed.
Lemma sort_sorted : forall tie l, StronglySorted newer (sort tie l).
Proof. intros tie l. induction l as [|x l IH]; cbn; [constructor|]. apply insert_sorted, IH. Qed.

Lemma later_perm : forall z a b, Permutation a b -> later z a = later z b.
Proof.
  intros z a b P. unfold later. apply Permutation_length. induction P as [|x l l' P IH|x y l|l1 l2 l3 P1 IH1 P2 IH2]; cbn.
  - constructor.
  - destruct (z <? r_created x)%Z; auto.
  - destruct (z <? r_created y)%Z, (z <? r_created x)%Z; auto. constructor.
  - etransitivity; eauto.
Qed.

Lemma sorted_place : forall l, StronglySorted newer l -> NoDup (map r_created l) ->
  forall p r, nth_error l p = Some r -> later (r_created r) l = p.
Proof.
  intros l S. induction S as [|x l S IH F]; intros N p r E; [destruct p; discriminate E|].
  cbn in N. inversion N as [|a b Nx Nl]; subst. destruct p as [|p]; cbn in E.
  - injection E as <-. unfold later. cbn. rewrite Z.ltb_irrefl.
    replace (filter _ l) with (@nil row); [reflexivity|]. symmetry. clear -F. induction F as [|y l H F IH]; [reflexivity|].
    cbn. unfold newer in H. destruct (Z.ltb_spec (r_created x) (r_created y)); [lia|exact IH].
  - specialize (IH Nl p r E). unfold later in *. cbn. assert (I : In r l) by (eapply nth_error_In, E).
    rewrite Forall_forall in F. specialize (F r I). unfold newer in F.
    destruct (Z.ltb_spec (r_created r) (r_created x)) as [L|L]; [cbn; rewrite IH; reflexivity|].
    exfalso. apply Nx. replace (r_created x) with (r_created r) by lia. apply in_map, I.
Qed.

Lemma nth_error_skipn : forall {A : Type} n p (l : list A), nth_error (skipn n l) p = nth_error l (n + p).
Proof.
  intros A n. induction n as [|n IH]; intros p l; [reflexivity|]. destruct l as [|x l]; cbn; [destruct p; reflexivity|apply IH].
Qed.
Lemma nth_error_firstn : forall {A : Type} n p (l : list A), p < n -> nth_error (firstn n l) p = nth_error l p.
Proof.
  intros A n. induction n as [|n IH]; intros p l L; [lia|]. destruct l as [|x l]; [destruct p; reflexivity|].
  destruct p as [|p]; cbn; [reflexivity|]. apply IH. lia.
Qed.

(** A row with at least [off] newer ones is in the page at [off], or has as many newer ones as
    the next page's offset. *)
Theorem page_next : forall c tie n off t r, NoDup (map r_created t) -> In r t -> off <= later (r_created r) t ->
  In r (page c tie n off t) \/ off + List.length (page c tie n off t) <= later (r_created r) t.
Proof.
  intros c tie n off t r N I O. unfold page. set (s := sort tie t). set (k := limit c n).
  assert (P : Permutation s t) by apply sort_perm.
  apply (Permutation_in _ (Permutation_sym P)) in I. apply In_nth_error in I as [p E].
  assert (L : later (r_created r) t = p).
  { rewrite <- (later_perm _ _ _ P). apply sorted_place; [apply sort_sorted| |exact E].
    apply (Permutation_NoDup (l := map r_created t)); [apply Permutation_map, Permutation_sym, P|exact N]. }
  rewrite L in *. destruct (le_lt_dec (off + k) p) as [G|G].
  - right. rewrite firstn_length. lia.
  - left. apply (nth_error_In _ (p - off)). rewrite nth_error_firstn by lia. rewrite nth_error_skipn.
    replace (off + (p - off)) with p by lia. exact E.
Qed.
(** After an empty page there is none. *)
Theorem page_last : forall c tie n off t r, 1 <= n -> NoDup (map r_created t) -> In r t -> off <= later (r_created r) t ->
  page c tie n off t <> [].
Proof.
  intros c tie n off t r B N I O Em. unfold page in Em. set (s := sort tie t) in *.
  assert (P : Permutation s t) by apply sort_perm.
  pose proof (Permutation_in _ (Permutation_sym P) I) as I2. apply In_nth_error in I2 as [p E].
  assert (L : later (r_created r) t = p).
  { rewrite <- (later_perm _ _ _ P). apply sorted_place; [apply sort_sorted| |exact E].
    apply (Permutation_NoDup (l := map r_created t)); [apply Permutation_map, Permutation_sym, P|exact N]. }
  assert (K : 1 <= limit c n).
  { unfold limit. destruct c; try lia; destruct (n =? 0) eqn:Z; cbn [orb]; try lia; destruct (100 <? n); lia. }
  assert (H : p < List.length s) by (apply nth_error_Some; congruence).
  apply (f_equal (@List.length row)) in Em. rewrite firstn_length, skipn_length in Em. cbn in Em. lia.
Qed.
Lemma page_in : forall c tie n off t r, In r (page c tie n off t) -> In r t.
Proof.
  intros c tie n off t r I. unfold page in I.
  assert (F : forall k (l : list row) x, In x (firstn k l) -> In x l).
  { intros k. induction k as [|k IH]; intros [|y l] x H; cbn in H; try contradiction. destruct H as [->|H]; [left; reflexivity|right; apply IH, H]. }
  assert (S : forall k (l : list row) x, In x (skipn k l) -> In x l).
  { intros k. induction k as [|k IH]; intros [|y l] x H; cbn in H; try contradiction; auto. right. apply IH, H. }
  apply F, S in I. apply (Permutation_in _ (sort_perm tie t)), I.
Qed.
