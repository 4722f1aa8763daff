(** Proofs about the hash chain (C22, C23, C24). *)
From Coq Require Import ZArith List String Ascii Bool Lia Permutation Sorted DecimalString DecimalZ.
From Verif Require Import Base ChainModel ChainSpec.
Import ListNotations.
Open Scope Z_scope.

(** ** Sorting *)
Section Sorting.
  Context {A : Type} (key : A -> Z).
  Definition before (x y : A) : Prop := key x <= key y.
  Lemma insert_perm x l : Permutation (x :: l) (insert_by key x l).
  Proof.
    induction l as [|y l IH]; simpl; [reflexivity|]. destruct (key x <=? key y); [reflexivity|].
    rewrite perm_swap. constructor. exact IH.
  Qed.
  Lemma sort_perm l : Permutation l (sort_by key l).
  Proof. induction l as [|x l IH]; simpl; [reflexivity|]. rewrite <- insert_perm. constructor; exact IH. Qed.
  Lemma insert_sorted x l : StronglySorted before l -> StronglySorted before (insert_by key x l).
  Proof.
    induction l as [|y l IH]; intros H; simpl; [repeat constructor|]. inversion H as [|? ? H1 H2]; subst.
    destruct (key x <=? key y) eqn:E.
    - apply Z.leb_le in E. constructor; [exact H|]. constructor; [exact E|].
      eapply Forall_impl; [|exact H2]. unfold before. intros; lia.
    - apply Z.leb_gt in E. constructor; [apply IH; exact H1|].
      eapply Permutation_Forall; [apply insert_perm|]. constructor; [unfold before; lia|exact H2].
  Qed.
  Lemma sort_sorted l : StronglySorted before (sort_by key l).
  Proof. induction l; simpl; [constructor|apply insert_sorted; assumption]. Qed.
  Lemma sorted_unique l1 : forall l2, StronglySorted (fun x y => key x < key y) l1 -> StronglySorted before l2 ->
    Permutation l1 l2 -> l1 = l2.
  Proof.
    induction l1 as [|x l1 IH]; intros l2 H1 H2 P; [apply Permutation_nil in P; auto|].
    inversion H1 as [|? ? A1 A2]; subst. destruct l2 as [|y l2]; [apply Permutation_sym, Permutation_nil in P; discriminate|].
    inversion H2 as [|? ? B1 B2]; subst.
    assert (E : x = y).
    { assert (Hy : In y (x :: l1)) by (eapply Permutation_in; [apply Permutation_sym; exact P|left; reflexivity]).
      destruct Hy as [Hy|Hy]; [exact Hy|]. rewrite Forall_forall in A2. specialize (A2 _ Hy).
      assert (Hx : In x (y :: l2)) by (eapply Permutation_in; [exact P|left; reflexivity]).
      destruct Hx as [Hx|Hx]; [congruence|]. rewrite Forall_forall in B2. specialize (B2 _ Hx). unfold before in B2. lia. }
    subst y. f_equal. apply IH; auto. apply Permutation_cons_inv in P. exact P.
  Qed.
  Lemma sort_is l l' : StronglySorted (fun x y => key x < key y) l -> Permutation l l' -> sort_by key l' = l.
  Proof.
    intros H P. symmetry. apply sorted_unique; [exact H|apply sort_sorted|]. rewrite P. apply sort_perm.
  Qed.
End Sorting.

Lemma filter_perm {A} (f : A -> bool) l l' : Permutation l l' -> Permutation (filter f l) (filter f l').
Proof.
  induction 1; simpl; auto.
  - destruct (f x); auto.
  - destruct (f x), (f y); auto. apply perm_swap.
  - etransitivity; eauto.
Qed.
Lemma firstn_in {A} n (l : list A) x : In x (firstn n l) -> In x l.
Proof. intros H. rewrite <- (firstn_skipn n l). apply in_or_app. auto. Qed.

Lemma nodup_left {A} (a b : list A) : NoDup (a ++ b) -> NoDup a.
Proof.
  induction a as [|x a IH]; intros H; [constructor|]. inversion H as [|? ? N1 N2]; subst. constructor; auto.
  intros X. apply N1. apply in_or_app; auto.
Qed.

(** ** The chain *)
Section Chain.
  Variable hash : string -> string.

  Lemma chained_app l1 : forall p n l2, chained hash p n (l1 ++ l2) <->
    chained hash p n l1 /\ chained hash (last_hash p l1) (n + Z.of_nat (List.length l1)) l2.
  Proof.
    induction l1 as [|r l1 IH]; intros p n l2; cbn [app chained List.length].
    - unfold last_hash. simpl. rewrite Z.add_0_r. tauto.
    - split.
      + intros (h & H1 & H2 & H3). apply IH in H3 as [H3 H4]. split; [exists h; auto|].
        unfold last_hash in *. cbn [fold_left]. rewrite H1. cbn [sl_hash]. rewrite Nat2Z.inj_succ.
        replace (n + Z.succ (Z.of_nat (List.length l1))) with (n + 1 + Z.of_nat (List.length l1)) by lia. exact H4.
      + intros [(h & H1 & H2 & H3) H4]. exists h. split; [exact H1|]. split; [exact H2|]. apply IH. split; [exact H3|].
        unfold last_hash in *. cbn [fold_left] in H4. rewrite H1 in H4. cbn [sl_hash] in H4. rewrite Nat2Z.inj_succ in H4.
        replace (n + 1 + Z.of_nat (List.length l1)) with (n + Z.succ (Z.of_nat (List.length l1))) by lia. exact H4.
  Qed.
  Lemma last_hash_app p l1 l2 : last_hash p (l1 ++ l2) = last_hash (last_hash p l1) l2.
  Proof. unfold last_hash. apply fold_left_app. Qed.
  Lemma chained_seq l : forall p n r, chained hash p n l -> In r l -> is_sealed r = true /\ n <= seq_of r < n + Z.of_nat (List.length l).
  Proof.
    induction l as [|x l IH]; intros p n r H Hr; [destruct Hr|]. destruct H as (h & H1 & H2 & H3).
    cbn [List.length]. rewrite Nat2Z.inj_succ. destruct Hr as [<-|Hr].
    - unfold is_sealed, seq_of. rewrite H1. cbn [sl_seq]. split; [reflexivity|lia].
    - destruct (IH _ _ _ H3 Hr) as [A B]. split; [exact A|lia].
  Qed.
  Lemma chained_sorted l : forall p n, chained hash p n l -> StronglySorted (fun x y => seq_of x < seq_of y) l.
  Proof.
    induction l as [|x l IH]; intros p n H; [constructor|]. pose proof H as (h & H1 & H2 & H3). constructor; [eapply IH; eauto|].
    apply Forall_forall. intros y Hy. destruct (chained_seq l _ _ y H3 Hy) as [_ B].
    unfold seq_of at 1. rewrite H1. cbn [sl_seq]. lia.
  Qed.

  (** Writing one seal. *)
  Definition put_seal (r : crow) (s : seal) : crow :=
    {| k_pk := k_pk r; k_facts := k_facts r; k_extra := k_extra r; k_seal := Some s |}.
  Lemma write_pks rows l : map k_pk (write_link rows l) = map k_pk rows.
  Proof. unfold write_link. rewrite map_map. apply map_ext. intros r. destruct (_ =? _); reflexivity. Qed.
  Lemma write_other rows l : ~ In (l_pk l) (map k_pk rows) -> write_link rows l = rows.
  Proof.
    induction rows as [|r rows IH]; intros H; simpl; [reflexivity|]. destruct (k_pk r =? l_pk l) eqn:E.
    - apply Z.eqb_eq in E. exfalso. apply H. left; exact E.
    - f_equal. apply IH. intros X; apply H; right; exact X.
  Qed.
  Lemma write_sealed rows l r : NoDup (map k_pk rows) -> In r rows -> k_pk r = l_pk l -> k_seal r = None ->
    Permutation (put_seal r (l_seal l) :: filter is_sealed rows) (filter is_sealed (write_link rows l)).
  Proof.
    induction rows as [|x rows IH]; intros Hn Hr E Hs; [destruct Hr|]. inversion Hn as [|? ? N1 N2]; subst. simpl.
    destruct Hr as [->|Hr].
    - rewrite E, Z.eqb_refl. change (write_link rows l = rows) with (write_link rows l = rows).
      fold (write_link rows l). rewrite write_other by (rewrite <- E; exact N1).
      assert (Es : is_sealed r = false) by (unfold is_sealed; rewrite Hs; reflexivity). rewrite Es. simpl.
      unfold put_seal. rewrite E. reflexivity.
    - destruct (k_pk x =? l_pk l) eqn:E1.
      + apply Z.eqb_eq in E1. exfalso. apply N1. rewrite E1, <- E. apply in_map; exact Hr.
      + fold (write_link rows l). specialize (IH N2 Hr E Hs). destruct (is_sealed x); [|exact IH].
        rewrite perm_swap. constructor. exact IH.
  Qed.
  Lemma write_keeps rows l r : In r rows -> k_pk r <> l_pk l -> In r (write_link rows l).
  Proof.
    intros H E. unfold write_link. apply in_map_iff. exists r. destruct (k_pk r =? l_pk l) eqn:E1; [apply Z.eqb_eq in E1; tauto|auto].
  Qed.

  (** [r] stands for an unsealed row of the table. *)
  Definition waiting (rows : list crow) (r : crow) : Prop :=
    exists r', In r' rows /\ k_pk r' = k_pk r /\ k_facts r' = k_facts r /\ k_seal r' = None.

  Lemma links_pks rs : forall last head ls last' head', make_links hash last head rs = (ls, last', head') -> map l_pk ls = map k_pk rs.
  Proof.
    induction rs as [|r rs IH]; intros last head ls last' head' H; simpl in H; [inversion H; reflexivity|].
    destruct (make_links hash (last + 1) (chain_hash hash head (k_facts r)) rs) as [[ls1 la] he] eqn:E.
    inversion H; subst. simpl. f_equal. eapply IH; eauto.
  Qed.

  Lemma seal_all rs : forall rows l g last head ls last' head',
    NoDup (map k_pk rows) -> NoDup (map k_pk rs) -> Forall (waiting rows) rs ->
    Permutation l (filter is_sealed rows) -> chained hash g 1 l -> last = Z.of_nat (List.length l) -> head = last_hash g l ->
    make_links hash last head rs = (ls, last', head') ->
    exists l2, Permutation (l ++ l2) (filter is_sealed (fold_left write_link ls rows)) /\ chained hash g 1 (l ++ l2)
      /\ last' = Z.of_nat (List.length (l ++ l2)) /\ head' = last_hash g (l ++ l2)
      /\ map k_pk (fold_left write_link ls rows) = map k_pk rows /\ map k_pk l2 = map k_pk rs
      /\ (forall r, In r rows -> ~ In (k_pk r) (map k_pk rs) -> In r (fold_left write_link ls rows)).
  Proof.
    induction rs as [|r rs IH]; intros rows l g last head ls last' head' Hn Hnr Hw P C Hl Hh H; simpl in H.
    - inversion H; subst. exists []. rewrite app_nil_r. simpl. auto 10.
    - set (h := chain_hash hash head (k_facts r)) in *.
      destruct (make_links hash (last + 1) h rs) as [[ls1 la] he] eqn:E. inversion H; subst ls la he; clear H.
      inversion Hw as [|? ? (r' & W1 & W2 & W3 & W4) Hw']; subst. inversion Hnr as [|? ? N1 N2]; subst.
      set (lk := {| l_pk := k_pk r; l_seal := {| sl_seq := Z.of_nat (List.length l) + 1; sl_prev := last_hash g l; sl_hash := h |} |}) in *.
      assert (Hs := write_sealed rows lk r' Hn W1 W2 W4).
      assert (C1 : chained hash g 1 (l ++ [put_seal r' (l_seal lk)])).
      { apply chained_app. split; [exact C|]. cbn [chained]. exists h. unfold h. rewrite <- W3.
        split; [|split; [reflexivity|exact Logic.I]]. unfold put_seal, lk, h. cbn [k_seal l_seal].
        rewrite W3, (Z.add_comm 1). reflexivity. }
      destruct (IH (write_link rows lk) (l ++ [put_seal r' (l_seal lk)]) g (Z.of_nat (List.length l) + 1) h ls1 last' head')
        as (l2 & B1 & B2 & B3 & B4 & B5 & B6 & B7); auto.
      { rewrite write_pks. exact Hn. }
      { apply Forall_forall. intros x Hx. rewrite Forall_forall in Hw'. destruct (Hw' x Hx) as (x' & X1 & X2 & X3 & X4).
        exists x'. split; [|auto]. apply write_keeps; [exact X1|]. simpl. intros X. apply N1. rewrite <- X, X2. apply in_map; exact Hx. }
      { rewrite <- Permutation_cons_append. rewrite <- Hs. constructor. exact P. }
      { rewrite app_length. simpl. lia. }
      { rewrite last_hash_app. reflexivity. }
      exists (put_seal r' (l_seal lk) :: l2). rewrite <- app_assoc in B1, B2, B3, B4. simpl in B1, B2, B3, B4.
      split; [exact B1|]. split; [exact B2|]. split; [exact B3|]. split; [exact B4|].
      split; [simpl; rewrite B5; apply write_pks|]. split; [simpl; congruence|].
      intros x Hx Hni. simpl. apply B7; [apply write_keeps; [exact Hx|simpl; intros X; apply Hni; left; auto]|].
      intros X; apply Hni; right; exact X.
  Qed.

  (** ** Invariant *)
  Definition core (r : crow) : Z * facts * option seal := (k_pk r, k_facts r, k_seal r).
  Definition work_ok (d : db) (w : option work) : Prop :=
    match w with
    | None => True
    | Some (Locked last head) => last = d_last d /\ head = d_head d
    | Some (Writing todo done last head) =>
      exists rs, NoDup (map k_pk rs) /\ Forall (waiting (d_rows d)) rs /\ make_links hash (d_last d) (d_head d) rs = ((done ++ todo)%list, last, head)
    end.
  Definition cinv (y : csys) (l : list crow) : Prop :=
    NoDup (map k_pk (d_rows (c_db y))) /\ d_genesis (c_db y) = genesis /\ sealed_chain hash (c_db y) l /\ work_ok (c_db y) (c_work y).

  Lemma scan_ok cutoff limit d : NoDup (map k_pk (d_rows d)) ->
    NoDup (map k_pk (scan cutoff limit d)) /\ Forall (waiting (d_rows d)) (scan cutoff limit d).
  Proof.
    intros Hn. unfold scan. set (f := fun r => negb (is_sealed r) && _).
    assert (P := sort_perm k_pk (filter f (d_rows d))).
    assert (N : NoDup (map k_pk (sort_by k_pk (filter f (d_rows d))))).
    { eapply Permutation_NoDup; [apply Permutation_map; exact P|]. clear P. clearbody f. induction (d_rows d) as [|x rows IH]; [constructor|].
      inversion Hn as [|? ? N1 N2]; subst. simpl. destruct (f x); [|auto]. simpl. constructor; [|auto].
      intros X. apply N1. apply in_map_iff in X as (z & Z1 & Z2). apply filter_In in Z2 as [Z2 _]. rewrite <- Z1. apply in_map; exact Z2. }
    split.
    - rewrite <- (firstn_skipn limit (sort_by k_pk (filter f (d_rows d)))) in N. rewrite map_app in N.
      apply nodup_left in N. exact N.
    - apply Forall_forall. intros x Hx. apply firstn_in in Hx. apply (Permutation_in _ (Permutation_sym P)) in Hx.
      apply filter_In in Hx as [H1 H2]. exists x. split; [exact H1|]. split; [reflexivity|]. split; [reflexivity|].
      unfold f in H2. apply andb_prop in H2 as [H2 _]. unfold is_sealed in H2. destruct (k_seal x); [discriminate|reflexivity].
  Qed.

  Lemma opt_eqb_eq {A} (f : A -> A -> bool) a b : (forall x y, f x y = true -> x = y) -> opt_eqb f a b = true -> a = b.
  Proof. intros H. destruct a, b; simpl; intros E; try discriminate; [f_equal; auto|reflexivity]. Qed.
  Lemma allowed_same old new : update_allowed old new = true -> new = old.
  Proof.
    unfold update_allowed. intros H. repeat (apply andb_prop in H as [H ?]).
    assert (SE : forall x y, String.eqb x y = true -> x = y) by (intros x y; apply String.eqb_eq).
    assert (ZE : forall x y, Z.eqb x y = true -> x = y) by (intros x y; apply Z.eqb_eq).
    destruct old, new; simpl in *. apply SE in H.
    repeat match goal with X : opt_eqb String.eqb _ _ = true |- _ => apply (opt_eqb_eq _ _ _ SE) in X
                      | X : opt_eqb Z.eqb _ _ = true |- _ => apply (opt_eqb_eq _ _ _ ZE) in X
                      | X : Z.eqb _ _ = true |- _ => apply ZE in X end.
    congruence.
  Qed.

  Lemma chained_ext l l' : map core l = map core l' -> forall p n, chained hash p n l -> chained hash p n l'.
  Proof.
    revert l'. induction l as [|x l IH]; intros [|x' l'] E p n H; try discriminate; [exact Logic.I|].
    cbn [map] in E. injection E as E1 E2 E3 E4. destruct H as (h & H1 & H2 & H3). exists h.
    rewrite <- E3, <- E2. split; [exact H1|]. split; [exact H2|]. eapply IH; eauto.
  Qed.
  Lemma last_hash_ext l l' : map core l = map core l' -> forall p, last_hash p l = last_hash p l'.
  Proof.
    revert l'. induction l as [|x l IH]; intros [|x' l'] E p; try discriminate; [reflexivity|].
    cbn [map] in E. injection E as E1 E2 E3 E4. unfold last_hash in *. simpl. rewrite E3. apply IH. exact E4.
  Qed.

  (** Updating other columns changes no core. *)
  Lemma update_core pk f x rows : forallb (fun r => negb (k_pk r =? pk) || update_allowed (k_facts r) f) rows = true ->
    forall r, In r rows -> core (if k_pk r =? pk then {| k_pk := pk; k_facts := f; k_extra := x; k_seal := k_seal r |} else r) = core r.
  Proof.
    intros H r Hr. rewrite forallb_forall in H. specialize (H r Hr). destruct (k_pk r =? pk) eqn:E; [|reflexivity].
    simpl in H. apply allowed_same in H. apply Z.eqb_eq in E. subst. unfold core. simpl. congruence.
  Qed.
  Lemma map_chain (g : crow -> crow) rows l : (forall r, In r rows -> core (g r) = core r) ->
    Permutation l (filter is_sealed rows) -> Permutation (map g l) (filter is_sealed (map g rows)) /\ map core (map g l) = map core l.
  Proof.
    intros Hg P. split.
    - assert (E : filter is_sealed (map g rows) = map g (filter is_sealed rows)).
      { clear P. induction rows as [|r rows IH]; [reflexivity|]. simpl.
        assert (Es : is_sealed (g r) = is_sealed r).
        { specialize (Hg r (or_introl eq_refl)). unfold core in Hg. inversion Hg. unfold is_sealed. rewrite H2. reflexivity. }
        rewrite Es. rewrite IH by (intros; apply Hg; right; assumption). destruct (is_sealed r); reflexivity. }
      rewrite E. apply Permutation_map. exact P.
    - rewrite map_map. apply map_ext_in. intros r Hr. apply Hg. eapply Permutation_in in Hr; [|exact P]. apply filter_In in Hr. apply Hr.
  Qed.

  Definition prefix_of (a b : list (Z * facts * option seal)) : Prop := exists c, b = (a ++ c)%list.
  Lemma prefix_refl a : prefix_of a a. Proof. exists []. rewrite app_nil_r. reflexivity. Qed.
  Lemma prefix_trans a b c : prefix_of a b -> prefix_of b c -> prefix_of a c.
  Proof. intros [x ->] [z ->]. exists (x ++ z)%list. rewrite app_assoc. reflexivity. Qed.

  Lemma cstep_inv y l e y' : cinv y l -> cstep hash y e = Some y' -> exists l', cinv y' l' /\ prefix_of (map core l) (map core l').
  Proof.
    intros (Hn & Hg & Hc & Hw) H. destruct y as [d w]. simpl in *.
    assert (same : forall w', work_ok d w' -> y' = {| c_db := d; c_work := w' |} -> exists l', cinv y' l' /\ prefix_of (map core l) (map core l')).
    { intros w' Hw' ->. exists l. split; [split; [exact Hn|split; [exact Hg|split; [exact Hc|exact Hw']]]|apply prefix_refl]. }
    unfold cstep in H. destruct e; cbn [c_db c_work] in H.
    - destruct w; [discriminate|]. inversion H; subst. eapply same; [|reflexivity]. simpl. auto.
    - destruct w as [[last head|]|]; try discriminate.
      destruct (make_links hash last head (scan cutoff limit d)) as [[ls la] he] eqn:E. inversion H; subst.
      eapply same; [|reflexivity]. simpl. destruct Hw as [-> ->]. exists (scan cutoff limit d).
      destruct (scan_ok cutoff limit d Hn). auto.
    - destruct w as [[|todo done last head]|]; try discriminate. destruct todo as [|lk todo]; [discriminate|]. inversion H; subst.
      eapply same; [|reflexivity]. simpl in *. destruct Hw as (rs & A & B & C). exists rs. split; [exact A|]. split; [exact B|].
      rewrite C. rewrite <- app_assoc. reflexivity.
    - destruct w as [[|todo done last head]|]; try discriminate. destruct todo; [|discriminate].
      simpl in Hw. destruct Hw as (rs & A & B & C). rewrite app_nil_r in C.
      destruct Hc as (P & Ch & L1 & L2). 
      destruct (seal_all rs (d_rows d) l (d_genesis d) (d_last d) (d_head d) done last head Hn A B P Ch L1 L2 C)
        as (l2 & B1 & B2 & B3 & B4 & B5 & B6 & B7).
      destruct done as [|lk done].
      + inversion H; subst. eapply same; [|reflexivity]. exact Logic.I.
      + injection H as H; subst y'. exists (l ++ l2)%list. split; [|exists (map core l2); apply map_app].
        split; [unfold d_rows at 1, c_db at 1; apply (eq_ind_r (fun z => NoDup z) Hn B5)|]. split; [exact Hg|]. split; [|exact Logic.I].
        split; [exact B1|]. split; [exact B2|]. split; [exact B3|]. exact B4.
    - destruct w; [|discriminate]. inversion H; subst. eapply same; [|reflexivity]. exact Logic.I.
    - match type of H with (if ?b then _ else _) = _ => destruct b eqn:E; [discriminate|] end. inversion H; subst; clear H.
      exists l. split; [|apply prefix_refl]. destruct Hc as (P & Ch & L1 & L2). split; [|split; [exact Hg|split]].
      + simpl. constructor; [|exact Hn]. intros X. apply in_map_iff in X as (r & R1 & R2).
        assert (existsb (fun r => k_pk r =? pk) (d_rows d) = true) by (apply existsb_exists; exists r; split; [exact R2|apply Z.eqb_eq; exact R1]).
        congruence.
      + split; [exact P|]. auto.
      + assert (Wk : forall r, waiting (d_rows d) r -> waiting ({| k_pk := pk; k_facts := f; k_extra := x; k_seal := None |} :: d_rows d) r).
        { intros r (r' & R1 & R2). exists r'. split; [right; exact R1|exact R2]. }
        simpl. destruct w as [[|todo done last head]|]; auto. simpl in Hw |- *. destruct Hw as (rs & A & B & C).
        exists rs. split; [exact A|]. split; [|exact C]. eapply Forall_impl; [exact Wk|exact B].
    - match type of H with (if ?b then _ else _) = _ => destruct b eqn:E; [|discriminate] end. inversion H; subst; clear H.
      pose proof (update_core pk f x (d_rows d) E) as Hcore. set (g := fun r => if k_pk r =? pk then _ else r) in *.
      change (forall r, In r (d_rows d) -> core (g r) = core r) in Hcore.
      destruct Hc as (P & Ch & L1 & L2). destruct (map_chain g (d_rows d) l Hcore P) as [P' E'].
      exists (map g l). split; [|rewrite E'; apply prefix_refl]. split; [|split; [exact Hg|split]].
      + cbn [c_db d_rows]. replace (map k_pk (map g (d_rows d))) with (map k_pk (d_rows d)); [exact Hn|].
        rewrite map_map. apply map_ext_in. intros r Hr. specialize (Hcore r Hr). unfold core in Hcore. inversion Hcore. auto.
      + split; [exact P'|]. cbn [c_db d_genesis d_last d_head]. rewrite map_length.
        split; [eapply chained_ext; [symmetry; exact E'|exact Ch]|]. split; [exact L1|].
        rewrite (last_hash_ext (map g l) l E'). exact L2.
      + cbn [c_db c_work]. destruct w as [[|todo done last head]|]; auto. simpl in Hw |- *. destruct Hw as (rs & A & B & C).
        exists rs. split; [exact A|]. split; [|exact C]. eapply Forall_impl; [|exact B].
        intros r (r' & R1 & R2 & R3 & R4). exists (g r'). split; [apply in_map; exact R1|].
        specialize (Hcore r' R1). unfold core in Hcore. inversion Hcore. rewrite H0, H1, H2. auto.
  Qed.

  Lemma cruns_inv y y' : cruns hash y y' -> forall l, cinv y l -> exists l', cinv y' l' /\ prefix_of (map core l) (map core l').
  Proof.
    induction 1 as [y|y e y1 y2 H R IH]; intros l Hl; [exists l; split; [exact Hl|apply prefix_refl]|].
    destruct (cstep_inv _ _ _ _ Hl H) as (l1 & A & B). destruct (IH _ A) as (l2 & C & D). exists l2. split; [exact C|].
    eapply prefix_trans; eauto.
  Qed.
  Lemma init_inv : cinv chain_init [].
  Proof. split; [constructor|]. split; [reflexivity|]. split; [|exact Logic.I]. split; [reflexivity|]. split; [exact Logic.I|]. split; reflexivity. Qed.
  Lemma creach_inv y : creach hash y -> exists l, cinv y l.
  Proof. intros H. destruct (cruns_inv _ _ H [] init_inv) as (l & A & _). exists l; exact A. Qed.
End Chain.
