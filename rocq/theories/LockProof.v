(** Invariant of the lock model. *)
From Coq Require Import ZArith List String Bool Lia Permutation Sorted Relations Ascii.
From Verif Require Import Base LedgerModel LedgerProgs LockModel LockSpec.
Import ListNotations.
Open Scope Z_scope.

(** ** The order of the keys *)
Lemma ascii_compare_refl a : Ascii.compare a a = Eq.
Proof. unfold Ascii.compare. apply N.compare_refl. Qed.

Lemma compare_refl s : String.compare s s = Eq.
Proof. induction s as [|a s IH]; simpl; auto. rewrite ascii_compare_refl. exact IH. Qed.

Lemma ascii_compare_eq a b : Ascii.compare a b = Eq -> a = b.
Proof.
  unfold Ascii.compare. intros H. apply N.compare_eq in H.
  rewrite <- (ascii_N_embedding a), <- (ascii_N_embedding b). congruence.
Qed.

Lemma compare_eq a : forall b, String.compare a b = Eq -> a = b.
Proof.
  induction a as [|x a IH]; destruct b as [|z b]; simpl; intros H; try discriminate; auto.
  destruct (Ascii.compare x z) eqn:E; try discriminate.
  apply ascii_compare_eq in E. subst. f_equal. auto.
Qed.

Lemma ascii_lt_trans a b c : Ascii.compare a b = Lt -> Ascii.compare b c = Lt -> Ascii.compare a c = Lt.
Proof. unfold Ascii.compare. rewrite !N.compare_lt_iff. apply N.lt_trans. Qed.

Lemma key_lt_trans a : forall b c, key_lt a b -> key_lt b c -> key_lt a c.
Proof.
  unfold key_lt. induction a as [|x a IH]; destruct b as [|z b], c as [|w c]; simpl; intros H1 H2; try discriminate; auto.
  destruct (Ascii.compare x z) eqn:E1; try discriminate.
  - apply ascii_compare_eq in E1. subst.
    destruct (Ascii.compare z w) eqn:E2; try discriminate; auto. eapply IH; eauto.
  - destruct (Ascii.compare z w) eqn:E2; try discriminate.
    + apply ascii_compare_eq in E2. subst. rewrite E1. reflexivity.
    + rewrite (ascii_lt_trans _ _ _ E1 E2). reflexivity.
Qed.

Lemma key_lt_irrefl a : ~ key_lt a a.
Proof. unfold key_lt. rewrite compare_refl. discriminate. Qed.

Lemma ascii_compare_gt a b : Ascii.compare a b = Gt -> Ascii.compare b a = Lt.
Proof. unfold Ascii.compare. intros H. apply N.compare_gt_iff in H. apply N.compare_lt_iff. exact H. Qed.

Lemma compare_gt a : forall b, String.compare a b = Gt -> String.compare b a = Lt.
Proof.
  induction a as [|x a IH]; destruct b as [|z b]; simpl; intros H; try discriminate; auto.
  destruct (Ascii.compare x z) eqn:E; try discriminate.
  - apply ascii_compare_eq in E. subst. rewrite ascii_compare_refl. auto.
  - rewrite (ascii_compare_gt _ _ E). reflexivity.
Qed.

Lemma insert_key_perm k l : Permutation (k :: l) (insert_key k l).
Proof.
  induction l as [|x l IH]; simpl; auto.
  destruct (String.compare k x); auto.
  eapply perm_trans; [apply perm_swap|]. apply perm_skip, IH.
Qed.

Lemma sort_perm l : Permutation l (fold_right insert_key [] l).
Proof.
  induction l as [|x l IH]; simpl; auto.
  eapply perm_trans; [apply perm_skip, IH|]. apply insert_key_perm.
Qed.

Lemma insert_sorted k l : ~ In k l -> StronglySorted key_lt l -> StronglySorted key_lt (insert_key k l).
Proof.
  induction l as [|x l IH]; simpl; intros Hn Hs; [repeat constructor|].
  inversion Hs as [|? ? Hs' Hx]; subst.
  destruct (String.compare k x) eqn:E.
  - apply compare_eq in E. subst. tauto.
  - constructor; [exact Hs|]. constructor; [exact E|].
    eapply Forall_impl; [|exact Hx]. intros w Hw. eapply key_lt_trans; eauto.
  - constructor; [apply IH; auto|].
    apply Forall_forall. intros w Hw.
    apply (Permutation_in w (Permutation_sym (insert_key_perm k l))) in Hw.
    destruct Hw as [<-|Hw]; [apply compare_gt; exact E|].
    rewrite Forall_forall in Hx. auto.
Qed.

Lemma sorted_keys l : NoDup l -> StronglySorted key_lt (fold_right insert_key [] l).
Proof.
  induction 1 as [|x l Hn Hd IH]; simpl; [constructor|].
  apply insert_sorted; auto. intros Hi. apply Hn.
  eapply Permutation_in; [apply Permutation_sym, sort_perm|exact Hi].
Qed.

Lemma lock_set_sorted l : StronglySorted key_lt (lock_set l).
Proof. apply sorted_keys, NoDup_nodup. Qed.

Lemma lock_set_in l k : In k (lock_set l) <-> In k l /\ k <> EmptyString.
Proof.
  unfold lock_set. split.
  - intros H. apply (Permutation_in k (Permutation_sym (sort_perm _))) in H.
    apply nodup_In, filter_In in H. destruct H as [H1 H2]. split; auto.
    intros ->. discriminate.
  - intros [H1 H2]. apply (Permutation_in k (sort_perm _)). apply nodup_In, filter_In. split; auto.
    destruct (String.eqb_spec k EmptyString); auto.
Qed.

(** ** Redis *)
Lemma set_nx_other now ttl k v r k' : k' <> k -> fst (set_nx now ttl k v r) k' = r k'.
Proof.
  intros Hn. unfold set_nx. destruct (live now r k); auto. simpl. unfold put.
  destruct (String.eqb_spec k' k); tauto.
Qed.

Lemma del_if_other now k v r k' : k' <> k -> fst (del_if now k v r) k' = r k'.
Proof.
  intros Hn. unfold del_if. destruct (live now r k) as [v'|]; auto. destruct (String.eqb v' v); auto. simpl. unfold put.
  destruct (String.eqb_spec k' k); tauto.
Qed.

Lemma set_nx_again now ttl k v r : 0 < ttl -> snd (set_nx now ttl k v (fst (set_nx now ttl k v r))) = false /\
  fst (set_nx now ttl k v (fst (set_nx now ttl k v r))) = fst (set_nx now ttl k v r).
Proof.
  intros Ht. unfold set_nx at 2 4 5. destruct (live now r k) eqn:E; cbn [fst].
  - unfold set_nx. rewrite E. auto.
  - unfold set_nx, live, put. rewrite String.eqb_refl. cbn [e_until].
    destruct (now <? now + ttl) eqn:El; [auto|lia].
Qed.

Lemma repeat_set n now ttl k v r : 0 < ttl -> (0 < n)%nat ->
  repeat_call n (set_nx now ttl k v) r = (fst (set_nx now ttl k v r), snd (set_nx now ttl k v r) && Nat.eqb n 1).
Proof.
  intros Ht. revert r. induction n as [|n IH]; intros r Hn; [lia|].
  destruct n as [|n]; [simpl; rewrite andb_true_r; apply surjective_pairing|].
  change (repeat_call (S (S n)) (set_nx now ttl k v) r)
    with (repeat_call (S n) (set_nx now ttl k v) (fst (set_nx now ttl k v r))).
  rewrite IH by lia. destruct (set_nx_again now ttl k v r Ht) as [H1 H2].
  rewrite H1, H2. cbn [Nat.eqb andb]. rewrite andb_false_r. reflexivity.
Qed.

Lemma del_again now k v r : fst (del_if now k v (fst (del_if now k v r))) = fst (del_if now k v r).
Proof.
  unfold del_if at 2 3. destruct (live now r k) as [v'|] eqn:E; cbn [fst].
  - destruct (String.eqb v' v) eqn:E2; cbn [fst].
    + unfold del_if, live, put. rewrite String.eqb_refl. reflexivity.
    + unfold del_if. rewrite E, E2. reflexivity.
  - unfold del_if. rewrite E. reflexivity.
Qed.

Lemma repeat_del n now k v r : (0 < n)%nat -> fst (repeat_call n (del_if now k v) r) = fst (del_if now k v r).
Proof.
  revert r. induction n as [|n IH]; intros r Hn; [lia|].
  destruct n as [|n]; [reflexivity|].
  change (repeat_call (S (S n)) (del_if now k v) r) with (repeat_call (S n) (del_if now k v) (fst (del_if now k v r))).
  rewrite IH by lia. apply del_again.
Qed.

(** What one call can do to the store. *)
Definition effect (now : Z) (c : client) (r r' : store) : Prop :=
  forall k, r' k = r k \/
    (live now r k = None /\ r' k = Some {| e_val := c_val c; e_until := now + c_ttl c |}) \/
    (live now r k = Some (c_val c) /\ r' k = None).

Lemma set_effect now c k r : effect now c r (fst (set_nx now (c_ttl c) k (c_val c) r)).
Proof.
  intros k'. destruct (string_dec k' k) as [->|Hn]; [|left; apply set_nx_other; auto].
  unfold set_nx. destruct (live now r k) eqn:E; [auto|].
  right. left. split; auto. simpl. unfold put. rewrite String.eqb_refl. reflexivity.
Qed.

Lemma del_effect now c k r : effect now c r (fst (del_if now k (c_val c) r)).
Proof.
  intros k'. destruct (string_dec k' k) as [->|Hn]; [|left; apply del_if_other; auto].
  unfold del_if. destruct (live now r k) as [v|] eqn:E; [|auto].
  destruct (String.eqb_spec v (c_val c)) as [->|]; [|auto].
  right. right. split; auto. simpl. unfold put. rewrite String.eqb_refl. reflexivity.
Qed.

Lemma call_effect now f c r c' r' : 0 < c_ttl c -> call now f c r = Some (c', r') ->
  effect now c r r' /\ c_keys c' = c_keys c /\ c_val c' = c_val c /\ c_ttl c' = c_ttl c.
Proof.
  intros Ht. unfold call. destruct (c_phase c) as [|got [|k todo]|[|k rest] held| |got|[|k rest]|b|]; try discriminate.
  - destruct (Nat.eq_dec (x_times f) 0) as [E0|E0].
    + unfold answered. rewrite E0. cbn [repeat_call Nat.eqb]. rewrite andb_false_r. intros H. injection H as <- <-.
      split; [intros k'; auto|]. auto.
    + rewrite repeat_set by lia. pose proof (set_effect now c k r) as He.
      destruct (answered f); [destruct (_ && _)|]; intros H; injection H as <- <-; auto.
  - destruct (Nat.eq_dec (x_times f) 0) as [E0|E0].
    + rewrite E0. cbn [repeat_call]. intros H. injection H as <- <-. split; [intros k'; auto|]. auto.
    + destruct (repeat_call _ _ _) as [r1 ok] eqn:Er. intros H. injection H as <- <-.
      pose proof (repeat_del (x_times f) now k (c_val c) r ltac:(lia)) as Hr. rewrite Er in Hr. cbn [fst] in Hr. subst r1.
      split; [apply del_effect|]. auto.
  - destruct (Nat.eq_dec (x_times f) 0) as [E0|E0].
    + rewrite E0. cbn [repeat_call]. intros H. injection H as <- <-. split; [intros k'; auto|]. auto.
    + destruct (repeat_call _ _ _) as [r1 ok] eqn:Er. intros H. injection H as <- <-.
      pose proof (repeat_del (x_times f) now k (c_val c) r ltac:(lia)) as Hr. rewrite Er in Hr. cbn [fst] in Hr. subst r1.
      split; [apply del_effect|]. auto.
Qed.

(** ** The invariant *)
Definition shape (c : client) : Prop :=
  match c_phase c with
  | PTaking got todo => map fst got ++ todo = c_keys c /\ todo <> []
  | PHold got => map fst got = c_keys c
  | _ => True
  end.

(** The keys that may carry the client's value. *)
Definition may_have (c : client) (k : string) : Prop :=
  match c_phase c with
  | PTaking got _ | PHold got => In k (map fst got)
  | PUndo rest _ | PFree rest => In k rest
  | PDead => True
  | _ => False
  end.

Record client_ok (now : Z) (r : store) (c : client) : Prop := {
  ok_ttl : 0 < c_ttl c;
  ok_keys : exists asked, c_keys c = lock_set asked;
  ok_shape : shape c;
  ok_holds : forall k d, holds c k d -> now < d -> r k = Some {| e_val := c_val c; e_until := d |};
  ok_leak : c_leak c = false -> forall k, live now r k = Some (c_val c) -> may_have c k
}.

Record linv (y : lsys) : Prop := {
  li_clients : forall c, In c (l_clients y) -> client_ok (l_now y) (l_store y) c;
  li_vals : NoDup (map c_val (l_clients y));
  li_owner : forall k e, l_store y k = Some e ->
    exists c, In c (l_clients y) /\ c_val c = e_val e /\ e_until e <= l_now y + c_ttl c
}.

Lemma nth_set_same {A} (l : list A) i x y : nth_error l i = Some y -> nth_error (set_nth i x l) i = Some x.
Proof. revert i. induction l as [|z l IH]; destruct i; simpl; intros; try discriminate; auto. Qed.

Lemma nth_set_other {A} (l : list A) i j (x : A) : i <> j -> nth_error (set_nth i x l) j = nth_error l j.
Proof. revert i j. induction l as [|z l IH]; destruct i, j; simpl; intros; auto; try lia. Qed.

Lemma in_set_nth {A} (l : list A) i x c : In c (set_nth i x l) -> c = x \/ exists j, j <> i /\ nth_error l j = Some c.
Proof.
  revert i. induction l as [|z l IH]; destruct i; simpl; try tauto.
  - intros [<-|H]; auto. right. apply In_nth_error in H. destruct H as [j Hj]. exists (S j). split; [lia|]. exact Hj.
  - intros [<-|H]; [right; exists O; split; [lia|reflexivity]|].
    destruct (IH _ H) as [->|(j & Hj & Hc)]; auto. right. exists (S j). split; [lia|]. exact Hc.
Qed.

Lemma set_nth_in {A} (l : list A) i (x c : A) : nth_error l i = Some c -> In x (set_nth i x l).
Proof. revert i. induction l as [|z l IH]; destruct i; simpl; intros H; try discriminate; eauto. Qed.

Lemma keeps_in {A} (l : list A) i (x c c' : A) : nth_error l i = Some c -> In c' l -> c' = c \/ In c' (set_nth i x l).
Proof.
  revert i. induction l as [|z l IH]; destruct i; simpl; intros H Hi; try tauto.
  - injection H as <-. destruct Hi; auto.
  - destruct Hi as [<-|Hi]; auto. destruct (IH _ H Hi); auto.
Qed.

Lemma map_set_nth {A B} (f : A -> B) (l : list A) i x c : nth_error l i = Some c -> f x = f c -> map f (set_nth i x l) = map f l.
Proof.
  revert i. induction l as [|z l IH]; destruct i; simpl; intros H E; try discriminate; auto.
  - injection H as <-. rewrite E. reflexivity.
  - f_equal. eauto.
Qed.

Lemma vals_differ l i j ci cj : NoDup (map c_val l) -> nth_error l i = Some ci -> nth_error l j = Some cj ->
  c_val ci = c_val cj -> i = j.
Proof.
  intros Hn Hi Hj E.
  assert (Hi' : nth_error (map c_val l) i = Some (c_val ci)) by (rewrite nth_error_map, Hi; reflexivity).
  assert (Hj' : nth_error (map c_val l) j = Some (c_val cj)) by (rewrite nth_error_map, Hj; reflexivity).
  eapply NoDup_nth_error; eauto; [|congruence]. apply nth_error_Some. congruence.
Qed.

(** A call of another client keeps a client's part of the invariant. *)
Lemma other_ok now r r' c c0 : effect now c0 r r' -> c_val c0 <> c_val c -> 0 < c_ttl c0 -> client_ok now r c -> client_ok now r' c.
Proof.
  intros He Hv Ht [H1 H2 H3 H4 H5]. split; auto.
  - intros k d Hh Hd. pose proof (H4 k d Hh Hd) as Hr.
    destruct (He k) as [E|[[E _]|[E _]]]; [congruence| |]; unfold live in E; rewrite Hr in E; cbn in E;
      destruct (now <? d) eqn:Hl; try lia; congruence.
  - intros Hlk k Hl. apply (H5 Hlk). destruct (He k) as [E|[[E E']|[E E']]].
    + unfold live in *. rewrite E in Hl. exact Hl.
    + exfalso. unfold live in Hl. rewrite E' in Hl. cbn in Hl. destruct (now <? now + c_ttl c0); [|discriminate]. congruence.
    + exfalso. unfold live in Hl. rewrite E' in Hl. discriminate.
Qed.

Lemma sorted_nodup l : StronglySorted key_lt l -> NoDup l.
Proof.
  induction 1 as [|x l Hs IH Hx]; constructor; auto.
  intros Hi. rewrite Forall_forall in Hx. exact (key_lt_irrefl _ (Hx _ Hi)).
Qed.

Lemma nodup_mid {A} (l : list A) x r : NoDup (l ++ x :: r) -> ~ In x l.
Proof. intros H Hi. apply (NoDup_remove_2 _ _ _ H). apply in_or_app. auto. Qed.

Lemma own_ok now f r c c' r' : client_ok now r c -> call now f c r = Some (c', r') -> client_ok now r' c'.
Proof.
  intros Hc Hcall.
  destruct (call_effect now f c r c' r' (ok_ttl _ _ _ Hc) Hcall) as (He & Ek & Ev & Et).
  destruct Hc as [H1 H2 H3 H4 H5].
  split; try (rewrite ?Ek, ?Et; assumption); unfold call in Hcall; unfold shape, holds, may_have in *.
  - destruct (c_phase c) as [|got [|k todo]|[|k rest] held| |got|[|k rest]|b|] eqn:Ep; try discriminate.
    + destruct H3 as [H3 _]. destruct (repeat_call _ _ _) as [r1 ok].
      destruct (answered f); [destruct ok|]; injection Hcall as <- <-; cbn.
      * unfold after_take. destruct todo as [|k2 todo]; rewrite map_app; cbn [map fst].
        -- rewrite <- H3. reflexivity.
        -- rewrite <- app_assoc. split; [exact H3|discriminate].
      * unfold after_undo. destruct (rev _); exact Logic.I.
      * unfold after_undo. destruct (rev _); exact Logic.I.
    + destruct (repeat_call _ _ _) as [r1 ok]. injection Hcall as <- <-. cbn. unfold after_undo.
      destruct rest; [destruct held|]; exact Logic.I.
    + destruct (repeat_call _ _ _) as [r1 ok]. injection Hcall as <- <-. cbn. unfold after_free. destruct rest; exact Logic.I.
  - destruct (c_phase c) as [|got [|k todo]|[|k rest] held| |got|[|k rest]|b|] eqn:Ep; try discriminate.
    + destruct H3 as [H3 _].
      assert (Hk : ~ In k (map fst got)).
      { destruct H2 as [asked Ha]. apply (nodup_mid _ k todo). rewrite H3, Ha. apply sorted_nodup, lock_set_sorted. }
      destruct (repeat_call _ _ _) as [r1 ok] eqn:Er.
      destruct (answered f) eqn:Ea; [destruct ok|]; injection Hcall as <- <-; cbn.
      * assert (Hn : (0 < x_times f)%nat) by (unfold answered in Ea; destruct (x_times f); [rewrite andb_false_r in Ea; discriminate|lia]).
        rewrite repeat_set in Er by auto. injection Er as Er1 Er2.
        assert (Hset : snd (set_nx now (c_ttl c) k (c_val c) r) = true) by (destruct (snd _); [reflexivity|discriminate]).
        assert (Hgot : forall k0 d, In (k0, d) (got ++ [(k, now + c_ttl c)]) -> now < d ->
                   r1 k0 = Some {| e_val := c_val c; e_until := d |}).
        { intros k0 d Hi Hd. subst r1. apply in_app_or in Hi. destruct Hi as [Hi|[Hi|[]]].
          - rewrite set_nx_other; [auto|]. intros ->. apply Hk. apply in_map_iff. exists (k, d). auto.
          - injection Hi as <- <-. unfold set_nx in *. destruct (live now r k); [discriminate|].
            cbn. unfold put. rewrite String.eqb_refl. reflexivity. }
        unfold after_take. destruct todo; exact Hgot.
      * unfold after_undo. destruct (rev _); intros ? ? [].
      * unfold after_undo. destruct (rev _); intros ? ? [].
    + destruct (repeat_call _ _ _) as [r1 ok]. injection Hcall as <- <-. cbn. unfold after_undo.
      destruct rest; [destruct held|]; intros ? ? [].
    + destruct (repeat_call _ _ _) as [r1 ok]. injection Hcall as <- <-. cbn. unfold after_free. destruct rest; intros ? ? [].
  - destruct (c_phase c) as [|got [|k todo]|[|k rest] held| |got|[|k rest]|b|] eqn:Ep; try discriminate.
    + destruct (answered f) eqn:Ea.
      * assert (Hn : (0 < x_times f)%nat) by (unfold answered in Ea; destruct (x_times f); [rewrite andb_false_r in Ea; discriminate|lia]).
        rewrite repeat_set in Hcall by auto.
        destruct (snd (set_nx now (c_ttl c) k (c_val c) r)) eqn:Es; cbn [andb] in Hcall.
        -- destruct (Nat.eqb (x_times f) 1) eqn:E1; injection Hcall as <- <-; cbn [at_phase c_phase c_val c_leak negb].
           ++ rewrite orb_false_r. intros Hl k0 Hk0.
              assert (Hin : In k0 (map fst (got ++ [(k, now + c_ttl c)]))).
              { rewrite map_app. apply in_or_app. cbn [map fst]. destruct (string_dec k0 k) as [->|Hne]; [right; left; reflexivity|].
                left. apply (H5 Hl). unfold live in *. rewrite set_nx_other in Hk0 by auto. exact Hk0. }
              unfold after_take. destruct todo; exact Hin.
           ++ rewrite orb_true_r. discriminate.
        -- injection Hcall as <- <-. cbn [at_phase c_phase c_val c_leak negb]. intros Hl k0 Hk0.
           apply orb_false_iff in Hl. destruct Hl as [Hl _].
           assert (Hin : In k0 (map fst got)).
           { apply (H5 Hl). unfold set_nx in Es, Hk0. destruct (live now r k) eqn:El; [exact Hk0|discriminate]. }
           apply in_rev in Hin. unfold after_undo. destruct (rev (map fst got)); exact Hin.
      * destruct (Nat.eqb (x_times f) 0) eqn:E0.
        -- apply Nat.eqb_eq in E0. rewrite E0 in Hcall. cbn [repeat_call] in Hcall.
           injection Hcall as <- <-. cbn [at_phase c_phase c_val c_leak Nat.eqb negb]. rewrite orb_false_r. intros Hl k0 Hk0.
           specialize (H5 Hl k0 Hk0). apply in_rev in H5. unfold after_undo. destruct (rev (map fst got)); exact H5.
        -- destruct (repeat_call _ _ _) as [r1 ok]. injection Hcall as <- <-. cbn [at_phase c_leak negb]. rewrite orb_true_r. discriminate.
    + destruct (repeat_call _ _ _) as [r1 ok] eqn:Er. injection Hcall as <- <-. cbn [at_phase c_phase c_val c_leak].
      intros Hl k0 Hk0. apply orb_false_iff in Hl. destruct Hl as [Hl E0]. apply Nat.eqb_neq in E0.
      pose proof (repeat_del (x_times f) now k (c_val c) r ltac:(lia)) as Hr. rewrite Er in Hr. cbn [fst] in Hr. subst r1.
      assert (Hin : In k0 rest).
      { destruct (string_dec k0 k) as [->|Hne].
        - exfalso. unfold del_if in Hk0. destruct (live now r k) as [v|] eqn:El; [|cbn [fst] in Hk0; congruence].
          destruct (String.eqb_spec v (c_val c)) as [->|Hv].
          + cbn in Hk0. unfold live, put in Hk0. rewrite String.eqb_refl in Hk0. discriminate.
          + cbn [fst] in Hk0. congruence.
        - unfold live in Hk0. rewrite del_if_other in Hk0 by auto. destruct (H5 Hl k0 Hk0); [congruence|assumption]. }
      unfold after_undo. destruct rest; [destruct Hin|exact Hin].
    + destruct (repeat_call _ _ _) as [r1 ok] eqn:Er. injection Hcall as <- <-. cbn [at_phase c_phase c_val c_leak].
      intros Hl k0 Hk0. apply orb_false_iff in Hl. destruct Hl as [Hl E0]. apply Nat.eqb_neq in E0.
      pose proof (repeat_del (x_times f) now k (c_val c) r ltac:(lia)) as Hr. rewrite Er in Hr. cbn [fst] in Hr. subst r1.
      assert (Hin : In k0 rest).
      { destruct (string_dec k0 k) as [->|Hne].
        - exfalso. unfold del_if in Hk0. destruct (live now r k) as [v|] eqn:El; [|cbn [fst] in Hk0; congruence].
          destruct (String.eqb_spec v (c_val c)) as [->|Hv].
          + cbn in Hk0. unfold live, put in Hk0. rewrite String.eqb_refl in Hk0. discriminate.
          + cbn [fst] in Hk0. congruence.
        - unfold live in Hk0. rewrite del_if_other in Hk0 by auto. destruct (H5 Hl k0 Hk0); [congruence|assumption]. }
      unfold after_free. destruct rest; [destruct Hin|exact Hin].
Qed.

(** Steps that only change the phase of one client. *)
Lemma move_inv y i c c' : linv y -> nth_error (l_clients y) i = Some c ->
  c_val c' = c_val c -> c_ttl c' = c_ttl c ->
  client_ok (l_now y) (l_store y) c' -> linv (move y i c').
Proof.
  intros [Hc Hv Ho] Hi Ev Et Hok. split; cbn.
  - intros x Hx. apply in_set_nth in Hx. destruct Hx as [->|(j & _ & Hj)]; auto. apply Hc. eapply nth_error_In; eauto.
  - rewrite (map_set_nth c_val _ _ _ _ Hi Ev). exact Hv.
  - intros k e He. destruct (Ho k e He) as (x & Hx & E1 & E2).
    destruct (keeps_in _ _ c' _ _ Hi Hx) as [->|Hx'].
    + exists c'. split; [eapply set_nth_in; eauto|]. split; [congruence|]. rewrite Et. exact E2.
    + exists x. auto.
Qed.

Lemma lstep_inv y e y' : linv y -> lstep y e = Some y' -> linv y'.
Proof.
  intros Hi Hs. destruct e as [d|i|i f|i|i|i|i]; cbn in Hs.
  - destruct (d <=? 0) eqn:Ed; [discriminate|]. injection Hs as <-. destruct Hi as [Hc Hv Ho]. split; cbn; auto.
    + intros c Hin. destruct (Hc c Hin) as [H1 H2 H3 H4 H5]. split; auto.
      * intros k dd Hh Hd. apply H4; auto. lia.
      * intros Hl k Hk. apply (H5 Hl). unfold live in *. destruct (l_store y k) as [e|]; [|discriminate].
        destruct (l_now y + d <? e_until e) eqn:E; [|discriminate]. destruct (l_now y <? e_until e) eqn:E'; [exact Hk|lia].
    + intros k e He. destruct (Ho k e He) as (c & H1 & H2 & H3). exists c. split; auto. split; auto. lia.
  - destruct (nth_error (l_clients y) i) as [c|] eqn:En; [|discriminate].
    destruct (c_phase c) eqn:Ep; try discriminate. injection Hs as <-.
    apply (move_inv y i c); auto. pose proof (li_clients _ Hi c (nth_error_In _ _ En)) as [H1 H2 H3 H4 H5].
    split; auto; unfold shape, holds, may_have in *; rewrite ?Ep in *; cbn.
    + unfold after_take. destruct (c_keys c) eqn:Ek; cbn; auto. split; [reflexivity|discriminate].
    + unfold after_take. destruct (c_keys c); intros k d [].
    + rewrite orb_false_r. intros Hl k Hk. destruct (H5 Hl k Hk).
  - destruct (nth_error (l_clients y) i) as [c|] eqn:En; [|discriminate].
    destruct (call _ _ _ _) as [[c' r']|] eqn:Ec; [|discriminate]. injection Hs as <-.
    pose proof Hi as [Hc Hv Ho]. pose proof (Hc c (nth_error_In _ _ En)) as Hok.
    destruct (call_effect _ _ _ _ _ _ (ok_ttl _ _ _ Hok) Ec) as (He & Ek & Ev & Et).
    split; cbn.
    + intros x Hx. apply in_set_nth in Hx. destruct Hx as [->|(j & Hj & Hx)]; [eapply own_ok; eauto|].
      eapply other_ok; [exact He| |exact (ok_ttl _ _ _ Hok)|apply Hc; eapply nth_error_In; eauto].
      intros E. apply Hj. symmetry. eapply vals_differ; eauto.
    + rewrite (map_set_nth c_val _ _ _ _ En Ev). exact Hv.
    + intros k e Hk. destruct (He k) as [E|[[_ E]|[_ E]]].
      * rewrite E in Hk. destruct (Ho k e Hk) as (x & Hx & E1 & E2).
        destruct (keeps_in _ _ c' _ _ En Hx) as [->|Hx'].
        -- exists c'. split; [eapply set_nth_in; eauto|]. split; [congruence|]. rewrite Et. exact E2.
        -- exists x. auto.
      * rewrite E in Hk. injection Hk as <-. exists c'. split; [eapply set_nth_in; eauto|]. cbn. split; [congruence|]. rewrite Et. lia.
      * congruence.
  - destruct (nth_error (l_clients y) i) as [c|] eqn:En; [|discriminate].
    destruct (c_phase c) eqn:Ep; try discriminate. injection Hs as <-.
    apply (move_inv y i c); auto. pose proof (li_clients _ Hi c (nth_error_In _ _ En)) as [H1 H2 H3 H4 H5].
    split; auto; unfold shape, holds, may_have in *; rewrite ?Ep in *; cbn.
    + unfold after_take. destruct (c_keys c) eqn:Ek; cbn; auto. split; [reflexivity|discriminate].
    + unfold after_take. destruct (c_keys c); intros k d [].
    + rewrite orb_false_r. intros Hl k Hk. destruct (H5 Hl k Hk).
  - destruct (nth_error (l_clients y) i) as [c|] eqn:En; [|discriminate].
    destruct (c_phase c) eqn:Ep; try discriminate. injection Hs as <-.
    apply (move_inv y i c); auto. pose proof (li_clients _ Hi c (nth_error_In _ _ En)) as [H1 H2 H3 H4 H5].
    split; auto; unfold shape, holds, may_have in *; rewrite ?Ep in *; cbn; try tauto.
    rewrite orb_false_r. exact H5.
  - destruct (nth_error (l_clients y) i) as [c|] eqn:En; [|discriminate].
    destruct (c_phase c) as [| | | |got| | |] eqn:Ep; try discriminate. injection Hs as <-.
    apply (move_inv y i c); auto. pose proof (li_clients _ Hi c (nth_error_In _ _ En)) as [H1 H2 H3 H4 H5].
    split; auto; unfold shape, holds, may_have in *; rewrite ?Ep in *; cbn.
    + unfold after_free. destruct (rev _); exact Logic.I.
    + unfold after_free. destruct (rev _); intros k d [].
    + rewrite orb_false_r. intros Hl k Hk. specialize (H5 Hl k Hk). rewrite H3 in H5. apply in_rev in H5.
      unfold after_free. destruct (rev (c_keys c)); exact H5.
  - destruct (nth_error (l_clients y) i) as [c|] eqn:En; [|discriminate]. injection Hs as <-.
    apply (move_inv y i c); auto. pose proof (li_clients _ Hi c (nth_error_In _ _ En)) as [H1 H2 H3 H4 H5].
    split; auto; unfold shape, holds, may_have in *; cbn; tauto.
Qed.

Lemma start_inv y : lock_start y -> linv y.
Proof.
  intros (Hs & Hf & Hv). split; auto.
  - intros c Hc. rewrite Forall_forall in Hf. destruct (Hf c Hc) as (E1 & E2 & E3 & E4).
    split; auto; unfold shape, holds, may_have; rewrite ?E1; try tauto.
    intros _ k Hk. unfold live in Hk. rewrite Hs in Hk. discriminate.
  - intros k e He. rewrite Hs in He. discriminate.
Qed.

Lemma lruns_inv es : forall y y', linv y -> lruns y es = Some y' -> linv y'.
Proof.
  induction es as [|e es IH]; cbn; intros y y' Hi Hr; [injection Hr as <-; exact Hi|].
  destruct (lstep y e) as [y1|] eqn:Es; [|discriminate]. eapply IH; [eapply lstep_inv; eauto|exact Hr].
Qed.

Lemma lreach_inv y : lreach y -> linv y.
Proof. intros (y0 & es & H0 & Hr). eapply lruns_inv; [apply start_inv; exact H0|exact Hr]. Qed.

(** ** Theorems *)
Lemma lock_is_held y i c k d : lreach y -> nth_error (l_clients y) i = Some c -> holds c k d -> l_now y < d ->
  live (l_now y) (l_store y) k = Some (c_val c).
Proof.
  intros Hr Hi Hh Hd. apply lreach_inv in Hr.
  pose proof (ok_holds _ _ _ (li_clients _ Hr c (nth_error_In _ _ Hi)) k d Hh Hd) as E.
  unfold live. rewrite E. cbn. destruct (l_now y <? d) eqn:El; [reflexivity|lia].
Qed.

Lemma mutual_exclusion y i j ci cj k di dj : lreach y ->
  nth_error (l_clients y) i = Some ci -> nth_error (l_clients y) j = Some cj ->
  holds ci k di -> holds cj k dj -> l_now y < di -> l_now y < dj -> i = j.
Proof.
  intros Hr Hi Hj Hhi Hhj Hdi Hdj.
  pose proof (lock_is_held y i ci k di Hr Hi Hhi Hdi) as E1.
  pose proof (lock_is_held y j cj k dj Hr Hj Hhj Hdj) as E2.
  apply lreach_inv in Hr. eapply vals_differ; eauto using li_vals. congruence.
Qed.

Lemma nothing_left y i c k : lreach y -> nth_error (l_clients y) i = Some c -> c_leak c = false ->
  (c_phase c = PSleep \/ (exists b, c_phase c = PDone b)) -> live (l_now y) (l_store y) k <> Some (c_val c).
Proof.
  intros Hr Hi Hl Hp E. apply lreach_inv in Hr.
  pose proof (ok_leak _ _ _ (li_clients _ Hr c (nth_error_In _ _ Hi)) Hl k E) as Hm. unfold may_have in Hm.
  destruct Hp as [Hp|[b Hp]]; rewrite Hp in Hm; exact Hm.
Qed.

Definition event_of (e : levent) (i : nat) : Prop :=
  match e with LTick _ => False | LStart j | LCall j _ | LRetry j | LGiveUp j | LUnlock j | LDie j => i = j end.

Lemma only_own y e y' i j cj k : lreach y -> lstep y e = Some y' -> event_of e i -> i <> j ->
  nth_error (l_clients y) j = Some cj -> live (l_now y) (l_store y) k = Some (c_val cj) ->
  l_store y' k = l_store y k.
Proof.
  intros Hr Hs He Hij Hj Hl. apply lreach_inv in Hr.
  destruct e as [d|x|x f|x|x|x|x]; cbn in Hs, He; try tauto; subst x;
    destruct (nth_error (l_clients y) i) as [c|] eqn:En; try discriminate;
    try (destruct (c_phase c); try discriminate; injection Hs as <-; reflexivity).
  - destruct (call _ _ _ _) as [[c' r']|] eqn:Ec; [|discriminate]. injection Hs as <-. cbn.
    pose proof (li_clients _ Hr c (nth_error_In _ _ En)) as Hok.
    destruct (call_effect _ _ _ _ _ _ (ok_ttl _ _ _ Hok) Ec) as (He & _).
    destruct (He k) as [E|[[E _]|[E _]]]; [exact E|congruence|].
    exfalso. apply Hij. eapply vals_differ; eauto using li_vals. congruence.
Qed.

Lemma sorted_app_lt (l1 l2 : list string) a b : StronglySorted key_lt (l1 ++ l2) -> In a l1 -> In b l2 -> key_lt a b.
Proof.
  induction l1 as [|x l1 IH]; cbn; intros Hs Ha Hb; [tauto|].
  inversion Hs as [|? ? Hs' Hx]; subst. destruct Ha as [<-|Ha]; [|eauto].
  rewrite Forall_forall in Hx. apply Hx. apply in_or_app. auto.
Qed.

Lemma waits_up y i j k k' ci cj : lreach y -> no_leak y ->
  nth_error (l_clients y) i = Some ci -> nth_error (l_clients y) j = Some cj ->
  wants ci k -> live (l_now y) (l_store y) k = Some (c_val cj) -> wants cj k' -> key_lt k k'.
Proof.
  intros Hr Hn Hi Hj Hw Hl Hw'. apply lreach_inv in Hr.
  destruct (li_clients _ Hr cj (nth_error_In _ _ Hj)) as [H1 [asked Ha] H3 H4 H5].
  specialize (H5 (Hn cj (nth_error_In _ _ Hj)) k Hl). unfold wants, may_have, shape in *.
  destruct (c_phase cj) as [|got [|k2 todo]| | | | | |]; try tauto. subst k2.
  destruct H3 as [H3 _]. apply (sorted_app_lt (map fst got) (k' :: todo)); [|exact H5|left; reflexivity].
  rewrite H3, Ha. apply lock_set_sorted.
Qed.

Lemma t1n_first {A} (R : A -> A -> Prop) a b : clos_trans_1n A R a b -> exists m, R a m.
Proof. destruct 1; eauto. Qed.

Lemma waits_chain y i j : lreach y -> no_leak y -> clos_trans_1n nat (waits_for y) i j ->
  forall ci cj k k', nth_error (l_clients y) i = Some ci -> nth_error (l_clients y) j = Some cj ->
  wants ci k -> wants cj k' -> key_lt k k'.
Proof.
  intros Hr Hn. induction 1 as [i j Hw|i m j Hw Ht IH]; intros ci cj k k' Hi Hj Hwi Hwj.
  - destruct Hw as (c1 & c2 & k1 & E1 & E2 & W & L).
    assert (c1 = ci) by congruence. assert (c2 = cj) by congruence. subst c1 c2.
    assert (k1 = k). { unfold wants in *. destruct (c_phase ci) as [|? [|? ?]| | | | | |]; try tauto. congruence. }
    subst. exact (waits_up y i j k k' ci cj Hr Hn E1 E2 W L Hwj).
  - destruct Hw as (c1 & c2 & k1 & E1 & E2 & W & L).
    assert (c1 = ci) by congruence. subst c1.
    assert (k1 = k). { unfold wants in *. destruct (c_phase ci) as [|? [|? ?]| | | | | |]; try tauto. congruence. }
    subst k1.
    assert (Hm : exists km, wants c2 km).
    { destruct (t1n_first _ _ _ Ht) as (m2 & c3 & ? & k3 & E3 & _ & W3 & _).
      assert (c3 = c2) by congruence. subst. eauto. }
    destruct Hm as [km Hm]. apply (key_lt_trans k km); [exact (waits_up y i m k km ci c2 Hr Hn E1 E2 W L Hm)|]. exact (IH c2 cj km k' E2 Hj Hm Hwj).
Qed.

Lemma no_deadlock y : lreach y -> no_leak y -> forall i, ~ clos_trans nat (waits_for y) i i.
Proof.
  intros Hr Hn i Hc. apply clos_trans_t1n in Hc.
  assert (Hw : exists ci k, nth_error (l_clients y) i = Some ci /\ wants ci k).
  { destruct (t1n_first _ _ _ Hc) as (m2 & c3 & ? & k3 & E3 & _ & W3 & _). eauto. }
  destruct Hw as (ci & k & Hi & Hw). eapply key_lt_irrefl. eapply waits_chain; eauto.
Qed.

(** Whatever happened, a lock is gone once the longest lease has passed. *)
Lemma locks_expire y k T : lreach y -> (forall c, In c (l_clients y) -> c_ttl c <= T) ->
  live (l_now y + T) (l_store y) k = None.
Proof.
  intros Hr HT. apply lreach_inv in Hr. unfold live. destruct (l_store y k) as [e|] eqn:E; auto.
  destruct (li_owner _ Hr k e E) as (c & Hc & _ & Hle). specialize (HT c Hc).
  destruct (l_now y + T <? e_until e) eqn:El; [lia|reflexivity].
Qed.
