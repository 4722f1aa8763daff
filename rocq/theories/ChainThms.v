(** Theorems about the hash chain (C22, C23, C24). *)
From Coq Require Import ZArith List String Ascii Bool Lia Permutation Sorted DecimalString DecimalZ.
From Verif Require Import Base ChainModel ChainSpec ChainProof.
Import ListNotations.
Open Scope Z_scope.

Section Thms.
  Variable hash : string -> string.

  Lemma chain_exists y : creach hash y -> exists l, sealed_chain hash (c_db y) l.
  Proof. intros H. destruct (creach_inv hash y H) as (l & A). exists l. apply A. Qed.

  (** ** Nothing is lost or changed *)
  Lemma write_facts ls : forall rows r, In r rows -> exists r', In r' (fold_left write_link ls rows) /\ k_pk r' = k_pk r /\ k_facts r' = k_facts r.
  Proof.
    induction ls as [|l ls IH]; intros rows r H; [exists r; auto|]. cbn [fold_left].
    set (g := fun r => if k_pk r =? l_pk l then {| k_pk := k_pk r; k_facts := k_facts r; k_extra := k_extra r; k_seal := Some (l_seal l) |} else r).
    destruct (IH (write_link rows l) (g r)) as (r' & A & B & C); [apply in_map; exact H|].
    exists r'. split; [exact A|]. rewrite B, C. unfold g. destruct (_ =? _); auto.
  Qed.
  Lemma step_facts y e y' r : cstep hash y e = Some y' -> In r (d_rows (c_db y)) ->
    exists r', In r' (d_rows (c_db y')) /\ k_pk r' = k_pk r /\ k_facts r' = k_facts r.
  Proof.
    intros H Hr. destruct y as [d w]. cbn [c_db] in Hr. unfold cstep in H. destruct e; cbn [c_db c_work] in H.
    - destruct w; [discriminate|]. inversion H; subst. exists r; auto.
    - destruct w as [[last head|]|]; try discriminate.
      destruct (make_links hash last head (scan cutoff limit d)) as [[ls la] he]. inversion H; subst. exists r; auto.
    - destruct w as [[|[|]]|]; try discriminate. inversion H; subst. exists r; auto.
    - destruct w as [[|[|] done]|]; try discriminate. injection H as H. subst y'. destruct done; [exists r; auto|].
      cbn [c_db d_rows]. apply (write_facts (l :: done)). exact Hr.
    - destruct w; [|discriminate]. inversion H; subst. exists r; auto.
    - match type of H with (if ?b then _ else _) = _ => destruct b; [discriminate|] end. inversion H; subst. exists r. simpl; auto.
    - match type of H with (if ?b then _ else _) = _ => destruct b eqn:E; [|discriminate] end. inversion H; subst. cbn [c_db d_rows].
      pose proof (update_core pk f x (d_rows d) E r Hr) as Hc.
      eexists. split; [apply in_map; exact Hr|]. cbv beta. unfold core in Hc. injection Hc as A B C. split; [exact A|exact B].
  Qed.
  Lemma runs_facts y y' : cruns hash y y' -> forall r, In r (d_rows (c_db y)) ->
    exists r', In r' (d_rows (c_db y')) /\ k_pk r' = k_pk r /\ k_facts r' = k_facts r.
  Proof.
    induction 1 as [|y e y1 y2 H R IH]; intros r Hr; [exists r; auto|].
    destruct (step_facts _ _ _ _ H Hr) as (r1 & A & B & C). destruct (IH r1 A) as (r2 & D & E & F).
    exists r2. split; [exact D|]. split; congruence.
  Qed.
  Lemma sealed_stays y y' r s : creach hash y -> cruns hash y y' -> In r (d_rows (c_db y)) -> k_seal r = Some s ->
    exists r', In r' (d_rows (c_db y')) /\ k_pk r' = k_pk r /\ k_facts r' = k_facts r /\ k_seal r' = Some s.
  Proof.
    intros H R Hr Hs. destruct (creach_inv hash y H) as (l & A). destruct (cruns_inv hash _ _ R l A) as (l' & B & (c & C)).
    destruct A as (_ & _ & (P & _) & _). destruct B as (_ & _ & (P' & _) & _).
    assert (In (core r) (map core l)).
    { apply in_map. eapply Permutation_in; [apply Permutation_sym; exact P|]. apply filter_In. split; [exact Hr|].
      unfold is_sealed. rewrite Hs. reflexivity. }
    assert (X : In (core r) (map core l')) by (rewrite C; apply in_or_app; auto).
    apply in_map_iff in X as (r' & X1 & X2). exists r'.
    eapply Permutation_in in X2; [|exact P']. apply filter_In in X2 as [X2 _].
    unfold core in X1. inversion X1. rewrite H4. auto.
  Qed.

  (** ** Progress *)

  Lemma writes todo : forall done last head d,
    cruns hash {| c_db := d; c_work := Some (Writing todo done last head) |}
               {| c_db := d; c_work := Some (Writing [] (done ++ todo)%list last head) |}.
  Proof.
    induction todo as [|l todo IH]; intros done last head d; [rewrite app_nil_r; constructor|].
    eapply cruns_step with (e := EWrite); [reflexivity|]. cbn [c_db]. specialize (IH (done ++ [l])%list last head d).
    rewrite <- app_assoc in IH. exact IH.
  Qed.

  Lemma round y cutoff limit : creach hash y -> c_work y = None ->
    exists y' l l2, cruns hash y y' /\ c_work y' = None /\ sealed_chain hash (c_db y) l
      /\ sealed_chain hash (c_db y') (l ++ l2)
      /\ (forall r, In r l2 -> exists r0, In r0 (d_rows (c_db y)) /\ eligible cutoff r0 /\ k_pk r0 = k_pk r)
      /\ StronglySorted (fun a b => k_pk a < k_pk b) l2
      /\ (forall r, In r (d_rows (c_db y)) -> eligible cutoff r ->
            In (k_pk r) (map k_pk l2) \/ (List.length l2 = limit /\ forall r2, In r2 l2 -> k_pk r2 < k_pk r)).
  Proof.
    intros Hy Hw. destruct (creach_inv hash y Hy) as (l & A). destruct y as [d w]. cbn [c_work] in Hw. subst w.
    destruct (make_links hash (d_last d) (d_head d) (scan cutoff limit d)) as [[ls last'] head'] eqn:E.
    set (y1 := {| c_db := d; c_work := Some (Locked (d_last d) (d_head d)) |}).
    set (y2 := {| c_db := d; c_work := Some (Writing ls [] last' head') |}).
    set (y3 := {| c_db := d; c_work := Some (Writing [] ls last' head') |}).
    pose (d' := match ls with [] => d | _ => {| d_rows := fold_left write_link ls (d_rows d); d_last := last'; d_head := head'; d_genesis := d_genesis d |} end).
    assert (R : cruns hash {| c_db := d; c_work := None |} {| c_db := d'; c_work := None |}).
    { eapply cruns_step with (e := ELock) (y1 := y1); [reflexivity|].
      eapply cruns_step with (e := EScan cutoff limit) (y1 := y2); [unfold cstep, y1; cbn [c_db c_work]; rewrite E; reflexivity|].
      assert (Rw : forall z, cruns hash y3 z -> cruns hash y2 z).
      { pose proof (writes ls [] last' head' d) as X. cbn [app] in X. fold y2 y3 in X. clearbody y2 y3. clear - X.
        induction X as [|? ? ? ? H _ IH]; intros z Z; [exact Z|]. eapply cruns_step; [exact H|auto]. }
      apply Rw. eapply cruns_step with (e := ECommit); [reflexivity|]. constructor. }
    exists {| c_db := d'; c_work := None |}, l. destruct A as (Hn & Hg & Hc & _). pose proof Hc as (P & Ch & L1 & L2). cbn [c_db] in *.
    destruct (scan_ok cutoff limit d Hn) as [S1 S2].
    destruct (seal_all hash (scan cutoff limit d) (d_rows d) l (d_genesis d) (d_last d) (d_head d) ls last' head' Hn S1 S2 P Ch L1 L2 E)
      as (l2 & B1 & B2 & B3 & B4 & B5 & B6 & B7).
    assert (Hlen : List.length l2 = List.length (scan cutoff limit d)).
    { rewrite <- (map_length k_pk l2), B6, map_length. reflexivity. }
    assert (Hsrt : StronglySorted (fun a b => a < b) (map k_pk (scan cutoff limit d))).
    { unfold scan. set (F := filter _ _). pose proof (sort_sorted k_pk F) as X.
      assert (N : NoDup (map k_pk (sort_by k_pk F))).
      { eapply Permutation_NoDup; [apply Permutation_map, sort_perm|]. unfold F. clear - Hn.
        set (f := fun r => _). clearbody f. induction (d_rows d) as [|x rows IH]; [constructor|].
        inversion Hn as [|? ? N1 N2]; subst. simpl. destruct (f x); [|auto]. simpl. constructor; [|auto].
        intros Y. apply N1. apply in_map_iff in Y as (z & Z1 & Z2). apply filter_In in Z2 as [Z2 _]. rewrite <- Z1. apply in_map; exact Z2. }
      assert (Y : StronglySorted (fun a b => a < b) (map k_pk (sort_by k_pk F))).
      { clear - X N. induction X as [|x rest X1 IH X2]; [constructor|]. inversion N as [|? ? N1 N2]; subst. simpl. constructor; [auto|].
        rewrite Forall_forall in *. intros z Z. apply in_map_iff in Z as (r & <- & Hr). specialize (X2 r Hr). unfold before in X2.
        assert (k_pk x <> k_pk r) by (intros Q; apply N1; rewrite Q; apply in_map; exact Hr). lia. }
      clear - Y. revert Y. generalize (sort_by k_pk F). intros S. revert limit. induction S as [|x S IH]; intros limit Y; [rewrite firstn_nil; constructor|].
      destruct limit; [constructor|]. simpl in *. inversion Y as [|? ? Y1 Y2]; subst. constructor; [auto|].
      rewrite Forall_forall in *. intros z Z. apply Y2. apply in_map_iff in Z as (r & <- & Hr). apply in_map. eapply firstn_in; eauto. }
    exists l2. split; [exact R|]. split; [reflexivity|]. split; [exact Hc|]. split; [|split; [|split]].
    - unfold d'. destruct ls as [|lk ls].
      + destruct (scan cutoff limit d) eqn:Es.
        * destruct l2; [|discriminate]. rewrite app_nil_r. exact Hc.
        * simpl in E. destruct (make_links _ _ _ l0) as [[? ?] ?]. discriminate.
      + split; [exact B1|]. split; [exact B2|]. split; [exact B3|exact B4].
    - intros r Hr. assert (X : In (k_pk r) (map k_pk (scan cutoff limit d))) by (rewrite <- B6; apply in_map; exact Hr).
      apply in_map_iff in X as (r0 & X1 & X2). unfold scan in X2. apply firstn_in in X2.
      eapply Permutation_in in X2; [|apply Permutation_sym, sort_perm]. apply filter_In in X2 as [X2 X3].
      apply andb_prop in X3 as [X3 X4]. apply Z.ltb_lt in X4. exists r0. split; [exact X2|]. split; [|exact X1].
      split; [|exact X4]. unfold is_sealed in X3. destruct (k_seal r0); [discriminate|reflexivity].
    - rewrite <- B6 in Hsrt. clear - Hsrt. induction l2 as [|x l2 IH]; [constructor|]. simpl in Hsrt. inversion Hsrt as [|? ? Y1 Y2]; subst.
      constructor; [auto|]. rewrite Forall_forall in *. intros z Z. apply Y2, in_map; exact Z.
    - intros r Hr [E1 E2].
      assert (X : In r (sort_by k_pk (filter (fun r => negb (is_sealed r) && (f_created (k_facts r) <? cutoff)) (d_rows d)))).
      { eapply Permutation_in; [apply sort_perm|]. apply filter_In. split; [exact Hr|]. unfold is_sealed. rewrite E1.
        apply Z.ltb_lt in E2. rewrite E2. reflexivity. }
      rewrite B6. unfold scan in *. set (S := sort_by k_pk _) in *. rewrite <- (firstn_skipn limit S) in X.
      apply in_app_or in X as [X|X]; [left; apply in_map; exact X|]. right.
      assert (HL : (limit < List.length S)%nat).
      { destruct (Nat.lt_ge_cases limit (List.length S)) as [Q|Q]; [exact Q|]. rewrite skipn_all2 in X by exact Q. destruct X. }
      split; [rewrite Hlen, firstn_length; lia|]. intros r2 Hr2.
      assert (X2 : In (k_pk r2) (map k_pk (firstn limit S))) by (rewrite <- B6; apply in_map; exact Hr2).
      apply in_map_iff in X2 as (r3 & Y1 & Y2). rewrite <- Y1.
      pose proof (sort_sorted k_pk (filter (fun r => negb (is_sealed r) && (f_created (k_facts r) <? cutoff)) (d_rows d))) as Hs.
      fold S in Hs. rewrite <- (firstn_skipn limit S) in Hs.
      assert (Hle : k_pk r3 <= k_pk r).
      { clear - Hs X Y2. revert Hs Y2. generalize (firstn limit S) as a. induction a as [|x a IH]; intros Hs Y2; [destruct Y2|].
        inversion Hs as [|? ? H1 H2]; subst. destruct Y2 as [->|Y2]; [|auto]. rewrite Forall_forall in H2. apply H2. apply in_or_app; auto. }
      assert (k_pk r3 <> k_pk r); [|lia]. intros Q.
      assert (In r3 (d_rows d)).
      { apply firstn_in in Y2. eapply Permutation_in in Y2; [|apply Permutation_sym, sort_perm]. apply filter_In in Y2. apply Y2. }
      assert (N : NoDup S).
      { eapply Permutation_NoDup; [apply sort_perm|]. apply NoDup_filter. eapply NoDup_map_inv; exact Hn. }
      assert (r3 = r).
      { clear - Hn H Hr Q. induction (d_rows d) as [|x rows IH]; [destruct Hr|]. inversion Hn as [|? ? N1 N2]; subst.
        destruct H as [->|H], Hr as [->|Hr]; auto.
        - exfalso. apply N1. rewrite Q. apply in_map; exact Hr.
        - exfalso. apply N1. rewrite <- Q. apply in_map; exact H. }
      subst r3. rewrite <- (firstn_skipn limit S) in N. clear - N X Y2. induction (firstn limit S) as [|x a IH]; [destruct Y2|].
      inversion N as [|? ? N1 N2]; subst. destruct Y2 as [->|Y2]; [|auto]. apply N1. apply in_or_app; auto.
  Qed.

  (** ** Verification of an honest database *)
  Lemma filter_none {A} (f : A -> bool) l : (forall x, In x l -> f x = false) -> filter f l = [].
  Proof. induction l as [|x l IH]; intros H; [reflexivity|]. simpl. rewrite (H x) by (left; reflexivity). apply IH. intros; apply H; right; assumption. Qed.
  Lemma filter_all {A} (f : A -> bool) l : (forall x, In x l -> f x = true) -> filter f l = l.
  Proof. induction l as [|x l IH]; intros H; [reflexivity|]. simpl. rewrite (H x) by (left; reflexivity). f_equal. apply IH. intros; apply H; right; assumption. Qed.
  Lemma filter_and {A} (f g : A -> bool) l : filter (fun x => f x && g x) l = filter g (filter f l).
  Proof. induction l as [|x l IH]; [reflexivity|]. simpl. destruct (f x); simpl; [|exact IH]. rewrite IH. reflexivity. Qed.

  Lemma after_prefix d l1 l2 page : sealed_chain hash d (l1 ++ l2) ->
    chained_after (Z.of_nat (List.length l1)) page d = firstn page l2.
  Proof.
    intros (P & Ch & _). unfold chained_after. rewrite filter_and. f_equal. apply chained_app in Ch as [C1 C2].
    apply sort_is; [eapply chained_sorted; eauto|].
    assert (E : filter (fun r => Z.of_nat (List.length l1) <? seq_of r) (l1 ++ l2) = l2).
    { rewrite filter_app, filter_none, filter_all; [reflexivity| |].
      - intros x Hx. destruct (chained_seq _ _ _ _ _ C2 Hx). apply Z.ltb_lt. lia.
      - intros x Hx. destruct (chained_seq _ _ _ _ _ C1 Hx). apply Z.ltb_ge. lia. }
    rewrite <- E at 1. apply filter_perm. exact P.
  Qed.
  Lemma page_ok rows : forall head n, chained hash head n rows ->
    verify_page hash rows head (n - 1) n = inr (last_hash head rows, n - 1 + Z.of_nat (List.length rows), n + Z.of_nat (List.length rows)).
  Proof.
    induction rows as [|r rows IH]; intros head n H; cbn [verify_page].
    - simpl. rewrite !Z.add_0_r. reflexivity.
    - destruct H as (h & H1 & H2 & H3). rewrite H1. cbn [sl_seq sl_prev sl_hash]. rewrite Z.eqb_refl, String.eqb_refl. cbn [negb].
      unfold chain_hash. rewrite <- H2, String.eqb_refl. cbn [negb].
      replace n with (n + 1 - 1) at 1 by lia. rewrite (IH h (n + 1) H3). unfold last_hash. cbn [fold_left List.length]. rewrite H1. cbn [sl_hash].
      rewrite Nat2Z.inj_succ. do 2 f_equal; [f_equal|]; lia.
  Qed.
  Lemma core_split (l l' : list crow) l1 l2 : l = (l1 ++ l2)%list -> prefix_of (map core l) (map core l') ->
    exists l1' l2', l' = (l1' ++ l2')%list /\ map core l1' = map core l1.
  Proof.
    intros -> (c & E). exists (firstn (List.length l1) l'), (skipn (List.length l1) l'). split; [symmetry; apply firstn_skipn|].
    rewrite <- firstn_map, E, map_app, <- app_assoc. rewrite <- (map_length core l1). rewrite firstn_app, Nat.sub_diag, firstn_all. simpl.
    rewrite app_nil_r. reflexivity.
  Qed.

  (** The chain of each query's database, and how they grow. *)
  Section Growing.
    Variables (page : nat) (ys : nat -> csys).
    Hypothesis Hpage : (1 <= page)%nat.
    Hypothesis Hreach : creach hash (ys O).
    Hypothesis Hgrow : forall k, cruns hash (ys k) (ys (S k)).

    Lemma loop_ok fuel : forall k l l1 l2 lk0 v, cinv hash (ys k) l -> l = (l1 ++ l2)%list ->
      cinv hash (ys O) lk0 -> prefix_of (map core lk0) (map core l) ->
      verify_loop hash page (fun k => c_db (ys k)) fuel k (d_last (c_db (ys O))) (d_head (c_db (ys O)))
        (last_hash genesis l1) (Z.of_nat (List.length l1)) (Z.of_nat (List.length l1) + 1) = Some v ->
      exists k', (k <= k')%nat /\ v = Verified (d_last (c_db (ys k'))) (d_head (c_db (ys k'))).
    Proof.
      induction fuel as [|fuel IH]; intros k l l1 l2 l0 v Hl El H0 Hp H; [discriminate|]. cbn [verify_loop] in H.
      pose proof Hl as (_ & Hg & Hc & _). pose proof Hc as (P & Ch & L1 & L2). rewrite El in Hc. rewrite (after_prefix _ _ _ _ Hc) in H.
      destruct (firstn page l2) as [|x rest] eqn:Ef.
      - assert (l2 = []) by (destruct l2; [reflexivity|]; destruct page; [lia|discriminate]). subst l2. rewrite app_nil_r in El. subst l1.
        exists k. split; [lia|]. injection H as <-. rewrite L1, L2, Hg.
        destruct ((Z.of_nat (List.length l) =? d_last (c_db (ys O))) && negb (String.eqb (last_hash genesis l) (d_head (c_db (ys O))))) eqn:E; [|reflexivity].
        exfalso. apply andb_prop in E as [E1 E2]. apply Z.eqb_eq in E1. apply negb_true_iff, String.eqb_neq in E2. apply E2.
        destruct H0 as (_ & Hg0 & (_ & _ & M1 & M2) & _). rewrite M2, Hg0. destruct Hp as (c & Ec).
        assert (c = []).
        { assert (X : List.length (map core l) = (List.length (map core l0) + List.length c)%nat) by (rewrite Ec; apply app_length).
          rewrite !map_length in X. rewrite M1 in E1. destruct c; [reflexivity|]. simpl in X. lia. }
        subst c. rewrite app_nil_r in Ec. apply last_hash_ext. exact Ec.
      - assert (Cl : chained hash (last_hash genesis l1) (1 + Z.of_nat (List.length l1)) (x :: rest)).
        { rewrite El, Hg in Ch. apply chained_app in Ch as [_ Ch]. rewrite <- (firstn_skipn page l2), Ef in Ch. apply chained_app in Ch. apply Ch. }
        rewrite (Z.add_comm 1) in Cl. pose proof (page_ok _ _ _ Cl) as Pk.
        replace (Z.of_nat (List.length l1) + 1 - 1) with (Z.of_nat (List.length l1)) in Pk by lia. rewrite Pk in H.
        destruct (cruns_inv hash _ _ (Hgrow k) l Hl) as (l' & Hl' & Hp').
        destruct (core_split l l' (l1 ++ x :: rest) (skipn page l2)) as (l1' & l2' & E1 & E2); [|exact Hp'|].
        { rewrite El, <- app_assoc, <- Ef, firstn_skipn. reflexivity. }
        assert (Elen : List.length l1' = List.length (l1 ++ x :: rest)) by (rewrite <- (map_length core), E2, map_length; reflexivity).
        destruct (IH (S k) l' l1' l2' l0 v Hl' E1 H0 (prefix_trans _ _ _ Hp Hp')) as (k' & K1 & K2); [|exists k'; split; [lia|exact K2]].
        rewrite (last_hash_ext _ _ E2), Elen, last_hash_app, app_length, Nat2Z.inj_add.
        rewrite <- H. f_equal. lia.
    Qed.
    Lemma honest_verifies fuel v : verify hash page (fun k => c_db (ys k)) fuel = Some v ->
      exists k, v = Verified (d_last (c_db (ys k))) (d_head (c_db (ys k))).
    Proof.
      intros H. unfold verify in H. destruct (creach_inv hash _ Hreach) as (l0 & Hl0).
      destruct (cruns_inv hash _ _ (Hgrow O) l0 Hl0) as (l & Hl & Hp).
      assert (Hg : d_genesis (c_db (ys O)) = genesis) by apply Hl0. rewrite Hg in H.
      destruct (loop_ok fuel 1 l [] l l0 v Hl eq_refl Hl0 Hp H) as (k & _ & K). exists k; exact K.
    Qed.
  End Growing.

  Lemma loop_ends page d l : (1 <= page)%nat -> sealed_chain hash d l -> forall fuel k l1 l2 sl sh h, l = (l1 ++ l2)%list ->
    h = last_hash (d_genesis d) l1 -> (List.length l2 < fuel)%nat ->
    exists v, verify_loop hash page (fun _ => d) fuel k sl sh h (Z.of_nat (List.length l1)) (Z.of_nat (List.length l1) + 1) = Some v.
  Proof.
    intros Hp Hc. induction fuel as [|fuel IH]; intros k l1 l2 sl sh h El Eh Hf; [lia|]. cbn [verify_loop].
    pose proof Hc as (P & Ch & _). rewrite El in Hc. rewrite (after_prefix _ _ _ _ Hc).
    destruct (firstn page l2) as [|x rest] eqn:Ef; [eexists; reflexivity|].
    assert (Cl : chained hash h (1 + Z.of_nat (List.length l1)) (x :: rest)).
    { rewrite El in Ch. apply chained_app in Ch as [_ Ch]. rewrite <- (firstn_skipn page l2), Ef in Ch. apply chained_app in Ch. subst h. apply Ch. }
    rewrite (Z.add_comm 1) in Cl. pose proof (page_ok _ _ _ Cl) as Pk.
    replace (Z.of_nat (List.length l1) + 1 - 1) with (Z.of_nat (List.length l1)) in Pk by lia. rewrite Pk.
    destruct (IH (S k) (l1 ++ x :: rest)%list (skipn page l2) sl sh (last_hash h (x :: rest))) as (v & V).
    - rewrite El, <- app_assoc, <- Ef, firstn_skipn. reflexivity.
    - subst h. rewrite last_hash_app. reflexivity.
    - assert (X : List.length l2 = (List.length (x :: rest) + List.length (skipn page l2))%nat) by (rewrite <- Ef, <- app_length, firstn_skipn; reflexivity).
      simpl in X. lia.
    - exists v. rewrite <- V. rewrite app_length, Nat2Z.inj_add. f_equal. lia.
  Qed.
  Lemma still_verifies page y : (1 <= page)%nat -> creach hash y ->
    exists fuel0, forall fuel, (fuel0 <= fuel)%nat -> verify hash page (fun _ => c_db y) fuel = Some (Verified (d_last (c_db y)) (d_head (c_db y))).
  Proof.
    intros Hp Hy. destruct (chain_exists y Hy) as (l & Hl). exists (S (List.length l)). intros fuel Hf.
    destruct (loop_ends page (c_db y) l Hp Hl fuel 1 [] l (d_last (c_db y)) (d_head (c_db y)) (d_genesis (c_db y)) eq_refl eq_refl) as (v & V); [lia|].
    assert (E : verify hash page (fun _ => c_db y) fuel = Some v) by exact V.
    destruct (honest_verifies page (fun _ => y) Hp Hy (fun _ => cruns_refl hash y) fuel v E) as (k & K). rewrite E. f_equal. exact K.
  Qed.

  (** ** What success of the verification says about an arbitrary database *)
  Lemma page_sound rows : forall head last n h' last' n', (forall r, In r rows -> is_sealed r = true) -> last = n - 1 ->
    verify_page hash rows head last n = inr (h', last', n') ->
    chained hash head n rows /\ h' = last_hash head rows /\ last' = last + Z.of_nat (List.length rows) /\ n' = n + Z.of_nat (List.length rows).
  Proof.
    induction rows as [|r rows IH]; intros head last n h' last' n' Hs El H; cbn [verify_page] in H.
    - inversion H; subst. simpl. rewrite !Z.add_0_r. auto.
    - assert (Hr : is_sealed r = true) by (apply Hs; left; reflexivity). unfold is_sealed in Hr.
      destruct (k_seal r) as [s|] eqn:Es; [|discriminate].
      destruct (sl_seq s =? n) eqn:E1; cbn [negb] in H; [|discriminate]. apply Z.eqb_eq in E1.
      destruct (String.eqb (sl_prev s) head) eqn:E2; cbn [negb] in H; [|discriminate]. apply String.eqb_eq in E2.
      destruct (String.eqb (chain_hash hash head (k_facts r)) (sl_hash s)) eqn:E3; cbn [negb] in H; [|discriminate]. apply String.eqb_eq in E3.
      apply IH in H as (A & B & C & D); [|intros; apply Hs; right; assumption|lia].
      split; [|split; [|split]].
      + exists (sl_hash s). rewrite Es. split; [destruct s; simpl in *; congruence|]. split; [symmetry; exact E3|exact A].
      + rewrite B. unfold last_hash. cbn [fold_left]. rewrite Es. reflexivity.
      + rewrite C. cbn [List.length]. lia.
      + rewrite D. cbn [List.length]. lia.
  Qed.

  Definition upto (d : db) (n : Z) : list crow := filter (fun r => is_sealed r && (0 <? seq_of r) && (seq_of r <=? n)) (d_rows d).

  Lemma loop_sound page d : (1 <= page)%nat -> unique_seq d -> forall fuel k l1 sl sh last h,
    Permutation l1 (upto d last) -> chained hash (d_genesis d) 1 l1 -> last = Z.of_nat (List.length l1) ->
    verify_loop hash page (fun _ => d) fuel k sl sh (last_hash (d_genesis d) l1) last (last + 1) = Some (Verified (fst h) (snd h)) ->
    exists l, Permutation l (filter (fun r => is_sealed r && (0 <? seq_of r)) (d_rows d)) /\ chained hash (d_genesis d) 1 l
      /\ fst h = Z.of_nat (List.length l) /\ snd h = last_hash (d_genesis d) l /\ (fst h = sl -> snd h = sh).
  Proof.
    intros Hp Hu. induction fuel as [|fuel IH]; intros k l1 sl sh last h P Ch El H; [discriminate|]. cbn [verify_loop] in H.
    set (F := filter (fun r => is_sealed r && (last <? seq_of r)) (d_rows d)) in *.
    assert (EF : chained_after last page d = firstn page (sort_by seq_of F)) by reflexivity. rewrite EF in H.
    destruct (firstn page (sort_by seq_of F)) as [|x rest] eqn:Ef.
    - exists l1.
      assert (F = []).
      { assert (X : sort_by seq_of F = []) by (destruct (sort_by seq_of F); [reflexivity|]; destruct page; [lia|discriminate]).
        apply Permutation_nil. rewrite <- X. symmetry. apply sort_perm. }
      injection H as H. destruct ((last =? sl) && negb (String.eqb (last_hash (d_genesis d) l1) sh)) eqn:Eb; [discriminate|].
      injection H as H1 H2. split; [|split; [exact Ch|split; [congruence|split; [congruence|]]]].
      + rewrite P. unfold upto. rewrite filter_and. rewrite filter_all; [reflexivity|].
        intros r Hr. apply filter_In in Hr as [R1 R2]. apply andb_prop in R2 as [R2 R3].
        destruct (seq_of r <=? last) eqn:E; [reflexivity|]. exfalso.
        assert (In r F); [|rewrite H0 in *; auto]. apply filter_In. split; [exact R1|]. rewrite R2. simpl. apply Z.ltb_lt. apply Z.leb_gt in E. exact E.
      + intros E. rewrite <- H1, <- H2 in *. rewrite E, Z.eqb_refl in Eb. simpl in Eb. apply negb_false_iff, String.eqb_eq in Eb. exact Eb.
    - destruct (verify_page hash (x :: rest) (last_hash (d_genesis d) l1) last (last + 1)) as [v|[[h' last'] n']] eqn:Ep; [|].
      { destruct v; [|discriminate H].
        exfalso. clear - Ep. revert Ep. generalize (last_hash (d_genesis d) l1) last (last + 1) (x :: rest). intros hd la ex rows.
        revert hd la ex. induction rows as [|r rows IH]; intros hd la ex; cbn [verify_page]; [discriminate|].
        destruct (k_seal r); [|discriminate]. destruct (negb _); [discriminate|]. destruct (negb _); [discriminate|]. destruct (negb _); [discriminate|]. apply IH. }
      set (S := sort_by seq_of F) in *.
      assert (HS : forall r, In r S -> In r (d_rows d) /\ is_sealed r = true /\ last < seq_of r).
      { intros r Hr. eapply Permutation_in in Hr; [|apply Permutation_sym, sort_perm]. apply filter_In in Hr as [R1 R2].
        apply andb_prop in R2 as [R2 R3]. apply Z.ltb_lt in R3. auto. }
      apply page_sound in Ep as (A & B & C & D); [| |lia].
      2:{ intros r Hr. rewrite <- Ef in Hr. apply firstn_in in Hr. apply HS; exact Hr. }
      assert (Ch' : chained hash (d_genesis d) 1 (l1 ++ x :: rest)).
      { apply chained_app. split; [exact Ch|]. rewrite El, Z.add_comm in A. exact A. }
      rewrite B, D, <- last_hash_app in H.
      replace (last + 1 + Z.of_nat (List.length (x :: rest))) with (last' + 1) in H by lia.
      apply (IH (Datatypes.S k) (l1 ++ x :: rest)%list sl sh last' h) in H; [exact H| |exact Ch'|rewrite app_length, Nat2Z.inj_add; lia].
      (* the rows up to last' are those up to last and this page *)
      assert (E : Permutation (upto d last') (upto d last ++ filter (fun r => seq_of r <=? last') F)).
      { unfold upto, F. assert (Q : last <= last') by lia. assert (Q2 : 0 <= last) by lia. clear - Q Q2. induction (d_rows d) as [|r rows IH]; [reflexivity|].
        simpl. destruct (is_sealed r); simpl; [|exact IH].
        destruct (0 <? seq_of r) eqn:E1; destruct (seq_of r <=? last) eqn:E2; destruct (last <? seq_of r) eqn:E3; destruct (seq_of r <=? last') eqn:E4;
          simpl; rewrite ?E4; simpl; rewrite ?Z.ltb_lt, ?Z.ltb_ge, ?Z.leb_le, ?Z.leb_gt in *; try lia; try exact IH.
        - constructor; exact IH.
        - apply Permutation_cons_app. exact IH. }
      rewrite E. apply Permutation_app; [exact P|].
      assert (Nu : NoDup (map seq_of S)).
      { eapply Permutation_NoDup; [apply Permutation_map, sort_perm|]. unfold unique_seq in Hu. unfold F. rewrite filter_and.
        clear - Hu. induction (filter is_sealed (d_rows d)) as [|r rows IH]; [constructor|]. inversion Hu as [|? ? N1 N2]; subst.
        simpl. destruct (last <? seq_of r); [|auto]. simpl. constructor; [|auto]. intros X. apply N1. apply in_map_iff in X as (z & <- & Z2).
        apply filter_In in Z2 as [Z2 _]. apply in_map; exact Z2. }
      rewrite (filter_perm _ _ _ (sort_perm seq_of F)). fold S. rewrite <- (firstn_skipn page S), Ef, filter_app.
      rewrite (filter_all _ (x :: rest)), (filter_none _ (skipn page S)); [rewrite app_nil_r; reflexivity| |].
      + intros r Hr. apply Z.leb_gt.
        (* everything after the page is larger than the page's last row *)
        pose proof (sort_sorted seq_of F) as Hs. fold S in Hs. rewrite <- (firstn_skipn page S), Ef in Hs, Nu.
        assert (Hl : exists z, In z (x :: rest) /\ seq_of z = last').
        { clear - A C. assert (X : exists a z, (x :: rest = a ++ [z])%list).
          { destruct (exists_last (l := x :: rest)) as (a & z & X); [discriminate|]. exists a, z; exact X. }
          destruct X as (a & z & X). exists z. rewrite X. split; [apply in_or_app; right; left; reflexivity|].
          rewrite X in A, C. apply chained_app in A as [_ (h & A1 & _)]. unfold seq_of. rewrite A1. cbn [sl_seq].
          rewrite app_length, Nat2Z.inj_add in C. simpl in C. lia. }
        destruct Hl as (z & Z1 & Z2).
        assert (seq_of z <= seq_of r).
        { clear - Hs Z1 Hr. revert Z1 Hs. generalize (x :: rest) as a. induction a as [|y a IH]; intros Z1 Hs; [destruct Z1|].
          inversion Hs as [|? ? H1 H2]; subst. destruct Z1 as [->|Z1]; [|auto]. rewrite Forall_forall in H2. apply H2. apply in_or_app; auto. }
        assert (seq_of z <> seq_of r); [|lia].
        intros Q. rewrite map_app in Nu. clear - Nu Q Z1 Hr. revert Z1 Nu. generalize (x :: rest) as a. induction a as [|y a IH]; intros Z1 Nu; [destruct Z1|].
        simpl in Nu. inversion Nu as [|? ? N1 N2]; subst. destruct Z1 as [->|Z1]; [|auto]. apply N1. rewrite Q. apply in_or_app. right. apply in_map; exact Hr.
      + intros r Hr. destruct (chained_seq _ _ _ _ _ A Hr) as [_ X]. apply Z.leb_le. lia.
  Qed.

  Lemma verify_sound page d fuel n h : (1 <= page)%nat -> unique_seq d -> verify hash page (fun _ => d) fuel = Some (Verified n h) ->
    exists l, Permutation l (filter (fun r => is_sealed r && (0 <? seq_of r)) (d_rows d)) /\ chained hash (d_genesis d) 1 l
      /\ n = Z.of_nat (List.length l) /\ h = last_hash (d_genesis d) l /\ (n = d_last d -> h = d_head d).
  Proof.
    intros Hp Hu H. unfold verify in H.
    apply (loop_sound page d Hp Hu fuel 1 [] (d_last d) (d_head d) 0 (n, h)) in H; [exact H| |exact Logic.I|reflexivity].
    unfold upto. rewrite filter_none; [constructor|]. intros r _.
    destruct (0 <? seq_of r) eqn:E1, (seq_of r <=? 0) eqn:E2; rewrite ?andb_false_r; auto. apply Z.ltb_lt in E1. apply Z.leb_le in E2. lia.
  Qed.
End Thms.
