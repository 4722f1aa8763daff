(** Tamper detection by chain verification (C23), with the cases it misses. *)
From Coq Require Import ZArith List String Ascii Bool Lia Permutation Sorted DecimalString DecimalZ.
From Verif Require Import Base ChainModel ChainSpec ChainProof ChainThms.
Import ListNotations.
Open Scope Z_scope.

(** ** The hashed string determines its parts *)
Lemma split_bar a : forall b x y, no_bar a -> no_bar b -> (a ++ "|" ++ x = b ++ "|" ++ y)%string -> a = b /\ x = y.
Proof.
  induction a as [|c a IH]; intros [|c' b] x y Ha Hb H.
  - change (String "|" x = String "|" y) in H. injection H as H. auto.
  - change (String "|" x = String c' (b ++ "|" ++ y)) in H. injection H as H1 H2. destruct Hb as [Hb _]. congruence.
  - change (String c (a ++ "|" ++ x) = String "|" y) in H. injection H as H1 H2. destruct Ha as [Ha _]. congruence.
  - change (String c (a ++ "|" ++ x) = String c' (b ++ "|" ++ y)) in H. injection H as H1 H2.
    destruct Ha as [_ Ha], Hb as [_ Hb]. destruct (IH b x y Ha Hb H2) as [-> ->]. subst. auto.
Qed.
Lemma time_inj t t' : time_text t = time_text t' -> t = t'.
Proof.
  unfold time_text. intros H.
  assert (N : forall z, Z.to_int z <> Decimal.Pos Decimal.Nil /\ Z.to_int z <> Decimal.Neg Decimal.Nil).
  { intros z. split; intros E; pose proof (DecimalZ.of_to z) as O; rewrite E in O; simpl in O; subst z; discriminate. }
  apply (f_equal NilZero.int_of_string) in H. rewrite !NilZero.isi in H by apply N. injection H as H.
  rewrite <- (DecimalZ.of_to t), <- (DecimalZ.of_to t'), H. reflexivity.
Qed.
Lemma canonical_inj p p' f f' : no_bar p -> no_bar p' -> plain f -> plain f' -> canonical p f = canonical p' f' ->
  p = p' /\ sealed_columns f = sealed_columns f'.
Proof.
  unfold canonical, plain, sealed_columns. intros Hp Hp' (A1 & A2 & A3 & A4 & A5 & A6 & A7 & A8) (B1 & B2 & B3 & B4 & B5 & B6 & B7 & B8) H.
  cbn [String.concat] in H.
  apply split_bar in H as [E0 H]; [|assumption..].
  apply split_bar in H as [E1 H]; [|assumption..].
  apply split_bar in H as [E2 H]; [|assumption..].
  apply split_bar in H as [E3 H]; [|assumption..].
  apply split_bar in H as [E4 H]; [|assumption..].
  apply split_bar in H as [E5 H]; [|assumption..].
  apply split_bar in H as [E6 H]; [|assumption..].
  apply split_bar in H as [E7 H]; [|assumption..].
  apply split_bar in H as [E8 H]; [|assumption..].
  apply time_inj in H. rewrite E1, E2, E3, E4, E5, E6, E7, E8, H. auto.
Qed.

Section Tamper.
  Variable hash : string -> string.
  Hypothesis Hhex : hex_like hash.
  Definition entry (r : crow) := (sealed_columns (k_facts r), k_seal r).

  Lemma last_hash_plain g l n : no_bar g -> chained hash g n l -> no_bar (last_hash g l).
  Proof.
    revert g n. induction l as [|r l IH]; intros g n Hg H; [exact Hg|]. destruct H as (h & H1 & H2 & H3).
    unfold last_hash in *. cbn [fold_left]. rewrite H1. cbn [sl_hash]. apply (IH h (n + 1)); [subst h; apply Hhex|exact H3].
  Qed.

  Lemma same_chain d d' g : no_bar g -> all_plain d -> all_plain d' -> no_collision hash d d' -> forall l l',
    (forall r, In r l -> In r (d_rows d)) -> (forall r, In r l' -> In r (d_rows d')) -> List.length l = List.length l' ->
    chained hash g 1 l -> chained hash g 1 l' -> last_hash g l = last_hash g l' -> map entry l = map entry l'.
  Proof.
    intros Hg Hpl Hpl' Hnc l. induction l as [|x l IH] using rev_ind; intros l' Hin Hin' Hlen C C' HE.
    - destruct l'; [reflexivity|discriminate].
    - destruct l' as [|x' l' _] using rev_ind; [rewrite app_length in Hlen; simpl in Hlen; lia|].
      rewrite !app_length in Hlen. simpl in Hlen. assert (Hl : List.length l = List.length l') by lia.
      apply chained_app in C as [C1 (h & A1 & A2 & _)]. apply chained_app in C' as [C1' (h' & A1' & A2' & _)].
      rewrite !last_hash_app in HE. unfold last_hash at 1 in HE. cbn [fold_left] in HE. rewrite A1 in HE. cbn [sl_hash] in HE.
      unfold last_hash at 1 in HE. cbn [fold_left] in HE. rewrite A1' in HE. cbn [sl_hash] in HE.
      assert (X : In x (d_rows d)) by (apply Hin, in_or_app; right; left; reflexivity).
      assert (X' : In x' (d_rows d')) by (apply Hin', in_or_app; right; left; reflexivity).
      pose proof (Hnc x x' (last_hash g l) (last_hash g l') X X' ltac:(congruence)) as E.
      apply canonical_inj in E as [E1 E2]; [|eapply last_hash_plain; eauto|eapply last_hash_plain; eauto|apply Hpl; exact X|apply Hpl'; exact X'].
      rewrite !map_app. f_equal.
      + apply IH; auto; intros r Hr; [apply Hin|apply Hin']; apply in_or_app; auto.
      + simpl. unfold entry. rewrite E2, A1, A1', Hl, E1, HE. reflexivity.
  Qed.

  Lemma genesis_plain : no_bar genesis.
  Proof. unfold genesis. simpl. repeat (split; [discriminate|]). exact Logic.I. Qed.

  Lemma tamper_detected page y d' fuel h : (1 <= page)%nat -> creach hash y ->
    d_last d' = d_last (c_db y) -> d_head d' = d_head (c_db y) -> d_genesis d' = d_genesis (c_db y) -> unique_seq d' ->
    all_plain (c_db y) -> all_plain d' -> no_collision hash (c_db y) d' ->
    verify hash page (fun _ => d') fuel = Some (Verified (d_last d') h) ->
    (forall r s, In r (d_rows (c_db y)) -> k_seal r = Some s ->
       exists r', In r' (d_rows d') /\ k_seal r' = Some s /\ sealed_columns (k_facts r') = sealed_columns (k_facts r))
    /\ (forall r' s, In r' (d_rows d') -> k_seal r' = Some s -> 0 < sl_seq s ->
       exists r, In r (d_rows (c_db y)) /\ k_seal r = Some s /\ sealed_columns (k_facts r) = sealed_columns (k_facts r')).
  Proof.
    intros Hp Hy E1 E2 E3 Hu Hpl Hpl' Hnc H. destruct (verify_sound hash page d' fuel _ _ Hp Hu H) as (l' & P' & C' & L' & H' & Hh).
    destruct (creach_inv hash y Hy) as (l & _ & Hg & (P & C & L & Hd) & _).
    rewrite E3, Hg in *. specialize (Hh eq_refl).
    assert (EE : map entry l = map entry l').
    { apply (same_chain (c_db y) d' genesis genesis_plain Hpl Hpl' Hnc); auto.
      - intros r Hr. eapply Permutation_in in Hr; [|exact P]. apply filter_In in Hr. apply Hr.
      - intros r Hr. eapply Permutation_in in Hr; [|exact P']. apply filter_In in Hr. apply Hr.
      - apply Nat2Z.inj. rewrite <- L, <- L', E1. reflexivity.
      - rewrite <- Hd, <- E2, <- Hh. exact H'. }
    split.
    - intros r s Hr Hs. assert (X : In (entry r) (map entry l)).
      { apply in_map. eapply Permutation_in; [apply Permutation_sym; exact P|]. apply filter_In. split; [exact Hr|]. unfold is_sealed. rewrite Hs. reflexivity. }
      rewrite EE in X. apply in_map_iff in X as (r' & X1 & X2). exists r'. eapply Permutation_in in X2; [|exact P']. apply filter_In in X2 as [X2 _].
      unfold entry in X1. injection X1 as X3 X4. split; [exact X2|]. split; [congruence|]. unfold sealed_columns. congruence.
    - intros r s Hr Hs Hpos. assert (X : In (entry r) (map entry l')).
      { apply in_map. eapply Permutation_in; [apply Permutation_sym; exact P'|]. apply filter_In. split; [exact Hr|]. unfold is_sealed, seq_of. rewrite Hs.
        simpl. apply Z.ltb_lt. exact Hpos. }
      rewrite <- EE in X. apply in_map_iff in X as (r' & X1 & X2). exists r'. eapply Permutation_in in X2; [|exact P]. apply filter_In in X2 as [X2 _].
      unfold entry in X1. injection X1 as X3 X4. split; [exact X2|]. split; [congruence|]. unfold sealed_columns. congruence.
  Qed.

  (** A sealed row whose facts changed but whose chain columns did not is always noticed. *)
  Lemma chained_in l : forall g n r, chained hash g n l -> In r l ->
    exists s, k_seal r = Some s /\ sl_hash s = hash (canonical (sl_prev s) (k_facts r)).
  Proof.
    induction l as [|x l IH]; intros g n r H Hr; [destruct Hr|]. destruct H as (h & H1 & H2 & H3). destruct Hr as [<-|Hr]; [|eapply IH; eauto].
    eexists. split; [exact H1|exact H2].
  Qed.
  Lemma chained_prev_plain l : forall g n r s, no_bar g -> chained hash g n l -> In r l -> k_seal r = Some s -> no_bar (sl_prev s).
  Proof.
    induction l as [|x l IH]; intros g n r s Hg H Hr Hs; [destruct Hr|]. destruct H as (h & H1 & H2 & H3). destruct Hr as [<-|Hr].
    - rewrite H1 in Hs. injection Hs as <-. exact Hg.
    - eapply (IH h (n + 1)); eauto. rewrite H2. apply Hhex.
  Qed.
  Lemma altered_detected page y d' fuel n h r r' s : (1 <= page)%nat -> creach hash y -> unique_seq d' -> all_plain (c_db y) -> all_plain d' ->
    no_collision hash (c_db y) d' ->
    In r (d_rows (c_db y)) -> k_seal r = Some s -> In r' (d_rows d') -> k_seal r' = Some s ->
    verify hash page (fun _ => d') fuel = Some (Verified n h) -> sealed_columns (k_facts r') = sealed_columns (k_facts r).
  Proof.
    intros Hp Hy Hu Hpl Hpl' Hnc Hr Hs Hr' Hs' H. destruct (verify_sound hash page d' fuel _ _ Hp Hu H) as (l' & P' & C' & _).
    destruct (creach_inv hash y Hy) as (l & _ & Hg & (P & C & _ & _) & _).
    assert (Hl : In r l). { eapply Permutation_in; [apply Permutation_sym; exact P|]. apply filter_In. split; [exact Hr|]. unfold is_sealed. rewrite Hs. reflexivity. }
    assert (Hl' : In r' l').
    { eapply Permutation_in; [apply Permutation_sym; exact P'|]. apply filter_In. split; [exact Hr'|]. unfold is_sealed, seq_of. rewrite Hs'. simpl.
      destruct (chained_seq _ _ _ _ _ C Hl) as [_ X]. unfold seq_of in X. rewrite Hs in X. apply Z.ltb_lt. lia. }
    destruct (chained_in _ _ _ _ C Hl) as (s1 & S1 & S2). destruct (chained_in _ _ _ _ C' Hl') as (s2 & S3 & S4).
    rewrite Hs in S1. injection S1 as <-. rewrite Hs' in S3. injection S3 as <-. rewrite S4 in S2.
    symmetry in S2. pose proof (Hnc r r' _ _ Hr Hr' S2) as E.
    assert (Hb : no_bar (sl_prev s)) by (eapply chained_prev_plain; [|exact C|exact Hl|exact Hs]; rewrite Hg; apply genesis_plain).
    apply canonical_inj in E as [_ E]; [congruence|exact Hb|exact Hb|apply Hpl; exact Hr|apply Hpl'; exact Hr'].
  Qed.

  (** A missing number is always noticed. *)
  Lemma chained_nth l : forall g n k, chained hash g n l -> n <= k < n + Z.of_nat (List.length l) -> exists r, In r l /\ seq_of r = k.
  Proof.
    induction l as [|x l IH]; intros g n k H Hk; [simpl in Hk; lia|]. destruct H as (h & H1 & H2 & H3). cbn [List.length] in Hk.
    destruct (Z.eq_dec k n) as [->|E]; [exists x; split; [left; reflexivity|unfold seq_of; rewrite H1; reflexivity]|].
    destruct (IH h (n + 1) k H3) as (r & R1 & R2); [lia|]. exists r. split; [right; exact R1|exact R2].
  Qed.
  Lemma gap_detected page d' fuel n h r s k : (1 <= page)%nat -> unique_seq d' ->
    In r (d_rows d') -> k_seal r = Some s -> 0 < k < sl_seq s ->
    verify hash page (fun _ => d') fuel = Some (Verified n h) -> exists r' s', In r' (d_rows d') /\ k_seal r' = Some s' /\ sl_seq s' = k.
  Proof.
    intros Hp Hu Hr Hs Hk H. destruct (verify_sound hash page d' fuel _ _ Hp Hu H) as (l' & P' & C' & _).
    assert (Hl : In r l').
    { eapply Permutation_in; [apply Permutation_sym; exact P'|]. apply filter_In. split; [exact Hr|]. unfold is_sealed, seq_of. rewrite Hs. simpl. apply Z.ltb_lt. lia. }
    destruct (chained_seq _ _ _ _ _ C' Hl) as [_ X]. unfold seq_of in X. rewrite Hs in X.
    destruct (chained_nth _ _ _ k C') as (r' & R1 & R2); [lia|]. eapply Permutation_in in R1; [|exact P']. apply filter_In in R1 as [R1 R3].
    unfold is_sealed in R3. unfold seq_of in R2. exists r'. destruct (k_seal r') as [s'|]; [|discriminate]. exists s'. auto.
  Qed.
End Tamper.
