(** Allocation of a debit to providers. *)
From Coq Require Import ZArith List String Bool Lia Permutation Sorting.Sorted.
From Verif Require Import Base ChainModel ChainProof LineageModel LineageSpec.
Import ListNotations.
Local Open Scope string_scope.
Open Scope Z_scope.
Local Open Scope list_scope.

Definition fits (l : list source) (r : list alloc) : Prop :=
  NoDup (map al_id r) /\ forall a, In a r -> 0 < al_amt a /\ exists s, In s l /\ so_id s = al_id a /\ al_amt a <= so_bal s.

Lemma fits_nil l : fits l [].
Proof. split; [constructor|intros a []]. Qed.
Lemma fits_skip x l r : fits l r -> fits (x :: l) r.
Proof. intros [N H]. split; [exact N|]. intros a Ha. destruct (H a Ha) as [P [s [S1 S2]]]. split; [exact P|exists s; split; [right; exact S1|exact S2]]. Qed.
Lemma fits_cons x l r a : NoDup (map so_id (x :: l)) -> fits l r -> al_id a = so_id x -> 0 < al_amt a -> al_amt a <= so_bal x -> fits (x :: l) (a :: r).
Proof.
  intros N F E P L. inversion N as [|? ? N1 N2]; subst. split.
  - cbn [map]. constructor; [|apply F]. intros X. apply in_map_iff in X. destruct X as [b [X1 X2]]. destruct F as [_ F].
    destruct (F b X2) as [_ [s [S1 [S2 _]]]]. apply N1. rewrite <- E, <- X1, <- S2. apply in_map; exact S1.
  - intros b [<-|Hb]; [split; [exact P|exists x; split; [left; reflexivity|auto]]|]. apply (proj2 (fits_skip x l r F)); exact Hb.
Qed.
Lemma fits_perm l l' r : Permutation l l' -> fits l r -> fits l' r.
Proof.
  intros P [N H]. split; [exact N|]. intros a Ha. destruct (H a Ha) as [Q [s [S1 S2]]]. split; [exact Q|].
  exists s; split; [eapply Permutation_in; eauto|exact S2].
Qed.

Lemma sequential_fits l : NoDup (map so_id l) -> forall r, fits l (sequential l r).
Proof.
  induction l as [|x l IH]; intros N r; [apply fits_nil|]. cbn [sequential].
  destruct (r <=? 0); [apply fits_nil|]. inversion N; subst.
  set (a := if r <=? so_bal x then r else so_bal x). destruct (a <=? 0) eqn:E; [apply fits_skip, IH; assumption|].
  apply Z.leb_gt in E. apply fits_cons; auto. subst a. cbn [al_amt]. destruct (r <=? so_bal x) eqn:F; [apply Z.leb_le in F; exact F|lia].
Qed.
Lemma proportional_fits l eff total : NoDup (map so_id l) -> forall r, fits l (proportional l eff total r).
Proof.
  induction l as [|x l IH]; intros N r; [apply fits_nil|]. cbn [proportional]. inversion N; subst.
  set (a0 := match l with [] => r | _ => _ end). set (a := if so_bal x <? a0 then so_bal x else a0).
  destruct (a <=? 0) eqn:E; [apply fits_skip, IH; assumption|].
  apply Z.leb_gt in E. apply fits_cons; auto. subst a. cbn [al_amt]. destruct (so_bal x <? a0) eqn:F; [lia|apply Z.ltb_ge in F; exact F].
Qed.

Theorem allocation_fits l amount strategy : NoDup (map so_id l) -> fits l (calculate_allocation l amount strategy).
Proof.
  intros N. unfold calculate_allocation. destruct l as [|x l']; [apply fits_nil|]. set (l := x :: l') in *.
  assert (S : forall key, fits l (sequential_allocation (sort_by key l) amount)).
  { intros key. unfold sequential_allocation. destruct (amount <=? 0); [apply fits_nil|].
    apply (fits_perm (sort_by key l)); [apply Permutation_sym, sort_perm|]. apply sequential_fits.
    eapply Permutation_NoDup; [apply Permutation_map, sort_perm|exact N]. }
  destruct (String.eqb strategy "LIFO"); [apply S|]. destruct (String.eqb strategy "PROPORTIONAL"); [|apply S].
  unfold proportional_allocation. destruct (amount <=? 0); [apply fits_nil|]. destruct (total_of l =? 0); [apply fits_nil|].
  apply proportional_fits; exact N.
Qed.

(** ** Totals *)
Lemma total_pos l : (forall s, In s l -> 0 < so_bal s) -> 0 <= total_of l /\ (l <> [] -> 0 < total_of l).
Proof.
  unfold total_of. induction l as [|x l IH]; intros H; [split; [cbn; lia|congruence]|]. cbn [sumz].
  destruct IH as [I _]; [intros; apply H; right; assumption|]. specialize (H x (or_introl eq_refl)). split; intros; lia.
Qed.
Lemma sequential_total l : (forall s, In s l -> 0 < so_bal s) -> forall r, 0 <= r -> allocated (sequential l r) = Z.min r (total_of l).
Proof.
  induction l as [|x l IH]; intros H r R; [unfold total_of; cbn; lia|]. cbn [sequential].
  assert (Hx : 0 < so_bal x) by (apply H; left; reflexivity).
  assert (Hl : forall s, In s l -> 0 < so_bal s) by (intros; apply H; right; assumption).
  pose proof (total_pos l Hl) as [T _]. unfold total_of in *. cbn [sumz].
  destruct (r <=? 0) eqn:E; [apply Z.leb_le in E; cbn; lia|]. apply Z.leb_gt in E.
  destruct (r <=? so_bal x) eqn:F; [apply Z.leb_le in F|apply Z.leb_gt in F].
  - rewrite (proj2 (Z.leb_gt r 0) E). unfold allocated. cbn [sumz al_amt]. fold (allocated (sequential l (r - r))).
    rewrite IH by (auto; lia). unfold total_of. lia.
  - rewrite (proj2 (Z.leb_gt (so_bal x) 0) Hx). unfold allocated. cbn [sumz al_amt]. fold (allocated (sequential l (r - so_bal x))).
    rewrite IH by (auto; lia). unfold total_of. lia.
Qed.
Lemma total_perm l l' : Permutation l l' -> total_of l = total_of l'.
Proof. unfold total_of. induction 1; cbn [sumz]; lia. Qed.

Theorem sequential_strategy_total l amount strategy : good_sources l -> strategy <> "PROPORTIONAL" -> 0 <= amount ->
  allocated (calculate_allocation l amount strategy) = Z.min amount (total_of l).
Proof.
  intros [_ G] N A. unfold calculate_allocation. destruct l as [|x l']; [unfold total_of; cbn; lia|]. set (l := x :: l') in *.
  assert (S : forall key, allocated (sequential_allocation (sort_by key l) amount) = Z.min amount (total_of l)).
  { intros key. unfold sequential_allocation. pose proof (total_pos l G) as [T _].
    destruct (amount <=? 0) eqn:E; [apply Z.leb_le in E; change (allocated []) with 0; lia|].
    rewrite sequential_total; [rewrite <- (total_perm l (sort_by key l) (sort_perm key l)); reflexivity| |exact A].
    intros s Hs. apply G. eapply Permutation_in; [apply Permutation_sym, sort_perm|exact Hs]. }
  destruct (String.eqb strategy "LIFO"); [apply S|].
  destruct (String.eqb strategy "PROPORTIONAL") eqn:E; [apply String.eqb_eq in E; congruence|apply S].
Qed.

(** Proportional: between the rounded-down shares and the whole. *)
Lemma proportional_bounds eff total l : 0 <= eff <= total -> 0 < total -> (forall s, In s l -> 0 < so_bal s) -> forall r,
  eff * total_of l <= r * total ->
  (* what is left never falls short of the share of those to come *)
  allocated (proportional l eff total r) <= r /\
  eff * total_of l - Z.of_nat (List.length l) * total < allocated (proportional l eff total r) * total + (if l then total else 0) /\
  (forall s, In s l -> NoDup (map so_id l) -> 0 < eff * so_bal s / total ->
     exists a, In a (proportional l eff total r) /\ al_id a = so_id s /\ eff * so_bal s / total <= al_amt a).
Proof.
  intros E T. induction l as [|x l IH]; intros G r R.
  { unfold total_of in *. cbn [sumz proportional List.length] in *. change (allocated []) with 0. change (Z.of_nat 0) with 0.
    split; [nia|]. split; [lia|intros s []]. }
  assert (Hx : 0 < so_bal x) by (apply G; left; reflexivity).
  assert (Hl : forall s, In s l -> 0 < so_bal s) by (intros; apply G; right; assumption).
  pose proof (total_pos l Hl) as [TL _].
  assert (Tx : total_of (x :: l) = so_bal x + total_of l) by reflexivity. rewrite Tx in *.
  set (sh := eff * so_bal x / total).
  assert (D : total * sh <= eff * so_bal x < total * sh + total).
  { pose proof (Z.mul_div_le (eff * so_bal x) total T). pose proof (Z.mul_succ_div_gt (eff * so_bal x) total T). subst sh. lia. }
  assert (S0 : 0 <= sh) by (subst sh; apply Z.div_pos; nia).
  assert (SB : sh <= so_bal x) by nia.
  assert (SR : sh <= r) by nia.
  cbn [proportional]. fold sh. set (a0 := match l with [] => r | _ => sh end).
  assert (A0 : sh <= a0) by (subst a0; destruct l; lia).
  assert (A1 : a0 <= r) by (subst a0; destruct l; lia).
  set (a := if so_bal x <? a0 then so_bal x else a0).
  assert (Aa : sh <= a <= a0 /\ a <= so_bal x).
  { subst a. destruct (so_bal x <? a0) eqn:F; [apply Z.ltb_lt in F|apply Z.ltb_ge in F]; lia. }
  assert (R' : eff * total_of l <= (r - a) * total).
  { destruct l as [|y l2].
    - unfold total_of. cbn [sumz]. assert (a <= r) by lia. nia.
    - assert (a = sh) by (subst a a0; destruct (so_bal x <? sh) eqn:F; [apply Z.ltb_lt in F; lia|reflexivity]). nia. }
  destruct (a <=? 0) eqn:Z0; [apply Z.leb_le in Z0|apply Z.leb_gt in Z0].
  - assert (sh = 0) by lia.
    assert (R'' : eff * total_of l <= r * total) by nia.
    destruct (IH Hl r R'') as [I1 [I2 I3]]. split; [exact I1|]. split.
    + rewrite (Nat2Z.inj_succ (List.length l) : Z.of_nat (List.length (x :: l)) = _).
      destruct l; [unfold total_of in *; cbn [proportional List.length sumz] in *; change (allocated []) with 0 in *; change (Z.of_nat 0) with 0 in *; nia|nia].
    + intros s [<-|Hs] N P; [fold sh in P; lia|]. inversion N; subst. destruct (I3 s Hs) as [b [B1 B2]]; eauto.
  - destruct (IH Hl (r - a) R') as [I1 [I2 I3]].
    assert (X : allocated ({| al_id := so_id x; al_amt := a |} :: proportional l eff total (r - a)) = a + allocated (proportional l eff total (r - a))) by reflexivity.
    rewrite X. split; [lia|]. split.
    + rewrite (Nat2Z.inj_succ (List.length l) : Z.of_nat (List.length (x :: l)) = _).
      destruct l; [unfold total_of in *; cbn [proportional List.length sumz] in *; change (allocated []) with 0 in *; change (Z.of_nat 0) with 0 in *; nia|nia].
    + intros s [<-|Hs] N P.
      * eexists; split; [left; reflexivity|]. cbn. split; [reflexivity|fold sh; lia].
      * inversion N; subst. destruct (I3 s Hs ltac:(assumption) ltac:(assumption)) as [b [B1 B2]]. exists b; split; [right; exact B1|exact B2].
Qed.

Theorem proportional_total l amount : good_sources l -> 0 <= amount -> l <> [] ->
  let sum := allocated (calculate_allocation l amount "PROPORTIONAL") in
  sum <= Z.min amount (total_of l) /\ Z.min amount (total_of l) < sum + Z.of_nat (List.length l).
Proof.
  intros [N G] A NE sum. subst sum. unfold calculate_allocation. destruct l as [|x l']; [congruence|]. set (l := x :: l') in *. cbn [String.eqb Ascii.eqb Bool.eqb].
  pose proof (total_pos l G) as [_ T]. specialize (T NE). unfold proportional_allocation.
  assert (Len : 1 <= Z.of_nat (List.length l)) by (subst l; cbn [List.length]; lia).
  destruct (amount <=? 0) eqn:E; [apply Z.leb_le in E; change (allocated []) with 0; lia|apply Z.leb_gt in E].
  rewrite (proj2 (Z.eqb_neq (total_of l) 0)) by lia. set (eff := if total_of l <? amount then total_of l else amount).
  assert (Ef : eff = Z.min amount (total_of l)) by (subst eff; destruct (total_of l <? amount) eqn:F; [apply Z.ltb_lt in F|apply Z.ltb_ge in F]; lia).
  destruct (proportional_bounds eff (total_of l) l) with (r := eff) as [B1 [B2 _]]; [lia|exact T|exact G|lia|].
  rewrite <- Ef. split; [exact B1|]. set (P := allocated _) in *. set (n := Z.of_nat (List.length l)) in *.
  assert (B3 : eff * total_of l - n * total_of l < P * total_of l + 0) by exact B2. clear B2. nia.
Qed.

Theorem proportional_share l amount : good_sources l -> 0 < amount ->
  forall s, In s l -> 0 < Z.min amount (total_of l) * so_bal s / total_of l ->
  exists a, In a (calculate_allocation l amount "PROPORTIONAL") /\ al_id a = so_id s /\ Z.min amount (total_of l) * so_bal s / total_of l <= al_amt a.
Proof.
  intros [N G] A s Hs P. unfold calculate_allocation. destruct l as [|x l']; [destruct Hs|]. set (l := x :: l') in *. cbn [String.eqb Ascii.eqb Bool.eqb].
  pose proof (total_pos l G) as [_ T]. assert (NE : l <> []) by (subst l; discriminate). specialize (T NE). unfold proportional_allocation.
  rewrite (proj2 (Z.leb_gt amount 0) A). rewrite (proj2 (Z.eqb_neq (total_of l) 0)) by lia.
  set (eff := if total_of l <? amount then total_of l else amount).
  assert (Ef : eff = Z.min amount (total_of l)) by (subst eff; destruct (total_of l <? amount) eqn:F; [apply Z.ltb_lt in F|apply Z.ltb_ge in F]; lia).
  rewrite <- Ef in *. destruct (proportional_bounds eff (total_of l) l) with (r := eff) as [_ [_ B]]; [lia|exact T|exact G|lia|].
  apply B; auto.
Qed.

(** ** Order *)
Lemma sequential_order l : NoDup (map so_id l) -> (forall s, In s l -> 0 < so_bal s) -> forall r l1 s l2, l = l1 ++ s :: l2 ->
  drawn_on s (sequential l r) -> forall s', In s' l1 -> used_up s' (sequential l r).
Proof.
  induction l as [|x l IH]; intros N G r l1 s l2 E D s' Hs'; [destruct l1; discriminate|].
  destruct l1 as [|y l1]; [destruct Hs'|]. cbn in E. injection E as <- E. inversion N as [|? ? N1 N2]; subst.
  assert (Hx : 0 < so_bal x) by (apply G; left; reflexivity).
  assert (Gl : forall q, In q (l1 ++ s :: l2) -> 0 < so_bal q) by (intros; apply G; right; assumption).
  cbn [sequential] in *. destruct (r <=? 0) eqn:Er; [destruct D as [a [[] _]]|]. apply Z.leb_gt in Er.
  assert (Nx : so_id x <> so_id s) by (intros X; apply N1; rewrite X, map_app; apply in_or_app; right; left; reflexivity).
  destruct (r <=? so_bal x) eqn:F.
  - rewrite (proj2 (Z.leb_gt r 0) Er) in *. exfalso. destruct D as [a [[<-|Ha] D]]; [cbn in D; congruence|].
    rewrite Z.sub_diag in Ha. clear - Ha. destruct (l1 ++ s :: l2); cbn in Ha; destruct Ha.
  - rewrite (proj2 (Z.leb_gt (so_bal x) 0) Hx) in *. apply Z.leb_gt in F.
    destruct Hs' as [<-|Hs']; [eexists; split; [left; reflexivity|auto]|].
    assert (D' : drawn_on s (sequential (l1 ++ s :: l2) (r - so_bal x))).
    { destruct D as [a [[<-|Ha] D]]; [cbn in D; congruence|exists a; auto]. }
    destruct (IH N2 Gl _ _ _ _ eq_refl D' s' Hs') as [a [A1 A2]]. exists a; split; [right; exact A1|exact A2].
Qed.

Lemma sorted_split key (l : list source) s s' : StronglySorted (before key) l -> In s l -> In s' l -> key s' < key s ->
  exists l1 l2, l = l1 ++ s :: l2 /\ In s' l1.
Proof.
  induction 1 as [|x l S IH F]; intros H H' K; [destruct H|]. destruct H' as [->|H'].
  - destruct H as [->|H]; [lia|]. apply in_split in H. destruct H as [l1 [l2 ->]]. exists (s' :: l1), l2. split; [reflexivity|left; reflexivity].
  - destruct H as [->|H].
    + rewrite Forall_forall in F. specialize (F s' H'). unfold before in F. lia.
    + destruct (IH H H' K) as [l1 [l2 [-> I]]]. exists (x :: l1), l2. split; [reflexivity|right; exact I].
Qed.

Lemma strategy_order key l amount s s' : good_sources l -> In s l -> In s' l -> key s' < key s ->
  drawn_on s (sequential_allocation (sort_by key l) amount) -> used_up s' (sequential_allocation (sort_by key l) amount).
Proof.
  intros [N G] H H' K D. unfold sequential_allocation in *. destruct (amount <=? 0); [destruct D as [a [[] _]]|].
  pose proof (sort_perm key l) as P.
  assert (Hs : In s (sort_by key l)) by (eapply Permutation_in; eauto). assert (Hs' : In s' (sort_by key l)) by (eapply Permutation_in; eauto).
  destruct (sorted_split key _ s s' (sort_sorted key l) Hs Hs' K) as [l1 [l2 [E I]]].
  eapply sequential_order; [| |exact E|exact D|exact I].
  - eapply Permutation_NoDup; [apply Permutation_map; exact P|exact N].
  - intros x Hx. apply G. eapply Permutation_in; [apply Permutation_sym; exact P|exact Hx].
Qed.

Theorem fifo_oldest_first l amount strategy s s' : good_sources l -> strategy <> "LIFO" -> strategy <> "PROPORTIONAL" ->
  In s l -> In s' l -> so_at s' < so_at s ->
  drawn_on s (calculate_allocation l amount strategy) -> used_up s' (calculate_allocation l amount strategy).
Proof.
  intros G N1 N2 H H' K D. unfold calculate_allocation in *. destruct l as [|x l']; [destruct H|].
  rewrite (proj2 (String.eqb_neq _ _) N1), (proj2 (String.eqb_neq _ _) N2) in *. apply (strategy_order so_at _ amount s s'); auto.
Qed.
Theorem lifo_newest_first l amount s s' : good_sources l -> In s l -> In s' l -> so_at s < so_at s' ->
  drawn_on s (calculate_allocation l amount "LIFO") -> used_up s' (calculate_allocation l amount "LIFO").
Proof.
  intros G H H' K D. unfold calculate_allocation in *. destruct l as [|x l']; [destruct H|]. cbn [String.eqb Ascii.eqb Bool.eqb] in *.
  apply (strategy_order (fun s => - so_at s) _ amount s s' G H H'); [lia|exact D].
Qed.
