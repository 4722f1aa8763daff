(** The outcome of a post in terms of the balances a dry run sees. *)
From Coq Require Import ZArith QArith List String Bool Lia.
From Verif Require Import LedgerInv LedgerSafe BatchProof BulkProof PreviewAlone.
From Verif Require Import Base MoneyModel SplitModel BalanceModel LedgerModel LedgerProgs ConcModel BatchSpec BulkSpec PreviewModel PreviewSpec.
Import ListNotations.
Local Open Scope string_scope.
Open Scope Z_scope.

(** What a dry run finds under a name. *)
Definition seen (s : state) (x cur : string) : option balance :=
  match view s x cur with
  | Some b => Some b
  | None => if starts_with_at x then Some (stand_in x cur) else None
  end.
Lemma seen_alike_named s x cur b : seen s x cur = Some b -> view s x cur <> None -> named s x cur b.
Proof. unfold seen. destruct (view s x cur) eqn:E; [|congruence]. intros [= <-] _. apply view_named, E. Qed.

Definition real (s : state) (b : balance) : Prop := In b (s_bals s).
Lemma view_in s x cur b : view s x cur = Some b -> In b (s_bals s).
Proof. intros H. apply view_named in H. apply H. Qed.
Lemma in_id s a b : tidy s -> In a (s_bals s) -> In b (s_bals s) -> b_id a = b_id b -> a = b.
Proof. intros T A B E. apply (tidy_get s a T) in A. apply (tidy_get s b T) in B. congruence. Qed.
Lemma in_plain s b : tidy s -> In b (s_bals s) -> starts_with_at (b_id b) = false /\ b_queued b = None /\ b_recon b = false.
Proof. intros [_ F] I. rewrite Forall_forall in F. destruct (F b I) as (H1 & H2 & H3). auto. Qed.

Definition names_kept (s s' : state) : Prop :=
  forall x c y c', unguessed s x -> unguessed s y ->
    (seen s x c = None <-> seen s' x c = None)
    /\ (seen s' x c = seen s' y c' -> seen s x c = seen s y c').
Lemma names_kept_refl s : names_kept s s. Proof. intros x c y c' _ _. tauto. Qed.
Lemma names_kept_trans a b c : later a b -> names_kept a b -> names_kept b c -> names_kept a c.
Proof.
  intros L H1 H2 x k y k' Ux Uy. destruct (H1 x k y k' Ux Uy) as (A1 & A2).
  destruct (H2 x k y k' (unguessed_later _ _ _ L Ux) (unguessed_later _ _ _ L Uy)) as (B1 & B2). split; [tauto|auto].
Qed.

(** What names show after one more balance may have been opened. *)
Lemma settle_seen n s x cur z zc : unguessed s z ->
  seen (settle n s x cur) z zc =
    match view s z zc with
    | Some b => Some b
    | None => if starts_with_at z then
                if String.eqb x z && String.eqb cur zc then Some (fresh_balance ("bln_" ++ s_uuid s (s_ctr s)) x cur false false)
                else Some (stand_in z zc)
              else None
    end.
Proof.
  intros U. unfold seen at 1. rewrite settle_view by exact U. destruct (view s z zc); [reflexivity|].
  destruct (String.eqb_spec x z) as [<-|].
  - destruct (starts_with_at x); simpl; [|reflexivity]. destruct (String.eqb cur zc); reflexivity.
  - rewrite andb_false_r. simpl. destruct (starts_with_at z); reflexivity.
Qed.
Lemma settle_names n s x cur : tidy s -> new_names s -> names_kept s (settle n s x cur).
Proof.
  intros T N y c z c' Uy Uz. rewrite (settle_seen n s x cur y c Uy), (settle_seen n s x cur z c' Uz). unfold seen.
  assert (Fr : forall w wc b, view s w wc = Some b -> b_id b <> "bln_" ++ s_uuid s (s_ctr s)).
  { intros w wc b V E. destruct N as [_ N]. destruct (N (s_ctr s) (le_n _)) as [N1 _]. apply N1. rewrite <- E.
    apply in_map, (view_in s w wc), V. }
  assert (St : forall w wc b i c1, view s w wc = Some b -> starts_with_at i = true -> b <> stand_in i c1).
  { intros w wc b i c1 V A E. destruct (in_plain s b T (view_in _ _ _ _ V)) as (P & _). subst b. simpl in P. congruence. }
  destruct (view s y c) as [by_|] eqn:Vy; destruct (view s z c') as [bz|] eqn:Vz; destruct (starts_with_at y) eqn:Ay; destruct (starts_with_at z) eqn:Az.
  all: repeat match goal with |- context[if ?q then _ else _] => destruct q eqn:? end.
  all: split; [split; congruence|]; try (intros; congruence).
  all: try (intros [= E]; exfalso; solve [eapply Fr; [eassumption|rewrite E; reflexivity]
     | eapply Fr; [eassumption|rewrite <- E; reflexivity]
     | eapply St; [eassumption| |exact E]; assumption | eapply St; [eassumption| |symmetry; exact E]; assumption]).
  all: repeat match goal with H : _ && _ = true |- _ => apply andb_true_iff in H as [H ?] end.
  all: repeat match goal with H : String.eqb _ _ = true |- _ => apply String.eqb_eq in H; subst end.
  all: try (intros [= E]; subst; congruence).
  all: try (intros; reflexivity).
  all: intros E; exfalso; unfold stand_in, fresh_balance in E; injection E; intros; subst; simpl in *; congruence.
Qed.

Lemma bump_id a d s' d' b : b_id (bump a d s' d' b) = b_id b.
Proof. unfold bump. destruct (String.eqb (b_id b) d); [reflexivity|]. destruct (String.eqb (b_id b) a); reflexivity. Qed.
Lemma bump_names s s3 a d s' d' : tidy s -> tidy s3 ->
  (forall z zc, view s3 z zc = option_map (bump a d s' d') (view s z zc)) -> names_kept s s3.
Proof.
  intros T T3 V x c y c' _ _. unfold seen. rewrite !V.
  destruct (view s x c) as [b|] eqn:Vx; destruct (view s y c') as [b2|] eqn:Vy; simpl.
  - split; [split; discriminate|]. intros [= E]. f_equal. apply (in_id s); eauto using view_in.
    rewrite <- (bump_id a d s' d' b), <- (bump_id a d s' d' b2). congruence.
  - split; [split; discriminate|]. destruct (starts_with_at y) eqn:A; [|discriminate]. intros [= E]. exfalso.
    destruct (in_plain s b T (view_in _ _ _ _ Vx)) as (P & _). rewrite <- (bump_id a d s' d'), E in P. simpl in P. congruence.
  - split; [tauto|]. destruct (starts_with_at x) eqn:A; [|discriminate]. intros [= E]. exfalso.
    destruct (in_plain s b2 T (view_in _ _ _ _ Vy)) as (P & _). rewrite <- (bump_id a d s' d'), <- E in P. simpl in P. congruence.
  - split; [tauto|auto].
Qed.

(** The balance behind a name once it has been resolved. *)
Lemma resolved n s x cur b : tidy s -> new_names s -> unguessed s x -> seen s x cur = Some b ->
  exists b', view (settle n s x cur) x cur = Some b' /\ b_id b' = rid s x cur /\ alike b b' /\ b_queued b' = b_queued b
    /\ (view s x cur = Some b -> b' = b).
Proof.
  intros T N U S. rewrite settle_view, !String.eqb_refl, andb_true_r by exact U. unfold seen in S.
  destruct (view s x cur) as [c|] eqn:V.
  - injection S as ->. exists b. split; [reflexivity|]. split; [|repeat split].
    unfold view in V. unfold rid. destruct (starts_with_at x); [rewrite V; reflexivity|apply (get_bal_id _ _ _ V)].
  - destruct (starts_with_at x) eqn:A; [|discriminate]. injection S as <-. simpl. eexists. split; [reflexivity|].
    unfold view in V. unfold rid. rewrite A in *. rewrite V. repeat split. discriminate.
Qed.

(** The outcome of recording [t] alone. *)
Definition good (s : state) (t : txn) : Prop :=
  tidy s /\ new_names s /\ s_locks s = [] /\ unguessed s (t_src t) /\ unguessed s (t_dst t) /\ t_src t <> t_dst t
  /\ sort t = 0%nat /\ id_exists (t_id t) (s_txns s) = false
  /\ (forall i, (s_ctr s <= i)%nat -> t_id t <> "txn_" ++ s_uuid s i).
Definition posted (s s3 : state) (t : txn) (a d a' d' : balance) : Prop :=
  (exists r, s_txns s3 = r :: s_txns s /\ t_ref (r_t r) = t_ref t /\ t_id (r_t r) = t_id t)
  /\ tidy s3 /\ new_names s3 /\ later s s3 /\ s_locks s3 = [] /\ names_kept s s3
  /\ forall z zc b, unguessed s z -> seen s z zc = Some b ->
       exists b', seen s3 z zc = Some b' /\ (b = a \/ b = d \/ view s z zc = Some b -> view s3 z zc = Some b')
         /\ (b = a -> alike a' b') /\ (b = d -> alike d' b') /\ (b <> a -> b <> d -> alike b b').

Lemma outcome n cfg t s a d : good s t -> (c_queued cfg = true -> starts_with_at (t_src t) = false) ->
  seen s (t_src t) (t_cur t) = Some a -> seen s (t_dst t) (t_cur t) = Some d ->
  let X := run n (record_single cfg t) s in
  if ref_exists (t_ref t) (s_txns s) then snd X = Err EDupReference
  else match apply_to_balances t (qb cfg s a) d with
       | Err e => snd X = Err e
       | Ok (t1, a', d') =>
         match same_balance a d with
         | Some e => snd X = Err e
         | None => exists r, snd X = Ok r /\ posted s (fst X) t a d a' d'
         end
       end.
Proof.
  intros (T & N & L & Us & Ud & Dn & So & Ie & If) Q Sa Sd X.
  set (s1 := settle n s (t_src t) (t_cur t)). set (s2 := both n s t).
  destruct (settle_facts n s (t_src t) (t_cur t) T N) as (T1 & N1 & L1 & R1 & K1 & _ & In1). fold s1 in T1, N1, L1, R1, K1, In1.
  destruct (settle_facts n s1 (t_dst t) (t_cur t) T1 N1) as (T2 & N2 & L2 & R2 & K2 & _ & In2).
  change (settle n s1 (t_dst t) (t_cur t)) with s2 in T2, N2, L2, R2, K2, In2.
  assert (EX : X = core cfg (with_ids n s t) s2) by (apply single_run; assumption). clearbody X. subst X.
  destruct (resolved n s (t_src t) (t_cur t) a T N Us Sa) as (a2 & Va & Ia & Aa & Qa & Ra). fold s1 in Va.
  assert (Us1 : unguessed s1 (t_src t)) by (eapply unguessed_later; eauto).
  assert (Ud1 : unguessed s1 (t_dst t)) by (eapply unguessed_later; eauto).
  assert (Vsd : view s1 (t_dst t) (t_cur t) = view s (t_dst t) (t_cur t)).
  { unfold s1. rewrite settle_view by assumption. destruct (view s (t_dst t) (t_cur t)); [reflexivity|].
    destruct (String.eqb_spec (t_src t) (t_dst t)); [congruence|]. rewrite andb_false_r. reflexivity. }
  assert (Sd1 : seen s1 (t_dst t) (t_cur t) = Some d) by (unfold seen; rewrite Vsd; exact Sd).
  destruct (resolved n s1 (t_dst t) (t_cur t) d T1 N1 Ud1 Sd1) as (d2 & Vd & Id & Ad & Qd & Rd).
  change (settle n s1 (t_dst t) (t_cur t)) with s2 in Vd.
  assert (Va2 : view s2 (t_src t) (t_cur t) = Some a2).
  { unfold s2, both. fold s1. rewrite settle_view by assumption. rewrite Va. reflexivity. }
  assert (Ga : get_bal (t_src (with_ids n s t)) (s_bals s2) = Some a2).
  { simpl. rewrite <- Ia. apply tidy_get; [exact T2|eapply view_in; eauto]. }
  assert (Gd : get_bal (t_dst (with_ids n s t)) (s_bals s2) = Some d2).
  { simpl. fold s1. rewrite <- Id. apply tidy_get; [exact T2|eapply view_in; eauto]. }
  assert (Eq : forall b, qb cfg s2 b = qb cfg s b) by (intros b; unfold qb; rewrite R2, R1; reflexivity).
  assert (Er : ref_exists (t_ref (with_ids n s t)) (s_txns s2) = ref_exists (t_ref t) (s_txns s)) by (simpl; rewrite R2, R1; reflexivity).
  destruct (ref_exists (t_ref t) (s_txns s)) eqn:Eref.
  { unfold core. rewrite Er. reflexivity. }
  assert (Ap : alike (qb cfg s a) (qb cfg s2 a2) /\ b_queued (qb cfg s2 a2) = b_queued (qb cfg s a)).
  { rewrite Eq. unfold qb. destruct (c_queued cfg) eqn:Ec; [|auto]. specialize (Q eq_refl).
    assert (a2 = a) as ->; [|split; [apply alike_refl|reflexivity]]. apply Ra. unfold seen in Sa. rewrite Q in Sa.
    destruct (view s (t_src t) (t_cur t)); congruence. }
  destruct Ap as [Ap1 Ap2].
  assert (Ad2 : alike d (qb cfg s2 d2)).
  { unfold qb. destruct (c_queued cfg); [eapply alike_trans; [exact Ad|apply alike_queued]|exact Ad]. }
  assert (Sm : same_money t (with_ids n s t)) by (repeat split).
  pose proof (apply_alike t (with_ids n s t) _ _ _ _ Sm Ap1 Ap2 Ad2) as H.
  assert (Id2 : b_id a2 = b_id d2 <-> b_id a = b_id d).
  { destruct (view s (t_src t) (t_cur t)) as [a0|] eqn:Va0; destruct (view s (t_dst t) (t_cur t)) as [d0|] eqn:Vd0.
    - assert (a2 = a /\ d2 = d) as [-> ->]; [|tauto].
      unfold seen in Sa, Sd. rewrite Va0 in Sa. rewrite Vd0 in Sd.
      split; [apply Ra; congruence|apply Rd; rewrite Vsd; congruence].
    - assert (a2 = a) as -> by (apply Ra; unfold seen in Sa; rewrite Va0 in Sa; congruence).
      unfold seen in Sa, Sd. rewrite Va0 in Sa. rewrite Vd0 in Sd. destruct (starts_with_at (t_dst t)) eqn:At; [|discriminate].
      injection Sa as ->. injection Sd as <-.
      pose proof (view_in _ _ _ _ Va0) as Ina. destruct (in_plain s a T Ina) as (P & _).
      split; intros E.
      + exfalso. rewrite Id in E. unfold rid in E. rewrite At in E. unfold view in Vsd. rewrite At in Vsd. rewrite Vsd in E.
        destruct N1 as [_ N1']. destruct (N1' (s_ctr s1) (le_n _)) as [F _]. apply F. rewrite <- E. apply in_map, In1, Ina.
      + exfalso. simpl in E. congruence.
    - assert (d2 = d) as -> by (apply Rd; rewrite Vsd; unfold seen in Sd; rewrite Vd0 in Sd; congruence).
      unfold seen in Sa, Sd. rewrite Va0 in Sa. rewrite Vd0 in Sd. destruct (starts_with_at (t_src t)) eqn:At; [|discriminate].
      injection Sd as ->. injection Sa as <-.
      pose proof (view_in _ _ _ _ Vd0) as Ind. destruct (in_plain s d T Ind) as (P & _).
      split; intros E.
      + exfalso. rewrite Ia in E. unfold rid in E. rewrite At in E. unfold view in Va0. rewrite At in Va0. rewrite Va0 in E.
        destruct N as [_ N']. destruct (N' (s_ctr s) (le_n _)) as [F _]. apply F. rewrite E. apply in_map, Ind.
      + exfalso. simpl in E. rewrite E in At. congruence.
    - unfold seen in Sa, Sd. rewrite Va0 in Sa. rewrite Vd0 in Sd. destruct (starts_with_at (t_src t)) eqn:At; [|discriminate].
      destruct (starts_with_at (t_dst t)) eqn:At2; [|discriminate]. injection Sa as <-. injection Sd as <-.
      split; intros E; exfalso.
      + pose proof (view_in _ _ _ _ Va) as Ina. rewrite Id in E. unfold rid in E. rewrite At2 in E. unfold view in Vsd. rewrite At2 in Vsd. rewrite Vsd in E.
        destruct N1 as [_ N1']. destruct (N1' (s_ctr s1) (le_n _)) as [F _]. apply F. rewrite <- E. apply in_map, Ina.
      + simpl in E. congruence. }
  destruct (apply_to_balances t (qb cfg s a) d) as [[[t1 a'] d']|e] eqn:E1;
    destruct (apply_to_balances (with_ids n s t) (qb cfg s2 a2) (qb cfg s2 d2)) as [[[t1' a3] d3]|e'] eqn:E2; try contradiction.
  2: { subst e'. unfold core. rewrite Er, Ga, Gd, E2. reflexivity. }
  destruct H as (H1 & H2 & H3 & H4). specialize (H4 So).
  unfold same_balance. destruct (String.eqb_spec (b_id a) (b_id d)) as [Es|Es].
  - apply Id2 in Es. assert (d2 = a2) as -> by (symmetry; apply (in_id s2); eauto using view_in).
    rewrite (core_same cfg (with_ids n s t) s2 a2 t1' a3 d3); auto; try lia. simpl. fold s1. congruence.
  - destruct (core_ok cfg (with_ids n s t) s2 a2 d2 t1' a3 d3) as (s3 & C1 & C2 & C3 & C4 & C5 & C6 & C7); auto.
    { simpl. fold s1. rewrite <- Ia, <- Id. tauto. }
    { simpl. rewrite R2, R1. exact Ie. }
    { simpl. intros i Hi. destruct L1 as [La Lb]. destruct L2 as [Lc Ld]. rewrite Lc, La. apply If. lia. }
    { lia. }
    rewrite C1. cbn [fst snd]. eexists. split; [reflexivity|].
    destruct (apply_ids _ _ _ _ _ _ E2) as (J1 & _ & J2 & _ & Ji & Jr & _). rewrite qb_id in J1, J2.
    split; [|split; [exact C3|split; [exact C4|split; [|split; [|split]]]]].
    + eexists. split; [rewrite C2, R2, R1; reflexivity|]. cbn [r_t]. destruct (clear_rest (update_details t1' a3 d3)) as (_ & -> & _). rewrite clear_ref. simpl. split; [exact Jr|exact Ji].
    + eapply later_trans; [exact L1|]. eapply later_trans; eauto.
    + congruence.
    + eapply names_kept_trans; [exact L1|apply settle_names; assumption|].
      eapply names_kept_trans; [exact L2|apply settle_names; assumption|]. eapply bump_names; eauto.
    + intros z zc b Uz Sz.
      assert (Uz1 : unguessed s1 z) by (eapply unguessed_later; eauto).
      assert (Uz2 : unguessed s2 z) by (eapply unguessed_later; eauto).
      (* what z shows in s2 *)
      assert (Hz : (b = a -> view s2 z zc = Some a2) /\ (b = d -> view s2 z zc = Some d2)
        /\ (b <> a -> b <> d -> seen s2 z zc = Some b)).
      { split; [|split].
        - intros ->. unfold seen in Sz. destruct (view s z zc) as [c|] eqn:Vz.
          + injection Sz as ->. unfold s2, both. fold s1. rewrite settle_view by assumption. unfold s1 at 1. rewrite settle_view by assumption.
            rewrite Vz. f_equal. symmetry. apply Ra. unfold seen in Sa. destruct (view s (t_src t) (t_cur t)) as [c|] eqn:Vs; [congruence|].
            exfalso. destruct (starts_with_at (t_src t)) eqn:At; [|discriminate]. injection Sa as <-.
            destruct (in_plain s _ T (view_in _ _ _ _ Vz)) as (P & _). simpl in P. congruence.
          + destruct (starts_with_at z) eqn:Az; [|discriminate]. injection Sz as <-.
            unfold seen in Sa. destruct (view s (t_src t) (t_cur t)) as [c|] eqn:Vs.
            * exfalso. injection Sa as ->. destruct (in_plain s _ T (view_in _ _ _ _ Vs)) as (P & _). simpl in P. congruence.
            * destruct (starts_with_at (t_src t)) eqn:At; [|discriminate]. assert (t_src t = z /\ t_cur t = zc) as [<- <-] by (unfold stand_in, fresh_balance in Sa; injection Sa; auto). exact Va2.
        - intros ->. unfold seen in Sz. destruct (view s z zc) as [c|] eqn:Vz.
          + injection Sz as ->. unfold s2, both. fold s1. rewrite settle_view by assumption. unfold s1 at 1. rewrite settle_view by assumption.
            rewrite Vz. f_equal. symmetry. apply Rd. rewrite Vsd. unfold seen in Sd. destruct (view s (t_dst t) (t_cur t)) as [c|] eqn:Vs; [congruence|].
            exfalso. destruct (starts_with_at (t_dst t)) eqn:At; [|discriminate]. injection Sd as <-.
            destruct (in_plain s _ T (view_in _ _ _ _ Vz)) as (P & _). simpl in P. congruence.
          + destruct (starts_with_at z) eqn:Az; [|discriminate]. injection Sz as <-.
            unfold seen in Sd. destruct (view s (t_dst t) (t_cur t)) as [c|] eqn:Vs.
            * exfalso. injection Sd as ->. destruct (in_plain s _ T (view_in _ _ _ _ Vs)) as (P & _). simpl in P. congruence.
            * destruct (starts_with_at (t_dst t)) eqn:At; [|discriminate]. assert (t_dst t = z /\ t_cur t = zc) as [<- <-] by (unfold stand_in, fresh_balance in Sd; injection Sd; auto). exact Vd.
        - intros Na Nd. unfold seen in Sz. unfold s2, both. fold s1. rewrite settle_seen by assumption. unfold s1 at 1. rewrite settle_view by assumption.
          destruct (view s z zc) as [c|] eqn:Vz; [exact Sz|]. destruct (starts_with_at z) eqn:Az; [|discriminate]. injection Sz as <-.
          destruct (starts_with_at (t_src t) && String.eqb (t_src t) z && String.eqb (t_cur t) zc) eqn:C.
          + exfalso. apply andb_true_iff in C as [C C3']. apply andb_true_iff in C as [C' C2']. apply String.eqb_eq in C2', C3'. subst z zc.
            apply Na. unfold seen in Sa. rewrite Vz, C' in Sa. congruence.
          + destruct (String.eqb_spec (t_dst t) z) as [Ez|]; simpl; [|reflexivity]. destruct (String.eqb_spec (t_cur t) zc) as [Ec|]; [|reflexivity].
            exfalso. apply Nd. unfold seen in Sd. rewrite <- Ez, <- Ec in *. rewrite Vz, Az in Sd. congruence. }
      destruct Hz as (Hz1 & Hz2 & Hz3).
      assert (Hsrc : bump (t_src (with_ids n s t)) (t_dst (with_ids n s t)) a3 d3 a2 = upd_row a2 a3).
      { unfold bump. simpl. fold s1. rewrite <- Id, <- Ia, String.eqb_refl. destruct (String.eqb_spec (b_id a2) (b_id d2)); [tauto|reflexivity]. }
      assert (Hdst : bump (t_src (with_ids n s t)) (t_dst (with_ids n s t)) a3 d3 d2 = upd_row d2 d3).
      { unfold bump. simpl. fold s1. rewrite <- Id, String.eqb_refl. reflexivity. }
      assert (Dab : a <> d) by congruence.
      assert (Deqb : forall u v : balance, u = v \/ u <> v).
      { intros u v. assert (Dz : forall x y : Z, {x = y} + {x <> y}) by apply Z.eq_dec.
        assert (Db : {u = v} + {u <> v}) by (repeat decide equality). tauto. }
      destruct (Deqb b a) as [->|Na]; [|destruct (Deqb b d) as [->|Nd]].
      * exists (upd_row a2 a3). assert (V3 : view s3 z zc = Some (upd_row a2 a3)) by (rewrite C7, (Hz1 eq_refl); cbn [option_map]; rewrite Hsrc; reflexivity).
        split; [unfold seen; rewrite V3; reflexivity|]. split; [auto|]. split; [|tauto].
        intros _. eapply alike_trans; [exact H1|apply alike_upd].
      * exists (upd_row d2 d3). assert (V3 : view s3 z zc = Some (upd_row d2 d3)) by (rewrite C7, (Hz2 eq_refl); cbn [option_map]; rewrite Hdst; reflexivity).
        split; [unfold seen; rewrite V3; reflexivity|]. split; [auto|]. split; [tauto|]. split; [|tauto].
        intros _. eapply alike_trans; [exact H2|apply alike_upd].
      * specialize (Hz3 Na Nd).
        assert (Hb : view s2 z zc = Some b -> bump (t_src (with_ids n s t)) (t_dst (with_ids n s t)) a3 d3 b = b).
        { intros V2.
        assert (Nb : b_id b <> b_id a2 /\ b_id b <> b_id d2).
        { split; intros E.
          - assert (b = a2) as -> by (apply (in_id s2); eauto using view_in).
            assert (S2 : seen s2 z zc = seen s2 (t_src t) (t_cur t)) by (unfold seen; rewrite V2, Va2; reflexivity).
            assert (K : names_kept s s2).
            { eapply names_kept_trans; [exact L1|apply settle_names; assumption|apply settle_names; assumption]. }
            destruct (K z zc (t_src t) (t_cur t) Uz Us) as (_ & K'). apply K' in S2. rewrite Sz, Sa in S2. congruence.
          - assert (b = d2) as -> by (apply (in_id s2); eauto using view_in).
            assert (S2 : seen s2 z zc = seen s2 (t_dst t) (t_cur t)) by (unfold seen; rewrite V2, Vd; reflexivity).
            assert (K : names_kept s s2).
            { eapply names_kept_trans; [exact L1|apply settle_names; assumption|apply settle_names; assumption]. }
            destruct (K z zc (t_dst t) (t_cur t) Uz Ud) as (_ & K'). apply K' in S2. rewrite Sz, Sd in S2. congruence. }
        unfold bump. simpl. fold s1. rewrite <- Id, <- Ia.
        destruct (String.eqb_spec (b_id b) (b_id d2)); [tauto|]. destruct (String.eqb_spec (b_id b) (b_id a2)); [tauto|reflexivity]. }
        exists b. split; [|split; [|split; [tauto|split; [tauto|intros; apply alike_refl]]]].
        -- unfold seen in Hz3 |- *. rewrite C7. destruct (view s2 z zc) as [c|] eqn:V2; [|exact Hz3]. injection Hz3 as ->. cbn [option_map]. f_equal. auto.
        -- intros [?|[?|Hv]]; [tauto|tauto|]. rewrite C7.
           assert (V2 : view s2 z zc = Some b).
           { unfold s2, both. fold s1. rewrite settle_view by assumption. unfold s1 at 1. rewrite settle_view by assumption. rewrite Hv. reflexivity. }
           rewrite V2. cbn [option_map]. f_equal. auto.
Qed.

Lemma missing n cfg t s : tidy s -> new_names s -> s_locks s = [] -> unguessed s (t_src t) -> unguessed s (t_dst t) ->
  seen s (t_src t) (t_cur t) = None \/ seen s (t_dst t) (t_cur t) = None ->
  exists er, snd (run n (record_single cfg t) s) = Err er.
Proof.
  intros T N L Us Ud H. rewrite single_run by assumption.
  destruct (settle_facts n s (t_src t) (t_cur t) T N) as (T1 & N1 & L1 & _).
  assert (G : forall x, unguessed s x -> starts_with_at x = false -> get_bal x (s_bals (both n s t)) = get_bal x (s_bals s)).
  { intros x Ux Ax. pose proof (settle_view n (settle n s (t_src t) (t_cur t)) (t_dst t) (t_cur t) x "" (unguessed_later _ _ _ L1 Ux)) as V.
    rewrite (settle_view n s (t_src t) (t_cur t) x "" Ux) in V. unfold view in V. rewrite Ax in V. unfold both. rewrite V.
    destruct (get_bal x (s_bals s)); [reflexivity|].
    assert (F : forall y, starts_with_at y && String.eqb y x = false).
    { intros y. destruct (String.eqb_spec y x) as [->|]; [rewrite Ax; reflexivity|apply andb_false_r]. }
    rewrite !F. reflexivity. }
  assert (S : forall x c, seen s x c = None -> starts_with_at x = false /\ get_bal x (s_bals s) = None).
  { intros x c E. unfold seen in E. destruct (view s x c) eqn:V; [discriminate|]. destruct (starts_with_at x) eqn:A; [discriminate|].
    split; [reflexivity|]. unfold view in V. rewrite A in V. exact V. }
  unfold core. destruct (ref_exists _ _); [simpl; eauto|].
  destruct H as [H|H]; apply S in H as [A H].
  - assert (E : t_src (with_ids n s t) = t_src t) by (simpl; unfold rid; rewrite A; reflexivity).
    rewrite E, (G _ Us A), H. simpl. eauto.
  - assert (E : t_dst (with_ids n s t) = t_dst t) by (simpl; unfold rid; rewrite A; reflexivity).
    destruct (get_bal (t_src (with_ids n s t)) (s_bals (both n s t))) as [b|]; [|simpl; eauto].
    rewrite E, (G _ Ud A), H. simpl. eauto.
Qed.

(** ** The request *)
Definition after_fresh (n : nat) (s : state) : state := fst (exec n OFresh s).
Lemma post_run n cfg e t s : unsplit t -> t_skipq t = true -> t_id t = "" -> 0 <= t_precise (apply_precision_txn t) -> t_status t = SNone ->
  exists t', same_money (apply_precision_txn t) t' /\ t_src t' = t_src t /\ t_dst t' = t_dst t /\ t_cur t' = t_cur t /\ t_ref t' = t_ref t
    /\ t_id t' = ("txn_" ++ s_uuid s (s_ctr s))%string /\ t_parent t' = t_parent t
    /\ let X := run n (record_single cfg t') (after_fresh n s) in
       fst (run n (queue_transaction cfg e t) s) = fst X
       /\ match snd X with
          | Ok _ => exists r, snd (run n (queue_transaction cfg e t) s) = Ok r
          | Err er => snd (run n (queue_transaction cfg e t) s) = Err er
          end.
Proof.
  intros [U1 U2] Hq Hi Hp Hs. destruct (precision_keys t) as (K1 & K2 & K3 & K4 & K5 & K6 & K7).
  assert (K8 : t_skipq (apply_precision_txn t) = t_skipq t /\ t_sched (apply_precision_txn t) = t_sched t /\ t_cur (apply_precision_txn t) = t_cur t)
    by (unfold apply_precision_txn; destruct (apply_precision _ _ _) as [[? ?] ?]; repeat split).
  destruct K8 as (K8 & K9 & K10).
  set (t0 := with_keys (set_metadata t) ("txn_" ++ s_uuid s (s_ctr s)) (t_parent (set_metadata t)) (t_ref (set_metadata t))).
  exists (set_status t0).
  assert (St : t_status t0 = SNone) by (unfold t0, set_metadata; simpl; congruence).
  assert (E : forall A (f : txn -> A) , (forall q, f (with_status t0 q) = f t0) -> f (set_status t0) = f t0).
  { intros A f Hf. unfold set_status. rewrite St. destruct (t_sched t0); apply Hf. }
  assert (So : sort (set_status t0) = 0%nat) by (unfold sort, set_status; rewrite St; destruct (t_sched t0); reflexivity).
  split.
  { unfold same_money. rewrite So, !E by reflexivity. unfold t0, set_metadata. simpl. repeat split. unfold sort. rewrite K4, Hs. reflexivity. }
  split; [rewrite E by reflexivity; exact K5|]. split; [rewrite E by reflexivity; exact K6|]. split; [rewrite E by reflexivity; exact K10|].
  split; [rewrite E by reflexivity; exact K7|]. split; [rewrite E by reflexivity; reflexivity|]. split; [rewrite E by reflexivity; exact K1|].
  cbv zeta. unfold queue_transaction. rewrite U1, U2. unfold queue_nosplit.
  assert (Ef : run n (ensure_id (set_metadata t)) s = (after_fresh n s, t0)).
  { unfold ensure_id. assert (Ei : t_id (set_metadata t) = "") by (unfold set_metadata; simpl; congruence). rewrite Ei. reflexivity. }
  rewrite run_bind, Ef. cbn [fst snd]. cbv zeta.
  destruct (no_distribution (t_precise (set_status t0)) (t_prec (set_status t0))) as (m & ->).
  { rewrite E by reflexivity. exact Hp. }
  assert (Eq : t_skipq (set_status t0) = true) by (rewrite E by reflexivity; unfold t0, set_metadata; simpl; congruence). rewrite Eq.
  unfold bindr. rewrite run_bind. destruct (run n (record_single cfg (set_status t0)) (after_fresh n s)) as [s' [r|er]]; cbn [fst snd run]; eauto.
Qed.

(** ** The dry run *)
Lemma end_run n cfg x cur s : tidy s -> run n (preview_end cfg x cur) s =
  (s, if String.eqb x "" then Err EBalanceNotFound
      else match seen s x cur with
           | None => Err EBalanceNotFound
           | Some b => Ok (if starts_with_at x then b else qb cfg s b, match view s x cur with Some _ => false | None => true end)
           end).
Proof.
  intros T. unfold preview_end, seen, view. destruct (String.eqb x ""); [reflexivity|]. destruct (starts_with_at x).
  - cbn [bind act run exec]. destruct (get_bal_ind x cur (s_bals s)); reflexivity.
  - unfold bindr. rewrite run_bind, get_balance_run. cbn [fst snd]. destruct (get_bal x (s_bals s)); reflexivity.
Qed.
Definition seen_q (cfg : config) (s : state) (x : string) (b : balance) : balance := if starts_with_at x then b else qb cfg s b.
Definition newly (s : state) (x cur : string) : bool := match view s x cur with Some _ => false | None => true end.
Definition single_answer (cfg : config) (s : state) (t : txn) (a d : balance) : preview :=
  let a0 := seen_q cfg s (t_src t) a in let d0 := seen_q cfg s (t_dst t) d in
  let '(why, a', d') := project t a0 d0 in
  let why := match why with
             | Some e => Some e
             | None => if ref_exists (t_ref t) (s_txns s) then Some EDupReference else same_balance a0 d0
             end in
  let after (b b' : balance) := match why with None => b' | Some _ => b end in
  {| pv_rejection := why;
     pv_balances := [{| pj_virtual := newly s (t_src t) (t_cur t); pj_before := a0; pj_after := after a0 a' |};
                     {| pj_virtual := newly s (t_dst t) (t_cur t); pj_before := d0; pj_after := after d0 d' |}] |}.
Lemma single_preview_run n cfg t s : tidy s -> s_locks s = [] -> t_ref t <> "" -> t_src t <> "" -> t_dst t <> "" ->
  run n (preview_single cfg t) s =
  (s, match seen s (t_src t) (t_cur t), seen s (t_dst t) (t_cur t) with
      | Some a, Some d => Ok (single_answer cfg s t a d)
      | _, _ => Err EBalanceNotFound
      end).
Proof.
  intros T L Hr Hs Hd. apply String.eqb_neq in Hr, Hs, Hd. unfold preview_single, bindr.
  rewrite run_bind, end_run, Hs by assumption. cbn [fst snd]. destruct (seen s (t_src t) (t_cur t)) as [a|]; [|reflexivity].
  rewrite run_bind, end_run, Hd by assumption. cbn [fst snd]. destruct (seen s (t_dst t) (t_cur t)) as [d|]; [|reflexivity].
  cbn [fst snd]. cbv zeta. set (ks := lock_set _).
  destruct (bracket n (c_lock_attempts cfg) ks s) as (l & W & U); [apply lock_set_nodup|exact L|].
  rewrite run_bind, W. cbn [fst snd]. rewrite run_bind, Hr. cbn [bind act run exec fst snd].
  rewrite run_bind, U by reflexivity. cbn [fst snd].
  unfold single_answer, seen_q. cbv zeta. change (s_txns (set_locks s l)) with (s_txns s).
  destruct (project t _ _) as [[why a'] d']. cbn [run].
  assert (E : set_locks (set_locks s l) [] = s) by (rewrite <- (set_locks_same s) at 2; rewrite L; reflexivity). rewrite E. reflexivity.
Qed.

Lemma ind_none ind cur l : get_bal_ind ind cur l = None -> forall b, In b l -> ~ (b_ind b = ind /\ b_cur b = cur).
Proof.
  induction l as [|x r IH]; simpl; [tauto|]. intros H b. destruct (String.eqb_spec (b_ind x) ind) as [E|E]; simpl in H.
  - destruct (String.eqb_spec (b_cur x) cur) as [E2|E2]; [discriminate|]. intros [<-|I]; [tauto|apply IH; assumption].
  - intros [<-|I]; [tauto|apply IH; assumption].
Qed.
Lemma seen_about cfg s x cur b after : seen s x cur = Some b ->
  about s x cur {| pj_virtual := newly s x cur; pj_before := seen_q cfg s x b; pj_after := after |}.
Proof.
  unfold seen, about, newly, seen_q. cbn [pj_virtual pj_before]. destruct (view s x cur) as [c|] eqn:V.
  - intros [= ->]. exists b. split; [apply view_named, V|]. destruct (starts_with_at x); [split; [reflexivity|apply alike_refl]|].
    split; [apply qb_id|]. unfold qb. destruct (c_queued cfg); [apply alike_queued|apply alike_refl].
  - destruct (starts_with_at x) eqn:A; [|discriminate]. intros [= <-]. split; [reflexivity|]. split; [|reflexivity].
    intros b [I H]. rewrite A in H. unfold view in V. rewrite A in V. exact (ind_none _ _ _ V b I H).
Qed.
