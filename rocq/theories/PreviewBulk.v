(** The dry run of a synchronous bulk tells what the bulk would do. *)
From Coq Require Import ZArith QArith List String Bool Lia.
From Verif Require Import LedgerInv LedgerSafe BatchProof BulkProof MoneyProof PreviewAlone PreviewPost PreviewProof.
From Verif Require Import Base MoneyModel SplitModel BalanceModel LedgerModel LedgerProgs ConcModel BatchSpec BulkSpec PreviewModel PreviewSpec.
Import ListNotations.
Local Open Scope string_scope.
Open Scope Z_scope.

(** ** Operations that only read *)
Definition reads (o : op) : Prop :=
  match o with
  | OGetBal _ | OGetBals _ | OGetInd _ _ | OQueued _ | ORefExists _ | ORefsExist _ | OGetTxn _ | OVoided _ | OCommitted _
  | ORefunded _ _ _ | OSiblings _ _ | OInflightBy _ | ORefundable _ | OFromQueue _ => True
  | _ => False
  end.
Lemma reads_run n {A} (p : prog A) s : all_ops reads p -> fst (run n p s) = s.
Proof.
  revert s. induction p as [a|o k IH]; intros s; [reflexivity|]. intros [Ho Hk]. cbn [run].
  assert (E : fst (exec n o s) = s) by (destruct o; try contradiction; reflexivity).
  destruct (exec n o s) as [s' x]. simpl in E. subst s'. apply IH, Hk.
Qed.
Ltac rd := repeat match goal with
  | |- forall _, _ => intro
  | |- all_ops _ (Ret _) => exact Logic.I
  | |- all_ops _ (bindr _ _) => apply all_ops_bindr
  | |- all_ops _ (bind _ _) => apply all_ops_bind
  | |- all_ops _ (act _) => apply all_ops_act; exact Logic.I
  | |- all_ops _ (Do _ _) => split; [exact Logic.I|]
  | |- all_ops _ (match ?x with _ => _ end) => destruct x
  | |- all_ops _ _ => solve [auto]
  | |- _ => progress cbv zeta
  end.
Lemma reads_balance cfg id : all_ops reads (get_balance cfg id). Proof. unfold get_balance. rd. Qed.
Lemma reads_end cfg x c : all_ops reads (preview_end cfg x c).
Proof. unfold preview_end. pose proof (reads_balance cfg). rd. Qed.
Lemma reads_resolve cfg w x c : all_ops reads (set_resolve cfg w x c).
Proof. unfold set_resolve. pose proof (reads_end cfg). rd. Qed.
Lemma reads_leg cfg w t : all_ops reads (project_leg cfg w t).
Proof. unfold project_leg. pose proof (reads_resolve cfg). rd. Qed.
Lemma reads_legs cfg l : forall w, all_ops reads (project_legs cfg w l).
Proof. induction l; intros w; cbn [project_legs]; pose proof (reads_leg cfg); rd. Qed.
Lemma reads_dup r l : all_ops reads (duplicate_ref r l). Proof. unfold duplicate_ref. rd. Qed.
Lemma ready_splits t : t_sources (ready_leg t) = t_sources t /\ t_dests (ready_leg t) = t_dests t.
Proof. destruct (ready_keys t) as (_ & _ & _ & _ & H). exact H. Qed.
Lemma reads_cumulative cfg e w t : unsplit t -> all_ops reads (cumulative_item cfg e w t).
Proof.
  intros [U1 U2]. unfold cumulative_item. cbv zeta. destruct (ready_splits t) as [-> ->]. rewrite U1, U2. apply reads_legs.
Qed.
Lemma reads_items cfg e infl ts : Forall unsplit ts -> forall w seen, all_ops reads (bulk_items cfg e infl true w seen ts).
Proof.
  induction 1 as [|t r U _ IH]; intros w seen; cbn [bulk_items]; [exact Logic.I|]. cbv zeta.
  apply all_ops_bind; [apply reads_dup|]. intros [|].
  - apply all_ops_bindr; [apply IH|]. rd.
  - apply all_ops_bindr; [apply reads_cumulative; exact U|]. intros y. apply all_ops_bindr; [apply IH|]. rd.
Qed.

(** ** The working copies *)
Lemma get_put x b w z : set_get z (set_put x b w) =
  if String.eqb x z then option_map (fun p => {| pj_virtual := pj_virtual p; pj_before := pj_before p; pj_after := b |}) (set_get z w) else set_get z w.
Proof.
  induction w as [|[k p] r IH]; simpl; [destruct (String.eqb x z); reflexivity|].
  destruct (String.eqb_spec k x) as [->|N]; simpl.
  - destruct (String.eqb_spec x z); reflexivity.
  - destruct (String.eqb_spec k z) as [->|N2]; [|exact IH]. destruct (String.eqb_spec x z); [congruence|reflexivity].
Qed.
Lemma keys_put x b w : map fst (set_put x b w) = map fst w.
Proof. induction w as [|[k p] r IH]; simpl; [reflexivity|]. destruct (String.eqb k x); simpl; congruence. Qed.
Lemma get_none x w : set_get x w = None <-> ~ In x (map fst w).
Proof.
  induction w as [|[k p] r IH]; simpl; [tauto|]. destruct (String.eqb_spec k x) as [E|E].
  - split; [discriminate|]. intros H. exfalso. apply H. auto.
  - rewrite IH. tauto.
Qed.
Lemma get_app x w k p : set_get x (w ++ [(k, p)])%list = match set_get x w with Some q => Some q | None => if String.eqb k x then Some p else None end.
Proof. induction w as [|[k' p'] r IH]; simpl; [reflexivity|]. destruct (String.eqb k' x); [reflexivity|exact IH]. Qed.
Lemma get_in x w p : NoDup (map fst w) -> In (x, p) w -> set_get x w = Some p.
Proof.
  induction w as [|[k q] r IH]; simpl; [tauto|]. intros N [E|I].
  - injection E as -> ->. rewrite String.eqb_refl. reflexivity.
  - inversion N as [|? ? N1 N2]; subst. destruct (String.eqb_spec k x) as [->|]; [|auto].
    exfalso. apply N1. change x with (fst (x, p)). apply in_map. exact I.
Qed.

Lemma run_bindr n {A B} (p : prog (res A)) (f : A -> prog (res B)) s : run n (bindr p f) s =
  match snd (run n p s) with Ok a => run n (f a) (fst (run n p s)) | Err er => (fst (run n p s), Err er) end.
Proof. unfold bindr. rewrite run_bind. destruct (snd (run n p s)); reflexivity. Qed.

Section Bulk.
Variables (cfg : config) (e : split_env) (infl : bool) (s0 : state) (all : list txn).
Hypothesis Hc : c_queued cfg = false.
Hypothesis H0t : tidy s0.
Hypothesis H0n : new_names s0.
Hypothesis Hapi : Forall api_txn all.
Hypothesis Huns : Forall unsplit all.
Hypothesis Hun : forall t x, In t all -> names t x -> unguessed s0 x.
Hypothesis Hone : one_name_each s0 all.
Definition used (x c : string) : Prop := exists t, In t all /\ t_cur t = c /\ names t x.

Lemma used_seen x y c c' b : used x c -> used y c' -> x <> y -> seen s0 x c = Some b -> seen s0 y c' <> Some b.
Proof.
  intros (t & It & <- & Nt) (t' & It' & <- & Nt') Ne Sx Sy. unfold seen in Sx, Sy.
  destruct (view s0 x (t_cur t)) as [a|] eqn:Vx; destruct (view s0 y (t_cur t')) as [d|] eqn:Vy.
  - injection Sx as ->. injection Sy as ->. apply view_named in Vx, Vy.
    destruct (Hone t t' x y It It' Nt Nt') as [H _]. exact (H Ne b Vx Vy).
  - injection Sx as ->. destruct (starts_with_at y) eqn:A; [|discriminate]. injection Sy as <-.
    destruct (in_plain s0 _ H0t (view_in _ _ _ _ Vx)) as (P & _). simpl in P. congruence.
  - injection Sy as ->. destruct (starts_with_at x) eqn:A; [|discriminate]. injection Sx as <-.
    destruct (in_plain s0 _ H0t (view_in _ _ _ _ Vy)) as (P & _). simpl in P. congruence.
  - destruct (starts_with_at x); [|discriminate]. destruct (starts_with_at y); [|discriminate]. injection Sx as <-.
    unfold stand_in, fresh_balance in Sy. injection Sy. intros. congruence.
Qed.
(** One name, one balance, whatever the currency it comes with. *)
Lemma used_cur x c c' s : used x c -> used x c' -> seen s x c = seen s x c' /\ view s x c = view s x c' .
Proof.
  intros (t & It & <- & Nt) (t' & It' & <- & Nt'). destruct (starts_with_at x) eqn:A.
  - destruct (Hone t t' x x It It' Nt Nt') as [_ H]. rewrite (H eq_refl A). auto.
  - unfold seen, view. rewrite A. auto.
Qed.
Lemma ids_differ s x y c c' a d : tidy s -> x <> y -> a <> d -> seen s x c = Some a -> seen s y c' = Some d -> b_id a <> b_id d.
Proof.
  intros T Ne Nad Sx Sy E. unfold seen in Sx, Sy. destruct (view s x c) as [a0|] eqn:Vx; destruct (view s y c') as [d0|] eqn:Vy.
  - injection Sx as ->. injection Sy as ->. apply Nad. apply (in_id s); eauto using view_in.
  - injection Sx as ->. destruct (starts_with_at y) eqn:A; [|discriminate]. injection Sy as <-. simpl in E.
    destruct (in_plain s _ T (view_in _ _ _ _ Vx)) as (P & _). congruence.
  - injection Sy as ->. destruct (starts_with_at x) eqn:A; [|discriminate]. injection Sx as <-. simpl in E.
    destruct (in_plain s _ T (view_in _ _ _ _ Vy)) as (P & _). congruence.
  - destruct (starts_with_at x); [|discriminate]. destruct (starts_with_at y); [|discriminate]. injection Sx as <-. injection Sy as <-. simpl in E. congruence.
Qed.

(** ** The state of the books against the working copies *)
Record sim (w : balance_set) (refs : list string) (s : state) : Prop := {
  sm_tidy : tidy s; sm_names : new_names s; sm_locks : s_locks s = []; sm_later : later s0 s; sm_kept : names_kept s0 s;
  sm_refs : forall r, ref_exists r (s_txns s) = existsb (String.eqb r) refs || ref_exists r (s_txns s0);
  sm_nodup : NoDup (map fst w);
  sm_keys : forall x, In x (map fst w) -> exists c, used x c;
  sm_in : forall x c p, used x c -> set_get x w = Some p -> exists b0 b, seen s0 x c = Some b0
      /\ about s0 x c p /\ b_id (pj_after p) = b_id b0 /\ b_queued (pj_after p) = None
      /\ seen s x c = Some b /\ alike (pj_after p) b;
  sm_out : forall x c b0, used x c -> set_get x w = None -> seen s0 x c = Some b0 -> exists b, seen s x c = Some b /\ alike b0 b }.
(** Names that have been posted to exist. *)
Definition there (s : state) (x c : string) : Prop := view s x c <> None.

Lemma used_unguessed x c s : used x c -> later s0 s -> unguessed s x.
Proof. intros (t & It & _ & Nt) L. eapply unguessed_later; [exact L|]. eapply Hun; eauto. Qed.

(** Looking a name up. *)
Lemma resolve_sim n w refs s x c : sim w refs s -> used x c -> x <> "" ->
  exists r, run n (set_resolve cfg w x c) s0 = (s0, r) /\
  match r with
  | Err _ => seen s x c = None
  | Ok (w', b) => sim w' refs s /\ (exists p, set_get x w' = Some p /\ pj_after p = b)
      /\ (forall z, z <> x -> set_get z w' = set_get z w)
      /\ (forall z, In z (map fst w') <-> In z (map fst w) \/ z = x)
  end.
Proof.
  intros M U Nx. unfold set_resolve. destruct (set_get x w) as [p|] eqn:G.
  - eexists. split; [reflexivity|]. split; [exact M|]. split; [eauto|]. split; [reflexivity|].
    intros z. split; [tauto|]. intros [H|E]; [exact H|subst z]. destruct (in_dec string_dec x (map fst w)) as [I|I]; [exact I|].
    apply get_none in I. congruence.
  - unfold bindr. rewrite run_bind, end_run by exact H0t. apply String.eqb_neq in Nx. rewrite Nx. cbn [fst snd].
    destruct (seen s0 x c) as [b0|] eqn:S0.
    + eexists. split; [reflexivity|].
      assert (Eq : (if starts_with_at x then b0 else qb cfg s0 b0) = seen_q cfg s0 x b0) by reflexivity.
      assert (Eb : seen_q cfg s0 x b0 = b0) by (unfold seen_q, qb; rewrite Hc; destruct (starts_with_at x); reflexivity).
      rewrite Eq. cbn [fst snd]. fold (newly s0 x c).
      set (pr := {| pj_virtual := newly s0 x c; pj_before := seen_q cfg s0 x b0; pj_after := seen_q cfg s0 x b0 |}).
      assert (Gx : set_get x (w ++ [(x, pr)])%list = Some pr) by (rewrite get_app, G, String.eqb_refl; reflexivity).
      assert (Gz : forall z, z <> x -> set_get z (w ++ [(x, pr)])%list = set_get z w).
      { intros z Nz. rewrite get_app. destruct (set_get z w); [reflexivity|]. destruct (String.eqb_spec x z); [congruence|reflexivity]. }
      split; [|split; [exists pr; auto|split; [exact Gz|]]].
      2: { intros z. rewrite map_app, in_app_iff. simpl. split; intros [H|H]; auto. destruct H as [H|[]]; auto. }
      destruct M as [M1 M2 M3 M4 M5 M6 M7 M8 M9 M10]. constructor; auto.
      * rewrite map_app. simpl. apply get_none in G. apply NoDup_rev in M7. rewrite <- (rev_involutive (map fst w ++ [x])%list).
        apply NoDup_rev. rewrite rev_app_distr. simpl. constructor; [rewrite <- in_rev; exact G|exact M7].
      * intros z. rewrite map_app, in_app_iff. simpl. intros [H|[H|[]]]; [eauto|subst z; eauto].
      * intros z zc p Uz Gp. destruct (string_dec z x) as [->|Nz]; [|rewrite Gz in Gp by exact Nz; eauto].
        rewrite Gx in Gp. injection Gp as <-. destruct (used_cur x zc c s0 Uz U) as [E1 E2].
        assert (S0z : seen s0 x zc = Some b0) by congruence.
        assert (Qn : b_queued b0 = None).
        { unfold seen in S0. destruct (view s0 x c) as [b1|] eqn:V; [injection S0 as ->; apply (in_plain s0 _ H0t (view_in _ _ _ _ V))|].
          destruct (starts_with_at x); [injection S0 as <-; reflexivity|discriminate]. }
        destruct (M10 x zc b0 Uz G S0z) as (b & Sb & Ab). exists b0, b.
        split; [exact S0z|]. split; [|cbn [pj_after pr]; rewrite Eb; auto].
        assert (En : newly s0 x c = newly s0 x zc) by (unfold newly; rewrite E2; reflexivity).
        unfold pr. rewrite En. apply seen_about. exact S0z.
      * intros z zc b1 Uz Gp Sz. destruct (string_dec z x) as [->|Nz]; [congruence|]. rewrite Gz in Gp by exact Nz. eauto.
    + eexists. split; [reflexivity|]. destruct (sm_kept _ _ _ M x c x c) as [H _]; [eapply used_unguessed; eauto using later_refl|eapply used_unguessed; eauto using later_refl|].
      apply H. exact S0.
Qed.

Lemma leg_sim n m w refs s lt t : sim w refs s -> used (t_src t) (t_cur t) -> used (t_dst t) (t_cur t) ->
  t_src t <> "" -> t_dst t <> "" -> t_src lt = t_src t -> t_dst lt = t_dst t -> t_cur lt = t_cur t ->
  same_money (apply_precision_txn lt) (apply_precision_txn t) -> sort lt = 0%nat /\ sort t = 0%nat ->
  good s t -> ref_exists (t_ref t) (s_txns s) = false ->
  exists r, run n (project_leg cfg w lt) s0 = (s0, r) /\
  let R := run m (record_single cfg t) s in
  match r with
  | Ok (w', None) => (exists x, snd R = Ok x) /\ sim w' (t_ref t :: refs) (fst R)
      /\ there (fst R) (t_src t) (t_cur t) /\ there (fst R) (t_dst t) (t_cur t)
      /\ (forall x c, used x c -> there s x c -> there (fst R) x c)
      /\ (forall z, In z (map fst w') <-> In z (map fst w) \/ z = t_src t \/ z = t_dst t)
      /\ (exists row, s_txns (fst R) = row :: s_txns s /\ t_id (r_t row) = t_id t)
      /\ later s (fst R)
  | _ => exists er, snd R = Err er
  end.
Proof.
  intros M0 Us Ud Ns Nd Es Ed Ek Sm So G Nr.
  pose proof G as (_ & _ & _ & Gs & Gd & Dn & _).
  pose proof M0 as [M1 M2 M3 M4 M5 M6 M7 M8 M9 M10].
  assert (Mis : seen s (t_src t) (t_cur t) = None \/ seen s (t_dst t) (t_cur t) = None ->
    exists er, snd (run m (record_single cfg t) s) = Err er) by (intros H; apply missing; auto).
  unfold project_leg. rewrite Es, Ed, Ek. rewrite run_bindr.
  destruct (resolve_sim n w refs s (t_src t) (t_cur t) M0 Us Ns) as (r1 & E1 & H1). rewrite E1. cbn [fst snd].
  destruct r1 as [[w1 ac]|er1]; [|eexists; split; [reflexivity|]; cbv zeta; apply Mis; auto].
  destruct H1 as (M1' & (pa & Ga & Ea) & Oa & Ka). cbn [fst snd].
  rewrite run_bindr.
  destruct (resolve_sim n w1 refs s (t_dst t) (t_cur t) M1' Ud Nd) as (r2 & E2 & H2). rewrite E2. cbn [fst snd].
  destruct r2 as [[w2 dc]|er2]; [|eexists; split; [reflexivity|]; cbv zeta; apply Mis; auto].
  destruct H2 as (M2' & (pd & Gd2 & Ed2) & Od & Kd). cbn [fst snd].
  assert (Ga2 : set_get (t_src t) w2 = Some pa) by (rewrite Od by exact Dn; exact Ga).
  destruct (sm_in _ _ _ M2' _ _ _ Us Ga2) as (a0 & a & Sa0 & Ba & Ia & Qa & Sa & La).
  destruct (sm_in _ _ _ M2' _ _ _ Ud Gd2) as (d0 & d & Sd0 & Bd & Id & Qd & Sd & Ld).
  rewrite Ea in Ia, Qa, La. rewrite Ed2 in Id, Qd, Ld.
  assert (N0 : a0 <> d0) by (intros ->; exact (used_seen _ _ _ _ _ Us Ud Dn Sa0 Sd0)).
  assert (Sb : same_balance ac dc = None).
  { unfold same_balance. rewrite Ia, Id. destruct (String.eqb_spec (b_id a0) (b_id d0)) as [E|]; [|reflexivity].
    exfalso. exact (ids_differ s0 _ _ _ _ _ _ H0t Dn N0 Sa0 Sd0 E). }
  assert (Nad : a <> d).
  { intros E. destruct (M5 (t_src t) (t_cur t) (t_dst t) (t_cur t)) as (_ & H); [eapply used_unguessed; eauto using later_refl|eapply used_unguessed; eauto using later_refl|].
    apply N0. assert (seen s0 (t_src t) (t_cur t) = seen s0 (t_dst t) (t_cur t)) as E' by (apply H; congruence). congruence. }
  assert (Sb2 : same_balance a d = None).
  { unfold same_balance. destruct (String.eqb_spec (b_id a) (b_id d)) as [E|]; [|reflexivity].
    exfalso. exact (ids_differ s _ _ _ _ _ _ M1 Dn Nad Sa Sd E). }
  rewrite Sb. unfold project.
  pose proof (outcome m cfg t s a d G) as O. rewrite Hc, Nr, Sb2 in O.
  specialize (O ltac:(discriminate) Sa Sd). cbv zeta in O.
  assert (Qs : qb cfg s a = a) by (unfold qb; rewrite Hc; reflexivity). rewrite Qs in O.
  assert (Qa' : b_queued a = None).
  { unfold seen in Sa. destruct (view s (t_src t) (t_cur t)) as [b1|] eqn:V; [injection Sa as ->; apply (in_plain s _ M1 (view_in _ _ _ _ V))|].
    destruct (starts_with_at (t_src t)); [injection Sa as <-; reflexivity|discriminate]. }
  pose proof (update_alike lt t ac dc a d Sm La (eq_trans Qa' (eq_sym Qa)) Ld) as E.
  rewrite <- !update_is_apply in E by tauto.
  destruct (apply_to_balances lt ac dc) as [[[x1 a1] d1]|er] eqn:X1; destruct (apply_to_balances t a d) as [[[x2 a2] d2]|er2] eqn:X2; try contradiction.
  2: { eexists. split; [reflexivity|]. cbv zeta. exists er2. exact O. }
  exists (Ok (set_put (t_dst t) d1 (set_put (t_src t) a1 w2), None)). split; [reflexivity|]. cbv zeta. destruct E as (Xa & Xd & _).
  destruct O as (r & Or & Op). split; [exists r; exact Or|].
  set (s3 := fst (run m (record_single cfg t) s)) in *.
  destruct Op as ((rw & Rw & Rr & Ri) & T3 & N3 & L3 & Lk3 & K3' & Op).
  destruct (apply_ids _ _ _ _ _ _ X1) as (I1 & _ & I2 & _).
  assert (Qk : b_queued a1 = None /\ b_queued d1 = None).
  { rewrite update_is_apply in X1 by tauto. unfold update_balances in X1. cbv zeta in X1. destruct (validate_txn _); [|discriminate].
    destruct (can_process _ _); [|discriminate]. injection X1 as _ <- <-. unfold compute_balance, add_debit, add_credit.
    destruct (t_inflight _); simpl; auto. }
  assert (Gw : forall z, set_get z (set_put (t_dst t) d1 (set_put (t_src t) a1 w2)) =
     if String.eqb (t_dst t) z then Some {| pj_virtual := pj_virtual pd; pj_before := pj_before pd; pj_after := d1 |}
     else if String.eqb (t_src t) z then Some {| pj_virtual := pj_virtual pa; pj_before := pj_before pa; pj_after := a1 |} else set_get z w2).
  { intros z. rewrite !get_put. destruct (String.eqb_spec (t_dst t) z) as [E0|]; destruct (String.eqb_spec (t_src t) z) as [E|]; try congruence.
    - rewrite <- E0, Gd2. reflexivity. - rewrite <- E, Ga2. reflexivity. }
  assert (Lk : later s0 s3) by (eapply later_trans; [exact M4|exact L3]).
  assert (Ugz : forall x c, used x c -> unguessed s x).
  { intros x c U. eapply used_unguessed; eauto. }
  assert (Far : forall z zc b, used z zc -> z <> t_src t -> z <> t_dst t -> seen s z zc = Some b -> b <> a /\ b <> d).
  { intros z zc b Uz N1' N2' Sz. split; intros ->.
    - destruct (M5 z zc (t_src t) (t_cur t)) as (_ & H); [eapply used_unguessed; eauto using later_refl|eapply used_unguessed; eauto using later_refl|].
      apply (used_seen (t_src t) z (t_cur t) zc a0 Us Uz); auto. rewrite <- Sa0. apply H. congruence.
    - destruct (M5 z zc (t_dst t) (t_cur t)) as (_ & H); [eapply used_unguessed; eauto using later_refl|eapply used_unguessed; eauto using later_refl|].
      apply (used_seen (t_dst t) z (t_cur t) zc d0 Ud Uz); auto. rewrite <- Sd0. apply H. congruence. }
  assert (After : forall z zc b, used z zc -> seen s z zc = Some b -> exists b', seen s3 z zc = Some b'
     /\ (z = t_src t -> alike a2 b' /\ view s3 z zc = Some b') /\ (z = t_dst t -> alike d2 b' /\ view s3 z zc = Some b')
     /\ (z <> t_src t -> z <> t_dst t -> alike b b') /\ (view s z zc = Some b -> view s3 z zc = Some b')).
  { intros z zc b Uz Sz. destruct (Op z zc b (Ugz _ _ Uz) Sz) as (b' & B1 & B2 & B3 & B4 & B5). exists b'. split; [exact B1|]. split; [|split; [|split]].
    - intros ->. destruct (used_cur _ _ _ s Uz Us) as [C1 _]. assert (b = a) by congruence. auto.
    - intros ->. destruct (used_cur _ _ _ s Uz Ud) as [C1 _]. assert (b = d) by congruence. auto.
    - intros Z1 Z2. destruct (Far z zc b Uz Z1 Z2 Sz). auto.
    - intros V. apply B2. right. right. exact V. }
  destruct M2' as [_ _ _ _ _ _ Y7 Y8 Y9 Y10].
  split; [|split; [|split; [|split; [|split; [|split; [eauto|exact L3]]]]]].
  - constructor; auto.
    + eapply names_kept_trans; [exact M4|exact M5|exact K3'].
    + intros q. rewrite Rw. cbn [ref_exists existsb]. fold (ref_exists q (s_txns s)). rewrite Rr, M6.
      rewrite (String.eqb_sym (t_ref t) q), orb_assoc. reflexivity.
    + rewrite !keys_put. exact Y7.
    + intros x. rewrite !keys_put. apply Y8.
    + intros x c p Ux. rewrite Gw. destruct (String.eqb_spec (t_dst t) x) as [<-|Nx1]; [|destruct (String.eqb_spec (t_src t) x) as [<-|Nx2]].
      * intros [= <-]. destruct (Y9 _ _ _ Ux Gd2) as (b0 & b & Q1 & Q2 & Q3 & Q4 & Q5 & Q6). destruct (After _ _ _ Ux Q5) as (b' & W1 & _ & W2 & _).
        exists b0, b'. cbn [pj_after]. split; [exact Q1|]. split; [exact Q2|]. split; [congruence|]. split; [tauto|]. split; [exact W1|].
        eapply alike_trans; [exact Xd|apply W2; reflexivity].
      * intros [= <-]. destruct (Y9 _ _ _ Ux Ga2) as (b0 & b & Q1 & Q2 & Q3 & Q4 & Q5 & Q6). destruct (After _ _ _ Ux Q5) as (b' & W1 & W2 & _).
        exists b0, b'. cbn [pj_after]. split; [exact Q1|]. split; [exact Q2|]. split; [congruence|]. split; [tauto|]. split; [exact W1|].
        eapply alike_trans; [exact Xa|apply W2; reflexivity].
      * intros Gp. destruct (Y9 _ _ _ Ux Gp) as (b0 & b & Q1 & Q2 & Q3 & Q4 & Q5 & Q6). destruct (After _ _ _ Ux Q5) as (b' & W1 & _ & _ & W2 & _).
        exists b0, b'. repeat (split; [assumption|]). eapply alike_trans; [exact Q6|apply W2; congruence].
    + intros x c b0 Ux. rewrite Gw. destruct (String.eqb_spec (t_dst t) x) as [<-|Nx1]; [discriminate|destruct (String.eqb_spec (t_src t) x) as [<-|Nx2]; [discriminate|]].
      intros Gp S0. destruct (Y10 _ _ _ Ux Gp S0) as (b & Q5 & Q6). destruct (After _ _ _ Ux Q5) as (b' & W1 & _ & _ & W2 & _).
      exists b'. split; [exact W1|]. eapply alike_trans; [exact Q6|apply W2; congruence].
  - destruct (After _ _ _ Us Sa) as (b' & _ & W & _). destruct (W eq_refl) as [_ V]. unfold there. congruence.
  - destruct (After _ _ _ Ud Sd) as (b' & _ & _ & W & _). destruct (W eq_refl) as [_ V]. unfold there. congruence.
  - intros x c Ux Th. unfold there in *. destruct (view s x c) as [b|] eqn:V; [|congruence].
    assert (Sx : seen s x c = Some b) by (unfold seen; rewrite V; reflexivity).
    destruct (After _ _ _ Ux Sx) as (b' & _ & _ & _ & _ & W). rewrite (W V). discriminate.
  - intros z. rewrite !keys_put, Kd, Ka. tauto.
Qed.

Definition bulk_member (t : txn) : txn := with_flags t infl (t_allow t) true (t_atomic t) (t_meta t).

Lemma item_sim n m w refs s t batch : sim w refs s -> In t all -> ref_exists (t_ref t) (s_txns s) = false ->
  exists r, run n (cumulative_item cfg e w (bulk_member t)) s0 = (s0, r) /\
  let R := run m (queue_transaction cfg e (with_keys (bulk_member t) (t_id t) batch (t_ref t))) s in
  match r with
  | Ok (w', None) => (exists x, snd R = Ok x) /\ sim w' (t_ref t :: refs) (fst R)
      /\ there (fst R) (t_src t) (t_cur t) /\ there (fst R) (t_dst t) (t_cur t)
      /\ (forall x c, used x c -> there s x c -> there (fst R) x c)
      /\ (forall z, In z (map fst w') <-> In z (map fst w) \/ z = t_src t \/ z = t_dst t)
  | _ => exists er, snd R = Err er
  end.
Proof.
  intros M It Nr. pose proof Hapi as Hapi'. rewrite Forall_forall in Hapi'. specialize (Hapi' t It).
  pose proof Huns as Huns'. rewrite Forall_forall in Huns'. destruct (Huns' t It) as [U1 U2].
  pose proof Hapi' as (A1 & _ & A3 & A4 & _ & _ & _ & _ & _ & As & Ad & Asd & _).
  assert (Ns : t_src t <> "") by (intros E; apply As in E; congruence).
  assert (Nd : t_dst t <> "") by (intros E; apply Ad in E; congruence).
  assert (Dn : t_src t <> t_dst t) by (intros E; apply (Asd Ns); auto).
  set (t1 := bulk_member t). set (tr := with_keys t1 (t_id t) batch (t_ref t)).
  assert (Us : used (t_src t) (t_cur t)) by (exists t; unfold names; auto).
  assert (Ud : used (t_dst t) (t_cur t)) by (exists t; unfold names; auto).
  pose proof (used_unguessed _ _ s Us (sm_later _ _ _ M)) as Gs. pose proof (used_unguessed _ _ s Ud (sm_later _ _ _ M)) as Gd.
  (* the real post *)
  destruct (post_run m cfg e tr s) as (t' & P1 & P2 & P3 & P4 & P5 & P6 & _ & P7 & P8).
  { split; [exact U1|exact U2]. } { reflexivity. } { exact A1. }
  { pose proof (nonneg t Hapi') as H. unfold apply_precision_txn in H |- *. unfold tr, t1. cbn [t_precise t_amount t_prec with_keys bulk_member with_flags].
    destruct (apply_precision _ _ _) as [[? ?] ?]. exact H. }
  { exact A3. }
  destruct M as [M1 M2 M3 M4 M5 M6 M7 M8 M9 M10] eqn:EM. clear EM.
  destruct (fresh_facts m s M1 M2) as (T1 & N1 & L1 & R1 & Lk1 & V1 & _).
  change (t_src tr) with (t_src t) in P2. change (t_dst tr) with (t_dst t) in P3. change (t_cur tr) with (t_cur t) in P4. change (t_ref tr) with (t_ref t) in P5.
  assert (Mis : seen s (t_src t) (t_cur t) = None \/ seen s (t_dst t) (t_cur t) = None ->
    exists er, snd (run m (queue_transaction cfg e tr) s) = Err er).
  { intros H. destruct (missing m cfg t' (after_fresh m s)) as (er & Er).
    - exact T1. - exact N1. - congruence.
    - rewrite P2. eapply unguessed_later; eauto. - rewrite P3. eapply unguessed_later; eauto.
    - rewrite !fresh_seen, P2, P3, P4. exact H.
    - exists er. rewrite Er in P8. exact P8. }
  assert (G : good (after_fresh m s) t').
  { apply new_good; auto; rewrite ?P2, ?P3; auto. destruct P1 as (_ & _ & _ & _ & _ & _ & P1). rewrite P1. unfold sort.
    destruct (precision_keys tr) as (_ & _ & _ & Kk & _). rewrite Kk. change (t_status tr) with (t_status t). rewrite A3. reflexivity. }
  (* the projection *)
  set (lt := ready_leg (ready_leg t1)).
  destruct (ready_keys t1) as (K1 & K2 & K3 & K4 & K5 & K6). destruct (ready_keys (ready_leg t1)) as (J1 & J2 & J3 & _). fold lt in J1, J2, J3.
  assert (Ec : cumulative_item cfg e w t1 = project_legs cfg w [ready_leg t1]).
  { unfold cumulative_item. cbv zeta. rewrite K5, K6. change (t_sources t1) with (t_sources t). change (t_dests t1) with (t_dests t). rewrite U1, U2. reflexivity. }
  rewrite Ec. cbn [project_legs]. fold lt. rewrite run_bindr.
  assert (Es : t_src lt = t_src t) by (rewrite J1, K1; reflexivity). assert (Ed : t_dst lt = t_dst t) by (rewrite J2, K2; reflexivity). assert (Ek : t_cur lt = t_cur t) by (rewrite J3, K3; reflexivity).
  assert (So : sort lt = 0%nat /\ sort t' = 0%nat).
  { destruct G as (_ & _ & _ & _ & _ & _ & So & _). split; [|exact So].
    destruct (same_money_trans _ _ _ (same_money_normal t1) (same_money_refl _)) as (_ & _ & _ & _ & _ & _ & S1).
    assert (S2 : sort t1 = 0%nat) by (unfold sort; change (t_status t1) with (t_status t); rewrite A3; reflexivity).
    pose proof (same_money_normal (ready_leg t1)) as (_ & _ & _ & _ & _ & _ & S3).
    destruct (precision_keys (normalize (ready_leg t1))) as (_ & _ & _ & Q1 & _). destruct (precision_keys (normalize t1)) as (_ & _ & _ & Q2 & _).
    unfold lt, ready_leg at 1, sort. rewrite Q1. unfold sort in S3. rewrite S3. unfold ready_leg. rewrite Q2. unfold sort in S1, S2. rewrite S1. exact S2. }
  assert (Sm : same_money (apply_precision_txn lt) (apply_precision_txn t')).
  { eapply same_money_trans; [|apply same_money_precise; exact P1].
    assert (Q1 : same_money (apply_precision_txn tr) (apply_precision_txn t1)) by (apply same_money_precise; repeat split).
    assert (Q2 : same_money (ready_leg t1) (apply_precision_txn t1)) by (apply same_money_precise, same_money_sym, same_money_normal).
    assert (Q3 : same_money lt (apply_precision_txn (apply_precision_txn t1))).
    { apply same_money_precise. eapply same_money_trans; [apply same_money_sym, same_money_normal|exact Q2]. }
    eapply same_money_trans; [apply same_money_precise; exact Q3|].
    eapply same_money_trans; [apply same_money_sym, precision_twice|]. apply same_money_precise, same_money_sym, Q1. }
  assert (MF : sim w refs (after_fresh m s)).
  { constructor; [exact T1|exact N1|rewrite Lk1; exact M3|eapply later_trans; eauto| | |exact M7|exact M8| |].
    - intros x c y c' Ux Uy. rewrite !fresh_seen. apply M5; assumption.
    - rewrite R1. exact M6.
    - intros x c q Ux Gq. rewrite fresh_seen. eauto.
    - intros x c b0 Ux Gq. rewrite fresh_seen. eauto. }
  rewrite <- P2, <- P4 in Us. rewrite <- P3, <- P4 in Ud.
  destruct (leg_sim n m w refs (after_fresh m s) lt t' MF Us Ud) as (r & E & H); try congruence.
  cbv zeta in H. rewrite E. cbn [fst snd].
  destruct r as [[w' [er|]]|er]; cbn [fst snd].
  - eexists. split; [reflexivity|]. destruct H as (er' & H). rewrite H in P8. exists er'. exact P8.
  - eexists. split; [reflexivity|]. cbn [fst snd]. destruct H as ((x & H1) & H2 & H3 & H4 & H5 & H6 & _). rewrite H1 in P8. rewrite P7.
    rewrite P2, P4 in H3. rewrite P3, P4 in H4. rewrite P5 in H2. rewrite P2, P3 in H6. split; [exact P8|]. split; [exact H2|]. split; [exact H3|]. split; [exact H4|]. split; [|exact H6].
    intros z c Uz Th. apply H5; [exact Uz|]. unfold there in *. rewrite V1. exact Th.
  - eexists. split; [reflexivity|]. destruct H as (er' & H). rewrite H in P8. exists er'. exact P8.
Qed.

(** A taken reference is refused. *)
Lemma item_dup w refs m s t batch : sim w refs s -> In t all -> ref_exists (t_ref t) (s_txns s) = true ->
  exists er, snd (run m (queue_transaction cfg e (with_keys (bulk_member t) (t_id t) batch (t_ref t))) s) = Err er.
Proof.
  intros M It Nr. pose proof Hapi as Hapi'. rewrite Forall_forall in Hapi'. specialize (Hapi' t It).
  pose proof Huns as Huns'. rewrite Forall_forall in Huns'. destruct (Huns' t It) as [U1 U2].
  pose proof Hapi' as (A1 & _ & A3 & A4 & _ & _ & _ & _ & _ & As & Ad & Asd & _).
  set (tr := with_keys (bulk_member t) (t_id t) batch (t_ref t)).
  destruct (post_run m cfg e tr s) as (t' & P1 & P2 & P3 & P4 & P5 & P6 & _ & P7 & P8).
  { split; [exact U1|exact U2]. } { reflexivity. } { exact A1. }
  { pose proof (nonneg t Hapi') as H. unfold apply_precision_txn in H |- *. unfold tr. cbn [t_precise t_amount t_prec with_keys bulk_member with_flags].
    destruct (apply_precision _ _ _) as [[? ?] ?]. exact H. }
  { exact A3. }
  destruct (fresh_facts m s (sm_tidy _ _ _ M) (sm_names _ _ _ M)) as (T1 & N1 & L1 & R1 & Lk1 & V1 & _).
  assert (E : snd (run m (record_single cfg t') (after_fresh m s)) = Err EDupReference).
  { rewrite single_run; [|exact T1|exact N1|rewrite Lk1; apply (sm_locks _ _ _ M)].
    destruct (settle_facts m _ (t_src t') (t_cur t') T1 N1) as (T2 & N2 & _ & R2 & _).
    destruct (settle_facts m _ (t_dst t') (t_cur t') T2 N2) as (_ & _ & _ & R3 & _).
    unfold core, both. rewrite R3, R2, R1. change (t_ref (with_ids m (after_fresh m s) t')) with (t_ref t'). rewrite P5.
    change (t_ref tr) with (t_ref t). rewrite Nr. reflexivity. }
  rewrite E in P8. eauto.
Qed.

(** The whole list. *)
Lemma items_sim n m batch ts : (forall t, In t ts -> In t all) -> forall w refs s, sim w refs s ->
  exists r, run n (bulk_items cfg e infl true w refs ts) s0 = (s0, r) /\
  let R := run m (process_bulk cfg e ts batch infl true) s in
  match r with
  | Ok (w', None) => snd R = Ok tt /\ (exists refs', sim w' refs' (fst R))
      /\ (forall t x, In t ts -> names t x -> there (fst R) x (t_cur t) /\ In x (map fst w'))
      /\ (forall x c, used x c -> there s x c -> there (fst R) x c)
      /\ (forall z, In z (map fst w) -> In z (map fst w'))
      /\ (forall z, In z (map fst w') -> In z (map fst w) \/ exists t, In t ts /\ names t z)
  | _ => exists er, snd R = Err er
  end.
Proof.
  induction ts as [|t r IH]; intros Hin w refs s M.
  - exists (Ok (w, None)). split; [reflexivity|]. cbn [process_bulk run fst snd]. split; [reflexivity|]. split; [eauto|].
    split; [intros ? ? []|]. split; [auto|]. split; [auto|]. intros z H. left. exact H.
  - assert (It : In t all) by (apply Hin; left; reflexivity).
    assert (Uns : Forall unsplit r) by (apply Forall_forall; intros x Hx; rewrite Forall_forall in Huns; apply Huns, Hin; right; exact Hx).
    pose proof (reads_items cfg e infl r Uns) as Rd.
    pose proof Hapi as Hapi'. rewrite Forall_forall in Hapi'. destruct (Hapi' t It) as (A1 & _ & _ & A4 & _). apply String.eqb_neq in A4.
    cbn [bulk_items process_bulk]. cbv zeta. fold (bulk_member t).
    change (t_ref (bulk_member t)) with (t_ref t). change (t_id (bulk_member t)) with (t_id t).
    set (R0 := run m (queue_transaction cfg e (with_keys (bulk_member t) (t_id t) batch (t_ref t))) s).
    assert (ER : run m (x <- queue_transaction cfg e (with_keys (bulk_member t) (t_id t) batch (t_ref t)) ;;
        match x with Ok _ => process_bulk cfg e r batch infl true | Err er => Ret (Err er) end)%prog s
        = match snd R0 with Ok _ => run m (process_bulk cfg e r batch infl true) (fst R0) | Err er => (fst R0, Err er) end).
    { rewrite run_bind. fold R0. destruct (snd R0); reflexivity. }
    rewrite ER. clear ER.
    assert (Ed : run n (duplicate_ref (t_ref t) refs) s0 = (s0, ref_exists (t_ref t) (s_txns s))).
    { unfold duplicate_ref. rewrite A4, (sm_refs _ _ _ M). destruct (existsb (String.eqb (t_ref t)) refs); reflexivity. }
    rewrite run_bind, Ed. cbn [fst snd].
    destruct (ref_exists (t_ref t) (s_txns s)) eqn:Er.
    + (* taken reference: the projection goes on, the bulk stops *)
      assert (Rj : exists er, snd R0 = Err er).
      { destruct (item_dup w refs m s t batch M It Er) as (er & H). exists er. exact H. }
      destruct Rj as (er & Rj). rewrite Rj. cbn [fst snd].
      rewrite run_bindr. pose proof (reads_run n (bulk_items cfg e infl true w refs r) s0 (Rd w refs)) as Ef. rewrite Ef.
      destruct (snd (run n (bulk_items cfg e infl true w refs r) s0)) as [[w' q]|er']; eexists; (split; [reflexivity|]); cbv zeta; exists er; reflexivity.
    + rewrite A4. destruct (item_sim n m w refs s t batch M It Er) as (r1 & E1 & H1). fold R0 in H1. cbv zeta in H1.
      rewrite run_bindr, E1. cbn [fst snd]. destruct r1 as [[w1 [er1|]]|er1]; cbn [fst snd].
      * destruct H1 as (er & H1). rewrite H1. cbn [fst snd]. rewrite run_bindr.
        pose proof (reads_run n (bulk_items cfg e infl true w1 (t_ref t :: refs) r) s0 (Rd _ _)) as Ef. rewrite Ef.
        destruct (snd (run n (bulk_items cfg e infl true w1 (t_ref t :: refs) r) s0)) as [[w' q]|er']; eexists; (split; [reflexivity|]); cbv zeta; exists er; reflexivity.
      * destruct H1 as ((x & H1) & M' & T1 & T2 & T3 & K). rewrite H1.
        destruct (IH (fun t' Ht' => Hin t' (or_intror Ht')) w1 (t_ref t :: refs) (fst R0) M') as (r2 & E2 & H2). rewrite run_bindr, E2. cbn [fst snd].
        destruct r2 as [[w2 [er2|]]|er2]; cbn [fst snd run]; eexists; (split; [reflexivity|]); cbv zeta in H2; cbn [fst snd]; try exact H2.
        destruct H2 as (Q1 & Q2 & Q3 & Q4 & Q5 & Q6). split; [exact Q1|]. split; [exact Q2|]. split; [|split; [|split]].
        -- intros t' x' [<-|Ht'] Nx; [|eauto]. destruct Nx as [-> | ->]; (split; [apply Q4; [exists t; unfold names; auto|assumption]|apply Q5, K; auto]).
        -- intros x' c Ux Th. apply Q4; [exact Ux|]. apply T3; assumption.
        -- intros z Hz. apply Q5, K. auto.
        -- intros z Hz. apply Q6 in Hz as [Hz|(t' & Ht' & Nz)]; [|right; exists t'; split; [right; exact Ht'|exact Nz]].
           apply K in Hz as [Hz|Hz]; [left; exact Hz|right; exists t; split; [left; reflexivity|exact Hz]].
      * destruct H1 as (er & H1). rewrite H1. eexists. split; [reflexivity|]. exists er. reflexivity.
Qed.

Lemma sim0 s : tidy s -> new_names s -> s_locks s = [] -> later s0 s -> (forall x c, seen s x c = seen s0 x c) -> s_txns s = s_txns s0 -> sim [] [] s.
Proof.
  intros A B C D E F. constructor; auto.
  - intros x c y c' _ _. rewrite !E. tauto.
  - intros r. rewrite F. reflexivity.
  - constructor.
  - intros x [].
  - discriminate.
  - intros x c b0 _ _ S0. exists b0. rewrite E. split; [exact S0|apply alike_refl].
Qed.
End Bulk.

Lemma bulk_predicts cfg e ts atomic infl s n m :
  c_queued cfg = false -> tidy s -> s_locks s = [] -> new_names s -> Forall api_txn ts -> Forall unsplit ts ->
  (forall t x, In t ts -> names t x -> unguessed s x) -> one_name_each s ts ->
  fst (run n (preview_bulk cfg e ts infl true) s) = s
  /\ let R := run m (bulk cfg e ts atomic infl true) s in
     match snd (run n (preview_bulk cfg e ts infl true) s) with
     | Err _ => exists er, snd R = Err er
     | Ok p =>
       (would_apply p = true <-> exists b, snd R = Ok b)
       /\ (would_apply p = true ->
            (forall t x, In t ts -> names t x -> exists q, In q (pv_balances p) /\ about s x (t_cur t) q /\ shows (fst R) x (t_cur t) (pj_after q))
            /\ (forall q, In q (pv_balances p) -> exists t x, In t ts /\ names t x /\ about s x (t_cur t) q))
     end.
Proof.
  intros Hc Ht Hl Hn Ha Hu Hg Ho.
  destruct (fresh_facts m s Ht Hn) as (T1 & N1 & L1 & R1 & Lk1 & V1 & _).
  assert (M : sim s ts [] [] (after_fresh m s)).
  { apply sim0; auto. }
  set (batch := ("bulk" ++ "_" ++ s_uuid s (s_ctr s))%string).
  destruct (items_sim cfg e infl s ts Hc Ht Ha Hu Hg Ho n m batch ts (fun t H => H) [] [] (after_fresh m s) M) as (r & E & H).
  cbv zeta in H. set (R1' := run m (process_bulk cfg e ts batch infl true) (after_fresh m s)) in *.
  assert (EP : run n (preview_bulk cfg e ts infl true) s =
     (s, match r with Ok x => Ok {| pv_rejection := snd x; pv_balances := projections (fst x) |} | Err er => Err er end)).
  { unfold preview_bulk. rewrite run_bindr, E. cbn [fst snd]. destruct r as [x|er]; reflexivity. }
  rewrite EP. cbn [fst snd]. split; [reflexivity|]. cbv zeta.
  assert (EB : match snd R1' with
    | Ok _ => run m (bulk cfg e ts atomic infl true) s = (fst R1', Ok batch)
    | Err er => exists er', snd (run m (bulk cfg e ts atomic infl true) s) = Err er' end).
  { unfold bulk. rewrite run_bind. change (run m (fresh "bulk") s) with (after_fresh m s, batch). cbn [fst snd].
    rewrite run_bind. fold R1'. destruct (snd R1') as [[]|er]; [reflexivity|]. destruct atomic; [|simpl; eauto].
    rewrite run_bind. cbn [run snd]. eauto. }
  destruct r as [[w' [er|]]|er]; cbn [fst snd].
  - destruct H as (er' & H). rewrite H in EB. destruct EB as (er2 & EB). rewrite EB. cbn [would_apply pv_rejection].
    split; [|discriminate]. split; [discriminate|]. intros (b & ?). discriminate.
  - destruct H as (H1 & (refs' & H2) & H3 & _ & _ & H6). rewrite H1 in EB. rewrite EB. cbn [fst snd would_apply pv_rejection pv_balances].
    split; [split; eauto|]. intros _. split.
    + intros t x It Nx. destruct (H3 t x It Nx) as [Th Ik].
      destruct (set_get x w') as [q|] eqn:G; [|apply get_none in G; contradiction].
      assert (U : used ts x (t_cur t)) by (exists t; auto).
      destruct (sm_in _ _ _ _ _ H2 x (t_cur t) q U G) as (b0 & b & _ & Q2 & _ & _ & Q5 & Q6). exists q. split; [|split; [exact Q2|]].
      * apply (in_map snd w' (x, q)). clear -G. induction w' as [|[k p] r IH]; simpl in G; [discriminate|].
        destruct (String.eqb_spec k x) as [->|]; [injection G as ->; left; reflexivity|right; auto].
      * exists b. split; [|exact Q6]. unfold seen in Q5. unfold there in Th. destruct (view (fst R1') x (t_cur t)) as [c|] eqn:V; [|congruence].
        injection Q5 as ->. apply view_named, V.
    + intros q Iq. apply in_map_iff in Iq as ([k q'] & Eq & Iq). simpl in Eq. subst q'.
      assert (Ik : In k (map fst w')) by (apply (in_map fst w' (k, q)); exact Iq).
      destruct (H6 k Ik) as [[]|(t & It & Nt)]. exists t, k. split; [exact It|]. split; [exact Nt|].
      assert (U : used ts k (t_cur t)) by (exists t; auto).
      assert (G : set_get k w' = Some q) by (apply get_in; [apply (sm_nodup _ _ _ _ _ H2)|exact Iq]).
      destruct (sm_in _ _ _ _ _ H2 k (t_cur t) q U G) as (b0 & b & _ & Q2 & _). exact Q2.
  - destruct H as (er' & H). rewrite H in EB. exact EB.
Qed.
