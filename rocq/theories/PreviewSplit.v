(** What a dry run says about a split transaction. *)
From Coq Require Import ZArith QArith List String Bool Lia Permutation.
From Verif Require Import LedgerInv MoneyThms SplitThms SplitLegs BatchProof PreviewAlone PreviewPost PreviewProof PreviewBulk.
From Verif Require Import Base MoneyModel SplitModel SplitSpec BalanceModel LedgerModel LedgerProgs ConcModel BatchSpec BulkProof PreviewModel PreviewSpec.
Import ListNotations.
Local Open Scope string_scope.
Open Scope Z_scope.

(** Only random identifiers have been drawn in between. *)
Record calm (s s' : state) : Prop := {
  cm_tidy : tidy s -> tidy s'; cm_names : new_names s -> new_names s'; cm_later : later s s';
  cm_txns : s_txns s' = s_txns s; cm_bals : s_bals s' = s_bals s; cm_locks : s_locks s' = s_locks s }.
Lemma calm_refl s : calm s s. Proof. constructor; auto. apply later_refl. Qed.
Lemma calm_trans a b c : calm a b -> calm b c -> calm a c.
Proof. intros [A1 A2 A3 A4 A5 A6] [B1 B2 B3 B4 B5 B6]. constructor; auto; try congruence. eapply later_trans; eauto. Qed.
Lemma calm_fresh n s : calm s (after_fresh n s).
Proof.
  constructor; auto; try reflexivity.
  - intros [N1 N2]. split; [exact N1|]. intros i Hi. simpl in Hi |- *. apply N2. lia.
  - split; [reflexivity|simpl; lia].
Qed.
Lemma calm_view s s' x c : calm s s' -> view s' x c = view s x c.
Proof. intros C. unfold view. rewrite (cm_bals _ _ C). reflexivity. Qed.
Lemma calm_seen s s' x c : calm s s' -> seen s' x c = seen s x c.
Proof. intros C. unfold seen. rewrite (calm_view _ _ _ _ C). reflexivity. Qed.
Lemma calm_named s s' x c b : calm s s' -> (named s' x c b <-> named s x c b).
Proof. intros C. unfold named. rewrite (cm_bals _ _ C). tauto. Qed.
Lemma calm_about s s' x c p : calm s s' -> (about s' x c p <-> about s x c p).
Proof.
  intros C. unfold about. destruct (pj_virtual p).
  - split; intros (H1 & H2 & H3); (split; [exact H1|]; split; [|exact H3]); intros b Hb; apply (H2 b); apply (calm_named _ _ _ _ _ C); exact Hb.
  - split; intros (b & Hb & H); exists b; (split; [apply (calm_named _ _ _ _ _ C); exact Hb|exact H]).
Qed.

(** Two legs that say the same. *)
Record twins (p r : txn) : Prop := {
  tw_src : t_src p = t_src r; tw_dst : t_dst p = t_dst r; tw_cur : t_cur p = t_cur r; tw_money : same_money p r }.
Definition leg_ref (t : txn) (i : nat) : string := t_ref t ++ "-" ++ nat_str i.

Lemma make_two n n' tp tr m : twins tp tr -> t_sources tp = t_sources tr -> forall i s s',
  let P := run n (make_legs tp i m) s in let R := run n' (make_legs tr i m) s' in
  calm s (fst P) /\ calm s' (fst R) /\ Forall2 twins (snd P) (snd R)
  /\ (s_ctr (fst P) - s_ctr s = s_ctr (fst R) - s_ctr s')%nat
  /\ (new_names s' -> Forall (fun l => exists j, (s_ctr s' <= j < s_ctr (fst R))%nat /\ t_id l = "txn_" ++ s_uuid s' j) (snd R) /\ NoDup (map t_id (snd R)))
  /\ Forall (fun l => exists j, (i <= j)%nat /\ t_ref l = leg_ref tr j) (snd R) /\ NoDup (map t_ref (snd R))
  /\ map (who tr) (snd R) = map fst m
  /\ Forall (fun l => match t_sources tr with [] => t_src l = t_src tr | _ => t_dst l = t_dst tr end /\ t_cur l = t_cur tr /\ sort l = sort tr) (snd R).
Proof.
  intros T Es. induction m as [|[w p] r IH]; intros i s s'; cbv zeta.
  - cbn [make_legs run fst snd]. split; [apply calm_refl|]. split; [apply calm_refl|]. split; [constructor|]. split; [lia|].
    split; [intros _; split; constructor|]. split; [constructor|]. split; [constructor|]. split; [reflexivity|constructor].
  - cbn [make_legs]. rewrite !run_bind. rewrite !run_fresh. cbn [fst snd]. cbv beta zeta.
    fold (after_fresh n s). fold (after_fresh n' s').
    destruct (IH (S i) (after_fresh n s) (after_fresh n' s')) as (C1 & C2 & F & Ec & Hi & Hr & Nr & W & Hs).
    cbv zeta in Hi, Hr, Nr, W, Hs, F, C1, C2, Ec.
    set (P := run n (make_legs tp (S i) r) (after_fresh n s)) in *. set (R := run n' (make_legs tr (S i) r) (after_fresh n' s')) in *.
    cbn [run fst snd].
    split; [eapply calm_trans; [apply calm_fresh|exact C1]|]. split; [eapply calm_trans; [apply calm_fresh|exact C2]|].
    destruct T as [T1 T2 T3 T4]. rewrite Es. pose proof (cm_later _ _ C2) as [_ Lt]. pose proof (cm_later _ _ C1) as [_ Lt1]. cbn [after_fresh exec fst s_ctr set_ctr] in Lt, Lt1, Ec, Hi.
    split; [|split; [|split; [|split; [|split; [|split]]]]].
    + constructor; [|exact F]. destruct T4 as (A1 & A2 & A3 & A4 & A5 & A6 & A7). constructor.
      * destruct (t_sources tr); simpl; auto.
      * destruct (t_sources tr); simpl; auto.
      * destruct (t_sources tr); simpl; auto.
      * unfold sort in *. destruct (t_sources tr); simpl; rewrite A3; repeat split; assumption.
    + lia.
    + intros Nn. destruct (Hi (cm_names _ _ (calm_fresh n' s') Nn)) as [H1 H2]. split.
      * constructor.
        -- exists (s_ctr s'). split; [lia|]. destruct (t_sources tr); reflexivity.
        -- eapply Forall_impl; [|exact H1]. intros l (j & Hj & E). exists j. split; [lia|exact E].
      * cbn [map]. constructor; [|exact H2]. intros I. apply in_map_iff in I as (l & El & Il). rewrite Forall_forall in H1. destruct (H1 l Il) as (j & Hj & E).
        rewrite E in El. cbn [after_fresh exec fst s_uuid set_ctr] in El.
        assert (Eu : s_uuid s' j = s_uuid s' (s_ctr s')) by (destruct (t_sources tr); simpl in El; congruence).
        destruct Nn as [Nn _]. apply Nn in Eu. lia.
    + constructor.
      * exists i. split; [lia|]. destruct (t_sources tr); reflexivity.
      * eapply Forall_impl; [|exact Hr]. intros l (j & Hj & E). exists j. split; [lia|exact E].
    + cbn [map]. constructor; [|exact Nr]. intros I. apply in_map_iff in I as (l & El & Il). rewrite Forall_forall in Hr. destruct (Hr l Il) as (j & Hj & E).
      rewrite E in El. unfold leg_ref in El.
      assert (Eu : t_ref tr ++ "-" ++ nat_str j = t_ref tr ++ "-" ++ nat_str i) by (rewrite El; destruct (t_sources tr); reflexivity).
      apply app_inj, app_inj, nat_str_inj in Eu. lia.
    + cbn [map fst]. f_equal; [|exact W]. unfold who. destruct (t_sources tr); reflexivity.
    + constructor; [|exact Hs]. destruct (t_sources tr); unfold sort; simpl; auto.
Qed.

(** The amount of a leg follows from its minor units. *)
Definition settled (l : txn) : Prop := 0 < t_prec l /\ t_amount l = convert_precise_to_decimal (t_precise l) (t_prec l).
Lemma make_settled n t m : 0 < t_prec t -> forall i s, Forall settled (snd (run n (make_legs t i m) s)).
Proof.
  intros Hp. induction m as [|[w p] r IH]; intros i s; [constructor|].
  cbn [make_legs]. rewrite !run_bind, run_fresh. cbn [fst snd]. cbv beta zeta. cbn [run snd].
  constructor; [|apply IH]. destruct (t_sources t); split; simpl; auto.
Qed.
Lemma settled_ap l : settled l -> same_money (apply_precision_txn l) l.
Proof.
  intros [H1 H2]. unfold apply_precision_txn, apply_precision. rewrite (proj2 (Z.eqb_neq _ 0)) by lia. rewrite H2, round_trip by lia.
  unfold sort. destruct (0 <? t_precise l); repeat split; simpl; auto.
Qed.

Section Legs.
Variables (cfg : config) (s0 : state) (all : list txn).
Hypothesis Hc : c_queued cfg = false.
Hypothesis H0t : tidy s0.
Hypothesis Hun : forall t x, In t all -> names t x -> unguessed s0 x.
Hypothesis Hone : one_name_each s0 all.

Definition leg_fine (s : state) (l : txn) : Prop :=
  used all (t_src l) (t_cur l) /\ used all (t_dst l) (t_cur l) /\ t_src l <> "" /\ t_dst l <> "" /\ t_src l <> t_dst l /\ sort l = 0%nat /\ settled l
  /\ ~ In (t_id l) (map (fun r => t_id (r_t r)) (s_txns s)) /\ (forall i, (s_ctr s <= i)%nat -> t_id l <> "txn_" ++ s_uuid s i).

Lemma ref_absent r l : ref_exists r l = false <-> ~ In r (map (fun x => t_ref (r_t x)) l).
Proof.
  unfold ref_exists. induction l as [|x l IH]; simpl; [tauto|]. destruct (String.eqb_spec (t_ref (r_t x)) r) as [E|E]; simpl.
  - split; [discriminate|]. intros H. exfalso. apply H. left. exact E.
  - rewrite IH. split; [intros H [Q|Q]; tauto|tauto].
Qed.

Lemma legs_sim n m id : forall lps lrs, Forall2 twins lps lrs -> forall w refs s, sim s0 all w refs s ->
  Forall (leg_fine s) lrs -> NoDup (map t_id lrs) -> NoDup (map t_ref lrs) ->
  Forall (fun l => ref_exists (t_ref l) (s_txns s) = false) lrs ->
  exists r, run n (project_legs cfg w lps) s0 = (s0, r) /\
  let R := run m (record_legs cfg lrs id) s in
  match r with
  | Ok (w', None) => snd R = Ok tt /\ (exists refs', sim s0 all w' refs' (fst R))
      /\ (forall l x, In l lrs -> names l x -> there (fst R) x (t_cur l) /\ In x (map fst w'))
      /\ (forall x c, used all x c -> there s x c -> there (fst R) x c)
      /\ (forall z, In z (map fst w) -> In z (map fst w'))
      /\ (forall z, In z (map fst w') -> In z (map fst w) \/ exists l, In l lrs /\ names l z)
  | _ => exists er, snd R = Err er
  end.
Proof.
  intros lps lrs F. induction F as [|lp lr ps rs T F IH]; intros w refs s M Hf Ni Nr Hr.
  - exists (Ok (w, None)). split; [reflexivity|]. cbn [record_legs run fst snd]. split; [reflexivity|]. split; [eauto|].
    split; [intros ? ? []|]. split; [auto|]. split; [auto|]. intros z H. left. exact H.
  - inversion Hf as [|? ? (F1 & F2 & F3 & F4 & F5 & F6 & F9 & F7 & F8) Hf']; subst. inversion Hr as [|? ? R1 Hr']; subst.
    inversion Ni as [|? ? Ni1 Ni2]; subst. inversion Nr as [|? ? Nr1 Nr2]; subst.
    destruct T as [T1 T2 T3 T4].
    destruct (ready_keys lp) as (K1 & K2 & K3 & _).
    assert (So : sort lp = 0%nat) by (destruct T4 as (_ & _ & _ & _ & _ & _ & ?); congruence).
    destruct (leg_sim cfg s0 all Hc H0t Hun Hone n m w refs s (ready_leg lp) lr M F1 F2 F3 F4) as (r1 & E1 & H1); try congruence.
    { pose proof (settled_ap lr F9) as Q.
      assert (Q1 : same_money (normalize lp) lr) by (eapply same_money_trans; [apply same_money_sym, same_money_normal|exact T4]).
      unfold ready_leg. eapply same_money_trans; [apply same_money_precise, same_money_precise, Q1|]. apply same_money_precise, Q. }
    { split; [|exact F6]. unfold ready_leg, sort. destruct (precision_keys (normalize lp)) as (_ & _ & _ & Q & _). rewrite Q.
      pose proof (same_money_normal lp) as (_ & _ & _ & _ & _ & _ & S1). unfold sort in S1, So. rewrite S1. exact So. }
    { split; [apply (sm_tidy _ _ _ _ _ M)|]. split; [apply (sm_names _ _ _ _ _ M)|]. split; [apply (sm_locks _ _ _ _ _ M)|].
      split; [eapply used_unguessed; eauto; apply (sm_later _ _ _ _ _ M)|]. split; [eapply used_unguessed; eauto; apply (sm_later _ _ _ _ _ M)|].
      split; [exact F5|]. split; [exact F6|]. split; [apply id_absent; exact F7|exact F8]. }
    cbv zeta in H1. cbn [project_legs record_legs]. rewrite run_bindr, E1. cbn [fst snd]. rewrite run_bind.
    set (R0 := run m (record_single cfg lr) s) in *.
    destruct r1 as [[w1 [er1|]]|er1]; cbn [fst snd].
    + eexists. split; [reflexivity|]. destruct H1 as (er & H1). rewrite H1. cbv zeta. exists er. destruct (t_atomic lr); [|reflexivity].
      rewrite run_bind. reflexivity.
    + destruct H1 as ((x & H1) & M' & T5 & T6 & T7 & K & (row & Rw & Ri) & Ls). rewrite H1.
      destruct (IH w1 (t_ref lr :: refs) (fst R0) M') as (r2 & E2 & H2); auto.
      * rewrite Forall_forall in Hf' |- *. intros l Il. destruct (Hf' l Il) as (G1 & G2 & G3 & G4 & G5 & G6 & G9 & G7 & G8).
        do 7 (split; [assumption|]). split.
        -- rewrite Rw. cbn [map]. intros [E|E]; [|apply G7; exact E]. apply Ni1. rewrite Ri in E. rewrite E. apply in_map. exact Il.
        -- intros i Hi. destruct Ls as [-> Ls]. apply G8. lia.
      * rewrite Forall_forall in Hr' |- *. intros l Il. rewrite (sm_refs _ _ _ _ _ M'). cbn [existsb].
        pose proof (Hr' l Il) as Hl. rewrite (sm_refs _ _ _ _ _ M) in Hl.
        destruct (String.eqb_spec (t_ref l) (t_ref lr)) as [E|E]; [|exact Hl].
        exfalso. apply Nr1. rewrite <- E. apply in_map. exact Il.
      * exists r2. split; [exact E2|]. cbv zeta in H2 |- *. destruct r2 as [[w2 [er2|]]|er2]; try exact H2.
        destruct H2 as (Q1 & Q2 & Q3 & Q4 & Q5 & Q6). split; [exact Q1|]. split; [exact Q2|]. split; [|split; [|split]].
        -- intros l x' [<-|Il] Nx; [|eauto]. destruct Nx as [-> | ->]; (split; [apply Q4; assumption|apply Q5, K; auto]).
        -- intros x' c Ux Th. apply Q4; [exact Ux|]. apply T7; assumption.
        -- intros z Hz. apply Q5, K. auto.
        -- intros z Hz. apply Q6 in Hz as [Hz|(t' & Ht' & Nz)]; [|right; exists t'; split; [right; exact Ht'|exact Nz]].
           apply K in Hz as [Hz|Hz]; [left; exact Hz|right; exists lr; split; [left; reflexivity|exact Hz]].
    + eexists. split; [reflexivity|]. destruct H1 as (er & H1). rewrite H1. cbv zeta. exists er. destruct (t_atomic lr); [|reflexivity].
      rewrite run_bind. reflexivity.
Qed.
End Legs.

Lemma dist_keys oq oz total prec l m : reorders oq -> reorders oz -> 0 <= total -> ~ In EmptyString (map d_id l) -> l <> [] ->
  calculate_distributions oq oz total l prec = Some m -> incl (map fst m) (map d_id l).
Proof.
  intros Hq Hz Ht He Hl H. destruct (Z_le_gt_dec 2 total) as [G|G].
  - destruct (split_sum _ _ _ _ _ _ Hq Hz G He H) as (_ & K & _). exact K.
  - assert (total = 0 \/ total = 1) as [-> | ->] by lia; unfold calculate_distributions in H; cbn [Z.eqb andb Pos.eqb] in H.
    + injection H as <-. destruct (zero_amounts_keys l [] (NoDup_nil _)) as (_ & B & _). intros k Hk. apply B in Hk as [Hk|[]]. exact Hk.
    + destruct l as [|d r]; [congruence|]. cbn [negb] in H. injection H as <-.
      destruct (zero_amounts_keys r [(d_id d, 1)]) as (_ & B & _); [constructor; [simpl; tauto|constructor]|].
      intros k Hk. apply B in Hk as [Hk|[<-|[]]]; simpl; auto.
Qed.

(** The request as it is split by the dry run, and as it is split when posted. *)
Lemma real_twin n t s : api_txn t -> exists tr,
  run n (ensure_id (set_metadata t)) s = (after_fresh n s, tr)
  /\ twins (apply_precision_txn (normalize t)) (set_status tr)
  /\ t_sources (set_status tr) = t_sources t /\ t_dests (set_status tr) = t_dests t /\ t_ref (set_status tr) = t_ref t
  /\ t_src (set_status tr) = t_src t /\ t_dst (set_status tr) = t_dst t /\ t_cur (set_status tr) = t_cur t
  /\ t_skipq (set_status tr) = t_skipq t /\ sort (set_status tr) = 0%nat
  /\ 0 < t_prec (set_status tr) /\ 0 <= t_precise (set_status tr).
Proof.
  intros A. pose proof (nonneg t A) as Hp. destruct A as (A1 & _ & A3 & _ & _ & A6 & _).
  destruct (precision_keys t) as (K1 & K2 & K3 & K4 & K5 & K6 & K7).
  assert (K8 : t_skipq (apply_precision_txn t) = t_skipq t /\ t_sched (apply_precision_txn t) = t_sched t /\ t_cur (apply_precision_txn t) = t_cur t
     /\ t_sources (apply_precision_txn t) = t_sources t /\ t_dests (apply_precision_txn t) = t_dests t)
    by (unfold apply_precision_txn; destruct (apply_precision _ _ _) as [[? ?] ?]; repeat split).
  destruct K8 as (K8 & K9 & K10 & K11 & K12).
  set (t0 := with_keys (set_metadata t) ("txn_" ++ s_uuid s (s_ctr s)) (t_parent (set_metadata t)) (t_ref (set_metadata t))).
  exists t0.
  assert (St : t_status t0 = SNone) by (unfold t0, set_metadata; simpl; congruence).
  assert (E : forall A (f : txn -> A) , (forall q, f (with_status t0 q) = f t0) -> f (set_status t0) = f t0).
  { intros B f Hf. unfold set_status. rewrite St. destruct (t_sched t0); apply Hf. }
  assert (So : sort (set_status t0) = 0%nat) by (unfold sort, set_status; rewrite St; destruct (t_sched t0); reflexivity).
  split.
  { unfold ensure_id. assert (Ei : t_id (set_metadata t) = "") by (unfold set_metadata; simpl; congruence). rewrite Ei. reflexivity. }
  split.
  { destruct (ready_keys t) as (Q1 & Q2 & Q3 & _). constructor.
    - rewrite E by reflexivity. change (t_src t0) with (t_src (apply_precision_txn t)). rewrite K5. exact Q1.
    - rewrite E by reflexivity. change (t_dst t0) with (t_dst (apply_precision_txn t)). rewrite K6. exact Q2.
    - rewrite E by reflexivity. change (t_cur t0) with (t_cur (apply_precision_txn t)). rewrite K10. exact Q3.
    - eapply same_money_trans; [apply same_money_sym, ready_same|].
      unfold same_money. rewrite So, !E by reflexivity. unfold t0, set_metadata. simpl. repeat split. unfold sort. rewrite K4, A3. reflexivity. }
  split; [rewrite (E _ t_sources) by reflexivity; exact K11|]. split; [rewrite (E _ t_dests) by reflexivity; exact K12|].
  split; [rewrite (E _ t_ref) by reflexivity; exact K7|]. split; [rewrite (E _ t_src) by reflexivity; exact K5|].
  split; [rewrite (E _ t_dst) by reflexivity; exact K6|]. split; [rewrite (E _ t_cur) by reflexivity; exact K10|].
  split; [rewrite (E _ t_skipq) by reflexivity; exact K8|]. split; [exact So|].
  split; [rewrite (E _ t_prec) by reflexivity|rewrite (E _ t_precise) by reflexivity; exact Hp].
  change (t_prec t0) with (t_prec (apply_precision_txn t)).
  unfold apply_precision_txn, apply_precision. destruct (Z.eqb_spec (t_prec t) 0); destruct (0 <? t_precise t); simpl; lia.
Qed.

Lemma split_predicts cfg e t s n m :
  api_txn t -> is_split t -> t_skipq t = true -> fair_env e ->
  c_queued cfg = false -> tidy s -> s_locks s = [] -> new_names s -> (forall b, In b (s_bals s) -> b_id b <> "") ->
  (forall l x, In l (participants t) -> names l x -> unguessed s x) -> one_name_each s (participants t) ->
  (forall i, ref_exists (leg_ref t i) (s_txns s) = false) ->
  let R := run m (queue_transaction cfg e t) s in
  match snd (run n (preview_transaction cfg e t) s) with
  | Err _ => exists er, snd R = Err er
  | Ok p =>
    (would_apply p = true /\ pv_balances p <> [] <-> exists t', snd R = Ok t')
    /\ (would_apply p = true -> pv_balances p <> [] ->
         (forall q, In q (pv_balances p) -> exists l x, In l (participants t) /\ names l x /\ about s x (t_cur t) q /\ shows (fst R) x (t_cur t) (pj_after q))
         /\ (forall l x, In l (participants t) -> names l x ->
               (exists q, In q (pv_balances p) /\ about s x (t_cur t) q)
               \/ forall b, view s x (t_cur t) = Some b -> shows (fst R) x (t_cur t) b))
  end.
Proof.
  intros A [Sp Si] Hq (Eq & Ez & El) Hc Ht Hl Hn Hb Hg Ho Hr. cbv zeta.
  destruct (real_twin m t s A) as (tr0 & Er & Tw & K1 & K2 & K3 & K4 & K5 & K6 & K7 & K8 & K9 & K10).
  set (tr := set_status tr0) in *. set (tp := apply_precision_txn (normalize t)) in *.
  destruct (ready_keys t) as (_ & _ & _ & _ & P1 & P2). unfold ready_leg in P1, P2. fold tp in P1, P2.
  assert (Hs : match t_sources t, t_dests t with [], [] => False | _, _ => True end).
  { destruct Sp as [[H1 H2]|[H1 H2]]; destruct (t_sources t); destruct (t_dests t); auto; congruence. }
  assert (EPre : preview_transaction cfg e t = preview_split cfg e tp).
  { unfold preview_transaction. fold tp. cbv zeta. rewrite P1, P2. destruct (t_sources t); [destruct (t_dests t)|]; [contradiction|reflexivity|reflexivity]. }
  assert (EPost : run m (queue_transaction cfg e t) s = run m (legs <-? split_txn e tr ;;
      if t_skipq tr then
        r <-? (match legs with [] => x <-? record_single cfg tr ;; Ret (Ok tt) | _ => record_legs cfg legs (t_id tr) end) ;;
        Ret (Ok (with_status tr (if t_inflight tr then SInflight else SApplied)))
      else queue_async tr legs (t_ref t) (t_id tr))%prog (after_fresh m s)).
  { unfold queue_transaction. destruct (t_sources t); [destruct (t_dests t)|]; [contradiction| |]; rewrite run_bind, Er; reflexivity. }
  rewrite EPre, EPost. rewrite K7, Hq. unfold preview_split.
  assert (Qp : t_skipq tp = true) by (unfold tp, normalize, apply_precision_txn; destruct (t_status t); destruct (apply_precision _ _ _) as [[? ?] ?]; exact Hq).
  rewrite Qp.
  set (ds := match t_sources t with [] => t_dests t | x => x end).
  assert (Nds : ds <> []) by (unfold ds; destruct (t_sources t); [destruct (t_dests t); [contradiction|discriminate]|discriminate]).
  assert (Ids : ~ In "" (map d_id ds)).
  { intros I. apply in_map_iff in I as (d & Ed & Id). rewrite Forall_forall in Si. apply (Si d); [|exact Ed].
    apply in_or_app. unfold ds in Id. destruct (t_sources t); auto. }
  assert (Mny : t_precise tr = t_precise tp /\ t_prec tr = t_prec tp) by (destruct Tw as [_ _ _ (M1 & _ & M3 & _)]; auto).
  destruct Mny as [M1 M3].
  assert (Dp : calculate_distributions (se_q e) (se_z e) (t_precise tp) (match t_sources tp with [] => t_dests tp | x => x end) (t_prec tp)
     = calculate_distributions (se_q e) (se_z e) (t_precise tr) ds (t_prec tr)) by (unfold ds; rewrite P1, P2, M1, M3; reflexivity).
  assert (Dr : calculate_distributions (se_q e) (se_z e) (t_precise tr) (match t_sources tr with [] => t_dests tr | x => x end) (t_prec tr)
     = calculate_distributions (se_q e) (se_z e) (t_precise tr) ds (t_prec tr)) by (unfold ds; rewrite K1, K2; reflexivity).
  rewrite !run_bindr. unfold split_txn. rewrite Dp, Dr.
  destruct (calculate_distributions (se_q e) (se_z e) (t_precise tr) ds (t_prec tr)) as [mm|] eqn:D; [|cbn [run fst snd]; eauto].
  pose proof (dist_keys _ _ _ _ _ _ Eq Ez K10 Ids Nds D) as Keys.
  destruct (fresh_facts m s Ht Hn) as (T1 & N1 & L1 & R1 & Lk1 & V1 & _).
  assert (Esrc : t_sources tp = t_sources tr) by congruence.
  destruct (make_two n m tp tr (se_l e mm) Tw Esrc 1%nat s (after_fresh m s)) as (C1 & C2 & F & Ec & Hi & Hrf & Nrf & W & Hs').
  cbv zeta in C1, C2, F, Ec, Hi, Hrf, Nrf, W, Hs'.
  pose proof (make_settled m tr (se_l e mm) K9 1%nat (after_fresh m s)) as Set_.
  rewrite !run_bind.
  destruct (run n (make_legs tp 1 (se_l e mm)) s) as [s0 lps]. destruct (run m (make_legs tr 1 (se_l e mm)) (after_fresh m s)) as [s1 lrs].
  cbn [fst snd run] in *.
  destruct (Hi N1) as [Hi1 Hi2]. clear Hi.
  pose proof A as (_ & _ & _ & _ & _ & _ & _ & _ & _ & As & Ad & Asd & Ads & Adt).
  (* every leg is one of the participants *)
  assert (Leg : forall l, In l lrs -> exists l', In l' (participants t) /\ t_src l = t_src l' /\ t_dst l = t_dst l' /\ t_cur l = t_cur l'
     /\ t_src l <> "" /\ t_dst l <> "" /\ t_src l <> t_dst l /\ t_cur l' = t_cur t).
  { intros l Il. assert (Iw : In (who tr l) (map d_id ds)).
    { apply Keys. apply (Permutation_in (who tr l) (Permutation_map fst (Permutation_sym (El mm)))). rewrite <- W. apply in_map. exact Il. }
    apply in_map_iff in Iw as (d & Ed & Id). rewrite Forall_forall in Hs'. destruct (Hs' l Il) as (L2 & L3 & L4).
    unfold participants. unfold who in Ed. unfold ds in Id. rewrite K1 in L2, Ed. rewrite Forall_forall in Si.
    destruct (t_sources t) as [|d0 r0] eqn:Es.
    - exists (with_ends t (t_src t) (d_id d)). split; [apply in_map_iff; eauto|]. cbn [t_src t_dst t_cur with_ends].
      rewrite L2, K4, <- Ed, L3, K6. assert (Ns : t_src t <> "") by (intros E0; apply As in E0; congruence).
      repeat split; auto; try (apply Si; exact Id). specialize (Ads Ns). rewrite Forall_forall in Ads. intros E0. apply (Ads d Id). congruence.
    - exists (with_ends t (d_id d) (t_dst t)). split; [apply in_map_iff; eauto|]. cbn [t_src t_dst t_cur with_ends].
      rewrite L2, K5, <- Ed, L3, K6.
      assert (Nd : t_dst t <> "") by (intros E0; apply Ad in E0; destruct Sp as [[_ Sp]|[Sp _]]; congruence).
      assert (Id' : In d ((d0 :: r0) ++ t_dests t)%list) by (apply in_or_app; auto).
      repeat split; auto; try (apply Si; exact Id'). specialize (Adt Nd). rewrite Forall_forall in Adt. apply (Adt d). exact Id. }
  destruct lrs as [|lr0 lrs'].
  { (* no legs: the request itself is recorded and lacks an end *)
    inversion F; subst. cbn [project_legs run fst snd would_apply pv_rejection pv_balances projections map].
    assert (Bad : exists er, snd (run m (record_single cfg tr) s1) = Err er).
    { pose proof (cm_tidy _ _ C2 T1) as T2. pose proof (cm_names _ _ C2 N1) as N2.
      assert (U0 : unguessed s1 "") by (intros i _ E0; discriminate E0).
      assert (S0 : forall c, seen s1 "" c = None).
      { intros c. unfold seen, view. cbn [starts_with_at]. rewrite (cm_bals _ _ C2).
        change (s_bals (after_fresh m s)) with (s_bals s).
        destruct (get_bal "" (s_bals s)) as [b|] eqn:Gb; [|reflexivity].
        exfalso. apply (Hb b); [eapply get_bal_in; eauto|eapply get_bal_id; eauto]. }
      assert (Un : forall l x, In l (participants t) -> names l x -> unguessed s1 x).
      { intros l x Il Nx. eapply unguessed_later; [eapply later_trans; [exact L1|apply (cm_later _ _ C2)]|]. eapply Hg; eauto. }
      apply missing; auto; [rewrite (cm_locks _ _ C2), Lk1; exact Hl| | |]; rewrite ?K4, ?K5, ?K6.
      - destruct (t_sources t) as [|d0 r0] eqn:Es.
        + destruct (t_dests t) as [|d1 r1] eqn:Ed; [contradiction|]. apply (Un (with_ends t (t_src t) (d_id d1))).
          * unfold participants. rewrite Es, Ed. left. reflexivity.
          * left. reflexivity.
        + rewrite (proj2 As) by discriminate. exact U0.
      - destruct (t_sources t) as [|d0 r0] eqn:Es.
        + rewrite (proj2 Ad) by (destruct (t_dests t); [contradiction|discriminate]). exact U0.
        + apply (Un (with_ends t (d_id d0) (t_dst t))).
          * unfold participants. rewrite Es. left. reflexivity.
          * right. reflexivity.
      - destruct Sp as [[H1 _]|[_ H1]]; [left; rewrite (proj2 As H1)|right; rewrite (proj2 Ad H1)]; apply S0. }
    destruct Bad as (er & Bad). rewrite !run_bindr. rewrite Bad. cbn [run fst snd would_apply pv_rejection pv_balances projections map].
    split; [|intros _ H; congruence]. split; [intros [_ H]; congruence|]. intros (t' & H). discriminate. }
  (* some legs *)
  assert (F' : lps <> []) by (inversion F; discriminate).
  set (lrs := lr0 :: lrs') in *.
  assert (Hun : forall l x, In l (participants t) -> names l x -> unguessed s0 x).
  { intros l x Il Nx. eapply unguessed_later; [apply (cm_later _ _ C1)|]. eapply Hg; eauto. }
  assert (Hone : one_name_each s0 (participants t)).
  { intros l l' x y Il Il' Nx Ny. destruct (Ho l l' x y Il Il' Nx Ny) as [O1 O2]. split; [|exact O2].
    intros Nxy b Hb1 Hb2. apply (calm_named _ _ _ _ _ C1) in Hb1. apply (calm_named _ _ _ _ _ C1) in Hb2. exact (O1 Nxy b Hb1 Hb2). }
  assert (M : sim s0 (participants t) [] [] s1).
  { apply sim0.
    - apply (cm_tidy _ _ C2 T1). - apply (cm_names _ _ C2 N1). - rewrite (cm_locks _ _ C2), Lk1. exact Hl.
    - destruct (cm_later _ _ C1) as [U1 G1]. destruct (cm_later _ _ C2) as [U2 G2]. destruct L1 as [U3 G3]. split; [congruence|lia].
    - intros x c. rewrite (calm_seen _ _ _ _ C1), (calm_seen _ _ _ _ C2). apply fresh_seen.
    - rewrite (cm_txns _ _ C1), (cm_txns _ _ C2). exact R1. }
  destruct (legs_sim cfg s0 (participants t) Hc (cm_tidy _ _ C1 Ht) Hun Hone n m (t_id tr) lps lrs F [] [] s1 M) as (r & E1 & H1).
  { apply Forall_forall. intros l Il. destruct (Leg l Il) as (l' & I1 & I2 & I3 & I4 & I5 & I6 & I7 & _). unfold leg_fine.
    split; [exists l'; unfold names; auto|]. split; [exists l'; unfold names; auto|]. split; [exact I5|]. split; [exact I6|]. split; [exact I7|].
    rewrite Forall_forall in Hs', Set_, Hi1. split; [destruct (Hs' l Il) as (_ & _ & H3); congruence|]. split; [exact (Set_ l Il)|].
    destruct (Hi1 l Il) as (j & Hj & Ej). rewrite Ej. split.
    - rewrite (cm_txns _ _ C2). apply (proj2 N1 j). lia.
    - intros i Hi E0. destruct (cm_later _ _ C2) as [U2 _]. rewrite U2 in E0. inversion E0 as [E0']. apply (proj1 N1) in E0'. lia. }
  { exact Hi2. } { exact Nrf. }
  { apply Forall_forall. intros l Il. rewrite Forall_forall in Hrf. destruct (Hrf l Il) as (j & _ & Ej).
    rewrite Ej, (cm_txns _ _ C2), R1. unfold leg_ref. rewrite K3. apply Hr. }
  rewrite !run_bindr, E1. cbn [fst snd]. cbv zeta in H1.
  destruct (run m (record_legs cfg lrs (t_id tr)) s1) as [s2 r2]. cbn [fst snd] in H1 |- *.
  destruct r as [[w' [er|]]|er].
  - destruct H1 as (er' & ->). cbn [fst snd run would_apply pv_rejection]. split; [|discriminate]. split; [intros [H _]; discriminate|]. intros (t' & H). discriminate.
  - destruct H1 as (-> & (refs' & H2) & H3 & H4 & _ & H6). cbn [fst snd run would_apply pv_rejection pv_balances].
    assert (Nw : projections w' <> []).
    { destruct (H3 lr0 (t_src lr0)) as [_ Ik]; [left; reflexivity|left; reflexivity|]. destruct w'; [destruct Ik|discriminate]. }
    split; [split; [eauto|intros _; split; [reflexivity|exact Nw]]|]. intros _ _. split.
    + intros q Iq. apply in_map_iff in Iq as ([k q'] & Eqq & Iq). simpl in Eqq. subst q'.
      assert (Ik : In k (map fst w')) by (apply (in_map fst w' (k, q)); exact Iq).
      destruct (H6 k Ik) as [[]|(l & Il & Nl)]. destruct (Leg l Il) as (l' & I1 & I2 & I3 & I4 & _ & _ & _ & I8).
      assert (Nl' : names l' k) by (unfold names in *; rewrite <- I2, <- I3; exact Nl).
      exists l', k. split; [exact I1|]. split; [exact Nl'|].
      assert (U : used (participants t) k (t_cur t)) by (exists l'; auto).
      assert (G : set_get k w' = Some q) by (apply get_in; [apply (sm_nodup _ _ _ _ _ H2)|exact Iq]).
      destruct (sm_in _ _ _ _ _ H2 k (t_cur t) q U G) as (b0 & b & _ & Q2 & _ & _ & Q5 & Q6).
      split; [apply (calm_about _ _ _ _ _ C1); exact Q2|]. exists b. split; [|exact Q6].
      destruct (H3 l k Il Nl) as [Th _]. rewrite I4, I8 in Th. unfold seen in Q5. unfold there in Th.
      destruct (view s2 k (t_cur t)) as [c|] eqn:V; [|congruence]. injection Q5 as ->. apply view_named, V.
    + intros l x Il Nx.
      assert (Cl : t_cur l = t_cur t) by (unfold participants in Il; destruct (t_sources t); apply in_map_iff in Il as (d9 & E9 & _); rewrite <- E9; reflexivity).
      assert (U : used (participants t) x (t_cur t)) by (exists l; auto).
      destruct (set_get x w') as [q|] eqn:G.
      * left. exists q. split.
        -- apply (in_map snd w' (x, q)). clear -G. induction w' as [|[k p] r IH]; simpl in G; [discriminate|].
           destruct (String.eqb_spec k x) as [->|]; [injection G as ->; left; reflexivity|right; auto].
        -- destruct (sm_in _ _ _ _ _ H2 x (t_cur t) q U G) as (b0 & b & _ & Q2 & _). apply (calm_about _ _ _ _ _ C1). exact Q2.
      * right. intros b Vb.
        assert (Sb : seen s0 x (t_cur t) = Some b) by (rewrite (calm_seen _ _ _ _ C1); unfold seen; rewrite Vb; reflexivity).
        destruct (sm_out _ _ _ _ _ H2 x (t_cur t) b U G Sb) as (b' & Q1 & Q2). exists b'. split; [|exact Q2].
        assert (Th : there s2 x (t_cur t)).
        { apply H4; [exact U|]. unfold there. rewrite (calm_view _ _ _ _ C2). change (view (after_fresh m s) x (t_cur t)) with (view s x (t_cur t)). rewrite Vb. discriminate. }
        unfold seen in Q1. unfold there in Th. destruct (view s2 x (t_cur t)) as [c|] eqn:V; [|congruence]. injection Q1 as ->. apply view_named, V.
  - destruct H1 as (er' & ->). cbn [fst snd run]. eauto.
Qed.
