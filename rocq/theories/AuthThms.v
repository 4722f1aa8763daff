(** The theorems about API keys. *)
From Coq Require Import ZArith List String Ascii Bool Lia.
From Verif Require Import Base AuthModel AuthSpec AuthProof AuthInv.
Import ListNotations.
Local Open Scope string_scope.
Local Open Scope list_scope.
Open Scope Z_scope.

Lemma let_in_entitled cfg es g : let y := play cfg es nothing in In g (y_log y) -> entitled cfg (y_keys y) g.
Proof. intros y H. exact (proj1 (s_log _ _ (sound_always cfg es) _ H)). Qed.

Lemma answered_let_in cfg es j : let y := play cfg es nothing in In j (y_jobs y) -> through (j_phase j) ->
  exists g, In g (y_log y) /\ g_req g = j_req j /\ entitled cfg (y_keys y) g.
Proof.
  intros y Hj T. destruct (s_through _ _ (sound_always cfg es) _ Hj T) as (g & A & B & _). exists g. split; [exact A|]. split; [exact B|].
  exact (let_in_entitled cfg es g A).
Qed.

Lemma own_lists cfg es j l : let y := play cfg es nothing in In j (y_jobs y) -> j_phase j = PEnd (Listed l) ->
  exists g, In g (y_log y) /\ g_req g = j_req j /\ Forall (of_owner g (q_owner (j_req j))) l.
Proof. intros y Hj E. exact (s_lists _ _ (sound_always cfg es) _ _ Hj E). Qed.
Lemma own_revokes cfg es k : let y := play cfg es nothing in In k (y_keys y) -> k_revoked k = true ->
  exists g, In g (y_log y) /\ q_method (g_req g) = "DELETE" /\ q_path (g_req g) = ("/api-keys/" ++ k_id k)%string
    /\ of_owner g (q_owner (g_req g)) k.
Proof. intros y Hk R. exact (s_revoked _ _ (sound_always cfg es) _ Hk R). Qed.

(** ** Families of keys *)

(** Parents come before their children. *)
Definition parents_first (l : list akey) : Prop :=
  forall l1 k l2, l = l1 ++ k :: l2 -> forall id, k_by k = Some id -> exists p, In p l1 /\ k_id p = id.

Lemma parents_snoc l k : parents_first l -> (forall id, k_by k = Some id -> exists p, In p l /\ k_id p = id) -> parents_first (l ++ [k]).
Proof.
  intros P H l1 k' l2 E id B. destruct l2 as [|x l2].
  - apply app_inj_tail in E. destruct E as [<- <-]. auto.
  - destruct (exists_last (l := x :: l2) ltac:(discriminate)) as (l3 & z & E3). rewrite E3 in E.
    change (l1 ++ k' :: l3 ++ [z]) with (l1 ++ (k' :: l3) ++ [z]) in E. rewrite app_assoc in E. apply app_inj_tail in E. destruct E as [E _].
    exact (P _ _ _ E _ B).
Qed.
Lemma parents_map f l : (forall k, same k (f k)) -> parents_first l -> parents_first (map f l).
Proof.
  intros F P l1 k l2 E id B. apply map_eq_app in E. destruct E as (a & b & -> & <- & E2). apply map_eq_cons in E2.
  destruct E2 as (k0 & b' & -> & <- & <-). destruct (F k0) as (S1&S2&S3&S4&S5&S6&S7). rewrite <- S6 in B.
  destruct (P _ _ _ eq_refl _ B) as (p & Hp & Ep). exists (f p). split; [apply in_map; exact Hp|]. destruct (F p) as (T1 & _). congruence.
Qed.

Lemma keys_step cfg x j y : sound cfg y -> In j (y_jobs y) ->
  let y' := fst (step cfg x j y) in
  y_keys y' = y_keys y
  \/ (exists f, (forall k, same k (f k)) /\ y_keys y' = map f (y_keys y))
  \/ (exists k, y_keys y' = y_keys y ++ [k] /\ forall id, k_by k = Some id -> exists p, In p (y_keys y) /\ k_id p = id).
Proof.
  intros S0 Hj. unfold step. destruct (j_phase j) as [| | |k|k|k|w|pre|pre|o] eqn:Ph; cbn [fst]; auto.
  - destruct (negb (x_ok x)); [auto|]. destruct (fresh _ _); auto.
  - destruct (x_ok x); auto.
  - destruct (judge _ _ _); auto.
  - unfold serve. destruct (String.eqb _ "hooks"); [auto|]. destruct (ask_of (j_req j)); [| | |auto].
    + destruct (String.eqb _ ""); [auto|]. destruct (resolve_owner _ _ _); [|auto]. destruct (negb _); [auto|]. destruct (negb _); [auto|].
      destruct (existsb _ _); [auto|]. right. right. eexists. split; [reflexivity|]. simpl. intros id E. destruct w as [| |c]; try discriminate.
      injection E as <-. destruct (s_jobs _ _ S0 _ c Hj ltac:(rewrite Ph; reflexivity)) as [(p & Hp & E1 & _) _]. exists p. auto.
    + destruct (resolve_owner _ _ _); auto.
    + destruct (resolve_owner _ _ _) as [owner|]; [|auto]. destruct (negb _); [auto|]. destruct (find _ _); [|auto]. right. left.
      eexists. split; [|reflexivity]. intros k. cbv beta. match goal with |- same _ (if ?b then _ else _) => destruct b end; [|apply same_refl]. unfold same, revoke_key. simpl. tauto.
  - destruct (x_ok x); auto.
Qed.
Lemma parents_always cfg es : parents_first (y_keys (play cfg es nothing)).
Proof.
  assert (H : forall es y, sound cfg y -> parents_first (y_keys y) -> parents_first (y_keys (play cfg es y))).
  { clear es. induction es as [|e es IH]; intros y S0 P; [exact P|]. cbn [play]. apply IH; [apply sound_happen; exact S0|].
    destruct e as [q|i x|d|p|n p]; cbn [happen]; auto.
    - destruct (arrival cfg q); exact P.
    - destruct (nth_error (y_jobs y) i) as [j|] eqn:E; [|exact P]. apply nth_error_In in E. pose proof (keys_step cfg x j y S0 E) as K.
      destruct (step cfg x j y) as [y' ph]. simpl in K |- *. destruct K as [K|[(f & F & K)|(k & K & B)]]; rewrite K; [exact P|exact (parents_map _ _ F P)|].
      exact (parents_snoc _ _ P B). }
  apply H; [apply sound_nothing|]. intros l1 k l2 E. destruct l1; discriminate.
Qed.

Lemma parent_of cfg es k id : let y := play cfg es nothing in In k (y_keys y) -> k_by k = Some id ->
  exists p, In p (y_keys y) /\ k_id p = id /\ k_owner p = k_owner k
    /\ forall res act, grants (k_scopes k) res act -> grants (k_scopes p) res act.
Proof.
  intros y Hk B. pose proof (sound_always cfg es) as S0. fold y in S0.
  destruct (s_created _ _ S0 _ Hk) as (g & Hg & _ & _ & _ & W). destruct (g_who g) as [| |c]; [contradiction|congruence|].
  destruct W as (W1 & W2 & (p & Hp & S1&S2&S3&S4&S5&S6&S7) & _ & W4). exists p. split; [exact Hp|]. split; [congruence|]. split; [congruence|].
  rewrite <- S4. exact W4.
Qed.

Lemma family cfg es k : let y := play cfg es nothing in In k (y_keys y) ->
  exists r, descends (y_keys y) k r /\ k_by r = None /\ k_owner r = k_owner k
    /\ forall res act, grants (k_scopes k) res act -> grants (k_scopes r) res act.
Proof.
  intros y Hk. pose proof (parents_always cfg es) as P. fold y in P. pose proof (sound_always cfg es) as S0. fold y in S0.
  apply in_split in Hk. destruct Hk as (l1 & l2 & E). remember (List.length l1) as n eqn:L. revert k l1 l2 E L.
  induction n as [n IH] using lt_wf_ind. intros k l1 l2 E L.
  assert (Hk : In k (y_keys y)) by (rewrite E; apply in_app_iff; right; left; reflexivity).
  destruct (k_by k) as [id|] eqn:B.
  - destruct (parent_of cfg es k id Hk B) as (p & Hp & Ep & Eo & Gr). fold y in Hp.
    destruct (P _ _ _ E _ B) as (p' & Hp' & Ep').
    assert (p' = p).
    { apply (by_id (y_keys y)); [exact (s_ids _ _ S0)| |exact Hp|congruence]. rewrite E. apply in_app_iff. auto. }
    subst p'. apply in_split in Hp'. destruct Hp' as (a & b & Ea).
    assert (Len : (List.length a < n)%nat).
    { rewrite L, Ea, app_length. simpl. lia. }
    destruct (IH _ Len p a (b ++ k :: l2)) as (r & D & R1 & R2 & R3).
    { rewrite E, Ea, <- app_assoc. reflexivity. } { reflexivity. }
    exists r. split; [|split; [exact R1|split; [congruence|auto]]]. apply (Child _ k p r); auto. congruence.
  - exists k. split; [apply Itself; exact Hk|]. auto.
Qed.

(** ** Revocation *)

Definition longest (cfg : aconfig) : Z := Z.max 0 (c_extra cfg).
(** Nothing in a state lies in the future, or further ahead than it may. *)
Record timely (cfg : aconfig) (y : system) : Prop := {
  t_jobs : forall j, In j (y_jobs y) -> j_start j <= y_now y;
  t_shared : forall p c t, y_shared y p = Some (c, t) -> t <= y_now y + shared_ttl;
  t_local : forall n p c t, y_local y n p = Some (c, t) -> t <= y_now y + local_ttl + longest cfg }.

Lemma extra_le cfg x : 0 <= extra cfg x <= longest cfg.
Proof. unfold extra, longest. lia. Qed.

Lemma serve_rest x j w y : let y' := fst (serve x (j_req j) w y) in
  y_now y' = y_now y /\ y_shared y' = y_shared y /\ y_local y' = y_local y /\ y_log y' = y_log y.
Proof.
  unfold serve. destruct (String.eqb _ "hooks"); [auto|]. destruct (ask_of (j_req j)); [| | |auto].
  - destruct (String.eqb _ ""); [auto|]. destruct (resolve_owner _ _ _); [|auto]. destruct (negb _); [auto|]. destruct (negb _); [auto|].
    destruct (existsb _ _); auto.
  - destruct (resolve_owner _ _ _); auto.
  - destruct (resolve_owner _ _ _) as [owner|]; [|auto]. destruct (negb _); [auto|]. destruct (find _ _); auto.
Qed.
Lemma step_now cfg x j y : y_now (fst (step cfg x j y)) = y_now y.
Proof.
  unfold step. destruct (j_phase j); cbn [fst]; auto.
  - destruct (negb _); [auto|]. destruct (fresh _ _); auto.
  - destruct (x_ok x); auto.
  - destruct (judge _ _ _); auto.
  - apply serve_rest.
  - destruct (x_ok x); auto.
Qed.
Lemma step_shared cfg x j y p c t : y_shared (fst (step cfg x j y)) p = Some (c, t) ->
  y_shared y p = Some (c, t) \/ (j_phase j = PKeepShared c /\ t = y_now y + shared_ttl).
Proof.
  unfold step. destruct (j_phase j) as [| | |k|k|k|w|pre|pre|o] eqn:Ph; cbn [fst]; auto.
  - destruct (negb _); [auto|]. destruct (fresh _ _); auto.
  - destruct (x_ok x); [|auto]. simpl. intros E. apply put_some in E. destruct E as [E|[_ E]]; [auto|]. injection E as -> <-. auto.
  - destruct (judge _ _ _); auto.
  - rewrite (proj1 (proj2 (serve_rest x j w y))). auto.
  - destruct (x_ok x); [|auto]. simpl. intros E. apply put_some in E. destruct E as [E|[_ E]]; [auto|discriminate].
Qed.
Lemma step_local cfg x j y n p c t : y_local (fst (step cfg x j y)) n p = Some (c, t) ->
  y_local y n p = Some (c, t)
  \/ (t = y_now y + local_ttl + extra cfg x
      /\ (j_phase j = PKeepLocal c \/ (exists t', j_phase j = PShared /\ y_shared y (key_prefix (q_key (j_req j))) = Some (c, t') /\ y_now y < t'))).
Proof.
  assert (K : forall c', y_local (keep_local cfg x (q_on (j_req j)) (key_prefix (q_key (j_req j))) c' y) n p = Some (c, t) ->
    y_local y n p = Some (c, t) \/ (t = y_now y + local_ttl + extra cfg x /\ c = c')).
  { intros c' E. simpl in E. apply put_local_some in E. destruct E as [E|[-> E]]; [auto|]. apply put_some in E. destruct E as [E|[_ E]]; [auto|].
    injection E as -> <-. auto. }
  unfold step. destruct (j_phase j) as [| | |k|k|k|w|pre|pre|o] eqn:Ph; cbn [fst]; auto.
  - destruct (negb _); [auto|]. destruct (fresh _ _) as [c'|] eqn:F; [|auto]. intros E. apply K in E. destruct E as [E|[-> ->]]; [auto|].
    right. split; [reflexivity|]. right. destruct (fresh_some _ _ _ F) as (t' & A & B). exists t'. auto.
  - intros E. apply K in E. destruct E as [E|[-> ->]]; auto.
  - destruct (x_ok x); auto.
  - destruct (judge _ _ _); auto.
  - rewrite (proj1 (proj2 (proj2 (serve_rest x j w y)))). auto.
  - intros E. simpl in E. apply put_local_some in E. destruct E as [E|[-> E]]; [auto|]. apply put_some in E. destruct E as [E|[_ E]]; [auto|discriminate].
  - destruct (x_ok x); auto.
Qed.

Lemma timely_happen cfg e y : timely cfg y -> timely cfg (happen cfg e y).
Proof.
  intros [T1 T2 T3]. destruct e as [q|i x|d|p|n p]; cbn [happen].
  - assert (A : timely cfg (with_jobs (y_jobs y ++ [{| j_req := q; j_start := y_now y; j_phase := arrival cfg q |}]) y)).
    { constructor; simpl; auto. intros j H. apply in_app_iff in H. destruct H as [H|[<-|[]]]; [auto|]. simpl. lia. }
    destruct A. destruct (arrival cfg q); constructor; auto.
  - destruct (nth_error (y_jobs y) i) as [j|] eqn:E; [|constructor; auto]. apply nth_error_In in E.
    pose proof (step_now cfg x j y) as N. pose proof (step_shared cfg x j y) as A. pose proof (step_local cfg x j y) as B.
    destruct (step cfg x j y) as [y' ph]. simpl in N, A, B. constructor; simpl; rewrite N.
    + intros j' H. apply in_set_at in H. destruct H as [->|H]; simpl; auto.
    + intros p c t H. apply A in H. destruct H as [H|[_ ->]]; [eauto|lia].
    + intros n p c t H. apply B in H. destruct H as [H|[-> _]]; [eauto|]. pose proof (extra_le cfg x). lia.
  - constructor; simpl.
    + intros j H. specialize (T1 _ H). lia.
    + intros p c t H. specialize (T2 _ _ _ H). lia.
    + intros n p c t H. specialize (T3 _ _ _ _ H). lia.
  - constructor; simpl; auto. intros p' c t H. apply put_some in H. destruct H as [H|[_ H]]; [eauto|discriminate].
  - constructor; simpl; auto. intros m p' c t H. apply put_local_some in H. destruct H as [H|[-> H]]; [eauto|].
    apply put_some in H. destruct H as [H|[_ H]]; [eauto|discriminate].
Qed.
Lemma timely_play cfg es : forall y, timely cfg y -> timely cfg (play cfg es y).
Proof. induction es as [|e es IH]; intros y H; [exact H|]. apply IH, timely_happen, H. Qed.
Lemma timely_always cfg es : timely cfg (play cfg es nothing).
Proof. apply timely_play. constructor; simpl; try discriminate; contradiction. Qed.

Section Revoked.
Variables (cfg : aconfig) (sec : string) (t1 d : Z) (old : list entry).
Hypothesis Hd : 0 <= d.

Definition stale (c : akey) : Prop := k_secret c = sec /\ k_revoked c = false.
Definition kept (t : Z) : Prop := t <= t1 + d + shared_ttl + local_ttl + longest cfg.
Record fading (y : system) : Prop := {
  f_sound : sound cfg y;
  f_timely : timely cfg y;
  f_key : exists k, In k (y_keys y) /\ k_secret k = sec /\ k_revoked k = true;
  f_jobs : forall j c, In j (y_jobs y) -> stale c ->
     ((j_phase j = PKeepLocal c \/ j_phase j = PKeepShared c) -> j_start j <= t1)
     /\ (j_phase j = PJudge c -> j_start j < t1 + d + shared_ttl + local_ttl + longest cfg);
  f_shared : forall p c t, y_shared y p = Some (c, t) -> stale c -> t <= t1 + d + shared_ttl;
  f_local : forall n p c t, y_local y n p = Some (c, t) -> stale c -> kept t;
  f_log : exists new, y_log y = (old ++ new)%list /\ forall g c, In g new -> g_who g = Holder c -> q_key (g_req g) = sec ->
     g_at g < t1 + (d + d) + shared_ttl + local_ttl + longest cfg }.

Lemma keys_happen e y : sound cfg y -> grows (y_keys y) (y_keys (happen cfg e y)).
Proof.
  intros S0. destruct e as [q|i x|dd|p|n p]; cbn [happen]; try apply grows_refl.
  - destruct (arrival cfg q); apply grows_refl.
  - destruct (nth_error (y_jobs y) i) as [j|] eqn:E; [|apply grows_refl]. apply nth_error_In in E. pose proof (keys_step cfg x j y S0 E) as K.
    destruct (step cfg x j y) as [y' ph]. simpl in K |- *. destruct K as [K|[(f & F & K)|(k & K & B)]]; rewrite K; [apply grows_refl| |].
    + intros k Hk. exists (f k). split; [apply in_map; exact Hk|apply F].
    + intros k' Hk. exists k'. split; [apply in_app_iff; auto|apply same_refl].
Qed.

Lemma fading_happen e y : prompt d y -> fading y -> fading (happen cfg e y).
Proof.
  intros Pr F. pose proof (sound_happen cfg e y (f_sound _ F)) as S1. pose proof (timely_happen cfg e y (f_timely _ F)) as T1.
  assert (K1 : exists k, In k (y_keys (happen cfg e y)) /\ k_secret k = sec /\ k_revoked k = true).
  { destruct (f_key _ F) as (k & Hk & A & B). destruct (keys_happen e y (f_sound _ F) _ Hk) as (k' & Hk' & E1&E2&E3&E4&E5&E6&E7).
    exists k'. split; [exact Hk'|]. split; [congruence|auto]. }
  destruct F as [F1 F2 F3 F4 F5 F6 F7]. destruct F7 as (new & L & F7).
  assert (P0 : 0 < shared_ttl /\ 0 < local_ttl /\ 0 <= longest cfg) by (unfold shared_ttl, local_ttl, longest; lia).
  destruct e as [q|i x|dd|p|n p]; constructor; auto; clear S1 T1 K1; cbn [happen].
  - assert (A : forall j c, In j (y_jobs y ++ [{| j_req := q; j_start := y_now y; j_phase := arrival cfg q |}])%list -> stale c ->
      ((j_phase j = PKeepLocal c \/ j_phase j = PKeepShared c) -> j_start j <= t1) /\ (j_phase j = PJudge c -> j_start j < t1 + d + shared_ttl + local_ttl + longest cfg)).
    { intros j c Hj Sc. apply in_app_iff in Hj. destruct Hj as [Hj|[<-|[]]]; [auto|]. simpl. unfold arrival.
      repeat match goal with |- context [if ?b then _ else _] => destruct b end; (split; [intros [H|H]; discriminate|intros H; discriminate]). }
    destruct (arrival cfg q); exact A.
  - destruct (arrival cfg q); exact F5.
  - destruct (arrival cfg q); exact F6.
  - assert (A : forall w, arrival cfg q = PServe w -> forall c, w <> Holder c).
    { unfold arrival. repeat match goal with |- context [if ?b then _ else _] => destruct b end; intros w E c; congruence. }
    destruct (arrival cfg q) as [| | | | | |w| | |o]; try (exists new; split; [exact L|exact F7]).
    simpl. exists (new ++ [{| g_req := q; g_who := w; g_at := y_now y |}])%list. split; [rewrite L, app_assoc; reflexivity|].
    intros g c Hg Hw. apply in_app_iff in Hg. destruct Hg as [Hg|[<-|[]]]; [eauto|]. destruct (A w eq_refl c Hw).
  - destruct (nth_error (y_jobs y) i) as [j|] eqn:E; [|exact F4]. apply nth_error_In in E.
    destruct (step cfg x j y) as [y' ph] eqn:St. simpl. intros j' c Hj' Sc. apply in_set_at in Hj'. destruct Hj' as [->|Hj']; [|auto].
    simpl. pose proof (t_jobs _ _ F2 _ E) as Tj. pose proof (Pr _ E) as Prj.
    unfold step in St. destruct (j_phase j) as [| | |k|k|k|w|pre|pre|o] eqn:Ph.
    + injection St as <- <-. destruct (fresh _ _) as [c'|] eqn:Fr; [|split; [intros [H|H]; discriminate|discriminate]].
      destruct (String.eqb _ _); (split; [intros [H|H]; discriminate|]); [|discriminate]. intros H. injection H as ->.
      destruct (fresh_some _ _ _ Fr) as (t & A & B). specialize (F6 _ _ _ _ A Sc). unfold kept in F6. lia.
    + destruct (negb _); [injection St as <- <-; split; [intros [H|H]; discriminate|discriminate]|].
      destruct (fresh _ _) as [c'|] eqn:Fr; [|injection St as <- <-; split; [intros [H|H]; discriminate|discriminate]].
      injection St as <- <-. destruct (String.eqb _ _); (split; [intros [H|H]; discriminate|]); [|discriminate]. intros H. injection H as ->.
      destruct (fresh_some _ _ _ Fr) as (t & A & B). specialize (F5 _ _ _ A Sc). lia.
    + injection St as <- <-. destruct (negb _); [split; [intros [H|H]; discriminate|discriminate]|].
      destruct (find _ _) as [k|] eqn:Fi; (split; [|discriminate]); intros [H|H]; try discriminate. injection H as ->.
      exfalso. apply find_some in Fi. destruct Fi as [Fi _]. destruct F3 as (k & Hk & A & B). destruct Sc as [Sc1 Sc2].
      rewrite (by_secret _ _ _ (s_secrets _ _ F1) Hk Fi) in B by congruence. congruence.
    + injection St as <- <-. split; [|discriminate]. intros [H|H]; [discriminate|]. injection H as ->. apply (proj1 (F4 _ _ E Sc)). auto.
    + injection St as <- <-. split; [intros [H|H]; discriminate|]. intros H. injection H as ->.
      assert (j_start j <= t1) by (apply (proj1 (F4 _ _ E Sc)); auto). lia.
    + destruct (judge _ _ _) eqn:Ju; injection St as <- <-; try (split; [intros [H|H]; discriminate|discriminate]);
        exfalso; revert Ju; unfold judge; repeat match goal with |- context [if ?b then _ else _] => destruct b end; discriminate.
    + assert (A : forall c, ph <> PKeepLocal c /\ ph <> PKeepShared c /\ ph <> PJudge c).
      { intros c'. revert St. unfold serve. destruct (String.eqb _ "hooks"); [intros H; injection H as <- <-; repeat split; discriminate|].
        destruct (ask_of (j_req j)); [| | |intros H; injection H as <- <-; repeat split; discriminate].
        - destruct (String.eqb _ ""); [intros H; injection H as <- <-; repeat split; discriminate|].
          destruct (resolve_owner _ _ _); [|intros H; injection H as <- <-; repeat split; discriminate].
          destruct (negb _); [intros H; injection H as <- <-; repeat split; discriminate|].
          destruct (negb _); [intros H; injection H as <- <-; repeat split; discriminate|].
          destruct (existsb _ _); intros H; injection H as <- <-; repeat split; discriminate.
        - destruct (resolve_owner _ _ _); intros H; injection H as <- <-; repeat split; discriminate.
        - destruct (resolve_owner _ _ _); [|intros H; injection H as <- <-; repeat split; discriminate].
          destruct (negb _); [intros H; injection H as <- <-; repeat split; discriminate|].
          destruct (find _ _); intros H; injection H as <- <-; repeat split; discriminate. }
      destruct (A c) as (A1 & A2 & A3). split; [intros [H|H]; contradiction|contradiction].
    + injection St as <- <-. split; [intros [H|H]; discriminate|discriminate].
    + injection St as <- <-. split; [intros [H|H]; discriminate|discriminate].
    + injection St as <- <-. split; [intros [H|H]; discriminate|discriminate].
  - destruct (nth_error (y_jobs y) i) as [j|] eqn:E; [|exact F5]. apply nth_error_In in E.
    pose proof (step_shared cfg x j y) as A. destruct (step cfg x j y) as [y' ph]. simpl in A |- *. intros p c t H Sc.
    apply A in H. destruct H as [H|[H ->]]; [eauto|]. assert (j_start j <= t1) by (apply (proj1 (F4 _ _ E Sc)); auto).
    pose proof (Pr _ E) as Prj. rewrite H in Prj. specialize (Prj I). lia.
  - destruct (nth_error (y_jobs y) i) as [j|] eqn:E; [|exact F6]. apply nth_error_In in E.
    pose proof (step_local cfg x j y) as A. destruct (step cfg x j y) as [y' ph]. simpl in A |- *. intros n p c t H Sc. pose proof (extra_le cfg x).
    apply A in H. unfold kept. destruct H as [H|[-> [H|(t' & _ & H & H')]]]; [exact (F6 _ _ _ _ H Sc)| |].
    + assert (j_start j <= t1) by (apply (proj1 (F4 _ _ E Sc)); auto). pose proof (Pr _ E) as Prj. rewrite H in Prj. specialize (Prj I). lia.
    + specialize (F5 _ _ _ H Sc). lia.
  - destruct (nth_error (y_jobs y) i) as [j|] eqn:E; [|exists new; split; [exact L|exact F7]]. apply nth_error_In in E.
    pose proof (Pr _ E) as Prj. destruct (step cfg x j y) as [y' ph] eqn:St. simpl.
    assert (Log : y_log y' = y_log y -> exists new0, y_log y' = (old ++ new0)%list /\ forall g c, In g new0 -> g_who g = Holder c -> q_key (g_req g) = sec ->
        g_at g < t1 + (d + d) + shared_ttl + local_ttl + longest cfg).
    { intros ->. exists new. auto. }
    unfold step in St. destruct (j_phase j) as [| | |k|k|k|w|pre|pre|o] eqn:Ph; try (injection St as <- <-; apply Log; reflexivity).
    + apply Log. destruct (negb _); [injection St as <- <-; reflexivity|]. destruct (fresh _ _); injection St as <- <-; reflexivity.
    + apply Log. injection St as <- <-. destruct (x_ok x); reflexivity.
    + destruct (judge _ _ _) as [| | | | | |w| | |o] eqn:Ju; try (injection St as <- <-; apply Log; reflexivity). injection St as <- <-. simpl.
      destruct (s_jobs _ _ F1 _ k E ltac:(rewrite Ph; reflexivity)) as [Hc Hs]. destruct (judge_serves cfg _ _ _ _ _ Hc Hs Ju) as (-> & _ & Rv & _).
      exists (new ++ [{| g_req := j_req j; g_who := Holder k; g_at := y_now y |}])%list. split; [rewrite L, app_assoc; reflexivity|].
      intros g c Hg Hw Hq. apply in_app_iff in Hg. destruct Hg as [Hg|[<-|[]]]; [eauto|]. cbn [g_req g_who g_at] in *.
      assert (Sc : stale k) by (split; congruence). pose proof (proj2 (F4 _ _ E Sc) Ph). specialize (Prj I). lia.
    + apply Log. pose proof (serve_rest x j w y) as R. rewrite St in R. apply R.
    + apply Log. injection St as <- <-. destruct (x_ok x); reflexivity.
  - exists new. split; [exact L|exact F7].
  - simpl. intros p' c t H. apply put_some in H. destruct H as [H|[_ H]]; [eauto|discriminate].
  - exists new. split; [exact L|exact F7].
  - simpl. intros m p' c t H. apply put_local_some in H. destruct H as [H|[-> H]]; [eauto|]. apply put_some in H. destruct H as [H|[_ H]]; [eauto|discriminate].
  - exists new. split; [exact L|exact F7].
Qed.
Lemma fading_play es : forall y, all_along (prompt d) cfg es y -> fading y -> fading (play cfg es y).
Proof. induction es as [|e es IH]; intros y [P A] F; [exact F|]. cbn [play]. apply IH; [exact A|]. apply fading_happen; auto. Qed.
End Revoked.

Lemma revoked_soon cfg d es1 es2 k : 0 <= d ->
  let y1 := play cfg es1 nothing in let y2 := play cfg es2 y1 in
  In k (y_keys y1) -> k_revoked k = true -> all_along (prompt d) cfg es2 y1 ->
  exists new, y_log y2 = (y_log y1 ++ new)%list /\
  forall g c, In g new -> g_who g = Holder c -> q_key (g_req g) = k_secret k ->
    g_at g < y_now y1 + 360 + Z.max 0 (c_extra cfg) + 2 * d.
Proof.
  intros Hd y1 y2 Hk R A. pose proof (timely_always cfg es1) as T. fold y1 in T.
  assert (F : fading cfg (k_secret k) (y_now y1) d (y_log y1) y1).
  { constructor.
    - apply sound_always.
    - exact T.
    - exists k. auto.
    - intros j c Hj _. pose proof (t_jobs _ _ T _ Hj). unfold shared_ttl, local_ttl, longest. split; intros _; lia.
    - intros p c t H _. pose proof (t_shared _ _ T _ _ _ H). lia.
    - intros n p c t H _. pose proof (t_local _ _ T _ _ _ _ H). unfold kept, shared_ttl in *. lia.
    - exists []. rewrite app_nil_r. split; [reflexivity|]. intros g c []. }
  pose proof (fading_play cfg (k_secret k) (y_now y1) d (y_log y1) Hd es2 y1 A F) as F2. fold y2 in F2.
  destruct (f_log _ _ _ _ _ _ F2) as (new & L & B). exists new. split; [exact L|]. intros g c Hg Hw Hq. specialize (B g c Hg Hw Hq).
  unfold shared_ttl, local_ttl, longest in B. lia.
Qed.

(** ** Hooks *)

Definition hooks_ok (y : system) : Prop := forall j, In j (y_jobs y) -> first_part (q_path (j_req j)) = "hooks" ->
  match j_phase j with
  | PDropLocal _ | PDropShared _ => False
  | PEnd (Denied _) => True
  | PEnd _ => exists g, In g (y_log y) /\ g_req g = j_req j /\ g_who g = Master
  | _ => True
  end.
Lemma hooks_happen cfg e y : sound cfg y -> hooks_ok y -> hooks_ok (happen cfg e y).
Proof.
  intros S0 H. destruct e as [q|i x|d|p|n p]; cbn [happen]; try exact H.
  - intros j Hj Hp. assert (Hin : In j (y_jobs y ++ [{| j_req := q; j_start := y_now y; j_phase := arrival cfg q |}])) by
      (destruct (arrival cfg q); exact Hj). apply in_app_iff in Hin. destruct Hin as [Hin|[<-|[]]].
    + specialize (H _ Hin Hp). destruct (j_phase j) as [| | | | | | | | |[| | |]]; auto;
        destruct H as (g & A & B); exists g; (split; [|exact B]); destruct (arrival cfg q); auto; apply in_app_iff; auto.
    + simpl. unfold arrival. repeat match goal with |- context [if ?b then _ else _] => destruct b end; exact I.
  - destruct (nth_error (y_jobs y) i) as [j|] eqn:E; [|exact H]. apply nth_error_In in E.
    destruct (step cfg x j y) as [y' ph] eqn:St. intros j' Hj' Hp. simpl in Hj'. apply in_set_at in Hj'.
    assert (Old : forall g, In g (y_log y) -> In g (y_log y')).
    { intros g Hg. revert St. unfold step. destruct (j_phase j) as [| | |k|k|k|w|pre|pre|o]; try (intros St; injection St as <- <-; exact Hg).
      - destruct (negb _); [intros St; injection St as <- <-; exact Hg|]. destruct (fresh _ _); intros St; injection St as <- <-; exact Hg.
      - intros St. injection St as <- <-. destruct (x_ok x); exact Hg.
      - destruct (judge _ _ _); intros St; injection St as <- <-; try exact Hg. simpl. apply in_app_iff. auto.
      - intros St. pose proof (serve_rest x j w y) as (_ & _ & _ & L). rewrite St in L. simpl in L. rewrite L. exact Hg.
      - intros St. injection St as <- <-. destruct (x_ok x); exact Hg. }
    destruct Hj' as [->|Hj'].
    + simpl in *. specialize (H _ E Hp). unfold step in St. destruct (j_phase j) as [| | |k|k|k|w|pre|pre|o] eqn:Ph; try contradiction.
      * injection St as <- <-. destruct (fresh _ _) as [c|]; [destruct (String.eqb _ _)|]; exact I.
      * destruct (negb _); [injection St as <- <-; exact I|]. destruct (fresh _ _) as [c|]; injection St as <- <-; [destruct (String.eqb _ _)|]; exact I.
      * injection St as <- <-. destruct (negb _); [exact I|]. destruct (find _ _); exact I.
      * injection St as <- <-. exact I.
      * injection St as <- <-. exact I.
      * destruct (judge _ _ _) as [| | | | | |w| | |o] eqn:Ju; injection St as <- <-; try exact I;
          revert Ju; unfold judge; repeat match goal with |- context [if ?b then _ else _] => destruct b end; intros Ju; try discriminate;
          injection Ju as <-; exact I.
      * unfold serve in St. rewrite Hp in St. simpl in St. injection St as <- <-. destruct w as [| |c]; try exact I.
        destruct (s_through _ _ S0 _ E ltac:(rewrite Ph; exact I)) as (g & A & B & C). exists g. split; [exact A|]. split; [exact B|]. apply C. exact Ph.
      * injection St as <- <-. exact H.
    + specialize (H _ Hj' Hp). simpl. destruct (j_phase j') as [| | | | | | | | |[| | |]]; auto; destruct H as (g & A & B); exists g; split; auto.
Qed.
Lemma hooks_always cfg es : hooks_ok (play cfg es nothing).
Proof.
  assert (H : forall es y, sound cfg y -> hooks_ok y -> hooks_ok (play cfg es y)).
  { clear es. induction es as [|e es IH]; intros y A B; [exact B|]. cbn [play]. apply IH; [apply sound_happen; exact A|apply hooks_happen; auto]. }
  apply H; [apply sound_nothing|]. intros j [].
Qed.

Lemma hooks_master cfg es j o : let y := play cfg es nothing in
  In j (y_jobs y) -> first_part (q_path (j_req j)) = "hooks" -> j_phase j = PEnd o -> (forall code, o <> Denied code) ->
  q_key (j_req j) = c_secret cfg /\ c_secret cfg <> "".
Proof.
  intros y Hj Hp E N. pose proof (hooks_always cfg es j Hj Hp) as H. rewrite E in H.
  destruct o as [code| | |]; [destruct (N code eq_refl)|..]; destruct H as (g & A & B & C);
    pose proof (let_in_entitled cfg es g A) as En; unfold entitled in En; rewrite C, B in En; exact En.
Qed.
