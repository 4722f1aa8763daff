(** What holds of keys, copies, requests and log in every history. *)
From Coq Require Import ZArith List String Ascii Bool Lia.
From Verif Require Import Base AuthModel AuthSpec AuthProof.
Import ListNotations.
Local Open Scope string_scope.
Open Scope Z_scope.

(** The same key, up to having been revoked since. *)
Definition same (c k : akey) : Prop :=
  k_id c = k_id k /\ k_secret c = k_secret k /\ k_owner c = k_owner k /\ k_scopes c = k_scopes k
  /\ k_expires c = k_expires k /\ k_by c = k_by k /\ (k_revoked c = true -> k_revoked k = true).
Lemma same_refl k : same k k.
Proof. unfold same. tauto. Qed.
Lemma same_trans a b c : same a b -> same b c -> same a c.
Proof. unfold same. intros (A1&A2&A3&A4&A5&A6&A7) (B1&B2&B3&B4&B5&B6&B7). repeat split; try congruence; auto. Qed.

Definition copy (keys : list akey) (c : akey) : Prop := exists k, In k keys /\ same c k.
(** Keys are added and revoked, nothing else. *)
Definition grows (l l' : list akey) : Prop := forall k, In k l -> exists k', In k' l' /\ same k k'.
Lemma grows_refl l : grows l l.
Proof. intros k H. exists k. split; [exact H|apply same_refl]. Qed.
Lemma copy_grows l l' c : grows l l' -> copy l c -> copy l' c.
Proof. intros G (k & Hk & E). destruct (G _ Hk) as (k' & Hk' & E'). exists k'. split; [exact Hk'|exact (same_trans _ _ _ E E')]. Qed.

Definition phase_copy (p : phase) : option akey :=
  match p with PKeepLocal k | PKeepShared k | PJudge k | PServe (Holder k) => Some k | _ => None end.

(** The request that brought about what is in the state. *)
Definition revoked_by (cfg : aconfig) (log : list entry) (k : akey) : Prop :=
  exists g, In g log /\ q_method (g_req g) = "DELETE" /\ q_path (g_req g) = "/api-keys/" ++ k_id k /\ of_owner g (q_owner (g_req g)) k.
Definition created_by (keys : list akey) (log : list entry) (k : akey) : Prop :=
  exists g, In g log /\ q_method (g_req g) = "POST" /\ q_path (g_req g) = "/api-keys" /\ q_scopes (g_req g) = k_scopes k
    /\ match g_who g with
       | Master => k_by k = None
       | Holder c => k_by k = Some (k_id c) /\ k_owner k = k_owner c /\ copy keys c /\ g_at g < k_expires c
           /\ (forall res act, grants (k_scopes k) res act -> grants (k_scopes c) res act)
       | Anyone => False
       end.

Record sound (cfg : aconfig) (y : system) : Prop := {
  s_shared : forall p c t, y_shared y p = Some (c, t) -> copy (y_keys y) c;
  s_local : forall n p c t, y_local y n p = Some (c, t) -> copy (y_keys y) c;
  s_jobs : forall j c, In j (y_jobs y) -> phase_copy (j_phase j) = Some c -> copy (y_keys y) c /\ k_secret c = q_key (j_req j);
  s_log : forall g, In g (y_log y) -> entitled cfg (y_keys y) g
            /\ match g_who g with Holder c => copy (y_keys y) c /\ k_secret c = q_key (g_req g) | _ => True end;
  s_through : forall j, In j (y_jobs y) -> through (j_phase j) ->
            exists g, In g (y_log y) /\ g_req g = j_req j /\ (forall p, j_phase j = PServe p -> g_who g = p);
  s_lists : forall j l, In j (y_jobs y) -> j_phase j = PEnd (Listed l) ->
            exists g, In g (y_log y) /\ g_req g = j_req j /\ Forall (of_owner g (q_owner (j_req j))) l;
  s_ids : NoDup (map k_id (y_keys y));
  s_secrets : NoDup (map k_secret (y_keys y));
  s_revoked : forall k, In k (y_keys y) -> k_revoked k = true -> revoked_by cfg (y_log y) k;
  s_created : forall k, In k (y_keys y) -> created_by (y_keys y) (y_log y) k
}.

Lemma entitled_grows cfg l l' g : grows l l' -> entitled cfg l g -> entitled cfg l' g.
Proof.
  intros G. unfold entitled. destruct (g_who g) as [| |c0]; auto. intros (k & Hk & A & B & C & D1 & D2 & D3). destruct (G _ Hk) as (k' & Hk' & S1&S2&S3&S4&S5&S6&S7).
  exists k'. split; [exact Hk'|]. split; [congruence|]. split; [lia|]. unfold may in *. rewrite <- S4. repeat (split; [congruence || exact C|]). congruence.
Qed.
Lemma created_grows l l' log k k' : grows l l' -> same k k' -> created_by l log k -> created_by l' log k'.
Proof.
  intros G (S1&S2&S3&S4&S5&S6&S7) (g & Hg & A & B & C & D). exists g. rewrite <- S4. repeat (split; [assumption|]).
  destruct (g_who g) as [| |c]; [exact D|congruence|]. rewrite <- S6, <- S3. destruct D as (D1 & D2 & D3 & D4 & D5).
  repeat split; auto. exact (copy_grows _ _ _ G D3).
Qed.

Lemma in_set_at {A} n (a x : A) l : In x (set_at n a l) -> x = a \/ In x l.
Proof.
  revert n. induction l as [|b l IH]; intros [|n]; simpl; try tauto.
  - intros [<-|H]; auto.
  - intros [<-|H]; [auto|]. destruct (IH _ H); auto.
Qed.

(** The shape of one change: the log and the keys grow, caches hold copies of keys. *)
Lemma sound_change cfg y y' :
  sound cfg y -> grows (y_keys y) (y_keys y') -> incl (y_log y) (y_log y') ->
  (forall p c t, y_shared y' p = Some (c, t) -> copy (y_keys y') c) ->
  (forall n p c t, y_local y' n p = Some (c, t) -> copy (y_keys y') c) ->
  (forall j, In j (y_jobs y') -> In j (y_jobs y) \/
     ((forall c, phase_copy (j_phase j) = Some c -> copy (y_keys y') c /\ k_secret c = q_key (j_req j))
      /\ (through (j_phase j) -> exists g, In g (y_log y') /\ g_req g = j_req j /\ (forall p, j_phase j = PServe p -> g_who g = p))
      /\ (forall l, j_phase j = PEnd (Listed l) ->
            exists g, In g (y_log y') /\ g_req g = j_req j /\ Forall (of_owner g (q_owner (j_req j))) l))) ->
  (forall g, In g (y_log y') -> In g (y_log y) \/ (entitled cfg (y_keys y') g
            /\ match g_who g with Holder c => copy (y_keys y') c /\ k_secret c = q_key (g_req g) | _ => True end)) ->
  NoDup (map k_id (y_keys y')) -> NoDup (map k_secret (y_keys y')) ->
  (forall k, In k (y_keys y') -> k_revoked k = true -> revoked_by cfg (y_log y') k) ->
  (forall k, In k (y_keys y') -> created_by (y_keys y') (y_log y') k) ->
  sound cfg y'.
Proof.
  intros S0 G L H1 H2 H3 H4 H5 H6 H7 H8. constructor; auto.
  - intros j c Hj Hc. destruct (H3 _ Hj) as [Hj'|(X & _ & _)]; [|auto]. destruct (s_jobs _ _ S0 _ _ Hj' Hc) as [A B]. split; [exact (copy_grows _ _ _ G A)|exact B].
  - intros g Hg. destruct (H4 _ Hg) as [Hg'|X]; [|exact X]. destruct (s_log _ _ S0 _ Hg') as [A B]. split; [exact (entitled_grows _ _ _ _ G A)|].
    destruct (g_who g); auto. destruct B as [B1 B2]. split; [exact (copy_grows _ _ _ G B1)|exact B2].
  - intros j Hj T. destruct (H3 _ Hj) as [Hj'|(_ & X & _)]; [|auto]. destruct (s_through _ _ S0 _ Hj' T) as (g & A & B). exists g. split; [exact (L _ A)|exact B].
  - intros j l Hj T. destruct (H3 _ Hj) as [Hj'|(_ & _ & X)]; [|auto]. destruct (s_lists _ _ S0 _ _ Hj' T) as (g & A & B). exists g. split; [exact (L _ A)|exact B].
Qed.

Lemma revoked_incl cfg l l' k : incl l l' -> revoked_by cfg l k -> revoked_by cfg l' k.
Proof. intros I (g & A & B). exists g. split; [exact (I _ A)|exact B]. Qed.
Lemma created_incl keys l l' k : incl l l' -> created_by keys l k -> created_by keys l' k.
Proof. intros I (g & A & B). exists g. split; [exact (I _ A)|exact B]. Qed.

(** Changes that leave the keys alone. *)
Lemma sound_same_keys cfg y y' :
  sound cfg y -> y_keys y' = y_keys y -> incl (y_log y) (y_log y') ->
  (forall p c t, y_shared y' p = Some (c, t) -> copy (y_keys y) c) ->
  (forall n p c t, y_local y' n p = Some (c, t) -> copy (y_keys y) c) ->
  (forall j, In j (y_jobs y') -> In j (y_jobs y) \/
     ((forall c, phase_copy (j_phase j) = Some c -> copy (y_keys y) c /\ k_secret c = q_key (j_req j))
      /\ (through (j_phase j) -> exists g, In g (y_log y') /\ g_req g = j_req j /\ (forall p, j_phase j = PServe p -> g_who g = p))
      /\ (forall l, j_phase j = PEnd (Listed l) ->
            exists g, In g (y_log y') /\ g_req g = j_req j /\ Forall (of_owner g (q_owner (j_req j))) l))) ->
  (forall g, In g (y_log y') -> In g (y_log y) \/ (entitled cfg (y_keys y) g
            /\ match g_who g with Holder c => copy (y_keys y) c /\ k_secret c = q_key (g_req g) | _ => True end)) ->
  sound cfg y'.
Proof.
  intros S0 K L H1 H2 H3 H4. apply (sound_change cfg y y' S0); rewrite ?K; auto.
  - apply grows_refl.
  - exact (s_ids _ _ S0).
  - exact (s_secrets _ _ S0).
  - intros k Hk R. exact (revoked_incl _ _ _ _ L (s_revoked _ _ S0 _ Hk R)).
  - intros k Hk. exact (created_incl _ _ _ _ L (s_created _ _ S0 _ Hk)).
Qed.

Lemma put_some c p v q k t : put c p v q = Some (k, t) -> c q = Some (k, t) \/ (q = p /\ v = Some (k, t)).
Proof. unfold put. destruct (String.eqb_spec q p); auto. Qed.
Lemma put_local_some l n c m p k t : put_local l n c m p = Some (k, t) -> l m p = Some (k, t) \/ (m = n /\ c p = Some (k, t)).
Proof. unfold put_local. destruct (Nat.eqb_spec m n); auto. Qed.
Lemma fresh_some now v c : fresh now v = Some c -> exists t, v = Some (c, t) /\ now < t.
Proof. destruct v as [[k t]|]; simpl; [|discriminate]. destruct (Z.ltb_spec now t); [|discriminate]. intros E. injection E as ->. eauto. Qed.

Lemma judge_serves cfg keys now q k p : copy keys k -> k_secret k = q_key q -> judge now q k = PServe p ->
  p = Holder k /\ now < k_expires k /\ k_revoked k = false /\ entitled cfg keys {| g_req := q; g_who := p; g_at := now |}.
Proof.
  intros (r & Hr & S1&S2&S3&S4&S5&S6&S7) Hs. unfold judge, is_valid. destruct (k_revoked k) eqn:Hrev; simpl; [discriminate|].
  destruct (Z.ltb_spec now (k_expires k)) as [T|]; simpl; [|discriminate].
  destruct (String.eqb_spec (resource_of (q_path q)) "") as [|N]; [discriminate|].
  destruct (has_permission (k_scopes k) (resource_of (q_path q)) (q_method q)) eqn:P; simpl; [|discriminate].
  intros E. injection E as <-. repeat split; auto. exists r. split; [exact Hr|]. split; [simpl; congruence|]. split; [simpl; lia|]. split; [|repeat split; congruence].
  destruct (perm_grants _ _ _ P) as (Na & Gr). exists (resource_of (q_path q)), (action_of (q_method q)).
  split; [exact (resource_belongs _ N)|]. split; [apply (action_ops _ _ Na); reflexivity|]. rewrite <- S4. exact Gr.
Qed.

Lemma sound_nothing cfg : sound cfg nothing.
Proof. constructor; simpl; try discriminate; try (intros; contradiction); constructor. Qed.

Lemma sound_request cfg q y : sound cfg y -> sound cfg (happen cfg (ERequest q) y).
Proof.
  intros S0. cbn [happen].
  assert (A : match arrival cfg q with
              | PServe w => entitled cfg (y_keys y) {| g_req := q; g_who := w; g_at := y_now y |} /\ (w = Anyone \/ w = Master)
              | PLocal => True
              | PEnd (Denied _) => True
              | _ => False
              end).
  { unfold arrival. destruct (existsb _ _) eqn:X.
    - split; [|auto]. right. apply existsb_exists in X. destruct X as (x & Hx & E). apply String.eqb_eq in E. subst x. exact Hx.
    - destruct (c_secure cfg) eqn:Sc; simpl; [|split; [left; exact Sc|auto]]. destruct (String.eqb (q_key q) ""); [exact I|].
      destruct (String.eqb_spec (c_secret cfg) "") as [|N]; simpl; [exact I|].
      destruct (String.eqb_spec (c_secret cfg) (q_key q)) as [E|]; [|exact I]. split; [split; auto|auto]. }
  destruct (arrival cfg q) as [| | | | | |w| | |o] eqn:E; try contradiction.
  - apply (sound_same_keys cfg y); simpl; auto using incl_refl; try apply (s_shared _ _ S0); try apply (s_local _ _ S0).
    intros j Hj. apply in_app_iff in Hj. destruct Hj as [Hj|[<-|[]]]; [auto|right]. simpl. repeat split; try discriminate; try contradiction.
  - destruct A as [A W]. apply (sound_same_keys cfg y); simpl; auto using incl_appl, incl_refl; try apply (s_shared _ _ S0); try apply (s_local _ _ S0).
    + intros j Hj. apply in_app_iff in Hj. destruct Hj as [Hj|[<-|[]]]; [auto|right]. simpl. split; [|split; [|discriminate]].
      * destruct W as [-> | ->]; discriminate.
      * intros _. eexists. split; [apply in_app_iff; right; left; reflexivity|]. simpl. split; [reflexivity|]. intros p H. congruence.
    + intros g Hg. apply in_app_iff in Hg. destruct Hg as [Hg|[<-|[]]]; [auto|right]. split; [exact A|]. simpl. destruct W as [-> | ->]; exact I.
  - apply (sound_same_keys cfg y); simpl; auto using incl_refl; try apply (s_shared _ _ S0); try apply (s_local _ _ S0).
    intros j Hj. apply in_app_iff in Hj. destruct Hj as [Hj|[<-|[]]]; [auto|right]. simpl. destruct o; try contradiction. repeat split; try discriminate; try contradiction.
Qed.

Lemma by_secret l a b : NoDup (map k_secret l) -> In a l -> In b l -> k_secret a = k_secret b -> a = b.
Proof.
  induction l as [|x l IH]; simpl; [tauto|]. intros N. inversion N as [|? ? N1 N2]; subst.
  intros [<-|Ha] [<-|Hb] E; auto.
  - exfalso. apply N1. rewrite E. apply in_map. exact Hb.
  - exfalso. apply N1. rewrite <- E. apply in_map. exact Ha.
Qed.
Lemma by_id l a b : NoDup (map k_id l) -> In a l -> In b l -> k_id a = k_id b -> a = b.
Proof.
  induction l as [|x l IH]; simpl; [tauto|]. intros N. inversion N as [|? ? N1 N2]; subst.
  intros [<-|Ha] [<-|Hb] E; auto.
  - exfalso. apply N1. rewrite E. apply in_map. exact Hb.
  - exfalso. apply N1. rewrite <- E. apply in_map. exact Ha.
Qed.

Lemma path_keys p : cut "/" p = [""; "api-keys"] -> p = "/api-keys".
Proof.
  intros H. destruct (cut_head _ _ _ _ H) as (_ & [[X _]|(r & -> & X)]); [discriminate|].
  destruct (cut_head _ _ _ _ (eq_sym X)) as (_ & [[_ ->]|(r' & _ & Y)]); [reflexivity|]. destruct (cut_some "/" r') as (u & v & W). congruence.
Qed.
Lemma path_key p id : cut "/" p = [""; "api-keys"; id] -> p = "/api-keys/" ++ id.
Proof.
  intros H. destruct (cut_head _ _ _ _ H) as (_ & [[X _]|(r & -> & X)]); [discriminate|].
  destruct (cut_head _ _ _ _ (eq_sym X)) as (_ & [[X' _]|(r' & -> & Y)]); [discriminate|].
  destruct (cut_head _ _ _ _ (eq_sym Y)) as (_ & [[_ ->]|(r'' & _ & Z')]); [reflexivity|]. destruct (cut_some "/" r'') as (u & v & W). congruence.
Qed.

Lemma asks_create q : ask_of q = ACreate -> q_path q = "/api-keys" /\ q_method q = "POST".
Proof.
  unfold ask_of. destruct (cut "/" (q_path q)) as [|a [|b l]] eqn:E; try discriminate.
  destruct (String.eqb_spec a "") as [->|]; [|discriminate]. destruct (String.eqb_spec b "api-keys") as [->|]; [|discriminate]. simpl.
  destruct l as [|id [|? ?]]; try discriminate; [|destruct (String.eqb _ _); discriminate].
  destruct (String.eqb_spec (q_method q) "POST"); [|destruct (String.eqb _ _); discriminate]. intros _. split; [exact (path_keys _ E)|assumption].
Qed.
Lemma asks_revoke q id : ask_of q = ARevoke id -> q_path q = "/api-keys/" ++ id /\ q_method q = "DELETE".
Proof.
  unfold ask_of. destruct (cut "/" (q_path q)) as [|a [|b l]] eqn:E; try discriminate.
  destruct (String.eqb_spec a "") as [->|]; [|discriminate]. destruct (String.eqb_spec b "api-keys") as [->|]; [|discriminate]. simpl.
  destruct l as [|id' [|? ?]]; try discriminate; [destruct (String.eqb _ "POST"); [discriminate|destruct (String.eqb _ "GET"); discriminate]|].
  destruct (String.eqb_spec (q_method q) "DELETE"); [|discriminate]. intros X. injection X as ->. split; [exact (path_key _ _ E)|assumption].
Qed.
Lemma NoDup_snoc {A} (l : list A) a : NoDup l -> ~ In a l -> NoDup (l ++ [a]).
Proof.
  induction l as [|x l IH]; simpl; intros N H; [constructor; auto; constructor|]. inversion N; subst. constructor; [|auto].
  rewrite in_app_iff. simpl. intros [X|[X|[]]]; [auto|]. subst. tauto.
Qed.
Lemma owner_ok g w q (b : bool) owner : g_who g = w -> resolve_owner w (q_owner q) b = inl owner ->
  forall r, k_owner r = owner -> of_owner g (q_owner q) r.
Proof.
  intros <- H r E. unfold of_owner. destruct (g_who g) as [| |c]; simpl in H; [discriminate| |].
  - destruct (b && _); [discriminate|]. congruence.
  - destruct (_ && _); [discriminate|]. congruence.
Qed.

(** A job goes on without any change but a phase that needs no witness. *)
Lemma sound_phase cfg y y' i j ph :
  sound cfg y -> In j (y_jobs y) ->
  y_keys y' = y_keys y -> y_log y' = y_log y ->
  (forall p c t, y_shared y' p = Some (c, t) -> copy (y_keys y) c) ->
  (forall n p c t, y_local y' n p = Some (c, t) -> copy (y_keys y) c) ->
  (forall c, phase_copy ph = Some c -> copy (y_keys y) c /\ k_secret c = q_key (j_req j)) ->
  (through ph -> through (j_phase j)) -> (forall p, ph = PServe p -> j_phase j = PServe p) ->
  (forall l, ph = PEnd (Listed l) -> exists g, In g (y_log y) /\ g_req g = j_req j /\ Forall (of_owner g (q_owner (j_req j))) l) ->
  sound cfg (with_jobs (set_at i (with_phase j ph) (y_jobs y)) y').
Proof.
  intros S0 Hj K L H1 H2 H3 H4 H4' H5. apply (sound_same_keys cfg y); simpl; rewrite ?K, ?L; auto using incl_refl.
  intros j' Hj'. apply in_set_at in Hj'. destruct Hj' as [->|Hj']; [right|auto]. simpl. split; [exact H3|]. split; [|exact H5].
  intros T. destruct (s_through _ _ S0 _ Hj (H4 T)) as (g & A & B & C). exists g. split; [exact A|]. split; [exact B|].
  intros p E. apply C. auto.
Qed.

Lemma sound_serve cfg x i j w y : sound cfg y -> In j (y_jobs y) -> j_phase j = PServe w ->
  sound cfg (with_jobs (set_at i (with_phase j (snd (serve x (j_req j) w y))) (y_jobs y)) (fst (serve x (j_req j) w y))).
Proof.
  intros S0 Hj Hw. destruct (s_through _ _ S0 j Hj ltac:(rewrite Hw; exact I)) as (g & Hg & Gr & Gw). specialize (Gw _ Hw).
  set (q := j_req j) in *.
  assert (Quiet : forall ph, (forall c, phase_copy ph <> Some c) -> (forall p, ph <> PServe p) -> (forall l, ph <> PEnd (Listed l)) ->
    sound cfg (with_jobs (set_at i (with_phase j ph) (y_jobs y)) y)).
  { intros ph A B C. apply (sound_phase cfg y y i j ph); auto; try apply (s_shared _ _ S0); try apply (s_local _ _ S0).
    - intros c E. destruct (A _ E).
    - rewrite Hw. simpl. auto.
    - intros p E. destruct (B _ E).
    - intros l E. destruct (C _ E). }
  assert (Same : sound cfg (with_jobs (set_at i (with_phase j (PServe w)) (y_jobs y)) y)).
  { apply (sound_phase cfg y y i j (PServe w)); auto; try apply (s_shared _ _ S0); try apply (s_local _ _ S0); try discriminate.
    - intros c E. apply (s_jobs _ _ S0 _ _ Hj). rewrite Hw. exact E.
    - rewrite Hw. auto.
    - congruence. }
  unfold serve. destruct (String.eqb (first_part (q_path q)) "hooks").
  { cbn [fst snd]. apply Quiet; destruct w; discriminate. }
  destruct (ask_of q) as [| |id|] eqn:Ask; [| | |apply Quiet; discriminate].
  - (* create *)
    destruct (asks_create _ Ask) as [Hp Hm].
    destruct (String.eqb (q_body_owner q) ""); [apply Quiet; discriminate|].
    destruct (resolve_owner w (q_body_owner q) true) as [owner|code] eqn:Ro; [|apply Quiet; discriminate].
    destruct (may_grant w (q_scopes q)) eqn:Mg; simpl; [|apply Quiet; discriminate].
    destruct (x_ok x); simpl; [|apply Quiet; discriminate].
    destruct (existsb _ (y_keys y)) eqn:Fr; [exact Same|]. cbn [fst snd].
    set (k := {| k_id := x_id x; k_secret := x_secret x; k_owner := owner; k_scopes := q_scopes q; k_expires := q_expires q;
                 k_revoked := false; k_by := match w with Holder c => Some (k_id c) | _ => None end |}).
    assert (New : forall r, In r (y_keys y) -> k_id r <> x_id x /\ k_secret r <> x_secret x).
    { intros r Hr. assert (F : (String.eqb (k_id r) (x_id x) || String.eqb (k_secret r) (x_secret x)) = false).
      { destruct (_ || _) eqn:F; [|reflexivity]. assert (T : existsb (fun r => String.eqb (k_id r) (x_id x) || String.eqb (k_secret r) (x_secret x)) (y_keys y) = true)
          by (apply existsb_exists; eauto). congruence. }
      apply orb_false_iff in F. destruct F as [F1 F2]. apply String.eqb_neq in F1, F2. auto. }
    assert (G : grows (y_keys y) (y_keys y ++ [k])).
    { intros r Hr. exists r. split; [apply in_app_iff; auto|apply same_refl]. }
    apply (sound_change cfg y); simpl; auto using incl_refl.
    + intros p c t E. exact (copy_grows _ _ _ G (s_shared _ _ S0 _ _ _ E)).
    + intros n p c t E. exact (copy_grows _ _ _ G (s_local _ _ S0 _ _ _ _ E)).
    + intros j' Hj'. apply in_set_at in Hj'. destruct Hj' as [->|Hj']; [right|auto]. simpl. split; [discriminate|]. split; [|discriminate].
      intros _. exists g. split; [exact Hg|]. split; [exact Gr|discriminate].
    + rewrite map_app. apply NoDup_snoc; [exact (s_ids _ _ S0)|]. intros X. apply in_map_iff in X. destruct X as (r & E & Hr). destruct (New _ Hr) as [N _]. apply N. exact E.
    + rewrite map_app. apply NoDup_snoc; [exact (s_secrets _ _ S0)|]. intros X. apply in_map_iff in X. destruct X as (r & E & Hr). destruct (New _ Hr) as [_ N]. apply N. exact E.
    + intros r Hr R. apply in_app_iff in Hr. destruct Hr as [Hr|[<-|[]]]; [exact (s_revoked _ _ S0 _ Hr R)|discriminate].
    + intros r Hr. apply in_app_iff in Hr. destruct Hr as [Hr|[<-|[]]].
      * exact (created_grows _ _ _ _ _ G (same_refl r) (s_created _ _ S0 _ Hr)).
      * exists g. split; [exact Hg|]. rewrite Gr. split; [exact Hm|]. split; [exact Hp|]. split; [reflexivity|].
        rewrite Gw. destruct w as [| |c]; [discriminate|reflexivity|]. simpl in Ro, Mg.
        destruct (_ && _); [discriminate|]. injection Ro as <-.
        destruct (s_log _ _ S0 _ Hg) as [En Co]. unfold entitled in En. rewrite Gw in En, Co. destruct Co as [Co Cs].
        repeat split; auto.
        -- exact (copy_grows _ _ _ G Co).
        -- destruct En as (r & Hr & E1 & E2 & _). destruct Co as (r' & Hr' & C1&C2&C3&C4&C5&C6&C7).
           rewrite (by_secret _ _ _ (s_secrets _ _ S0) Hr Hr') in E2 by congruence. lia.
        -- exact (covers_grants _ _ Mg).
  - (* list *)
    destruct (resolve_owner w (q_owner q) _) as [owner|code] eqn:Ro; [|apply Quiet; discriminate]. cbn [fst snd].
    destruct (x_ok x); [|apply Quiet; discriminate].
    apply (sound_phase cfg y y i j); auto; try apply (s_shared _ _ S0); try apply (s_local _ _ S0); try discriminate.
    + rewrite Hw. simpl. auto.
    + intros l E. injection E as <-. exists g. split; [exact Hg|]. split; [exact Gr|]. apply Forall_forall. intros r Hr.
      apply filter_In in Hr. destruct Hr as [_ Hr]. apply String.eqb_eq in Hr. exact (owner_ok _ _ _ _ _ Gw Ro r Hr).
  - (* revoke *)
    destruct (asks_revoke _ _ Ask) as [Hp Hm].
    destruct (resolve_owner w (q_owner q) _) as [owner|code] eqn:Ro; [|apply Quiet; discriminate].
    destruct (x_ok x); simpl; [|apply Quiet; discriminate].
    set (hit := fun k => String.eqb (k_id k) id && String.eqb (k_owner k) owner).
    destruct (find hit (y_keys y)) as [k0|] eqn:Fi; [|apply Quiet; discriminate]. cbn [fst snd].
    set (f := fun k => if hit k then revoke_key k else k).
    assert (Fs : forall k, same k (f k)).
    { intros k. unfold f. destruct (hit k); [|apply same_refl]. unfold same, revoke_key. simpl. tauto. }
    assert (G : grows (y_keys y) (map f (y_keys y))).
    { intros r Hr. exists (f r). split; [apply in_map; exact Hr|apply Fs]. }
    apply (sound_change cfg y); simpl; auto using incl_refl.
    + intros p c t E. exact (copy_grows _ _ _ G (s_shared _ _ S0 _ _ _ E)).
    + intros n p c t E. exact (copy_grows _ _ _ G (s_local _ _ S0 _ _ _ _ E)).
    + intros j' Hj'. apply in_set_at in Hj'. destruct Hj' as [->|Hj']; [right|auto]. simpl. split; [discriminate|]. split; [|discriminate].
      intros _. exists g. split; [exact Hg|]. split; [exact Gr|discriminate].
    + rewrite map_map. erewrite map_ext; [exact (s_ids _ _ S0)|]. intros k. symmetry. apply (Fs k).
    + rewrite map_map. erewrite map_ext; [exact (s_secrets _ _ S0)|]. intros k. symmetry. apply (Fs k).
    + intros r Hr R. apply in_map_iff in Hr. destruct Hr as (r0 & <- & Hr).
      unfold f in *. fold (hit r0) in R |- *. destruct (hit r0) eqn:Hh; [|exact (s_revoked _ _ S0 _ Hr R)].
      unfold hit in Hh. apply andb_true_iff in Hh. destruct Hh as [H1 H2]. apply String.eqb_eq in H1, H2.
      exists g. split; [exact Hg|]. rewrite Gr. split; [exact Hm|]. split; [simpl; rewrite H1; exact Hp|].
      exact (owner_ok _ _ _ _ _ Gw Ro _ H2).
    + intros r Hr. apply in_map_iff in Hr. destruct Hr as (r0 & <- & Hr). exact (created_grows _ _ _ _ _ G (Fs r0) (s_created _ _ S0 _ Hr)).
Qed.

Lemma sound_step cfg x i j y : sound cfg y -> In j (y_jobs y) ->
  sound cfg (with_jobs (set_at i (with_phase j (snd (step cfg x j y))) (y_jobs y)) (fst (step cfg x j y))).
Proof.
  intros S0 Hj. unfold step. set (q := j_req j). set (p := key_prefix (q_key q)).
  assert (Kl : forall c y', copy (y_keys y) c -> y' = keep_local cfg x (q_on q) p c y ->
    forall n p c t, y_local y' n p = Some (c, t) -> copy (y_keys y) c).
  { intros c y' Hc -> n p' c' t E. simpl in E. apply put_local_some in E. destruct E as [E|[-> E]]; [exact (s_local _ _ S0 _ _ _ _ E)|].
    apply put_some in E. destruct E as [E|[_ E]]; [exact (s_local _ _ S0 _ _ _ _ E)|]. injection E as <- _. exact Hc. }
  destruct (j_phase j) as [| | |k|k|k|w|pre|pre|o] eqn:Ph.
  - cbn [fst snd]. destruct (fresh _ _) as [c|] eqn:F.
    + destruct (fresh_some _ _ _ F) as (t & E & _). pose proof (s_local _ _ S0 _ _ _ _ E) as Hc.
      destruct (String.eqb_spec (k_secret c) (q_key q)) as [Es|];
        (apply (sound_phase cfg y y i j); auto; try apply (s_shared _ _ S0); try apply (s_local _ _ S0); try discriminate).
      * intros c' E'. injection E' as <-. auto.
      * simpl. tauto.
      * simpl. tauto.
    + apply (sound_phase cfg y y i j); auto; try apply (s_shared _ _ S0); try apply (s_local _ _ S0); try discriminate. simpl. tauto.
  - assert (Miss : sound cfg (with_jobs (set_at i (with_phase j PQuery) (y_jobs y)) y)).
    { apply (sound_phase cfg y y i j); auto; try apply (s_shared _ _ S0); try apply (s_local _ _ S0); try discriminate. simpl. tauto. }
    destruct (x_ok x); simpl; [|exact Miss]. destruct (fresh _ _) as [c|] eqn:F; [|exact Miss]. cbn [fst snd].
    destruct (fresh_some _ _ _ F) as (t & E & _). pose proof (s_shared _ _ S0 _ _ _ E) as Hc.
    destruct (String.eqb_spec (k_secret c) (q_key q)) as [Es|];
      (apply (sound_phase cfg y _ i j); auto; try apply (s_shared _ _ S0); try exact (Kl c _ Hc eq_refl); try discriminate).
    + intros c' E'. injection E' as <-. auto.
    + simpl. tauto.
    + simpl. tauto.
  - cbn [fst snd]. destruct (x_ok x); simpl;
      [|apply (sound_phase cfg y y i j); auto; try apply (s_shared _ _ S0); try apply (s_local _ _ S0); try discriminate; simpl; tauto].
    destruct (find _ _) as [k|] eqn:F; (apply (sound_phase cfg y y i j); auto; try apply (s_shared _ _ S0); try apply (s_local _ _ S0); try discriminate).
    + intros c E. injection E as <-. apply find_some in F. destruct F as [F1 F2]. apply andb_true_iff in F2. destruct F2 as [_ F2].
      apply String.eqb_eq in F2. split; [|exact F2]. exists k. split; [exact F1|apply same_refl].
    + simpl. tauto.
    + simpl. tauto.
  - destruct (s_jobs _ _ S0 _ k Hj ltac:(rewrite Ph; reflexivity)) as [Hc Hs]. cbn [fst snd].
    apply (sound_phase cfg y _ i j); auto; try apply (s_shared _ _ S0); try exact (Kl k _ Hc eq_refl); try discriminate.
    + intros c' E'. injection E' as <-. auto.
    + simpl. tauto.
  - destruct (s_jobs _ _ S0 _ k Hj ltac:(rewrite Ph; reflexivity)) as [Hc Hs]. cbn [fst snd].
    apply (sound_phase cfg y _ i j); auto; try discriminate; try (destruct (x_ok x); reflexivity).
    + destruct (x_ok x); [|apply (s_shared _ _ S0)]. simpl. intros p' c' t E. apply put_some in E.
      destruct E as [E|[_ E]]; [exact (s_shared _ _ S0 _ _ _ E)|]. injection E as <- _. exact Hc.
    + destruct (x_ok x); apply (s_local _ _ S0).
    + intros c' E'. injection E' as <-. auto.
    + simpl. tauto.
  - destruct (s_jobs _ _ S0 _ k Hj ltac:(rewrite Ph; reflexivity)) as [Hc Hs].
    assert (J : match judge (y_now y) q k with PServe _ | PEnd (Denied _) => True | _ => False end).
    { unfold judge. repeat match goal with |- context [if ?b then _ else _] => destruct b end; exact I. }
    destruct (judge (y_now y) q k) as [| | | | | |w| | |o] eqn:Ju; try contradiction.
    + destruct (judge_serves cfg _ _ _ _ _ Hc Hs Ju) as (-> & T & _ & En). cbn [fst snd].
      apply (sound_same_keys cfg y); simpl; auto using incl_appl, incl_refl; try apply (s_shared _ _ S0); try apply (s_local _ _ S0).
      * intros j' Hj'. apply in_set_at in Hj'. destruct Hj' as [->|Hj']; [right|auto]. simpl. split; [intros c E; injection E as <-; auto|].
        split; [|discriminate]. intros _. eexists. split; [apply in_app_iff; right; left; reflexivity|]. simpl. split; [reflexivity|].
        intros w E. congruence.
      * intros g Hg. apply in_app_iff in Hg. destruct Hg as [Hg|[<-|[]]]; [auto|right]. split; [exact En|]. simpl. auto.
    + destruct o; try contradiction. cbn [fst snd].
      apply (sound_phase cfg y y i j); auto; try apply (s_shared _ _ S0); try apply (s_local _ _ S0); try discriminate. simpl. tauto.
  - exact (sound_serve cfg x i j w y S0 Hj Ph).
  - cbn [fst snd]. apply (sound_phase cfg y _ i j); auto; try apply (s_shared _ _ S0); try discriminate.
    + intros n p' c t E. simpl in E. apply put_local_some in E. destruct E as [E|[-> E]]; [exact (s_local _ _ S0 _ _ _ _ E)|].
      apply put_some in E. destruct E as [E|[_ E]]; [exact (s_local _ _ S0 _ _ _ _ E)|discriminate].
    + rewrite Ph. simpl. tauto.
  - cbn [fst snd]. apply (sound_phase cfg y _ i j); auto; try discriminate; try (destruct (x_ok x); reflexivity).
    + destruct (x_ok x); [|apply (s_shared _ _ S0)]. simpl. intros p' c' t E. apply put_some in E.
      destruct E as [E|[_ E]]; [exact (s_shared _ _ S0 _ _ _ E)|discriminate].
    + destruct (x_ok x); apply (s_local _ _ S0).
    + rewrite Ph. simpl. tauto.
  - cbn [fst snd]. apply (sound_phase cfg y y i j); auto; try apply (s_shared _ _ S0); try apply (s_local _ _ S0); try discriminate.
    + rewrite Ph. auto.
    + intros l E. injection E as ->. exact (s_lists _ _ S0 _ _ Hj Ph).
Qed.

Lemma sound_happen cfg e y : sound cfg y -> sound cfg (happen cfg e y).
Proof.
  intros S0. destruct e as [q|i x|d|p|n p]; [apply sound_request; exact S0| | | |].
  - cbn [happen]. destruct (nth_error (y_jobs y) i) as [j|] eqn:E; [|exact S0]. apply nth_error_In in E.
    pose proof (sound_step cfg x i j y S0 E) as H. destruct (step cfg x j y) as [y' ph]. exact H.
  - destruct S0. constructor; auto.
  - apply (sound_same_keys cfg y); simpl; auto using incl_refl; try apply (s_local _ _ S0).
    intros p' c t E. apply put_some in E. destruct E as [E|[_ E]]; [exact (s_shared _ _ S0 _ _ _ E)|discriminate].
  - apply (sound_same_keys cfg y); simpl; auto using incl_refl; try apply (s_shared _ _ S0).
    intros m p' c t E. apply put_local_some in E. destruct E as [E|[-> E]]; [exact (s_local _ _ S0 _ _ _ _ E)|].
    apply put_some in E. destruct E as [E|[_ E]]; [exact (s_local _ _ S0 _ _ _ _ E)|discriminate].
Qed.
Lemma sound_play cfg es : forall y, sound cfg y -> sound cfg (play cfg es y).
Proof. induction es as [|e es IH]; intros y H; [exact H|]. apply IH, sound_happen, H. Qed.
Lemma sound_always cfg es : sound cfg (play cfg es nothing).
Proof. apply sound_play, sound_nothing. Qed.
