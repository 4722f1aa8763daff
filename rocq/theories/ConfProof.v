(** Proofs about the configuration. *)
From Coq Require Import ZArith QArith List String Ascii Bool Lia.
From Verif Require QueueModel DoorModel.
From Verif Require Import ConfModel ConfSpec.
Import ListNotations.
Local Open Scope string_scope.
Local Open Scope Z_scope.
Local Open Scope list_scope.

(** What the steps do to one setting. *)
Definition at_key (l : list step) (k : string) (v : val) : val :=
  fold_left (fun v (s : step) => if String.eqb k (fst s) then snd s v else v) l v.
Lemma run_at l : forall c k, run l c k = at_key l k (c k).
Proof.
  induction l as [|s l IH]; intros c k; [reflexivity|]. unfold run, at_key in *. cbn [fold_left]. rewrite IH.
  unfold put at 1. destruct (String.eqb_spec k (fst s)); [subst k|]; reflexivity.
Qed.

Definition through (k : string) (v : val) : val := at_key trims k (at_key defaults k v).

Lemma rate_other c k : k <> rps -> k <> burst -> k <> cleanup -> rate_limiting c k = c k.
Proof.
  intros R B C. apply String.eqb_neq in R, B, C. unfold rate_limiting.
  assert (P : forall j v d, String.eqb k j = false -> put j v d k = d k) by (intros j v d E; unfold put; now rewrite E).
  set (c1 := match c rps, c burst with Unset, Unset => _ | _, _ => _ end).
  assert (E1 : c1 k = c k) by (unfold c1; destruct (c rps), (c burst); rewrite ?P by assumption; reflexivity).
  set (c2 := match c1 rps, c1 burst with Real q, Unset => _ | _, _ => _ end).
  assert (E2 : c2 k = c1 k) by (unfold c2; destruct (c1 rps), (c1 burst); rewrite ?P by assumption; reflexivity).
  set (c3 := match c2 rps, c2 burst with Unset, Num b => _ | _, _ => _ end).
  assert (E3 : c3 k = c2 k) by (unfold c3; destruct (c2 rps), (c2 burst); rewrite ?P by assumption; reflexivity).
  destruct (c3 cleanup); rewrite ?P by assumption; congruence.
Qed.

Lemma in_force_inj a b : InForce a = InForce b -> a = b.
Proof. intros E. injection E as E. exact E. Qed.
Lemma loaded_is f e c : load f e = InForce c -> c = rate_limiting (run trims (run defaults (mentioned f e))).
Proof. unfold load. destruct (is_empty _); [discriminate|]. destruct (is_empty _); [discriminate|]. intros E. symmetry. exact (in_force_inj _ _ E). Qed.

Lemma loaded_at f e c k : load f e = InForce c -> k <> rps -> k <> burst -> k <> cleanup -> c k = through k (mentioned f e k).
Proof. intros E R B C. rewrite (loaded_is _ _ _ E), rate_other by assumption. unfold through. now rewrite !run_at. Qed.

Lemma given_is f e k v : given f e k v -> mentioned f e k = v.
Proof. unfold given, mentioned. intros [-> |(-> & ->)]; reflexivity. Qed.
Lemma left_out_is f e k : left_out f e k -> mentioned f e k = zero k.
Proof. unfold mentioned. intros (-> & ->). reflexivity. Qed.

(** ** Required settings *)
Theorem required f e : (exists c, load f e = InForce c) <->
  (exists v, given f e "data_source.dns" v /\ v <> Text "") /\ (exists v, given f e "redis.dns" v /\ v <> Text "").
Proof.
  assert (A : forall k, zero k = Text "" -> is_empty (mentioned f e k) = false <-> exists v, given f e k v /\ v <> Text "").
  { intros k Z. unfold mentioned, given. destruct (e k) as [v|] eqn:E.
    - split.
      + intros H. exists v. split; [now left|]. intros ->. discriminate H.
      + intros (v' & [K|(K & _)] & N); [|discriminate K]. injection K as <-. destruct v as [[|]| | | |]; [now destruct N|reflexivity..].
    - destruct (f k) as [v|] eqn:F.
      + split.
        * intros H. exists v. split; [right; now split|]. intros ->. discriminate H.
        * intros (v' & [K|(_ & K)] & N); [discriminate K|]. injection K as <-. destruct v as [[|]| | | |]; [now destruct N|reflexivity..].
      + rewrite Z. split; [discriminate|]. intros (v' & [K|(_ & K)] & N); discriminate K. }
  rewrite <- (A "data_source.dns") by reflexivity. rewrite <- (A "redis.dns") by reflexivity. unfold load.
  destruct (is_empty (mentioned f e "data_source.dns")); [split; [intros (c & K); discriminate K|intros (K & _); discriminate K]|].
  destruct (is_empty (mentioned f e "redis.dns")); [split; [intros (c & K); discriminate K|intros (_ & K); discriminate K]|].
  split; [split; reflexivity|]. intros _. eexists. reflexivity.
Qed.

(** ** Settings given *)
Lemma steps_kept k v : ~ nothing v -> ~ In k names -> ~ In k lock_times -> k <> "queue.hot_pair_ttl" ->
  (In k positives -> exists z, v = Num z /\ 0 < z) -> through k v = v.
Proof.
  intros N T L H P. unfold through, at_key.
  assert (Te : forall d, if_empty d v = v) by (intros d; destruct v as [[|]| | | |]; try reflexivity; destruct N; reflexivity).
  assert (Ze : forall d, if_zero d v = v) by (intros d; destruct v as [|z| | |]; try reflexivity; cbn; destruct (Z.eqb_spec z 0); [destruct N; assumption|reflexivity]).
  assert (Pe : percent v = v) by (destruct v as [| | |q|]; try reflexivity; cbn; destruct (Qeq_bool q 0) eqn:E; [destruct N; now apply Qeq_bool_iff in E|reflexivity]).
  assert (Ce : coalescing v = v) by (destruct v as [| |[|]| |]; try reflexivity; destruct N; reflexivity).
  assert (Le : forall d, In k positives -> if_low d v = v).
  { intros d I. destruct (P I) as (z & -> & Z). cbn. destruct (Z.leb_spec z 0); [lia|reflexivity]. }
  assert (D : fold_left (fun v (s : step) => if String.eqb k (fst s) then snd s v else v) defaults v = v).
  { assert (F : Forall (fun s : step => k = fst s -> snd s v = v) defaults).
    { unfold defaults, redis_defaults, database_defaults, transaction_defaults, reconciliation_defaults, typesense_defaults, queue_defaults, hash_chain_defaults.
      cbn [app]. repeat (apply Forall_cons; [cbn [fst snd]; intros K;
        first [apply Te|apply Ze|exact Pe|exact Ce
              |apply Le; rewrite K; unfold positives; cbn [In]; tauto
              |exfalso; apply L; rewrite K; unfold lock_times; cbn [In]; tauto
              |exfalso; exact (H K)]|]). apply Forall_nil. }
    induction F as [|s l E F IH]; [reflexivity|]. cbn [fold_left]. destruct (String.eqb_spec k (fst s)) as [K|K]; [rewrite (E K)|]; exact IH. }
  rewrite D. cbn [trims fold_left fst snd].
  repeat match goal with |- context [String.eqb k ?x] => destruct (String.eqb_spec k x) as [K|_]; [exfalso; apply T; rewrite K; unfold names; cbn [In]; tauto|] end.
  reflexivity.
Qed.

(** A rate limit given is kept, whatever it is. *)
Lemma rate_kept c k v : In k [rps; burst; cleanup] -> c k = v -> v <> Unset -> rate_limiting c k = v.
Proof.
  intros I E N. unfold rate_limiting.
  assert (P : forall j x d, k <> j -> put j x d k = d k) by (intros j x d F; unfold put; apply String.eqb_neq in F; now rewrite F).
  set (c1 := match c rps, c burst with Unset, Unset => _ | _, _ => _ end).
  assert (E1 : c1 k = v).
  { unfold c1. destruct (c rps) eqn:R, (c burst) eqn:B; try exact E.
    destruct I as [<-|[<-|[<-|[]]]]; [congruence|congruence|]. rewrite !P by discriminate. exact E. }
  set (c2 := match c1 rps, c1 burst with Real q, Unset => _ | _, _ => _ end).
  assert (E2 : c2 k = v).
  { unfold c2. destruct (c1 rps) eqn:R, (c1 burst) eqn:B; try exact E1.
    destruct I as [<-|[<-|[<-|[]]]]; [|congruence|]; rewrite !P by discriminate; exact E1. }
  set (c3 := match c2 rps, c2 burst with Unset, Num b => _ | _, _ => _ end).
  assert (E3 : c3 k = v).
  { unfold c3. destruct (c2 rps) eqn:R, (c2 burst) eqn:B; try exact E2.
    destruct I as [<-|[<-|[<-|[]]]]; [congruence| |]; rewrite !P by discriminate; exact E2. }
  destruct (c3 cleanup) eqn:C; try exact E3. destruct I as [<-|[<-|[<-|[]]]]; [| |congruence]; rewrite !P by discriminate; exact E3.
Qed.

Lemma through_rate k v : In k [rps; burst; cleanup] -> through k v = v.
Proof. intros [<-|[<-|[<-|[]]]]; reflexivity. Qed.

Lemma rate_in f e c k v : load f e = InForce c -> In k [rps; burst; cleanup] -> mentioned f e k = v -> v <> Unset -> c k = v.
Proof.
  intros E I M N. rewrite (loaded_is _ _ _ E). apply rate_kept; [exact I| |exact N]. rewrite !run_at. fold (through k (mentioned f e k)).
  rewrite through_rate by exact I. exact M.
Qed.

Theorem given_kept f e c k v : load f e = InForce c -> given f e k v -> ~ nothing v ->
  ~ In k names -> ~ In k lock_times -> k <> "queue.hot_pair_ttl" -> (In k positives -> exists z, v = Num z /\ 0 < z) -> c k = v.
Proof.
  intros E G N T L H P. apply given_is in G.
  destruct (in_dec string_dec k [rps; burst; cleanup]) as [I|I].
  - apply (rate_in f e c k v E I G). intros ->. apply N. exact Logic.I.
  - rewrite (loaded_at _ _ _ _ E) by (intros ->; apply I; cbn [In]; tauto). rewrite G. now apply steps_kept.
Qed.

Theorem rate_given f e c k v : load f e = InForce c -> In k [rps; burst; cleanup] -> given f e k v -> v <> Unset -> c k = v.
Proof. intros E I G N. apply given_is in G. exact (rate_in _ _ _ _ _ E I G N). Qed.

Theorem names_trimmed f e c k s : load f e = InForce c -> In k names -> given f e k (Text s) -> s <> "" -> c k = Text (QueueModel.trim s).
Proof.
  intros E I G N. apply given_is in G. destruct s as [|a s]; [now destruct N|].
  destruct I as [<-|[<-|[<-|[<-|[]]]]]; rewrite (loaded_at _ _ _ _ E) by discriminate; rewrite G; reflexivity.
Qed.

Theorem lock_times_kept f e c k z : load f e = InForce c -> In k lock_times -> given f e k (Num z) -> z < 0 \/ second <= z -> c k = Num z.
Proof.
  intros E I G D. apply given_is in G. assert (S : 0 < second) by reflexivity.
  assert (X : forall d, lock_time d (Num z) = Num z).
  { intros d. unfold lock_time. destruct (Z.eqb_spec z 0); [lia|]. destruct (Z.ltb_spec 0 z), (Z.ltb_spec z second); try lia; reflexivity. }
  destruct I as [<-|[<-|[]]]; rewrite (loaded_at _ _ _ _ E) by discriminate; rewrite G.
  - change (lock_time (5 * minute) (Num z) = Num z). apply X.
  - change (lock_time (3 * second) (Num z) = Num z). apply X.
Qed.

(** ** Settings left out *)
Lemma zero_through k v : In (k, v) (declared ++ plain) -> k <> rps -> k <> burst -> k <> cleanup -> through k (zero k) = v.
Proof.
  intros I R B C. assert (F : Forall (fun p => fst p <> rps -> fst p <> burst -> fst p <> cleanup -> through (fst p) (zero (fst p)) = snd p) (declared ++ plain)).
  { unfold declared, plain. cbn [app]. repeat (apply Forall_cons; [cbn [fst snd]; intros R' B' C'; first [vm_compute; reflexivity|exfalso; now apply R'|exfalso; now apply B'|exfalso; now apply C']|]). apply Forall_nil. }
  rewrite Forall_forall in F. exact (F (k, v) I R B C).
Qed.

Theorem left_out_default f e c k v : load f e = InForce c -> left_out f e k -> In (k, v) (declared ++ plain) ->
  k <> "rate_limit.requests_per_second" -> k <> "rate_limit.burst" -> c k = v.
Proof.
  intros E L I R B. apply left_out_is in L. destruct (string_dec k cleanup) as [-> |C].
  - assert (v = Num 10800) as ->.
    { unfold declared, plain in I. cbn [app] in I. repeat (destruct I as [I|I]; [first [discriminate I|injection I as <-; reflexivity]|]). destruct I. }
    rewrite (loaded_is _ _ _ E). set (d := run trims (run defaults (mentioned f e))).
    assert (D : d cleanup = Unset) by (unfold d; rewrite !run_at, L; reflexivity). clearbody d. clear - D. unfold rate_limiting.
    set (c1 := match d rps, d burst with Unset, Unset => _ | _, _ => _ end).
    assert (E1 : c1 cleanup = Unset) by (unfold c1; destruct (d rps), (d burst); exact D).
    set (c2 := match c1 rps, c1 burst with Real q, Unset => _ | _, _ => _ end).
    assert (E2 : c2 cleanup = Unset) by (unfold c2; destruct (c1 rps), (c1 burst); exact E1).
    set (c3 := match c2 rps, c2 burst with Unset, Num b => _ | _, _ => _ end).
    assert (E3 : c3 cleanup = Unset) by (unfold c3; destruct (c2 rps), (c2 burst); exact E2).
    rewrite E3. reflexivity.
  - rewrite (loaded_at _ _ _ _ E) by assumption. rewrite L. now apply zero_through.
Qed.

(** ** Rate limits *)
Theorem rate_limits f e c : load f e = InForce c ->
  (left_out f e rps -> left_out f e burst -> c rps = Real 5000000 /\ c burst = Num 10000000) /\
  (forall q, given f e rps (Real q) -> left_out f e burst -> c burst = Num (2 * whole q)) /\
  (forall b, left_out f e rps -> given f e burst (Num b) -> c rps = Real (b # 2)).
Proof.
  intros E. rewrite (loaded_is _ _ _ E). set (d := run trims (run defaults (mentioned f e))).
  assert (R : d rps = mentioned f e rps) by (unfold d; rewrite !run_at; reflexivity).
  assert (B : d burst = mentioned f e burst) by (unfold d; rewrite !run_at; reflexivity). clearbody d. clear E c.
  assert (Fin : forall g k, k <> cleanup -> (match g cleanup with Unset => put cleanup (Num 10800) g | _ => g end) k = g k).
  { intros g k N. apply String.eqb_neq in N. destruct (g cleanup); try reflexivity. unfold put. now rewrite N. }
  split; [|split].
  - intros L1 L2. apply left_out_is in L1, L2. rewrite L1 in R. rewrite L2 in B. change (zero rps) with Unset in R. change (zero burst) with Unset in B.
    unfold rate_limiting. rewrite R, B. cbn zeta. rewrite !Fin by discriminate. split; reflexivity.
  - intros q G L. apply given_is in G. apply left_out_is in L. rewrite G in R. rewrite L in B. change (zero burst) with Unset in B.
    unfold rate_limiting. rewrite R, B. rewrite R. cbn zeta. rewrite Fin by discriminate. unfold put at 1 2. cbn. rewrite R. reflexivity.
  - intros b L G. apply given_is in G. apply left_out_is in L. rewrite L in R. rewrite G in B. change (zero rps) with Unset in R.
    unfold rate_limiting. rewrite R, B. rewrite R. cbn zeta. rewrite Fin by discriminate. rewrite R, B. reflexivity.
Qed.

Lemma whole_floor q : (0 <= q)%Q -> (inject_Z (whole q) <= q)%Q /\ (q < inject_Z (whole q + 1))%Q.
Proof.
  destruct q as [a b]. unfold whole, Qle, Qlt, inject_Z. cbn [Qnum Qden]. intros H. rewrite Z.mul_0_l, Z.mul_1_r in H.
  rewrite Z.quot_div_nonneg by lia. pose proof (Z.div_mod a (Zpos b) ltac:(lia)). pose proof (Z.mod_pos_bound a (Zpos b) ltac:(lia)). split; nia.
Qed.

Theorem rates f e c : load f e = InForce c ->
  let rps := "rate_limit.requests_per_second" in let burst := "rate_limit.burst" in
  (left_out f e rps -> left_out f e burst -> c rps = Real 5000000 /\ c burst = Num 10000000) /\
  (forall q, given f e rps (Real q) -> (0 <= q)%Q -> left_out f e burst ->
     c rps = Real q /\ exists z, c burst = Num (2 * z) /\ (inject_Z z <= q)%Q /\ (q < inject_Z (z + 1))%Q) /\
  (forall b, left_out f e rps -> given f e burst (Num b) -> c rps = Real (b # 2) /\ c burst = Num b).
Proof.
  intros E rps' burst'. destruct (rate_limits f e c E) as (A & B & C). split; [exact A|]. split.
  - intros q G P L. split; [apply (rate_given f e c _ _ E); [now left|exact G|discriminate]|].
    exists (whole q). split; [exact (B q G L)|]. now apply whole_floor.
  - intros b L G. split; [exact (C b L G)|]. apply (rate_given f e c _ _ E); [right; now left|exact G|discriminate].
Qed.

(** ** Environment and file *)
Theorem environment_wins f f' e : (forall k, e k = None -> f k = f' k) ->
  match load f e, load f' e with
  | InForce c, InForce c' => forall k, c k = c' k
  | a, b => a = b
  end.
Proof.
  intros H. assert (M : forall k, mentioned f e k = mentioned f' e k).
  { intros k. unfold mentioned. destruct (e k) eqn:E; [reflexivity|]. now rewrite (H k E). }
  unfold load. rewrite !M. destruct (is_empty (mentioned f' e "data_source.dns")); [reflexivity|].
  destruct (is_empty (mentioned f' e "redis.dns")); [reflexivity|]. intros k.
  set (d := run trims (run defaults (mentioned f e))). set (d' := run trims (run defaults (mentioned f' e))).
  assert (D : forall k, d k = d' k) by (intros j; unfold d, d'; now rewrite !run_at, M). clearbody d d'. clear - D.
  assert (P : forall j v (a b : conf), (forall k, a k = b k) -> forall k, put j v a k = put j v b k) by (intros j v a b X i; unfold put; now rewrite X).
  unfold rate_limiting.
  set (c1 := match d rps, d burst with Unset, Unset => _ | _, _ => _ end).
  set (g1 := match d' rps, d' burst with Unset, Unset => _ | _, _ => _ end).
  assert (E1 : forall k, c1 k = g1 k) by (unfold c1, g1; rewrite <- (D rps), <- (D burst); destruct (d rps), (d burst); auto).
  set (c2 := match c1 rps, c1 burst with Real q, Unset => _ | _, _ => _ end).
  set (g2 := match g1 rps, g1 burst with Real q, Unset => _ | _, _ => _ end).
  assert (E2 : forall k, c2 k = g2 k) by (unfold c2, g2; rewrite <- (E1 rps), <- (E1 burst); destruct (c1 rps), (c1 burst); auto).
  set (c3 := match c2 rps, c2 burst with Unset, Num b => _ | _, _ => _ end).
  set (g3 := match g2 rps, g2 burst with Unset, Num b => _ | _, _ => _ end).
  assert (E3 : forall k, c3 k = g3 k) by (unfold c3, g3; rewrite <- (E2 rps), <- (E2 burst); destruct (c2 rps), (c2 burst); auto).
  rewrite <- (E3 cleanup). destruct (c3 cleanup); auto.
Qed.

(** A setting depends on nothing but itself, the rate limits apart. *)
Theorem settings_apart f e f' e' c c' k : load f e = InForce c -> load f' e' = InForce c' -> f k = f' k -> e k = e' k ->
  k <> "rate_limit.requests_per_second" -> k <> "rate_limit.burst" -> c k = c' k.
Proof.
  intros E E' F N R B. assert (M : mentioned f e k = mentioned f' e' k) by (unfold mentioned; now rewrite F, N).
  destruct (string_dec k cleanup) as [-> |C]; [|rewrite (loaded_at _ _ _ _ E), (loaded_at _ _ _ _ E') by assumption; now rewrite M].
  rewrite (loaded_is _ _ _ E), (loaded_is _ _ _ E'). set (d := run trims (run defaults (mentioned f e))). set (d' := run trims (run defaults (mentioned f' e'))).
  assert (D : d cleanup = d' cleanup) by (unfold d, d'; now rewrite !run_at, M). clearbody d d'. clear - D.
  assert (X : forall g, rate_limiting g cleanup = match g cleanup with Unset => Num 10800 | v => v end).
  { intros g. unfold rate_limiting.
    set (c1 := match g rps, g burst with Unset, Unset => _ | _, _ => _ end).
    assert (E1 : c1 cleanup = g cleanup) by (unfold c1; destruct (g rps), (g burst); reflexivity).
    set (c2 := match c1 rps, c1 burst with Real q, Unset => _ | _, _ => _ end).
    assert (E2 : c2 cleanup = c1 cleanup) by (unfold c2; destruct (c1 rps), (c1 burst); reflexivity).
    set (c3 := match c2 rps, c2 burst with Unset, Num b => _ | _, _ => _ end).
    assert (E3 : c3 cleanup = c2 cleanup) by (unfold c3; destruct (c2 rps), (c2 burst); reflexivity).
    rewrite <- E1, <- E2, <- E3. destruct (c3 cleanup) eqn:K; try (exact K); reflexivity. }
  rewrite !X, D. reflexivity.
Qed.

Theorem refused_keeps store f e : (forall c, load f e <> InForce c) -> init store f e = store.
Proof. unfold init. intros H. destruct (load f e) as [| |c]; [reflexivity..|]. now destruct (H c). Qed.
Theorem accepted_replaces store f e c : load f e = InForce c -> init store f e = Some c.
Proof. unfold init. now intros ->. Qed.

(** ** What goes wrong *)
Theorem coalescing_on f e c : load f e = InForce c -> given f e "transaction.enable_coalescing" (Flag false) -> c "transaction.enable_coalescing" = Flag true.
Proof. intros E G. apply given_is in G. rewrite (loaded_at _ _ _ _ E) by discriminate. rewrite G. reflexivity. Qed.

Theorem zero_is_default f e c k d : load f e = InForce c -> given f e k (Num 0) -> In (k, Num d) declared ->
  k <> "rate_limit.burst" -> k <> "rate_limit.cleanup_interval_sec" -> c k = Num d.
Proof.
  intros E G I B C. apply given_is in G.
  assert (R : k <> rps).
  { intros ->. unfold declared in I. repeat (destruct I as [I|I]; [discriminate I|]). destruct I. }
  rewrite (loaded_at _ _ _ _ E) by assumption. rewrite G. rewrite <- (zero_through k (Num d)); try assumption; [|apply in_or_app; now left].
  assert (Z : zero k = Num 0); [|now rewrite Z].
  unfold declared in I. repeat (destruct I as [I|I]; [first [discriminate I|injection I as <- _; first [reflexivity|now destruct B|now destruct C]]|]). destruct I.
Qed.

Theorem sub_second f e c k z : load f e = InForce c -> In k lock_times -> given f e k (Num z) -> 0 < z < second -> c k = Num (z * second).
Proof.
  intros E I G D. apply given_is in G. assert (Sc : second = 1000000000) by reflexivity.
  assert (X : forall d, lock_time d (Num z) = Num (z * second)).
  { intros d. unfold lock_time. destruct (Z.eqb_spec z 0); [lia|]. destruct (Z.ltb_spec 0 z), (Z.ltb_spec z second); try lia. cbn [andb].
    unfold seconds, DoorModel.wrap64. rewrite Z.mod_small by lia. f_equal. lia. }
  destruct I as [<-|[<-|[]]]; rewrite (loaded_at _ _ _ _ E) by discriminate; rewrite G.
  - change (lock_time (5 * minute) (Num z) = Num (z * second)). apply X.
  - change (lock_time (3 * second) (Num z) = Num (z * second)). apply X.
Qed.

Theorem ttl_in_seconds f e c z : load f e = InForce c -> given f e "queue.hot_pair_ttl" (Num z) -> 0 < z <= 9223372036 ->
  c "queue.hot_pair_ttl" = Num (z * second).
Proof.
  intros E G D. apply given_is in G. rewrite (loaded_at _ _ _ _ E) by discriminate. rewrite G.
  change (ttl (Num z) = Num (z * second)). unfold ttl. destruct (Z.eqb_spec z 0); [lia|]. f_equal.
  unfold seconds, DoorModel.wrap64, second. rewrite Z.mod_small by lia. lia.
Qed.
