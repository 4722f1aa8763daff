(** Proofs about the connections to redis. *)
From Coq Require Import List String Ascii Bool Arith Lia.
From Verif Require Import RedisModel RedisSpec.
Import ListNotations.
Local Open Scope string_scope.
Local Open Scope nat_scope.
Local Open Scope list_scope.

Lemma count_0 c t : count c t = 0 <-> without c t.
Proof.
  unfold without. induction t as [|a r IH]; cbn; [tauto|]. destruct (Ascii.eqb_spec a c) as [E|E].
  - split; [discriminate|]. intros N. destruct N. now left.
  - cbn. rewrite IH. split; [intros N [K|K]; [congruence|contradiction]|intros N K; apply N; now right].
Qed.
Lemma count_app c t u : count c (t ++ u)%string = count c t + count c u.
Proof. induction t as [|a r IH]; [reflexivity|]. cbn. rewrite IH. lia. Qed.
Lemma count_1 c t : count c t = 1 <-> exists u v, t = (u ++ String c v)%string /\ without c u /\ without c v.
Proof.
  split.
  - induction t as [|a r IH]; [discriminate|]. cbn. destruct (Ascii.eqb_spec a c) as [E|E].
    + intros K. assert (Z : count c r = 0) by lia. apply count_0 in Z. exists "", r. subst a. split; [reflexivity|]. split; [intros []|exact Z].
    + intros K. destruct (IH K) as (u & v & -> & U & V). exists (String a u), v. split; [reflexivity|]. split; [|exact V]. intros [X|X]; [congruence|contradiction].
  - intros (u & v & -> & U & V). rewrite count_app. cbn. rewrite Ascii.eqb_refl. apply count_0 in U, V. lia.
Qed.

Lemma prefix_nil t : String.prefix "" t = true.
Proof. now destruct t. Qed.
Lemma prefix_cons a p b t : String.prefix (String a p) (String b t) = if ascii_dec a b then String.prefix p t else false.
Proof. reflexivity. Qed.
Lemma prefix_spec p t : String.prefix p t = true <-> exists v, t = (p ++ v)%string.
Proof.
  revert t. induction p as [|a p IH]; intros t.
  - split; [intros _; now exists t|intros _; apply prefix_nil].
  - destruct t as [|b t]; [split; [discriminate|intros (v & K); discriminate K]|]. rewrite prefix_cons. destruct (ascii_dec a b) as [<-|N].
    + rewrite IH. split; intros (v & K); exists v; [now rewrite K|now injection K].
    + split; [discriminate|]. intros (v & K). injection K as K _. congruence.
Qed.
Lemma contains_spec p t : contains p t = true <-> within p t.
Proof.
  induction t as [|a r IH]; cbn [contains]; rewrite orb_true_iff, prefix_spec.
  - split; [intros [(v & E)|K]; [exists "", v; exact E|discriminate K]|]. intros (u & v & E). left. destruct u; [now exists v|discriminate E].
  - rewrite IH. split.
    + intros [(v & E)|(u & v & ->)]; [now exists "", v|now exists (String a u), v].
    + intros (u & v & E). destruct u as [|b u]; [left; now exists v|]. right. injection E as _ ->. now exists u, v.
Qed.
Lemma drop_app p t : drop (String.length p) (p ++ t)%string = t.
Proof. induction p as [|a p IH]; cbn; [now destruct t|exact IH]. Qed.
Lemma trim_app p t : trim_prefix p (p ++ t)%string = t.
Proof. unfold trim_prefix. assert (E : String.prefix p (p ++ t) = true) by (apply prefix_spec; now exists t). now rewrite E, drop_app. Qed.

Lemma split_none c t : without c t -> split c t = [t].
Proof.
  induction t as [|a r IH]; intros W; [reflexivity|]. cbn. destruct (Ascii.eqb_spec a c) as [E|E]; [destruct W; now left|].
  rewrite IH; [reflexivity|]. intros K. apply W. now right.
Qed.
Lemma split_one c t u : without c t -> split c (t ++ String c u)%string = t :: split c u.
Proof.
  induction t as [|a r IH]; intros W; cbn; [now rewrite Ascii.eqb_refl|]. destruct (Ascii.eqb_spec a c) as [E|E]; [destruct W; now left|].
  rewrite IH; [reflexivity|]. intros K. apply W. now right.
Qed.
Lemma split_length c t : List.length (split c t) = S (count c t).
Proof.
  induction t as [|a r IH]; [reflexivity|]. cbn. destruct (Ascii.eqb a c); cbn; [now rewrite IH|]. destruct (split c r); cbn in *; [discriminate IH|exact IH].
Qed.
Lemma split_two c t x y : split c t = [x; y] -> t = (x ++ String c y)%string /\ without c x /\ without c y.
Proof.
  intros E. pose proof (split_length c t) as L. rewrite E in L. cbn in L. injection L as L. symmetry in L. apply count_1 in L.
  destruct L as (u & v & -> & U & V). rewrite (split_one c u v U), (split_none c v V) in E. injection E as <- <-. now repeat split.
Qed.
Lemma split_single c t x : split c t = [x] -> without c t.
Proof. intros E. pose proof (split_length c t) as L. rewrite E in L. cbn in L. injection L as L. apply count_0. now symmetry. Qed.

Lemma without_app c t u : without c (t ++ u)%string <-> without c t /\ without c u.
Proof. rewrite <- !count_0, count_app. lia. Qed.
Lemma app_assoc_s (a b c : string) : ((a ++ b) ++ c)%string = (a ++ b ++ c)%string.
Proof. induction a as [|x a IH]; [reflexivity|]. cbn. now rewrite IH. Qed.

Lemma rewritten_bare raw p h : bare_password raw p h -> rewritten raw = ("redis://:" ++ p ++ "@" ++ h)%string.
Proof.
  intros (-> & C & A & H). unfold rewritten. assert (P : String.prefix "redis://" ("redis://" ++ p ++ "@" ++ h) = true) by (apply prefix_spec; now exists (p ++ "@" ++ h)%string).
  rewrite P, trim_app. assert (N : 0 <? count "@"%char ("redis://" ++ p ++ "@" ++ h) = true).
  { apply Nat.ltb_lt. rewrite !count_app. cbn. lia. }
  rewrite N. cbn [andb]. change ("@" ++ h)%string with (String "@"%char h). rewrite (split_one "@"%char p h A), (split_none "@"%char h H), (split_none ":"%char p C). reflexivity.
Qed.
Lemma rewritten_other raw : (forall p h, ~ bare_password raw p h) -> rewritten raw = raw.
Proof.
  intros N. unfold rewritten. destruct (String.prefix "redis://" raw) eqn:P; cbn [andb]; [|reflexivity]. destruct (0 <? count "@"%char raw); [|reflexivity].
  apply prefix_spec in P. destruct P as (v & ->). rewrite trim_app. destruct (split "@"%char v) as [|a [|h [|x l]]] eqn:E; try reflexivity.
  destruct (split ":"%char a) as [|y [|z k]] eqn:F; try reflexivity. destruct (N a h). apply split_two in E. destruct E as (-> & A & H). apply split_single in F. now repeat split.
Qed.

Lemma plain_test raw : (count ":"%char raw =? 1) && (count "@"%char raw =? 0) && negb (contains "//" raw) = true <-> host_and_port raw.
Proof.
  rewrite !andb_true_iff, negb_true_iff, !Nat.eqb_eq, count_1, count_0. rewrite <- not_true_iff_false, contains_spec. unfold host_and_port. split.
  - intros ((  (u & v & E & U & V) & A) & N). exists u, v. now repeat split.
  - intros (u & v & E & U & V & A & N). split; [split; [now exists u, v|exact A]|exact N].
Qed.

Lemma relax_as_said skip o : as_said skip (relax skip o) o.
Proof.
  unfold relax. destruct (secure o) eqn:E; destruct skip; unfold as_said; cbn; rewrite ?E; repeat split; try discriminate; try congruence; auto.
Qed.

(** ** Theorems *)
Theorem plain_address parse raw skip : host_and_port raw -> parse_redis parse raw skip = {| addr := raw; user := ""; password := ""; db := 0; secure := Plain |}.
Proof. intros H. apply plain_test in H. unfold parse_redis. now rewrite H. Qed.

Lemma not_plain parse raw skip : ~ host_and_port raw -> parse_redis parse raw skip = relax skip (match parse (rewritten raw) with Some o => o | None => by_hand (rewritten raw) end).
Proof. intros H. rewrite <- plain_test in H. apply not_true_iff_false in H. unfold parse_redis. now rewrite H. Qed.

Theorem accepted_url parse raw skip o : ~ host_and_port raw -> (forall p h, ~ bare_password raw p h) -> parse raw = Some o -> as_said skip (parse_redis parse raw skip) o.
Proof. intros H N E. rewrite (not_plain _ _ _ H), (rewritten_other _ N), E. apply relax_as_said. Qed.

Lemma bare_not_plain raw p h : bare_password raw p h -> ~ host_and_port raw.
Proof. intros (-> & _) (x & y & _ & _ & _ & A & _). apply without_app in A. destruct A as [_ A]. apply without_app in A. destruct A as [_ A]. apply A. now left. Qed.

Theorem bare_url parse raw skip p h o : bare_password raw p h -> parse ("redis://:" ++ p ++ "@" ++ h)%string = Some o -> as_said skip (parse_redis parse raw skip) o.
Proof. intros B E. rewrite (not_plain _ _ _ (bare_not_plain _ _ _ B)), (rewritten_bare _ _ _ B), E. apply relax_as_said. Qed.

Lemma by_hand_two p h : without "@"%char p -> without "@"%char h -> by_hand (p ++ "@" ++ h)%string =
  {| addr := h; user := ""; password := trim_prefix "redis://" p; db := 0; secure := if contains "redis.cache.windows.net" h then Checked else Plain |}.
Proof.
  intros P H. unfold by_hand. change ("@" ++ h)%string with (String "@"%char h). assert (N : 0 <? count "@"%char (p ++ String "@"%char h) = true).
  { apply Nat.ltb_lt. rewrite count_app. cbn. lia. }
  now rewrite N, (split_one "@"%char p h P), (split_none "@"%char h H).
Qed.

Theorem schemeless parse p h skip s : (within "redis.cache.windows.net" h /\ s = Checked \/ ~ within "redis.cache.windows.net" h /\ s = Plain) -> without "@"%char p -> without "@"%char h -> ~ (exists q, p = ("redis://" ++ q)%string) -> parse (p ++ "@" ++ h)%string = None ->
  as_said skip (parse_redis parse (p ++ "@" ++ h)%string skip)
    {| addr := h; user := ""; password := p; db := 0; secure := s |}.
Proof.
  intros Z P H N E. assert (X : ~ host_and_port (p ++ "@" ++ h)).
  { intros (x & y & _ & _ & _ & A & _). apply without_app in A. destruct A as [_ A]. apply A. now left. }
  assert (Y : forall q k, ~ bare_password (p ++ "@" ++ h) q k).
  { intros q k (K & _ & Q & KK). apply N. exists q.
    assert (S1 : split "@"%char (p ++ "@" ++ h) = [p; h]) by (change ("@" ++ h)%string with (String "@"%char h); now rewrite (split_one "@"%char p h P), (split_none "@"%char h H)).
    assert (S2 : split "@"%char ("redis://" ++ q ++ "@" ++ k) = [("redis://" ++ q)%string; k]).
    { rewrite <- app_assoc_s. change ("@" ++ k)%string with (String "@"%char k). rewrite (split_one "@"%char ("redis://" ++ q) k), (split_none "@"%char k KK); [reflexivity|].
      apply without_app. split; [|exact Q]. apply count_0. reflexivity. }
    rewrite K, S2 in S1. injection S1 as S1 _. now rewrite <- S1. }
  rewrite (not_plain _ _ _ X), (rewritten_other _ Y), E, (by_hand_two p h P H).
  assert (T : trim_prefix "redis://" p = p). { unfold trim_prefix. destruct (String.prefix "redis://" p) eqn:F; [|reflexivity]. apply prefix_spec in F. contradiction. }
  rewrite T. assert (V : (if contains "redis.cache.windows.net" h then Checked else Plain) = s).
  { destruct (contains "redis.cache.windows.net" h) eqn:C; [apply contains_spec in C|apply not_true_iff_false in C; rewrite contains_spec in C]; destruct Z as [(Z & ->)|(Z & ->)]; [reflexivity|contradiction|contradiction|reflexivity]. }
  rewrite V. apply relax_as_said.
Qed.

Lemma rewritten_cases raw : rewritten raw = raw \/ exists p h, bare_password raw p h /\ rewritten raw = ("redis://:" ++ p ++ "@" ++ h)%string.
Proof.
  unfold rewritten. destruct (String.prefix "redis://" raw) eqn:P; cbn [andb]; [|now left]. destruct (0 <? count "@"%char raw); [|now left].
  apply prefix_spec in P. destruct P as (v & ->). rewrite trim_app. destruct (split "@"%char v) as [|a [|h [|x l]]] eqn:E; try (now left).
  destruct (split ":"%char a) as [|y [|z k]] eqn:F; try (now left). right. exists a, h. apply split_two in E. destruct E as (-> & A & H). apply split_single in F. now repeat split.
Qed.
Theorem never_weaker parse raw skip : secure (parse_redis parse raw skip) = Unchecked -> skip = true \/
  exists o, (parse raw = Some o \/ exists p h, bare_password raw p h /\ parse ("redis://:" ++ p ++ "@" ++ h)%string = Some o) /\ secure o = Unchecked.
Proof.
  intros E. unfold parse_redis in E. destruct (_ && _ && _); [discriminate E|]. unfold relax in E.
  destruct (parse (rewritten raw)) as [o|] eqn:P.
  - destruct (secure o) eqn:S; [rewrite S in E; discriminate E| |].
    + destruct skip; [now left|]. congruence.
    + right. exists o. split; [|exact S]. destruct (rewritten_cases raw) as [R|(p & h & B & R)]; rewrite R in P; [now left|right; now exists p, h].
  - set (o := by_hand (rewritten raw)) in E. assert (K : secure o = Checked \/ secure o = Plain) by (unfold o, by_hand; cbn [secure]; destruct (contains _ _); [now left|now right]).
    destruct K as [K|K]; rewrite K in E; [|congruence]. destruct skip; [now left|congruence].
Qed.

Theorem clients_agree parse raw skip : addr (queue_client parse raw skip) = addr (main_client parse raw skip) /\ password (queue_client parse raw skip) = password (main_client parse raw skip) /\
  db (queue_client parse raw skip) = db (main_client parse raw skip) /\ secure (queue_client parse raw skip) = secure (main_client parse raw skip).
Proof. now repeat split. Qed.

Lemma first_password_spec l : (first_password l = "" /\ Forall (fun o => password o = "") l) \/
  exists a o b, l = a ++ o :: b /\ Forall (fun o => password o = "") a /\ password o <> "" /\ first_password l = password o.
Proof.
  induction l as [|o l IH]; [left; split; [reflexivity|constructor]|]. cbn. destruct (String.eqb_spec (password o) "") as [E|E].
  - destruct IH as [(F & A)|(a & x & b & -> & A & X & F)]; [left; split; [exact F|now constructor]|]. right. exists (o :: a), x, b. repeat split; try assumption. now constructor.
  - right. exists [], o, l. now repeat split.
Qed.

Theorem clustered parse raws skip : let c := cluster_client parse raws skip in let each r := parse_redis parse r skip in
  nodes c = map (fun r => addr (each r)) raws /\
  (c_secure c = Plain <-> forall r, In r raws -> secure (each r) = Plain) /\ (c_secure c = Unchecked -> skip = true) /\
  ((c_password c = "" /\ forall r, In r raws -> password (each r) = "") \/
   exists a r b, raws = a ++ r :: b /\ (forall x, In x a -> password (each x) = "") /\ password (each r) <> "" /\ c_password c = password (each r)).
Proof.
  cbn zeta. unfold cluster_client. cbn [nodes c_secure c_password]. split; [now rewrite map_map|]. split; [|split].
  - destruct (existsb uses_tls _) eqn:E.
    + split; [destruct skip; discriminate|]. intros A. apply existsb_exists in E. destruct E as (o & I & U). apply in_map_iff in I. destruct I as (r & <- & I).
      unfold uses_tls in U. rewrite (A r I) in U. discriminate U.
    + split; [|reflexivity]. intros _ r I. apply not_true_iff_false in E. destruct (secure (parse_redis parse r skip)) eqn:S; [reflexivity| |];
        destruct E; apply existsb_exists; exists (parse_redis parse r skip); (split; [now apply (in_map (fun r => parse_redis parse r skip))|unfold uses_tls; now rewrite S]).
  - destruct (existsb _ _); [|discriminate]. destruct skip; [reflexivity|discriminate].
  - destruct (first_password_spec (map (fun r => parse_redis parse r skip) raws)) as [(F & A)|(a & o & b & E & A & O & F)].
    + left. split; [exact F|]. intros r I. rewrite Forall_forall in A. apply A. now apply (in_map (fun r => parse_redis parse r skip)).
    + right. clear F. revert a E A. induction raws as [|r raws IH]; intros a E A; [destruct a; discriminate E|]. cbn [map] in E. destruct a as [|x a].
      * injection E as E _. exists [], r, raws. split; [reflexivity|]. split; [intros x []|]. rewrite E. split; [exact O|]. cbn. rewrite E. destruct (String.eqb_spec (password o) ""); [contradiction|reflexivity].
      * injection E as <- E. apply Forall_cons_iff in A. destruct A as [A1 A]. destruct (IH a E A) as (a' & r' & b' & -> & A' & R' & F').
        exists (r :: a'), r', b'. split; [reflexivity|]. split; [intros y [<-|Y]; [exact A1|now apply A']|]. split; [exact R'|]. cbn. rewrite A1. exact F'.
Qed.

(** ** What goes wrong *)
Theorem user_lost parse raw skip o : ~ host_and_port raw -> (forall p h, ~ bare_password raw p h) -> parse raw = Some o ->
  user (main_client parse raw skip) = user o /\ user (queue_client parse raw skip) = "".
Proof. intros H N E. split; [|reflexivity]. apply (accepted_url parse raw skip o H N E). Qed.

Theorem secure_lost parse p h skip : without "@"%char p -> without "@"%char h -> ~ within "redis.cache.windows.net" h -> parse ("rediss://" ++ p ++ "@" ++ h)%string = None ->
  parse_redis parse ("rediss://" ++ p ++ "@" ++ h)%string skip = {| addr := h; user := ""; password := ("rediss://" ++ p)%string; db := 0; secure := Plain |}.
Proof.
  intros P H W E. rewrite not_plain.
  - assert (R : rewritten ("rediss://" ++ p ++ "@" ++ h) = ("rediss://" ++ p ++ "@" ++ h)%string).
    { apply rewritten_other. intros q k (K & _). discriminate K. }
    rewrite R, E, <- app_assoc_s, by_hand_two; [|apply without_app; split; [apply count_0; reflexivity|exact P]|exact H].
    assert (C : contains "redis.cache.windows.net" h = false) by (apply not_true_iff_false; now rewrite contains_spec).
    rewrite C. reflexivity.
  - intros (x & y & _ & _ & _ & A & _). apply without_app in A. destruct A as [_ A]. apply without_app in A. destruct A as [_ A]. apply A. now left.
Qed.

Theorem password_wrong parse p h skip raw : bare_password raw p h -> parse ("redis://:" ++ p ++ "@" ++ h)%string = None ->
  password (parse_redis parse raw skip) = (":" ++ p)%string.
Proof.
  intros B E. rewrite (not_plain _ _ _ (bare_not_plain _ _ _ B)), (rewritten_bare _ _ _ B), E. destruct B as (_ & _ & A & H).
  change ("redis://:" ++ p ++ "@" ++ h)%string with ("redis://" ++ (":" ++ p) ++ "@" ++ h)%string. rewrite <- app_assoc_s, by_hand_two; [|apply without_app; split; [apply count_0; reflexivity|]|exact H].
  - rewrite trim_app. unfold relax. destruct (contains _ h); cbn; [destruct skip|]; reflexivity.
  - apply without_app. split; [apply count_0; reflexivity|exact A].
Qed.
