(** Provenance of rows, task payloads and background jobs: which thread may
    introduce a transaction id, and where every parent id comes from. *)
From Coq Require Import ZArith QArith List String Bool Lia Permutation.
From Verif Require Import Base MoneyModel SplitModel BalanceModel LedgerModel LedgerProgs
  ConcModel ConcLogic LedgerSpec LedgerInv LedgerPure LedgerSafe ProvSpec.
Import ListNotations.
Local Open Scope string_scope.
Open Scope list_scope.
Open Scope Z_scope.

Definition wholeb (t : txn) : bool :=
  negb (String.eqb (t_src t) "") && negb (String.eqb (t_dst t) "").
Definition wid (t : txn) : list string := if wholeb t then [t_id t] else [].
Definition jids (j : job) : list string := match j_legs j with [] => wid (j_txn j) | l => map t_id l end.
Definition jtx (j : job) : list txn := j_txn j :: j_legs j.

(** Ids that are visible to others, and parents in use. *)
Definition ids (s : state) : list string :=
  map (fun r => t_id (r_t r)) (s_txns s) ++ flat_map wid (s_queue s) ++ flat_map jids (s_spawned s).
Definition parents (s : state) : list string :=
  map (fun r => t_parent (r_t r)) (s_txns s) ++ map t_parent (s_queue s)
  ++ map t_parent (flat_map jtx (s_spawned s)).
Definition pub (x : string) (s : state) : Prop := In x (ids s).
Definition par (x : string) (s : state) : Prop := In x (parents s).

Lemma nodup_r {A} (l l' : list A) : NoDup (l ++ l') -> NoDup l'.
Proof. induction l as [|a r IH]; simpl; auto. intros H; inversion H; auto. Qed.
Lemma nodup_disj {A} (l l' : list A) x : NoDup (l ++ l') -> In x l -> In x l' -> False.
Proof.
  induction l as [|a r IH]; simpl; [contradiction|]. intros H [->|Hx] Hx'; inversion H; subst; [|auto].
  apply H2. apply in_or_app; auto.
Qed.

Section C.
Variables (cfg : config) (u : nat -> string) (NS : Prop).
Hypothesis u_inj : forall i j, u i = u j -> i = j.

Definition tid (i : nat) : string := ("txn" ++ "_" ++ u i)%string.
Lemma tid_inj i j : tid i = tid j -> i = j.
Proof. unfold tid. simpl. intros H. inversion H. auto. Qed.

Definition drawn (n : nat) (x : string) (s : state) : Prop := exists i, In (i, n) (s_owner s) /\ x = tid i.
Definition mine n x s := drawn n x s /\ ~ pub x s.
Definition cap n x s := mine n x s /\ ~ par x s.
Definition caps n (F Z : list string) s :=
  NoDup (F ++ Z) /\ (forall x, In x F -> cap n x s) /\ (forall x, In x Z -> mine n x s).

Definition bulk_id (x : string) : Prop := exists b, x = ("bulk" ++ "_" ++ b)%string.
Definition bln_id (x : string) : Prop := exists b, x = ("bln" ++ "_" ++ b)%string.

Definition flags_ok (t : txn) : Prop :=
  NS -> m_inflight (t_meta t) = t_inflight t /\ m_allow (t_meta t) = t_allow t.

Definition copy_of (o : row) (t : txn) : Prop :=
  waiting o /\ t_parent t = t_id (r_t o) /\ t_ref t = (t_ref (r_t o) ++ "_q")%string
  /\ t_src t = source o /\ t_dst t = destination o /\ t_cur t = t_cur (r_t o)
  /\ (0 < amount o -> t_precise t = amount o)
  /\ (NS -> t_inflight t = t_inflight (r_t o) /\ t_allow t = t_allow (r_t o))
  /\ (t_limit t = t_limit (r_t o) \/ t_limit t = 0%Q).

Definition refund_of (o : row) (t : txn) : Prop :=
  (t_status (r_t o) = SApplied \/ t_status (r_t o) = SVoid)
  /\ t_parent t = t_id (r_t o) /\ t_ref t = (t_id (r_t o) ++ "_refund")%string
  /\ t_src t = destination o /\ t_dst t = source o /\ t_cur t = t_cur (r_t o)
  /\ (0 < amount o -> t_precise t = amount o)
  /\ (NS -> t_inflight t = match t_status (r_t o) with SVoid => true | _ => false end).

Definition orig_ok (s : state) (t : txn) : Prop :=
  t_parent t = "" \/ bulk_id (t_parent t)
  \/ (exists o, In o (s_txns s) /\ (copy_of o t \/ refund_of o t))
  \/ (par (t_parent t) s /\ ~ pub (t_parent t) s).

(** A hold that was there to be committed or voided. *)
Definition hold_of (s : state) (t : txn) : Prop :=
  exists h, In h (s_txns s) /\ t_id (r_t h) = t_parent t
    /\ (t_status (r_t h) = SInflight
        \/ (t_status (r_t h) = SQueued /\ (NS -> t_inflight (r_t h) = true))).

Definition krow (s : state) (k : kind) (t : txn) : Prop :=
  match k with
  | KCommit | KVoid => hold_of s t /\ m_inflight (t_meta t) = false
  | KPost => t_inflight t = false /\ m_inflight (t_meta t) = false
  | KHold => t_inflight t = true
  | KNone => t_status t <> SRejected -> flags_ok t
  end.
Definition origk (s : state) (k : kind) (t : txn) : Prop :=
  match k with KCommit | KVoid => True | _ => orig_ok s t end.
Definition row_ok (s : state) (r : row) : Prop := krow s (r_kind r) (r_t r) /\ origk s (r_kind r) (r_t r).

Definition pay_ok (s : state) (t : txn) : Prop := orig_ok s t /\ flags_ok t.
Definition job_shape (j : job) : Prop :=
  j_ref j = t_ref (j_txn j) /\ t_id (j_txn j) <> ""
  /\ (j_legs j <> [] -> wholeb (j_txn j) = false /\ Forall (fun l => t_parent l = j_id j) (j_legs j)).
Definition job_ok (s : state) (j : job) : Prop :=
  Forall (pay_ok s) (jtx j) /\ job_shape j
  /\ (j_legs j <> [] -> par (j_id j) s /\ ~ pub (j_id j) s).

Definition meta_ok (s : state) (id : string) (m : meta) : Prop :=
  NS -> exists r, In r (s_txns s) /\ t_id (r_t r) = id /\ same_flags m (t_meta (r_t r)).

Record invC (s : state) : Prop := {
  c_uuid : s_uuid s = u;
  c_owner : forall i n, In (i, n) (s_owner s) -> (i < s_ctr s)%nat;
  c_uniq : forall i n m, In (i, n) (s_owner s) -> In (i, m) (s_owner s) -> n = m;
  c_pub : forall x, pub x s -> exists i, (i < s_ctr s)%nat /\ x = tid i;
  c_par : forall i, par (tid i) s -> (i < s_ctr s)%nat;
  c_jobs : incl (s_jobs s) (s_spawned s);
  c_bals : forall b, In b (s_bals s) -> bln_id (b_id b);
  c_rows : Forall (row_ok s) (s_txns s);
  c_queue : Forall (pay_ok s) (s_queue s);
  c_spawn : Forall (job_ok s) (s_spawned s);
  c_meta : forall id m, In (id, m) (s_meta s) -> meta_ok s id m }.

(** What persists, whoever moves. *)
Definition grow (s s' : state) : Prop :=
  incl (s_txns s) (s_txns s') /\ incl (s_queue s) (s_queue s') /\ incl (s_spawned s) (s_spawned s')
  /\ incl (s_owner s) (s_owner s').
Definition ext (s s' : state) : Prop :=
  grow s s' /\ (forall x, par x s -> ~ pub x s -> ~ pub x s').
Definition relC (n : nat) (s s' : state) : Prop :=
  ext s s' /\ (forall x, cap n x s -> cap n x s').

Lemma flat_map_incl {A B} (f : A -> list B) l l' : incl l l' -> incl (flat_map f l) (flat_map f l').
Proof. intros H x Hx. apply in_flat_map in Hx as (a & Ha & Hf). apply in_flat_map. eauto. Qed.

Lemma pub_grow x s s' : grow s s' -> pub x s -> pub x s'.
Proof.
  intros (H1 & H2 & H3 & _). unfold pub, ids. rewrite !in_app_iff.
  intros [H|[H|H]]; [left|right; left|right; right].
  - eapply incl_map in H1. apply H1. exact H.
  - eapply flat_map_incl; eauto.
  - eapply flat_map_incl; eauto.
Qed.
Lemma par_grow x s s' : grow s s' -> par x s -> par x s'.
Proof.
  intros (H1 & H2 & H3 & _). unfold par, parents. rewrite !in_app_iff.
  intros [H|[H|H]]; [left|right; left|right; right].
  - eapply incl_map in H1. apply H1. exact H.
  - eapply incl_map in H2. apply H2. exact H.
  - eapply incl_map; [|exact H]. apply flat_map_incl. exact H3.
Qed.
Lemma drawn_grow n x s s' : grow s s' -> drawn n x s -> drawn n x s'.
Proof. intros (_ & _ & _ & H) (i & Hi & E). exists i. split; auto. Qed.

Lemma pub_dec x s : pub x s \/ ~ pub x s.
Proof. destruct (in_dec string_dec x (ids s)); auto. Qed.
Lemma par_dec x s : par x s \/ ~ par x s.
Proof. destruct (in_dec string_dec x (parents s)); auto. Qed.

Lemma orig_ext s s' t : ext s s' -> orig_ok s t -> orig_ok s' t.
Proof.
  intros [Hg Hs] [H|[H|[(o & Ho & H)|[H1 H2]]]]; [left; exact H|right; left; exact H|right; right; left|right; right; right].
  - exists o. split; [apply Hg; exact Ho|exact H].
  - split; [eapply par_grow; eauto|apply Hs; auto].
Qed.
Lemma pay_ext s s' t : ext s s' -> pay_ok s t -> pay_ok s' t.
Proof. intros He [H1 H2]. split; [eapply orig_ext; eauto|exact H2]. Qed.
Lemma hold_ext s s' t : ext s s' -> hold_of s t -> hold_of s' t.
Proof. intros [Hg _] (h & Hh & H). exists h. split; [apply Hg; exact Hh|exact H]. Qed.
Lemma krow_ext s s' k t : ext s s' -> krow s k t -> krow s' k t.
Proof. intros He. destruct k; simpl; auto; intros [H1 H2]; split; auto; eapply hold_ext; eauto. Qed.
Lemma row_ext s s' r : ext s s' -> row_ok s r -> row_ok s' r.
Proof.
  intros He [H1 H2]. split; [eapply krow_ext; eauto|].
  destruct (r_kind r); simpl in *; auto; eapply orig_ext; eauto.
Qed.
Lemma job_ext s s' j : ext s s' -> job_ok s j -> job_ok s' j.
Proof.
  intros He (H1 & H2 & H3). split; [|split; auto].
  - eapply Forall_impl; [|exact H1]. intros t. apply pay_ext; exact He.
  - intros Hl. destruct (H3 Hl) as [Hp Hn]. split; [eapply par_grow; [apply He|exact Hp]|apply He; auto].
Qed.
Lemma meta_ext s s' id m : ext s s' -> meta_ok s id m -> meta_ok s' id m.
Proof. intros [Hg _] H Hns. destruct (H Hns) as (r & Hr & E). exists r. split; [apply Hg; exact Hr|exact E]. Qed.

Lemma grow_refl s : grow s s.
Proof. repeat split; apply incl_refl. Qed.
Lemma ext_refl s : ext s s.
Proof. split; [apply grow_refl|auto]. Qed.
Lemma ext_trans s1 s2 s3 : ext s1 s2 -> ext s2 s3 -> ext s1 s3.
Proof.
  intros [(A1 & A2 & A3 & A4) A5] [(B1 & B2 & B3 & B4) B5]. split.
  - repeat split; eapply incl_tran; eauto.
  - intros x Hp Hn. apply B5; [|apply A5; auto]. eapply par_grow; [|exact Hp]. repeat split; auto.
Qed.

Lemma mine_rel n x s s' : relC n s s' -> mine n x s -> mine n x s'.
Proof.
  intros [[Hg Hs] Hc] [Hd Hp]. destruct (par_dec x s) as [H|H].
  - split; [eapply drawn_grow; eauto|apply Hs; auto].
  - apply (Hc x). split; [split|]; auto.
Qed.
Lemma caps_rel n F Z s s' : relC n s s' -> caps n F Z s -> caps n F Z s'.
Proof.
  intros Hr (H1 & H2 & H3). split; auto. split.
  - intros x Hx. apply (proj2 Hr). auto.
  - intros x Hx. eapply mine_rel; eauto.
Qed.

(** ** Operations *)
Definition newrows (o : op) : list (kind * txn) :=
  match o with
  | OInsert t => [(KNone, t)]
  | OPersist k t _ _ _ => [(k, t)]
  | OPersistBatch ts _ _ => ts
  | _ => []
  end.
Definition newpays (o : op) : list txn := match o with OEnqueue t => [t] | _ => [] end.
Definition newjobs (o : op) : list job := match o with OSpawn j => [j] | _ => [] end.

Definition pubs (o : op) : list string :=
  flat_map (fun x => wid (snd x)) (newrows o) ++ flat_map wid (newpays o) ++ flat_map jids (newjobs o).
(** New transactions with their kind (payloads and jobs count as KNone). *)
Definition newtx (o : op) : list (kind * txn) :=
  newrows o ++ map (fun t => (KNone, t)) (newpays o) ++ map (fun t => (KNone, t)) (flat_map jtx (newjobs o)).

Definition opok (zs used : list string) (o : op) (s : state) : Prop :=
  (forall x, In x (pubs o) -> In x used \/ pub x s)
  /\ (forall k t, In (k, t) (newtx o) -> (origk s k t \/ In (t_parent t) zs))
  /\ (forall k t, In (k, t) (newrows o) -> krow s k t)
  /\ (forall t, In t (newpays o) -> flags_ok t)
  /\ (forall j, In j (newjobs o) -> job_shape j /\ Forall flags_ok (jtx j) /\ (j_legs j <> [] -> In (j_id j) zs))
  /\ match o with
     | OCreateBal id _ _ _ _ => bln_id id
     | OSetMeta id m => meta_ok s id m
     | _ => True
     end.

Lemma insert_txns_shape ts bals l l' :
  insert_txns ts bals l = Ok l' -> exists nr, l' = nr ++ l /\ (forall r, In r nr -> In (r_kind r, r_t r) ts).
Proof.
  revert l. induction ts as [|[k t] r IH]; simpl; intros l H.
  - inversion H. exists []. split; [reflexivity|intros ? []].
  - destruct (insert_txn k t bals l) as [l1|e] eqn:E; [|discriminate].
    apply insert_txn_ok in E as (-> & _). destruct (IH _ H) as (nr & -> & Hn).
    exists (nr ++ [{| r_t := t; r_kind := k |}]). rewrite <- app_assoc. split; [reflexivity|].
    intros x Hx. apply in_app_iff in Hx as [Hx|[<-|[]]]; simpl; auto.
Qed.

Lemma update_set_ids rows ws l l' : update_balance_set rows ws l = Some l' -> map b_id l' = map b_id l.
Proof.
  revert l. induction ws as [|w r IH]; simpl; intros l H; [congruence|].
  destruct (update_balance rows w l) as [l1|] eqn:E; [|discriminate].
  apply update_balance_some in E as (b & _ & _ & Hm & _). rewrite (IH _ H). exact Hm.
Qed.
Lemma reconcile_ids id rows l : map b_id (reconcile_balance id rows l) = map b_id l.
Proof.
  induction l as [|b r IH]; simpl; [reflexivity|]. destruct (String.eqb (b_id b) id); simpl; congruence.
Qed.

Lemma exec_shape n o s (s' := fst (exec n o s)) :
  exists nr nq nj,
    s_txns s' = nr ++ s_txns s /\ s_queue s' = nq ++ s_queue s /\ s_spawned s' = nj ++ s_spawned s
    /\ (forall r, In r nr -> In (r_kind r, r_t r) (newrows o))
    /\ incl nq (newpays o) /\ incl nj (newjobs o)
    /\ s_uuid s' = s_uuid s
    /\ ((s_owner s' = s_owner s /\ s_ctr s' = s_ctr s)
        \/ (s_owner s' = (s_ctr s, n) :: s_owner s /\ s_ctr s' = S (s_ctr s)))
    /\ (s_jobs s' = nj ++ s_jobs s)
    /\ (forall x, In x (map b_id (s_bals s')) -> In x (map b_id (s_bals s))
          \/ match o with OCreateBal id _ _ _ _ => x = id | _ => False end)
    /\ (forall e, In e (s_meta s') -> In e (s_meta s)
          \/ match o with OSetMeta id m => e = (id, m) | _ => False end).
Proof.
  assert (H0 : forall s1, s_txns s1 = s_txns s -> s_queue s1 = s_queue s -> s_spawned s1 = s_spawned s ->
     s_uuid s1 = s_uuid s -> s_jobs s1 = s_jobs s -> s_meta s1 = s_meta s ->
     (s_owner s1 = s_owner s /\ s_ctr s1 = s_ctr s)
        \/ (s_owner s1 = (s_ctr s, n) :: s_owner s /\ s_ctr s1 = S (s_ctr s)) ->
     (forall x, In x (map b_id (s_bals s1)) -> In x (map b_id (s_bals s))
          \/ match o with OCreateBal id _ _ _ _ => x = id | _ => False end) -> s' = s1 ->
     exists nr nq nj,
    s_txns s' = nr ++ s_txns s /\ s_queue s' = nq ++ s_queue s /\ s_spawned s' = nj ++ s_spawned s
    /\ (forall r, In r nr -> In (r_kind r, r_t r) (newrows o))
    /\ incl nq (newpays o) /\ incl nj (newjobs o)
    /\ s_uuid s' = s_uuid s
    /\ ((s_owner s' = s_owner s /\ s_ctr s' = s_ctr s)
        \/ (s_owner s' = (s_ctr s, n) :: s_owner s /\ s_ctr s' = S (s_ctr s)))
    /\ (s_jobs s' = nj ++ s_jobs s)
    /\ (forall x, In x (map b_id (s_bals s')) -> In x (map b_id (s_bals s))
          \/ match o with OCreateBal id _ _ _ _ => x = id | _ => False end)
    /\ (forall e, In e (s_meta s') -> In e (s_meta s)
          \/ match o with OSetMeta id m => e = (id, m) | _ => False end)).
  { intros s1 E1 E2 E3 E4 E5 E6 E7 E8 ->. exists [], [], []. simpl. rewrite E6.
    repeat split; auto; try solve [intros ? []]. }
  assert (Hsame : s' = s -> _) by (intros E; apply (H0 s); auto).
  subst s'. destruct o; simpl exec in *;
    try (apply Hsame; reflexivity).
  - eapply H0 with (s1 := set_ctr s _ _); simpl; auto.
  - unfold create_balance in *. simpl b_id in *. destruct (get_bal id (s_bals s)); [apply Hsame; reflexivity|].
    destruct (_ && _); [apply Hsame; reflexivity|].
    eapply H0 with (s1 := set_bals s _); simpl; auto. intros x [<-|H]; auto.
  - destruct (lock_owner k (s_locks s)); [apply Hsame; reflexivity|]. eapply H0 with (s1 := set_locks s _); simpl; auto.
  - destruct (lock_owner k (s_locks s)); [|apply Hsame; reflexivity].
    destruct (Nat.eqb n0 n); [|apply Hsame; reflexivity]. eapply H0 with (s1 := set_locks s _); simpl; auto.
  - destruct (insert_txn KNone t (s_bals s) (s_txns s)) as [l|e] eqn:E; [|apply Hsame; reflexivity].
    clear H0 Hsame. apply insert_txn_ok in E as (-> & _). exists [{| r_t := t; r_kind := KNone |}], [], [].
    simpl. repeat split; auto; try solve [intros ? []]. intros r [<-|[]]. left; reflexivity.
  - rewrite persist_single_batch in *. unfold persist_batch in *.
    destruct (update_balance_set (s_txns s) [src; dst] (s_bals s)) as [b|] eqn:Eu; [|apply Hsame; reflexivity].
    destruct (insert_txns [(k, t)] b (s_txns s)) as [l|e] eqn:Ei; [|apply Hsame; reflexivity].
    clear H0 Hsame. apply insert_txns_shape in Ei as (nr & -> & Hn). apply update_set_ids in Eu.
    exists nr, [], []. simpl. rewrite Eu. repeat split; auto; try solve [intros ? []].
  - unfold persist_batch in *.
    destruct (update_balance_set (s_txns s) ws (s_bals s)) as [b|] eqn:Eu; [|apply Hsame; reflexivity].
    destruct (insert_txns ts b (s_txns s)) as [l|e] eqn:Ei; [|apply Hsame; reflexivity].
    clear H0 Hsame. apply insert_txns_shape in Ei as (nr & -> & Hn). apply update_set_ids in Eu.
    exists nr, [], []. simpl. rewrite Eu. repeat split; auto; try solve [intros ? []].
  - exists [], [t], []. simpl. repeat split; auto; try solve [intros ? []]; intros ? H; exact H.
  - exists [], [], [j]. simpl. repeat split; auto; try solve [intros ? []]; intros ? H; exact H.
  - exists [], [], []. simpl. repeat split; auto; try solve [intros ? []]. intros e [<-|H]; auto.
  - eapply H0 with (s1 := set_bals s _); simpl; auto. intros x. rewrite reconcile_ids. auto.
Qed.

Lemma bln_whole s r : inv cfg s -> (forall b, In b (s_bals s) -> bln_id (b_id b)) -> In r (s_txns s) ->
  bln_id (source r) /\ bln_id (destination r).
Proof.
  intros HI Hb Hr. pose proof (i_ends _ _ HI) as He. rewrite Forall_forall in He. destruct (He r Hr) as [H1 H2].
  apply in_map_iff in H1 as (b1 & <- & B1). apply in_map_iff in H2 as (b2 & <- & B2). auto.
Qed.
Lemma bln_not_empty x : bln_id x -> x <> "".
Proof. intros (b & ->). discriminate. Qed.
Lemma bln_whole_t t : bln_id (t_src t) -> bln_id (t_dst t) -> wholeb t = true.
Proof. intros (a & E1) (b & E2). unfold wholeb. rewrite E1, E2. reflexivity. Qed.
Lemma tid_not_empty i : tid i <> "".
Proof. discriminate. Qed.
Lemma tid_not_bulk i : ~ bulk_id (tid i).
Proof. intros (b & H). discriminate. Qed.
Lemma cap_tid n x s : drawn n x s -> x <> "" /\ ~ bulk_id x.
Proof. intros (i & _ & ->). split; [apply tid_not_empty|apply tid_not_bulk]. Qed.
Lemma drawn_one n m x s : invC s -> drawn n x s -> drawn m x s -> n = m.
Proof. intros HI (i & Hi & ->) (j & Hj & E). apply tid_inj in E as <-. eapply c_uniq; eauto. Qed.

Lemma execC n o s zs used F Z (s' := fst (exec n o s)) :
  inv cfg s -> invC s -> inv cfg s' -> incl zs Z -> caps n (used ++ F) Z s -> opok zs used o s ->
  invC s' /\ ext s s' /\ (forall m, m <> n -> relC m s s') /\ caps n F Z s'.
Proof.
  intros HI HC HI' Hzs (Hnd & Hcap & Hmine) (Hpub & Horig & Hkrow & Hpay & Hjob & Hlast).
  destruct (exec_shape n o s) as (nr & nq & nj & Et & Eq & Es & Hnr & Hnq & Hnj & Eu & Eo & Ej & Eb & Em).
  fold s' in Et, Eq, Es, Eu, Eo, Ej, Eb, Em.
  assert (Hg : grow s s').
  { unfold grow. rewrite Et, Eq, Es. repeat split; try (apply incl_appr, incl_refl).
    destruct Eo as [[-> _]|[-> _]]; [apply incl_refl|apply incl_tl, incl_refl]. }
  assert (Hb' : forall b, In b (s_bals s') -> bln_id (b_id b)).
  { intros b Hb. destruct (Eb (b_id b)) as [H|H]; [apply in_map; exact Hb| |].
    - apply in_map_iff in H as (b0 & <- & H0). apply (c_bals _ HC b0 H0).
    - destruct o; try contradiction. rewrite H. exact Hlast. }
  assert (Hpub' : forall x, pub x s' -> pub x s \/ In x (pubs o)).
  { intros x. unfold pub, ids. rewrite Et, Eq, Es, map_app, !flat_map_app, !in_app_iff.
    intros [[H|H]|[[H|H]|[H|H]]]; auto; right; unfold pubs; rewrite !in_app_iff.
    - left. apply in_map_iff in H as (r & <- & Hr). apply in_flat_map.
      exists (r_kind r, r_t r). split; [auto|]. simpl. unfold wid.
      destruct (bln_whole s' r HI' Hb') as [B1 B2]; [rewrite Et; apply in_or_app; auto|].
      rewrite bln_whole_t; auto. left; reflexivity.
    - right; left. eapply flat_map_incl; [exact Hnq|exact H].
    - right; right. eapply flat_map_incl; [exact Hnj|exact H]. }
  assert (Hpar' : forall x, par x s' -> par x s \/ exists k t, In (k, t) (newtx o) /\ t_parent t = x).
  { intros x. unfold par, parents. rewrite Et, Eq, Es, !map_app, flat_map_app, map_app, !in_app_iff.
    intros [[H|H]|[[H|H]|[H|H]]]; auto; right.
    - apply in_map_iff in H as (r & <- & Hr). exists (r_kind r), (r_t r). split; auto.
      unfold newtx. rewrite in_app_iff. left. auto.
    - apply in_map_iff in H as (t & <- & Ht). exists KNone, t. split; auto.
      unfold newtx. rewrite !in_app_iff. right; left. apply in_map_iff. exists t. auto.
    - apply in_map_iff in H as (t & <- & Ht). exists KNone, t. split; auto.
      unfold newtx. rewrite !in_app_iff. right; right. apply in_map_iff. exists t. split; auto.
      eapply flat_map_incl; eauto. }
  assert (Hpubs : forall x, In x (pubs o) -> pub x s \/ (In x used /\ cap n x s)).
  { intros x Hx. destruct (Hpub x Hx) as [H|H]; auto. right. split; auto. apply Hcap. apply in_or_app; auto. }
  assert (Hpars : forall k t, In (k, t) (newtx o) ->
     t_parent t = "" \/ bulk_id (t_parent t) \/ pub (t_parent t) s \/ par (t_parent t) s
     \/ (In (t_parent t) Z /\ mine n (t_parent t) s)).
  { assert (Hrow : forall h, In h (s_txns s) -> pub (t_id (r_t h)) s).
    { intros h Hh. unfold pub, ids. apply in_or_app; left. apply (in_map (fun r => t_id (r_t r)) _ _ Hh). }
    intros k t Hin. destruct (Horig k t Hin) as [H|H].
    - assert (Hor : orig_ok s t -> t_parent t = "" \/ bulk_id (t_parent t) \/ pub (t_parent t) s \/ par (t_parent t) s
     \/ (In (t_parent t) Z /\ mine n (t_parent t) s)).
      { intros [E|[E|[(oo & Ho & [E|E])|[E _]]]]; auto.
        - right; right; left. destruct E as (_ & -> & _). auto.
        - right; right; left. destruct E as (_ & -> & _). auto. }
      assert (Hcv : k = KCommit \/ k = KVoid -> In (k, t) (newrows o)).
      { intros Hk. unfold newtx in Hin. rewrite !in_app_iff in Hin. destruct Hin as [Hin|[Hin|Hin]]; auto;
          apply in_map_iff in Hin as (x & E & _); inversion E; subst; destruct Hk; discriminate. }
      destruct k; simpl in H; auto.
      + assert (Hk := Hkrow _ _ (Hcv (or_introl eq_refl))). simpl in Hk. destruct Hk as ((h & Hh & <- & _) & _). auto.
      + assert (Hk := Hkrow _ _ (Hcv (or_intror eq_refl))). simpl in Hk. destruct Hk as ((h & Hh & <- & _) & _). auto.
    - right; right; right; right. split; auto. }
  assert (Hext : ext s s').
  { split; [exact Hg|]. intros x Hp Hn Hx. destruct (Hpub' x Hx) as [H|H]; [contradiction|].
    destruct (Hpubs x H) as [H1|[_ [_ H1]]]; contradiction. }
  assert (Hrel : forall m, m <> n -> relC m s s').
  { intros m Hm. split; [exact Hext|]. intros x [[Hd Hp] Hq]. split; [split|].
    - eapply drawn_grow; eauto.
    - intros Hx. destruct (Hpub' x Hx) as [H|H]; [contradiction|].
      destruct (Hpubs x H) as [H1|[_ [[H1 _] _]]]; [contradiction|]. apply Hm. eapply drawn_one; eauto.
    - intros Hx. destruct (Hpar' x Hx) as [H|(k & t & H & <-)]; [contradiction|].
      destruct (cap_tid _ _ _ Hd) as [N1 N2].
      destruct (Hpars k t H) as [E|[E|[E|[E|[_ [E _]]]]]]; try contradiction. apply Hm. eapply drawn_one; eauto. }
  assert (HF : forall x, In x F -> cap n x s').
  { intros x Hx. destruct (Hcap x) as [[Hd Hp] Hq]; [apply in_or_app; auto|]. split; [split|].
    - eapply drawn_grow; eauto.
    - intros H. destruct (Hpub' x H) as [H1|H1]; [contradiction|]. destruct (Hpub x H1) as [H2|H2]; [|contradiction].
      rewrite <- app_assoc in Hnd. apply (nodup_disj _ _ x Hnd H2). apply in_or_app; auto.
    - intros H. destruct (Hpar' x H) as [H1|(k & t & H1 & <-)]; [contradiction|].
      destruct (cap_tid _ _ _ Hd) as [N1 N2].
      destruct (Hpars k t H1) as [E|[E|[E|[E|[E _]]]]]; try contradiction.
      rewrite <- app_assoc in Hnd. apply nodup_r in Hnd. exact (nodup_disj _ _ _ Hnd Hx E). }
  assert (HZ : forall x, In x Z -> mine n x s').
  { intros x Hx. destruct (Hmine x Hx) as [Hd Hp]. split; [eapply drawn_grow; eauto|].
    intros H. destruct (Hpub' x H) as [H1|H1]; [contradiction|]. destruct (Hpub x H1) as [H2|H2]; [|contradiction].
    apply (nodup_disj _ _ x Hnd); [apply in_or_app; auto|exact Hx]. }
  assert (Hnew : forall k t, In (k, t) (newtx o) -> par (t_parent t) s' -> origk s' k t).
  { intros k t Hin Hp. destruct (Horig k t Hin) as [H|H].
    - destruct k; simpl in *; auto; eapply orig_ext; eauto.
    - assert (Hor : orig_ok s' t); [|destruct k; simpl; auto].
      right; right; right. split; [exact Hp|]. apply (HZ _ (Hzs _ H)). }
  assert (Hctr : (s_ctr s <= s_ctr s')%nat) by (destruct Eo as [[_ ->]|[_ ->]]; lia).
  split; [|split; [exact Hext|split; [exact Hrel|]]].
  2: { split; [|split; auto]. rewrite <- app_assoc in Hnd. apply nodup_r in Hnd. exact Hnd. }
  constructor.
  - rewrite Eu. apply HC.
  - intros i m Hi. destruct Eo as [[E1 E2]|[E1 E2]]; rewrite E1 in Hi; rewrite E2.
    + eapply c_owner; eauto.
    + destruct Hi as [E|Hi]; [inversion E; subst; lia|]. pose proof (c_owner _ HC _ _ Hi). lia.
  - intros i m1 m2 H1 H2. destruct Eo as [[E1 E2]|[E1 E2]]; rewrite E1 in H1, H2; [eapply c_uniq; eauto|].
    destruct H1 as [H1|H1], H2 as [H2|H2].
    + congruence.
    + inversion H1; subst. pose proof (c_owner _ HC _ _ H2). lia.
    + inversion H2; subst. pose proof (c_owner _ HC _ _ H1). lia.
    + eapply c_uniq; eauto.
  - intros x Hx. destruct (Hpub' x Hx) as [H|H].
    + destruct (c_pub _ HC x H) as (i & Hi & E). exists i. split; [lia|exact E].
    + destruct (Hpubs x H) as [H1|[_ [[(i & Hi & E) _] _]]].
      * destruct (c_pub _ HC x H1) as (i & Hi & E). exists i. split; [lia|exact E].
      * exists i. split; [|exact E]. pose proof (c_owner _ HC _ _ Hi). lia.
  - intros i Hx. destruct (Hpar' _ Hx) as [H|(k & t & H & E)].
    + pose proof (c_par _ HC i H). lia.
    + destruct (Hpars k t H) as [E1|[E1|[E1|[E1|[_ [(i0 & Hi & E1) _]]]]]]; rewrite E in E1.
      * discriminate.
      * exfalso. eapply tid_not_bulk; eauto.
      * destruct (c_pub _ HC _ E1) as (i' & Hi & E'). apply tid_inj in E' as ->. lia.
      * pose proof (c_par _ HC i E1). lia.
      * apply tid_inj in E1 as ->. pose proof (c_owner _ HC _ _ Hi). lia.
  - rewrite Ej, Es. apply incl_app; [apply incl_appl, incl_refl|apply incl_appr, (c_jobs _ HC)].
  - exact Hb'.
  - rewrite Et. apply Forall_app. split.
    + apply Forall_forall. intros r Hr. split.
      * eapply krow_ext; [exact Hext|]. auto.
      * apply Hnew; [unfold newtx; apply in_or_app; left; auto|].
        unfold par, parents. rewrite Et, map_app, !in_app_iff. left; left.
        apply (in_map (fun r => t_parent (r_t r)) _ _ Hr).
    + eapply Forall_impl; [|apply (c_rows _ HC)]. intros r. apply row_ext; exact Hext.
  - rewrite Eq. apply Forall_app. split.
    + apply Forall_forall. intros t Ht. split; [|apply Hpay; auto].
      apply (Hnew KNone t).
      * unfold newtx. rewrite !in_app_iff. right; left. apply in_map_iff. eauto.
      * unfold par, parents. rewrite Eq, map_app, !in_app_iff. right; left; left. apply in_map. exact Ht.
    + eapply Forall_impl; [|apply (c_queue _ HC)]. intros t. apply pay_ext; exact Hext.
  - rewrite Es. apply Forall_app. split.
    + apply Forall_forall. intros j Hj. destruct (Hjob j (Hnj j Hj)) as (Hs1 & Hs2 & Hs3).
      assert (Hp : forall t, In t (jtx j) -> par (t_parent t) s').
      { intros t Ht. unfold par, parents. rewrite Es, flat_map_app, map_app, !in_app_iff. right; right; left.
        apply in_map. apply in_flat_map. eauto. }
      split; [|split; [exact Hs1|]].
      2: { intros Hl. split; [|apply (HZ _ (Hzs _ (Hs3 Hl)))]. destruct Hs1 as (_ & _ & Hs1). destruct (Hs1 Hl) as [_ Hpl].
           destruct (j_legs j) as [|l0 ls] eqn:El; [contradiction|]. inversion Hpl; subst.
           rewrite <- H1. apply Hp. unfold jtx. rewrite El. right; left; reflexivity. }
      rewrite Forall_forall in Hs2. apply Forall_forall. intros t Ht. split; [|apply Hs2; exact Ht].
      apply (Hnew KNone t).
      * unfold newtx. rewrite !in_app_iff. right; right. apply in_map_iff. exists t. split; auto.
        apply in_flat_map. exists j. auto.
      * apply Hp. exact Ht.
    + eapply Forall_impl; [|apply (c_spawn _ HC)]. intros j. apply job_ext; exact Hext.
  - intros id m Hm. destruct (Em _ Hm) as [H|H].
    + eapply meta_ext; [exact Hext|]. eapply c_meta; eauto.
    + destruct o; try contradiction. inversion H; subst. eapply meta_ext; [exact Hext|exact Hlast].
Qed.

(** ** Rules *)
Definition JC (s : state) : Prop := tt_inv s /\ inv cfg s.
Definition sC {A} n P (p : prog A) Q := safe JC invC relC n P p Q.
Definition lastC (P : state -> Prop) : Prop := forall s s', ext s s' -> P s -> P s'.

Definition sp {A} (zs xs : list string) (pre : state -> Prop) (p : prog A)
    (ys : A -> list string) (post : A -> state -> Prop) : Prop :=
  forall n P F Z, lastC P -> incl zs Z ->
    sC n (fun s => (P s /\ pre s) /\ caps n (xs ++ F) Z s) p
       (fun a s => (P s /\ post a s) /\ caps n (ys a ++ F) Z s).

Lemma last_and P Q : lastC P -> lastC Q -> lastC (fun s => P s /\ Q s).
Proof. intros H1 H2 s s' He [A B]. split; [eapply H1|eapply H2]; eauto. Qed.
Lemma last_pure (c : Prop) : lastC (fun _ => c).
Proof. intros s s' _ H; exact H. Qed.
Lemma last_true : lastC (fun _ => True).
Proof. apply last_pure. Qed.
Lemma last_pub x : lastC (pub x).
Proof. intros s s' He. apply pub_grow. apply He. Qed.
Lemma last_orig t : lastC (fun s => orig_ok s t).
Proof. intros s s' He. apply orig_ext; exact He. Qed.
Lemma last_pay t : lastC (fun s => pay_ok s t).
Proof. intros s s' He. apply pay_ext; exact He. Qed.
Lemma last_row r : lastC (fun s => In r (s_txns s)).
Proof. intros s s' He. apply He. Qed.
Lemma last_queued r : lastC (fun s => In r (s_queue s)).
Proof. intros s s' He. apply He. Qed.
Lemma last_job r : lastC (fun s => In r (s_spawned s)).
Proof. intros s s' He. apply He. Qed.
Lemma last_hold t : lastC (fun s => hold_of s t).
Proof. intros s s' He. apply hold_ext; exact He. Qed.
Lemma last_forall {A} (f : A -> state -> Prop) l : (forall x, lastC (f x)) -> lastC (fun s => Forall (fun x => f x s) l).
Proof. intros H s s' He Hf. eapply Forall_impl; [|exact Hf]. intros x. apply H; exact He. Qed.
Lemma last_ex {A} (f : A -> state -> Prop) : (forall x, lastC (f x)) -> lastC (fun s => exists x, f x s).
Proof. intros H s s' He (x & Hx). exists x. eapply H; eauto. Qed.
Lemma last_or P Q : lastC P -> lastC Q -> lastC (fun s => P s \/ Q s).
Proof. intros H1 H2 s s' He [A|A]; [left; eapply H1|right; eapply H2]; eauto. Qed.
Lemma last_impl (c : Prop) P : lastC P -> lastC (fun s => c -> P s).
Proof. intros H s s' He Hc c0. eapply H; eauto. Qed.

Lemma caps_sub n xs ys rest F Z s : Permutation xs (ys ++ rest) -> caps n (xs ++ F) Z s -> caps n (ys ++ F) Z s.
Proof.
  intros Hp (H1 & H2 & H3).
  assert (Hp' : Permutation (xs ++ F) (rest ++ (ys ++ F))).
  { rewrite app_assoc. apply Permutation_app_tail. rewrite Hp. apply Permutation_app_comm. }
  split; [|split; auto].
  - apply (nodup_r rest). rewrite app_assoc. eapply Permutation_NoDup; [|exact H1].
    apply Permutation_app_tail. exact Hp'.
  - intros x Hx. apply H2. eapply Permutation_in; [symmetry; exact Hp'|]. apply in_or_app; auto.
Qed.

Lemma sp_conseq {A} zs xs xs' (pre pre' : state -> Prop) (p : prog A) (ys ys' : A -> list string)
    (post post' : A -> state -> Prop) :
  (forall s, inv cfg s -> invC s -> pre s -> pre' s) ->
  (exists rest, Permutation xs (xs' ++ rest)) ->
  (forall a s, inv cfg s -> invC s -> post a s -> post' a s) ->
  (forall a, exists rest, Permutation (ys a) (ys' a ++ rest)) ->
  sp zs xs' pre' p ys post -> sp zs xs pre p ys' post'.
Proof.
  intros H1 [r1 H2] H3 H4 H n P F Z HP Hz. specialize (H n P F Z HP Hz).
  eapply safe_pre; [|eapply safe_post; [|exact H]].
  - intros s [_ HI] HC [[HPs Hpre] Hc]. split; [split; auto|]. eapply caps_sub; eauto.
  - intros a s [_ HI] HC [[HPs Hpost] Hc]. split; [split; auto|].
    destruct (H4 a) as [r2 H5]. eapply caps_sub; eauto.
Qed.

Lemma perm_self {A} (l : list A) : exists rest, Permutation l (l ++ rest).
Proof. exists []. rewrite app_nil_r. reflexivity. Qed.
Lemma perm_none {A} (l : list A) : exists rest, Permutation l ([] ++ rest).
Proof. exists l. reflexivity. Qed.

Lemma sp_pre {A} zs xs (pre pre' : state -> Prop) (p : prog A) ys post :
  (forall s, inv cfg s -> invC s -> pre s -> pre' s) -> sp zs xs pre' p ys post -> sp zs xs pre p ys post.
Proof. intros H. apply sp_conseq; auto; [apply perm_self|intros; apply perm_self]. Qed.
Lemma sp_post {A} zs xs pre (p : prog A) ys (post post' : A -> state -> Prop) :
  (forall a s, inv cfg s -> invC s -> post a s -> post' a s) -> sp zs xs pre p ys post -> sp zs xs pre p ys post'.
Proof. intros H. apply sp_conseq; auto; [apply perm_self|intros; apply perm_self]. Qed.
Lemma sp_drop {A} zs xs pre (p : prog A) ys post :
  sp zs xs pre p ys post -> sp zs xs pre p (fun _ => []) (fun _ _ => True).
Proof. apply sp_conseq; auto; [apply perm_self|intros; apply perm_none]. Qed.
Lemma sp_zs {A} zs zs' xs pre (p : prog A) ys post : incl zs zs' -> sp zs xs pre p ys post -> sp zs' xs pre p ys post.
Proof. intros Hi H n P F Z HP Hz. apply H; auto. eapply incl_tran; eauto. Qed.

Lemma sp_ret {A} zs xs (pre : state -> Prop) (a : A) ys (post : A -> state -> Prop) :
  (forall s, inv cfg s -> invC s -> pre s -> post a s) -> (exists rest, Permutation xs (ys a ++ rest)) ->
  sp zs xs pre (Ret a) ys post.
Proof.
  intros H [r Hr] n P F Z HP Hz. apply safe_ret. intros s [_ HI] HC [[HPs Hpre] Hc].
  split; [split; auto|]. eapply caps_sub; eauto.
Qed.

Lemma sp_bind {A B} zs xs pre (p : prog A) ys M (f : A -> prog B) ys' post :
  sp zs xs pre p ys M -> (forall a, sp zs (ys a) (M a) (f a) ys' post) -> sp zs xs pre (bind p f) ys' post.
Proof. intros Hp Hf n P F Z HP Hz. eapply safe_bind; [apply Hp; auto|]. intros a. apply Hf; auto. Qed.

Lemma sp_frame {A} zs xs G pre R (p : prog A) ys M :
  lastC R -> sp zs xs pre p ys M ->
  sp zs (xs ++ G) (fun s => R s /\ pre s) p (fun a => ys a ++ G) (fun a s => R s /\ M a s).
Proof.
  intros HR H n P F Z HP Hz. specialize (H n (fun s => P s /\ R s) (G ++ F) Z (last_and _ _ HP HR) Hz).
  eapply safe_pre; [|eapply safe_post; [|exact H]].
  - intros s _ _ [[H1 [H2 H3]] H4]. rewrite <- app_assoc in H4. auto.
  - intros a s _ _ [[[H1 H2] H3] H4]. rewrite <- app_assoc. auto.
Qed.

Lemma sp_seq {A B} zs xs G pre (R : state -> Prop) (p : prog A) ys M (f : A -> prog B) ys' post :
  lastC R -> sp zs xs pre p ys M -> (forall s, inv cfg s -> invC s -> R s -> pre s) ->
  (forall a, sp zs (ys a ++ G) (fun s => R s /\ M a s) (f a) ys' post) ->
  sp zs (xs ++ G) R (bind p f) ys' post.
Proof.
  intros HR Hp Hpre Hf. eapply sp_pre with (pre' := fun s => R s /\ pre s); [auto|].
  eapply sp_bind; [apply sp_frame; eauto|exact Hf].
Qed.

Lemma sp_fact {A} zs xs (pre : state -> Prop) (c : Prop) (p : prog A) ys post :
  (forall s, inv cfg s -> invC s -> pre s -> c) -> (c -> sp zs xs pre p ys post) -> sp zs xs pre p ys post.
Proof.
  intros Hc H n P F Z HP Hz.
  eapply safe_pre with (P' := fun s => ((P s /\ pre s) /\ caps n (xs ++ F) Z s) /\ c).
  - intros s [_ HI] HC [[H1 H2] H3]. split; [auto|]. eapply Hc; eauto.
  - apply safe_pure. intros c0. apply H; auto.
Qed.

Lemma sp_spend {A} zs x xs pre (p : prog A) ys post :
  sp (x :: zs) xs pre p ys post -> sp zs (x :: xs) pre p ys post.
Proof.
  intros H n P F Z HP Hz.
  assert (Hz' : incl (x :: zs) (x :: Z)).
  { intros a [->|Ha]; [left; reflexivity|right; auto]. }
  specialize (H n P F (x :: Z) HP Hz').
  eapply safe_pre; [|eapply safe_post; [|exact H]].
  - intros s _ _ [H1 (H2 & H3 & H4)]. split; auto. split; [|split].
    + eapply Permutation_NoDup; [|exact H2]. simpl. apply Permutation_middle.
    + intros a Ha. apply H3. right; exact Ha.
    + intros a [<-|Ha]; auto. apply (H3 x). left; reflexivity.
  - intros a s _ _ [H1 (H2 & H3 & H4)]. split; auto. split; [|split]; auto.
    + apply NoDup_remove_1 in H2. exact H2.
    + intros b Hb. apply H4. right; exact Hb.
Qed.

Lemma sp_op zs used (pre : state -> Prop) o (R : resp o -> state -> Prop) :
  (forall s, inv cfg s -> invC s -> pre s -> opok zs used o s) ->
  (forall n s, inv cfg s -> invC s -> pre s -> inv cfg (fst (exec n o s)) -> invC (fst (exec n o s)) ->
     R (snd (exec n o s)) (fst (exec n o s))) ->
  (forall x, lastC (R x)) -> sp zs used pre (act o) (fun _ => []) R.
Proof.
  intros Ho HR HL n P F Z HP Hz.
  exists (fun x s => (P s /\ R x s) /\ caps n F Z s). split; [|split].
  - intros s [_ HI] HC [[HPs Hpre] Hc] [_ HI'].
    destruct (execC n o s zs used F Z HI HC HI' Hz Hc (Ho s HI HC Hpre)) as (HC' & He & Hr & Hc').
    split; [exact HC'|]. split; [exact Hr|]. split; [split; [eapply HP; eauto|apply HR; auto]|exact Hc'].
  - intros x s s' _ _ _ _ Hr [[H1 H2] H3]. split; [split|].
    + eapply HP; [apply Hr|exact H1].
    + eapply HL; [apply Hr|exact H2].
    + eapply caps_rel; eauto.
  - intros x s _ _ H. exact H.
Qed.

Lemma sp_fresh : sp [] [] (fun _ => True) (fresh "txn") (fun id => [id]) (fun id _ => id <> "").
Proof.
  intros n P F Z HP Hz. unfold fresh.
  exists (fun x s => (P s /\ ("txn" ++ "_" ++ x)%string <> "") /\ caps n (("txn" ++ "_" ++ x)%string :: F) Z s). split; [|split].
  - intros s [_ HI] HC [[HPs _] Hc] [_ HI'].
    assert (Ho : opok [] [] OFresh s).
    { unfold opok, pubs, newtx. simpl. repeat split; intros; contradiction. }
    destruct (execC n OFresh s [] [] F Z HI HC HI' Hz Hc Ho) as (HC' & He & Hr & Hc').
    split; [exact HC'|]. split; [exact Hr|]. split; [split; [eapply HP; eauto|discriminate]|].
    simpl in Hc'. destruct Hc' as (A1 & A2 & A3). cbn [exec snd fst].
    rewrite (c_uuid _ HC).
    set (s' := set_ctr s (S (s_ctr s)) ((s_ctr s, n) :: s_owner s)) in *.
    change (caps n (tid (s_ctr s) :: F) Z s').
    assert (Hnew : cap n (tid (s_ctr s)) s').
    { split; [split|].
      - exists (s_ctr s). split; [left; reflexivity|reflexivity].
      - intros Hp. destruct (c_pub _ HC (tid (s_ctr s)) Hp) as (i & Hi & E). apply tid_inj in E. lia.
      - intros Hp. pose proof (c_par _ HC (s_ctr s) Hp). lia. }
    assert (Hold : forall x, In x (F ++ Z) -> x <> tid (s_ctr s)).
    { intros x Hx E. destruct Hc as (_ & B2 & B3). simpl in B2.
      assert (Hd : drawn n x s).
      { apply in_app_iff in Hx as [Hx|Hx]; [apply (B2 x Hx)|apply (B3 x Hx)]. }
      destruct Hd as (i & Hi & Ei). rewrite E in Ei. apply tid_inj in Ei. subst i.
      pose proof (c_owner _ HC _ _ Hi). lia. }
    split; [|split; auto].
    + simpl. constructor; auto. intros Hin. apply (Hold _ Hin). reflexivity.
    + intros x [<-|Hx]; auto.
  - intros x s s' _ _ _ _ Hr [[H1 H2] H3]. split; [split; auto|].
    + eapply HP; [apply Hr|exact H1].
    + eapply caps_rel; eauto.
  - intros x s _ _ H. exact H.
Qed.

(** Programs without demands. *)
Definition freeC (o : op) : Prop := forall s, opok [] [] o s.
Definition quiet {A} (p : prog A) (post : A -> Prop) : Prop :=
  sp [] [] (fun _ => True) p (fun _ => []) (fun a _ => post a).

Lemma quiet_free {A} (p : prog A) : all_ops freeC p -> quiet p (fun _ => True).
Proof.
  unfold quiet. induction p as [a|o k IH]; simpl all_ops; intros H.
  - apply sp_ret; [auto|apply perm_self].
  - destruct H as [Ho Hk]. change (Do o k) with (bind (act o) k).
    eapply sp_bind with (M := fun _ _ => True); [apply sp_op; [intros; apply Ho|auto|intros; apply last_true]|].
    intros a. apply IH. apply Hk.
Qed.

Lemma sp_quiet {A B} zs xs (R : state -> Prop) (p : prog A) (M : A -> Prop) (f : A -> prog B) ys post :
  lastC R -> quiet p M -> (forall a, M a -> sp zs xs R (f a) ys post) -> sp zs xs R (bind p f) ys post.
Proof.
  intros HR Hp Hf. change xs with ([] ++ xs).
  eapply sp_seq with (pre := fun _ => True) (ys := fun _ => []) (M := fun a _ => M a); auto.
  - eapply sp_zs; [|exact Hp]. intros x [].
  - intros a. simpl. eapply sp_fact with (c := M a); [intros s _ _ [_ H]; exact H|]. intros Ha.
    eapply sp_pre; [|apply (Hf a Ha)]. intros s _ _ [H _]; exact H.
Qed.

Lemma quiet_bind {A B} (p : prog A) (M : A -> Prop) (f : A -> prog B) post :
  quiet p M -> (forall a, M a -> quiet (f a) post) -> quiet (bind p f) post.
Proof. intros Hp Hf. apply sp_quiet with (M := M); auto. apply last_true. Qed.
Lemma quiet_bindr {A B} (p : prog (res A)) (M : A -> Prop) (f : A -> prog (res B)) (post : res B -> Prop) :
  quiet p (fun r => match r with Ok a => M a | Err _ => True end) ->
  (forall a, M a -> quiet (f a) post) -> (forall e, post (Err e)) -> quiet (bindr p f) post.
Proof.
  intros Hp Hf He. unfold bindr. eapply quiet_bind; [exact Hp|]. intros [a|e] Ha; [apply Hf; exact Ha|].
  apply sp_ret; [auto|apply perm_self].
Qed.
Lemma quiet_ret {A} (a : A) (post : A -> Prop) : post a -> quiet (Ret a) post.
Proof. intros H. apply sp_ret; [auto|apply perm_self]. Qed.
Lemma quiet_weaken {A} (p : prog A) (post post' : A -> Prop) :
  (forall a, post a -> post' a) -> quiet p post -> quiet p post'.
Proof. intros H. apply sp_post. auto. Qed.
Lemma quiet_op o (R : resp o -> Prop) :
  (forall s, opok [] [] o s) ->
  (forall n s, inv cfg s -> invC s -> R (snd (exec n o s))) -> quiet (act o) R.
Proof. intros Ho HR. apply sp_op; [auto|intros; apply HR; auto|intros; apply last_pure]. Qed.

Lemma sp_quietr {A B} zs xs (R : state -> Prop) (p : prog (res A)) (M : A -> Prop) (f : A -> prog (res B)) post :
  lastC R -> quiet p (fun r => match r with Ok a => M a | Err _ => True end) ->
  (forall a, M a -> sp zs xs R (f a) (fun _ => []) post) -> (forall e s, inv cfg s -> invC s -> R s -> post (Err e) s) ->
  sp zs xs R (bindr p f) (fun _ => []) post.
Proof.
  intros HR Hp Hf He. unfold bindr. eapply sp_quiet; [exact HR|exact Hp|].
  intros [a|e] Ha; [apply Hf; exact Ha|]. apply sp_ret; [auto|apply perm_none].
Qed.

End C.
