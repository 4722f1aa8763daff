(** The pure part of posting: applying one transaction to the balances it read
    yields a legal row and balances that show it. *)
From Coq Require Import ZArith QArith Qabs List String Bool Lia.
From Verif Require Import Base MoneyModel SplitModel BalanceModel LedgerModel LedgerProgs
  ConcModel ConcLogic LedgerSpec MoneyProof LedgerInv.
Import ListNotations.
Open Scope Z_scope.

Section Pure.
Variable cfg : config.
Local Notation qc := (c_queued cfg).

(** A balance as read: it shows the journal [j]; its queued amount, if loaded, is
    negative only when somebody queued a negative amount. *)
Definition reads (j : list row) (b : balance) : Prop :=
  shows b j /\ match b_queued b with
               | None => True
               | Some q => qc = true /\ (q < 0 -> negative_queued j)
               end.

(** What may be handed to the posting routine. *)
Definition good_rec (t : txn) : Prop :=
  ((t_status t = SQueued \/ t_status t = SScheduled)
   \/ ((t_status t = SCommit \/ t_status t = SVoid) /\ t_inflight t = false))
  /\ 0 <= t_prec t.

Lemma apply_precision_prec t : 0 <= t_prec t -> 0 <= t_prec (apply_precision_txn t).
Proof.
  intros H. unfold apply_precision_txn, apply_precision.
  destruct (t_prec t =? 0) eqn:E; destruct (0 <? t_precise t); simpl; lia.
Qed.

Lemma apply_precision_fields t :
  let t' := apply_precision_txn t in
  t_id t' = t_id t /\ t_parent t' = t_parent t /\ t_src t' = t_src t /\ t_dst t' = t_dst t
  /\ t_ref t' = t_ref t /\ t_cur t' = t_cur t /\ t_status t' = t_status t
  /\ t_inflight t' = t_inflight t /\ t_allow t' = t_allow t /\ t_limit t' = t_limit t
  /\ t_skipq t' = t_skipq t /\ t_atomic t' = t_atomic t /\ t_sched t' = t_sched t
  /\ t_meta t' = t_meta t /\ t_sources t' = t_sources t /\ t_dests t' = t_dests t.
Proof.
  unfold apply_precision_txn. destruct (apply_precision _ _ _) as [[p a] pr]. simpl.
  repeat split; reflexivity.
Qed.

Lemma qlt_spec a b : qlt a b = true -> (a < b)%Q.
Proof.
  unfold qlt. intros H. apply negb_true_iff in H.
  apply Qnot_le_lt. intros Hle. apply Qle_bool_iff in Hle. congruence.
Qed.

Lemma can_process_funded t b r j :
  can_process t b = Ok tt -> 0 <= t_prec t -> reads j b ->
  source r = b_id b -> amount r = t_precise t -> t_allow (r_t r) = t_allow t ->
  t_limit (r_t r) = t_limit t -> t_prec (r_t r) = t_prec t ->
  funded j r \/ (qc = true /\ negative_queued j).
Proof.
  intros Hc Hp (Hs & Hq) E1 E2 E3 E4 E5. unfold can_process in Hc.
  destruct (t_allow t && Qeq_bool (t_limit t) 0) eqn:Ea.
  { apply andb_prop in Ea as [Ea1 Ea2]. left; left. rewrite E3, E4.
    split; auto. apply Qeq_bool_iff. exact Ea2. }
  destruct Hs as (_ & _ & _ & Hidb & Hbal & _).
  assert (Hav : b_bal b - b_idb b = available (b_id b) j) by (unfold available; lia).
  set (avail := match b_queued b with Some q => b_bal b - b_idb b - q | None => b_bal b - b_idb b end) in Hc.
  assert (Hle : avail <= available (b_id b) j \/ (qc = true /\ negative_queued j)).
  { unfold avail. destruct (b_queued b) as [q|]; [|left; lia]. destruct Hq as [Hq1 Hq2].
    destruct (Z.neg_nonneg_cases q); [right; auto|left; lia]. }
  destruct Hle as [Hle|Hneg]; [|right; exact Hneg]. left. unfold funded. rewrite E1, E2, E3, E4.
  destruct (t_precise t <=? avail) eqn:E6; [right; left; apply Z.leb_le in E6; lia|].
  destruct (qlt 0 (t_limit t)) eqn:E7; [|discriminate].
  destruct (_ <=? avail - t_precise t) eqn:E8; [|discriminate].
  apply Z.leb_le in E8. apply qlt_spec in E7. right; right.
  exists (round_half_away (t_limit t * inject_Z (t_prec t))). split.
  - unfold grants. rewrite E4, E5. split; [exact E7|]. apply round_half_away_near.
  - pose proof (overdraft_limit_le (t_limit t) (t_prec t) (Qlt_le_weak _ _ E7) Hp). lia.
Qed.

(** Effect of one row on a balance, side by side. *)
Lemma shows_src b r j k a b' :
  shows b j -> source r = b_id b -> destination r <> b_id b -> r_kind r = k -> amount r = a ->
  b_id b' = b_id b ->
  b_cr b' = b_cr b -> b_icr b' = b_icr b ->
  b_db b' = b_db b + (match k with KPost | KCommit => a | _ => 0 end) ->
  b_idb b' = b_idb b + (match k with KHold => a | KCommit | KVoid => - a | _ => 0 end) ->
  b_bal b' = b_cr b' - b_db b' -> b_ibal b' = b_icr b' - b_idb b' ->
  shows b' (r :: j).
Proof.
  intros (A & B & C & D & _ & _) Hs Hd Hk Ha Hi H1 H2 H3 H4 H5 H6.
  unfold shows, credits, debits, held_in, held_out in *. rewrite Hi, !total_cons, Hs, String.eqb_refl.
  destruct (String.eqb_spec (destination r) (b_id b)); [contradiction|].
  assert (Hse : settled r = match k with KPost | KCommit => a | _ => 0 end)
    by (unfold settled; rewrite Hk, Ha; reflexivity).
  assert (Hhe : held r = match k with KHold => a | KCommit | KVoid => - a | _ => 0 end)
    by (unfold held; rewrite Hk, Ha; reflexivity).
  rewrite Hse, Hhe. repeat split; destruct k; lia.
Qed.

Lemma shows_dst b r j k a b' :
  shows b j -> destination r = b_id b -> source r <> b_id b -> r_kind r = k -> amount r = a ->
  b_id b' = b_id b ->
  b_db b' = b_db b -> b_idb b' = b_idb b ->
  b_cr b' = b_cr b + (match k with KPost | KCommit => a | _ => 0 end) ->
  b_icr b' = b_icr b + (match k with KHold => a | KCommit | KVoid => - a | _ => 0 end) ->
  b_bal b' = b_cr b' - b_db b' -> b_ibal b' = b_icr b' - b_idb b' ->
  shows b' (r :: j).
Proof.
  intros (A & B & C & D & _ & _) Hd Hs Hk Ha Hi H1 H2 H3 H4 H5 H6.
  unfold shows, credits, debits, held_in, held_out in *. rewrite Hi, !total_cons, Hd, String.eqb_refl.
  destruct (String.eqb_spec (source r) (b_id b)); [contradiction|].
  assert (Hse : settled r = match k with KPost | KCommit => a | _ => 0 end)
    by (unfold settled; rewrite Hk, Ha; reflexivity).
  assert (Hhe : held r = match k with KHold => a | KCommit | KVoid => - a | _ => 0 end)
    by (unfold held; rewrite Hk, Ha; reflexivity).
  rewrite Hse, Hhe. repeat split; destruct k; lia.
Qed.

Lemma debit_shows b r j a (infl : bool) :
  shows b j -> source r = b_id b -> destination r <> b_id b ->
  r_kind r = (if infl then KHold else KPost) -> amount r = a ->
  shows (compute_balance (add_debit b a infl) infl) (r :: j).
Proof.
  intros H H1 H2 H3 H4. pose proof H as (A & B & C & D & E & F).
  destruct infl;
    (eapply (shows_src b r j _ a); [exact H|exact H1|exact H2|exact H3|exact H4|simpl; first [reflexivity|lia]..]).
Qed.

Lemma credit_shows b r j a (infl : bool) :
  shows b j -> destination r = b_id b -> source r <> b_id b ->
  r_kind r = (if infl then KHold else KPost) -> amount r = a ->
  shows (compute_balance (add_credit b a infl) infl) (r :: j).
Proof.
  intros H H1 H2 H3 H4. pose proof H as (A & B & C & D & E & F).
  destruct infl;
    (eapply (shows_dst b r j _ a); [exact H|exact H1|exact H2|exact H3|exact H4|simpl; first [reflexivity|lia]..]).
Qed.

Lemma self_shows b r j a (infl : bool) :
  shows b j -> source r = b_id b -> destination r = b_id b ->
  r_kind r = (if infl then KHold else KPost) -> amount r = a ->
  shows (compute_balance (add_credit (compute_balance (add_debit b a infl) infl) a infl) infl) (r :: j).
Proof.
  intros (A & B & C & D & E & F) H1 H2 H3 H4.
  assert (Hse : settled r = if infl then 0 else a)
    by (unfold settled; rewrite H3, H4; destruct infl; reflexivity).
  assert (Hhe : held r = if infl then a else 0)
    by (unfold held; rewrite H3, H4; destruct infl; reflexivity).
  unfold shows, credits, debits, held_in, held_out in *.
  replace (b_id (compute_balance (add_credit (compute_balance (add_debit b a infl) infl) a infl) infl))
    with (b_id b) by (destruct infl; reflexivity).
  rewrite !total_cons, H1, H2, String.eqb_refl, Hse, Hhe.
  destruct infl; simpl; repeat split; lia.
Qed.

Lemma commit_debit_shows b r j a b' :
  commit_inflight_debit b a = Ok b' ->
  shows b j -> source r = b_id b -> destination r <> b_id b -> r_kind r = KCommit -> amount r = a ->
  shows b' (r :: j) /\ a <= held_out (b_id b) j /\ b_id b' = b_id b.
Proof.
  unfold commit_inflight_debit. destruct (b_idb b <? a) eqn:El; [discriminate|].
  intros Hb H H1 H2 H3 H4. inversion Hb; subst b'; clear Hb. apply Z.ltb_ge in El.
  pose proof H as (A & B & C & D & E & F). split; [|split; [lia|reflexivity]].
  eapply (shows_src b r j _ a); [exact H|exact H1|exact H2|exact H3|exact H4|simpl; first [reflexivity|lia]..].
Qed.

Lemma commit_credit_shows b r j a b' :
  commit_inflight_credit b a = Ok b' ->
  shows b j -> destination r = b_id b -> source r <> b_id b -> r_kind r = KCommit -> amount r = a ->
  shows b' (r :: j) /\ a <= held_in (b_id b) j /\ b_id b' = b_id b.
Proof.
  unfold commit_inflight_credit. destruct (b_icr b <? a) eqn:El; [discriminate|].
  intros Hb H H1 H2 H3 H4. inversion Hb; subst b'; clear Hb. apply Z.ltb_ge in El.
  pose proof H as (A & B & C & D & E & F). split; [|split; [lia|reflexivity]].
  eapply (shows_dst b r j _ a); [exact H|exact H1|exact H2|exact H3|exact H4|simpl; first [reflexivity|lia]..].
Qed.

Lemma rollback_debit_shows b r j a b' :
  rollback_inflight_debit b a = Ok b' ->
  shows b j -> source r = b_id b -> destination r <> b_id b -> r_kind r = KVoid -> amount r = a ->
  shows b' (r :: j) /\ a <= held_out (b_id b) j /\ b_id b' = b_id b.
Proof.
  unfold rollback_inflight_debit. destruct (b_idb b <? a) eqn:El; [discriminate|].
  intros Hb H H1 H2 H3 H4. inversion Hb; subst b'; clear Hb. apply Z.ltb_ge in El.
  pose proof H as (A & B & C & D & E & F). split; [|split; [lia|reflexivity]].
  eapply (shows_src b r j _ a); [exact H|exact H1|exact H2|exact H3|exact H4|simpl; first [reflexivity|lia]..].
Qed.

Lemma rollback_credit_shows b r j a b' :
  rollback_inflight_credit b a = Ok b' ->
  shows b j -> destination r = b_id b -> source r <> b_id b -> r_kind r = KVoid -> amount r = a ->
  shows b' (r :: j) /\ a <= held_in (b_id b) j /\ b_id b' = b_id b.
Proof.
  unfold rollback_inflight_credit. destruct (b_icr b <? a) eqn:El; [discriminate|].
  intros Hb H H1 H2 H3 H4. inversion Hb; subst b'; clear Hb. apply Z.ltb_ge in El.
  pose proof H as (A & B & C & D & E & F). split; [|split; [lia|reflexivity]].
  eapply (shows_dst b r j _ a); [exact H|exact H1|exact H2|exact H3|exact H4|simpl; first [reflexivity|lia]..].
Qed.

Lemma inflight_ids b a b' :
  (commit_inflight_debit b a = Ok b' \/ commit_inflight_credit b a = Ok b'
   \/ rollback_inflight_debit b a = Ok b' \/ rollback_inflight_credit b a = Ok b') -> b_id b' = b_id b.
Proof.
  unfold commit_inflight_debit, commit_inflight_credit, rollback_inflight_debit, rollback_inflight_credit.
  intros [H|[H|[H|H]]]; destruct (_ <? _); inversion H; reflexivity.
Qed.

Definition same_key (b b' : balance) : Prop :=
  b_id b' = b_id b /\ b_ver b' = b_ver b /\ b_track b' = b_track b /\ b_queued b' = b_queued b.

Lemma clear_terminal_fields t :
  let t' := clear_terminal t in
  t_id t' = t_id t /\ t_parent t' = t_parent t /\ t_src t' = t_src t /\ t_dst t' = t_dst t
  /\ t_ref t' = t_ref t /\ t_status t' = t_status t /\ t_precise t' = t_precise t
  /\ t_allow t' = t_allow t /\ t_limit t' = t_limit t /\ t_prec t' = t_prec t
  /\ t_amount t' = t_amount t /\ t_cur t' = t_cur t.
Proof. unfold clear_terminal. destruct (t_status t) eqn:E; simpl; repeat split; auto. Qed.

Lemma update_balances_ok t src dst t1 src' dst' :
  update_balances t src dst = Ok (t1, src', dst') ->
  t1 = apply_precision_txn t /\ 0 < t_precise t1 /\ can_process t1 src = Ok tt
  /\ src' = compute_balance (add_debit src (t_precise t1) (t_inflight t1)) (t_inflight t1)
  /\ dst' = compute_balance (add_credit dst (t_precise t1) (t_inflight t1)) (t_inflight t1).
Proof.
  unfold update_balances. set (ta := apply_precision_txn t).
  destruct (validate_txn ta) as [u0|e0] eqn:Ev; [|discriminate].
  destruct (can_process ta src) as [[]|e1] eqn:Ec; [|discriminate].
  intros H; inversion H; subst. unfold validate_txn in Ev.
  destruct (qlt _ _); [discriminate|].
  destruct (t_precise ta <=? 0) eqn:El; [discriminate|]. apply Z.leb_gt in El. auto.
Qed.

Lemma apply_ok t src dst t1 src' dst' j :
  b_id src <> b_id dst -> t_src t = b_id src -> t_dst t = b_id dst ->
  reads j src -> reads j dst -> good_rec t ->
  apply_to_balances t src dst = Ok (t1, src', dst') -> t_precise t1 <> 0 ->
  let t3 := clear_terminal (update_details t1 src' dst') in
  let r := mkrow (kind_of t1, t3) in
  legal qc j r /\ shows src' (r :: j) /\ shows dst' (r :: j).
Proof.
  intros Hne Hsrc Hdst Hrs Hrd (Hst & Hprec) Ha Hnz.
  pose proof (apply_precision_fields t) as Hf. cbv zeta in Hf.
  pose proof (apply_precision_prec t Hprec) as Hprec'.
  destruct Hf as (F1 & F2 & F3 & F4 & F5 & F6 & F7 & F8 & F9 & F10 & F11 & F12 & F13 & F14 & F15 & F16).
  intros t3 r.
  pose proof (clear_terminal_fields (update_details t1 src' dst')) as Hc. cbv zeta in Hc. fold t3 in Hc.
  simpl in Hc. destruct Hc as (C1 & C2 & C3 & C4 & C5 & C6 & C7 & C8 & C9 & C10 & C11 & C12).
  assert (Hr_src : source r = b_id src') by exact C3.
  assert (Hr_dst : destination r = b_id dst') by exact C4.
  assert (Hr_amt : amount r = t_precise t1) by exact C7.
  destruct Hrs as [Hss Hsq]. destruct Hrd as [Hds Hdq].
  unfold apply_to_balances in Ha.
  assert (Hcases : (t_status t = SCommit \/ t_status t = SVoid) \/
                   (t_status t = SQueued \/ t_status t = SScheduled)) by tauto.
  destruct Hcases as [[E|E]|E].
  - (* commit *)
    rewrite E in Ha.
    destruct (commit_inflight_debit src _) as [s1|] eqn:E1; [|discriminate].
    destruct (commit_inflight_credit dst _) as [d1|] eqn:E2; [|discriminate].
    inversion Ha; subst t1 s1 d1; clear Ha.
    assert (Hrk : r_kind r = KCommit) by (unfold r, mkrow, kind_of; simpl; rewrite F7, E; reflexivity).
    pose proof (inflight_ids _ _ _ (or_introl E1)) as I1.
    pose proof (inflight_ids _ _ _ (or_intror (or_introl E2))) as I2.
    rewrite I1 in Hr_src. rewrite I2 in Hr_dst.
    destruct (commit_debit_shows _ r j _ _ E1) as (X1 & X2 & _); auto; [rewrite Hr_dst; congruence|].
    destruct (commit_credit_shows _ r j _ _ E2) as (Y1 & Y2 & _); auto; [rewrite Hr_src; congruence|].
    split; [|split; assumption].
    unfold legal. rewrite Hrk, Hr_amt, Hr_src, Hr_dst. auto.
  - (* void *)
    rewrite E in Ha.
    destruct (rollback_inflight_debit src _) as [s1|] eqn:E1; [|discriminate].
    destruct (rollback_inflight_credit dst _) as [d1|] eqn:E2; [|discriminate].
    inversion Ha; subst t1 s1 d1; clear Ha.
    assert (Hrk : r_kind r = KVoid) by (unfold r, mkrow, kind_of; simpl; rewrite E; reflexivity).
    pose proof (inflight_ids _ _ _ (or_intror (or_intror (or_introl E1)))) as I1.
    pose proof (inflight_ids _ _ _ (or_intror (or_intror (or_intror E2)))) as I2.
    rewrite I1 in Hr_src. rewrite I2 in Hr_dst.
    destruct (rollback_debit_shows _ r j _ _ E1) as (X1 & X2 & _); auto; [rewrite Hr_dst; congruence|].
    destruct (rollback_credit_shows _ r j _ _ E2) as (Y1 & Y2 & _); auto; [rewrite Hr_src; congruence|].
    split; [|split; assumption].
    unfold legal. rewrite Hrk, Hr_amt, Hr_src, Hr_dst. auto.
  - (* post or hold *)
    assert (Hu : update_balances t src dst = Ok (t1, src', dst')).
    { destruct E as [E|E]; rewrite E in Ha; exact Ha. }
    apply update_balances_ok in Hu as (-> & Hpos & Hcan & -> & ->).
    set (ta := apply_precision_txn t) in *.
    assert (Hk : kind_of ta = if t_inflight t then KHold else KPost).
    { unfold kind_of. rewrite F7, F8. destruct E as [E|E]; rewrite E; reflexivity. }
    assert (Hrk : r_kind r = if t_inflight t then KHold else KPost) by exact Hk.
    rewrite F8 in *.
    split; [|split].
    + assert (Hl : 0 < amount r /\ (funded j r \/ (qc = true /\ negative_queued j))).
      { split; [rewrite Hr_amt; exact Hpos|].
        apply (can_process_funded ta src r j Hcan Hprec' (conj Hss Hsq));
          [rewrite Hr_src; destruct (t_inflight t); reflexivity|exact Hr_amt|exact C8|exact C9|exact C10]. }
      unfold legal. rewrite Hrk. destruct (t_inflight t); exact Hl.
    + apply debit_shows; auto.
      * rewrite Hr_src. destruct (t_inflight t); reflexivity.
      * rewrite Hr_dst. destruct (t_inflight t); simpl; congruence.
    + apply credit_shows; auto.
      * rewrite Hr_dst. destruct (t_inflight t); reflexivity.
      * rewrite Hr_src. destruct (t_inflight t); simpl; congruence.
Qed.

(** Facts that do not depend on the journal. *)
Lemma apply_keys t src dst t1 src' dst' :
  apply_to_balances t src dst = Ok (t1, src', dst') ->
  same_key src src' /\ same_key dst dst'
  /\ t_id t1 = t_id t /\ t_parent t1 = t_parent t /\ t_ref t1 = t_ref t /\ t_status t1 = t_status t
  /\ t_inflight t1 = t_inflight t /\ t_meta t1 = t_meta t /\ t_allow t1 = t_allow t /\ t_limit t1 = t_limit t
  /\ (0 <= t_prec t -> 0 <= t_prec t1)
  /\ (t1 = apply_precision_txn t \/ t1 = t).
Proof.
  intros Ha.
  pose proof (apply_precision_fields t) as Hf. cbv zeta in Hf.
  destruct Hf as (F1 & F2 & F3 & F4 & F5 & F6 & F7 & F8 & F9 & F10 & F11 & F12 & F13 & F14 & F15 & F16).
  assert (Hu : forall t1 src' dst', update_balances t src dst = Ok (t1, src', dst') ->
     same_key src src' /\ same_key dst dst' /\ t1 = apply_precision_txn t).
  { intros u b1 b2 H. apply update_balances_ok in H as (-> & _ & _ & -> & ->).
    unfold same_key. destruct (t_inflight _); simpl; repeat split; reflexivity. }
  assert (Hgoal : same_key src src' /\ same_key dst dst' /\ (t1 = apply_precision_txn t \/ t1 = t)).
  { unfold apply_to_balances in Ha. destruct (t_status t) eqn:E;
      try (apply Hu in Ha as (? & ? & ?); auto; fail).
    - unfold rollback_inflight_debit, rollback_inflight_credit in Ha.
      destruct (_ <? _); [discriminate|]. destruct (_ <? _); [discriminate|].
      inversion Ha; subst. unfold same_key; simpl. repeat split; auto.
    - unfold commit_inflight_debit, commit_inflight_credit in Ha.
      destruct (_ <? _); [discriminate|]. destruct (_ <? _); [discriminate|].
      inversion Ha; subst. unfold same_key; simpl. repeat split; auto. }
  destruct Hgoal as (G1 & G2 & [-> | ->]).
  - repeat (split; [assumption|]). split; [apply apply_precision_prec|auto].
  - repeat (split; [assumption || reflexivity|]). auto.
Qed.

Lemma good_row_of t t1 b1 b2 :
  good_rec t -> t_status t1 = t_status t -> t_inflight t1 = t_inflight t -> 0 <= t_prec t1 ->
  good_kt (kind_of t1) (clear_terminal (update_details t1 b1 b2)).
Proof.
  intros (Hst & _) E1 E2 Hp.
  pose proof (clear_terminal_fields (update_details t1 b1 b2)) as Hc. cbv zeta in Hc.
  destruct Hc as (C1 & C2 & C3 & C4 & C5 & C6 & C7 & C8 & C9 & C10 & C11 & C12).
  split; [|rewrite C10; exact Hp]. rewrite C6. simpl. unfold kind_of, final_status. rewrite E1, E2.
  destruct Hst as [[E|E]|[[E|E] Ei]]; rewrite E; try rewrite Ei; simpl; auto;
    destruct (t_inflight t); reflexivity.
Qed.

(** ** Coalesced batches *)
Definition batch_ok (m : list balance) (ks : list (kind * txn)) (m' : list balance) : Prop :=
  map b_id m' = map b_id m /\ map b_ver m' = map b_ver m
  /\ Forall (fun x => In (t_src (snd x)) (map b_id m) /\ In (t_dst (snd x)) (map b_id m)) ks
  /\ Forall (fun x => good_kt (fst x) (snd x)) ks
  /\ forall j, NoDup (map b_id m) -> Forall (reads j) m -> legal_journal qc j ->
       legal_journal qc (rev (map mkrow ks) ++ j) /\ Forall (reads (rev (map mkrow ks) ++ j)) m'.

Lemma negative_queued_app l j : negative_queued j -> negative_queued (l ++ j).
Proof. intros (r & Hr & H). exists r. split; auto. apply in_or_app; auto. Qed.

Lemma batch_ok_nil m : batch_ok m [] m.
Proof. repeat split; auto. Qed.

Lemma batch_ok_cons m x m1 ks m2 :
  batch_ok m [x] m1 -> batch_ok m1 ks m2 -> batch_ok m (x :: ks) m2.
Proof.
  intros (A1 & A2 & A3 & A4 & A5) (B1 & B2 & B3 & B4 & B5).
  split; [congruence|]. split; [congruence|].
  inversion A3; subst. inversion A4; subst. rewrite A1 in B3.
  split; [constructor; auto|]. split; [constructor; auto|].
  intros j Hnd Hr Hl. destruct (A5 j Hnd Hr Hl) as [C1 C2]. simpl in C1, C2.
  rewrite <- A1 in Hnd. destruct (B5 _ Hnd C2 C1) as [D1 D2].
  simpl. rewrite <- app_assoc. simpl. auto.
Qed.

Lemma put_bal_keys b m :
  (exists b0, get_bal (b_id b) m = Some b0 /\ b_ver b = b_ver b0) ->
  map b_id (put_bal b m) = map b_id m /\ map b_ver (put_bal b m) = map b_ver m.
Proof.
  induction m as [|x r IH]; simpl; [auto|].
  destruct (String.eqb_spec (b_id x) (b_id b)) as [E|E]; intros (b0 & Hb & Hv).
  - inversion Hb; subst. simpl. split; congruence.
  - destruct IH as [H1 H2]; [eauto|]. simpl. split; congruence.
Qed.

Lemma get_put_bal id b m :
  get_bal id (put_bal b m) =
    if String.eqb (b_id b) id then (match get_bal id m with Some _ => Some b | None => None end) else get_bal id m.
Proof.
  induction m as [|x r IH]; simpl.
  - destruct (String.eqb (b_id b) id); reflexivity.
  - destruct (String.eqb_spec (b_id x) (b_id b)) as [E|E].
    + simpl. rewrite E. destruct (String.eqb_spec (b_id b) id); reflexivity.
    + simpl. rewrite IH. destruct (String.eqb_spec (b_id x) id) as [E1|E1]; auto.
      destruct (String.eqb_spec (b_id b) id); auto. congruence.
Qed.

Lemma prepare_member_ok t m k t' ob m' :
  t_status t = SQueued -> 0 <= t_prec t ->
  prepare_member t m = Ok (k, t', ob, m') -> batch_ok m [(k, t')] m'.
Proof.
  intros Hst Hprec. unfold prepare_member, update_shared.
  set (f := with_status t (final_status t)).
  destruct (get_bal (t_src f) m) as [src|] eqn:Es; [|discriminate].
  destruct (get_bal (t_dst f) m) as [dst0|] eqn:Ed; [|discriminate].
  pose proof (apply_precision_fields f) as Hf. cbv zeta in Hf.
  assert (Hprec' : 0 <= t_prec (apply_precision_txn f)) by (apply apply_precision_prec; exact Hprec).
  set (ta := apply_precision_txn f) in *.
  destruct Hf as (F1 & F2 & F3 & F4 & F5 & F6 & F7 & F8 & F9 & F10 & F11 & F12 & F13 & F14 & F15 & F16).
  destruct (validate_txn ta) as [u0|e0] eqn:Ev; [|discriminate].
  destruct (can_process ta src) as [[]|e1] eqn:Ec; [|discriminate].
  assert (Hpos : 0 < t_precise ta).
  { unfold validate_txn in Ev. destruct (qlt _ _); [discriminate|].
    destruct (t_precise ta <=? 0) eqn:El; [discriminate|]. apply Z.leb_gt in El. exact El. }
  set (infl := t_inflight ta) in *. set (a := t_precise ta) in *.
  set (src1 := compute_balance (add_debit src a infl) infl).
  set (m1 := put_bal src1 m).
  destruct (get_bal (t_dst ta) m1) as [dst|] eqn:Ed1; [|discriminate].
  set (dst1 := compute_balance (add_credit dst a infl) infl).
  set (m2 := put_bal dst1 m1).
  rewrite F3, F4.
  destruct (get_bal (t_src f) m2) as [s2|] eqn:Es2; [|discriminate].
  destruct (get_bal (t_dst f) m2) as [d2|] eqn:Ed2; [|discriminate].
  destruct (t_precise (update_details ta s2 d2) =? 0) eqn:Ez; [discriminate|].
  intros H; inversion H; subst k t' ob m'; clear H.
  assert (Hsrc1 : same_key src src1) by (unfold same_key, src1; destruct infl; repeat split; reflexivity).
  assert (Hdst1 : same_key dst dst1) by (unfold same_key, dst1; destruct infl; repeat split; reflexivity).
  assert (Hk1 : map b_id m1 = map b_id m /\ map b_ver m1 = map b_ver m).
  { apply put_bal_keys. exists src. destruct Hsrc1 as (H1 & H2 & _). rewrite H1, (get_bal_id _ _ _ Es). auto. }
  assert (Hk2 : map b_id m2 = map b_id m1 /\ map b_ver m2 = map b_ver m1).
  { apply put_bal_keys. exists dst. destruct Hdst1 as (H1 & H2 & _). rewrite H1, (get_bal_id _ _ _ Ed1). auto. }
  destruct Hk1 as [Hk1 Hv1]. destruct Hk2 as [Hk2 Hv2].
  set (t3 := clear_terminal (update_details ta s2 d2)).
  pose proof (clear_terminal_fields (update_details ta s2 d2)) as Hc. cbv zeta in Hc. fold t3 in Hc.
  simpl in Hc. destruct Hc as (C1 & C2 & C3 & C4 & C5 & C6 & C7 & C8 & C9 & C10 & C11 & C12).
  rewrite (get_bal_id _ _ _ Es2) in C3. rewrite (get_bal_id _ _ _ Ed2) in C4.
  assert (Hkind : kind_of f = if infl then KHold else KPost).
  { unfold kind_of. rewrite F8. unfold f, final_status. simpl. rewrite Hst.
    destruct (t_inflight t); reflexivity. }
  assert (Hfin : t_status t3 = if infl then SInflight else SApplied).
  { rewrite C6. unfold final_status. rewrite F7. fold infl. unfold f, final_status. simpl. rewrite Hst.
    rewrite F8. unfold f. simpl. destruct (t_inflight t); reflexivity. }
  split; [congruence|]. split; [congruence|].
  split. { constructor; [|constructor]. simpl. rewrite C3, C4. split.
           - rewrite <- (get_bal_id _ _ _ Es). apply in_map. eapply get_bal_in; eauto.
           - rewrite <- (get_bal_id _ _ _ Ed). apply in_map. eapply get_bal_in; eauto. }
  split. { constructor; [|constructor]. simpl. split; [|rewrite C10; exact Hprec'].
           rewrite Hkind, Hfin. destruct infl; reflexivity. }
  intros j Hnd Hr Hl. simpl. set (r := mkrow (kind_of f, t3)).
  rewrite Forall_forall in Hr.
  pose proof (Hr src (get_bal_in _ _ _ Es)) as Hrs.
  assert (Hrsrc : source r = b_id src) by (unfold r, source; simpl; rewrite C3; symmetry; eapply get_bal_id; eauto).
  assert (Hrdst : destination r = t_dst f) by exact C4.
  assert (Hra : amount r = a) by exact C7.
  assert (Hrk : r_kind r = if infl then KHold else KPost) by exact Hkind.
  split.
  - split; [|exact Hl].
    assert (Hleg : 0 < amount r /\ (funded j r \/ (qc = true /\ negative_queued j))).
    { split; [rewrite Hra; exact Hpos|].
      exact (can_process_funded ta src r j Ec Hprec' Hrs Hrsrc Hra C8 C9 C10). }
    unfold legal. rewrite Hrk. destruct infl; exact Hleg.
  - apply Forall_forall. intros b Hb.
    assert (Hnd2 : NoDup (map b_id m2)) by congruence.
    pose proof (get_bal_nodup _ _ Hnd2 Hb) as Hg. unfold m2 in Hg. rewrite get_put_bal in Hg.
    assert (Hid1 : b_id dst1 = t_dst f).
    { destruct Hdst1 as (H1 & _). rewrite H1, (get_bal_id _ _ _ Ed1). exact F4. }
    assert (Hids : b_id src1 = t_src f).
    { destruct Hsrc1 as (H1 & _). rewrite H1. eapply get_bal_id; eauto. }
    assert (Hqq : forall b0 b1, same_key b0 b1 -> reads j b0 ->
       match b_queued b1 with None => True | Some q => qc = true /\ (q < 0 -> negative_queued (r :: j)) end).
    { intros b0 b1 (_ & _ & _ & Hq) (_ & Hr0). rewrite Hq. destruct (b_queued b0); auto.
      destruct Hr0 as [H1 H2]. split; auto. intros Hneg. apply (negative_queued_app [r]). auto. }
    unfold m1 in Hg, Ed1. rewrite get_put_bal in Hg. rewrite get_put_bal, Hids, F4 in Ed1. rewrite Ed in Ed1.
    rewrite Hid1, Hids in Hg.
    destruct (String.eqb_spec (t_dst f) (b_id b)) as [E1|E1].
    + (* b = dst1 *)
      assert (b = dst1).
      { destruct (String.eqb (t_src f) (b_id b)); destruct (get_bal (b_id b) m); inversion Hg; reflexivity. }
      subst b. destruct (String.eqb_spec (t_src f) (t_dst f)) as [E2|E2].
      * (* source and destination are the same balance *)
        inversion Ed1; subst dst.
        assert (Hsd : b_id src = t_dst f) by (rewrite (get_bal_id _ _ _ Es); exact E2).
        split.
        -- destruct Hrs as [Hss _]. apply self_shows; auto. rewrite Hsd. exact Hrdst.
        -- apply (Hqq src); [|exact Hrs].
           destruct Hsrc1 as (H1 & H2 & H3 & H4), Hdst1 as (G1 & G2 & G3 & G4).
           unfold same_key. rewrite G1, G2, G3, G4. auto.
      * inversion Ed1; subst dst0. pose proof (Hr dst (get_bal_in _ _ _ Ed)) as Hrd.
        split; [|apply (Hqq dst); [exact Hdst1|exact Hrd]]. destruct Hrd as [Hds _].
        assert (Hdid : b_id dst = t_dst f) by (eapply get_bal_id; exact Ed).
        apply credit_shows; auto.
        -- rewrite Hdid. exact Hrdst.
        -- rewrite Hrsrc, (get_bal_id _ _ _ Es), Hdid. exact E2.
    + destruct (String.eqb_spec (t_src f) (b_id b)) as [E2|E2].
      * rewrite <- E2, Es in Hg. inversion Hg; subst b.
        split; [|apply (Hqq src); [exact Hsrc1|exact Hrs]]. destruct Hrs as [Hss _].
        apply debit_shows; auto. rewrite Hrdst. destruct Hsrc1 as (H1 & _). rewrite H1 in E1. exact E1.
      * pose proof (Hr b (get_bal_in _ _ _ Hg)) as [Hb0 Hb1]. split.
        -- apply (shows_other b [r] j); auto. intros x [<-|[]]. split; [rewrite Hrsrc|rewrite Hrdst]; auto.
           rewrite (get_bal_id _ _ _ Es). exact E2.
        -- destruct (b_queued b); auto. destruct Hb1 as [H1 H2]. split; auto.
           intros Hneg. apply (negative_queued_app [r]). auto.
Qed.

(** From snapshots to the precondition of the persisting operation. *)
Lemma snaps_opre m ks m' s :
  inv cfg s -> (forall b, In b m -> snap cfg b s) -> batch_ok m ks m' -> opre_batch cfg ks m' s.
Proof.
  intros HI Hm (B1 & B2 & B3 & B4 & B5).
  assert (Hpair : forall w, In w m' -> exists b, In b m /\ b_id b = b_id w /\ b_ver b = b_ver w).
  { clear - B1 B2. revert m' B1 B2. induction m as [|b r IH]; intros [|w q] B1 B2 w' Hw; simpl in *; try discriminate; [contradiction|].
    inversion B1. inversion B2. destruct Hw as [<-|Hw].
    - exists b. auto.
    - destruct (IH q H1 H3 w' Hw) as (b' & Hb & E). exists b'. auto. }
  split.
  - intros w Hw. destruct (Hpair w Hw) as (b & Hb & E1 & E2).
    destruct (Hm b Hb) as [(b0 & Hg & Hv & _) _]. exists b0. rewrite <- E1, <- E2. auto.
  - intros Hnd Hver j. rewrite B1 in Hnd.
    assert (Hr : Forall (reads (s_txns s)) m).
    { apply Forall_forall. intros b Hb. destruct (Hm b Hb) as [(b0 & Hg & Hv & He & _) Hq].
      assert (Hw : exists w, In w m' /\ b_id w = b_id b /\ b_ver w = b_ver b).
      { clear - B1 B2 Hb. revert m' B1 B2. induction m as [|b' r IH]; intros [|w q] B1 B2; simpl in *; try discriminate; [contradiction|].
        inversion B1. inversion B2. destruct Hb as [<-|Hb].
        - exists w. auto.
        - destruct (IH Hb q H1 H3) as (w' & Hw & E). exists w'. auto. }
      destruct Hw as (w & Hw & Ew1 & Ew2). destruct (Hver w Hw) as (b1 & Hb1 & Hv1).
      rewrite Ew1 in Hb1. rewrite Hg in Hb1. inversion Hb1; subst b1.
      rewrite Ew2 in Hv1. specialize (He Hv1). split; [|exact Hq].
      destruct (i_shows _ _ HI b0 (get_bal_in _ _ _ Hg)) as (Hs & _). rewrite He in Hs. exact Hs. }
    destruct (B5 _ Hnd Hr (i_legal _ _ HI)) as [C1 C2].
    split; [exact C1|]. split; [eapply Forall_impl; [|exact C2]; intros b Hb; apply Hb|].
    rewrite B1. auto.
Qed.

Lemma single_batch_ok t src dst t1 src' dst' :
  t_src t = b_id src -> t_dst t = b_id dst -> good_rec t ->
  apply_to_balances t src dst = Ok (t1, src', dst') -> t_precise t1 <> 0 ->
  batch_ok [src; dst] [(kind_of t1, clear_terminal (update_details t1 src' dst'))] [src'; dst'].
Proof.
  intros Hs Hd Hg Ha Hz.
  pose proof (apply_keys _ _ _ _ _ _ Ha) as ((K1 & K2 & _ & K3) & (L1 & L2 & _ & L3) & _ & _ & _ & M1 & M2 & _ & _ & _ & M3 & _).
  pose proof (clear_terminal_fields (update_details t1 src' dst')) as Hc. cbv zeta in Hc.
  simpl in Hc. destruct Hc as (C1 & C2 & C3 & C4 & _).
  split; [simpl; congruence|]. split; [simpl; congruence|].
  split. { constructor; [|constructor]. simpl snd. rewrite C3, C4. simpl. split; [left|right; left]; congruence. }
  split. { constructor; [|constructor]. apply (good_row_of t); auto. apply M3. apply Hg. }
  intros j Hnd Hr Hl. simpl.
  inversion Hr as [|? ? Hr1 Hr2]; subst. inversion Hr2 as [|? ? Hr3 Hr4]; subst.
  assert (Hne : b_id src <> b_id dst).
  { inversion Hnd as [|? ? Hx _]; subst. simpl in Hx. intros E. apply Hx. left. congruence. }
  destruct (apply_ok t src dst t1 src' dst' j Hne Hs Hd Hr1 Hr3 Hg Ha Hz) as (G1 & G2 & G3).
  split; [split; assumption|].
  assert (Hq : forall b b', b_queued b' = b_queued b -> reads j b -> shows b' (mkrow (kind_of t1, clear_terminal (update_details t1 src' dst')) :: j) ->
     reads (mkrow (kind_of t1, clear_terminal (update_details t1 src' dst')) :: j) b').
  { intros b b' E [_ H] Hsh. split; auto. rewrite E. destruct (b_queued b); auto. destruct H as [H1 H2].
    split; auto. intros Hneg. apply (negative_queued_app [_]). auto. }
  constructor; [eapply Hq; eauto|]. constructor; [eapply Hq; eauto|constructor].
Qed.

End Pure.
