(** The money invariant of the shared state, and its preservation by every atomic
    operation whose arguments are well prepared ([opre]). *)
From Coq Require Import ZArith QArith Qabs List String Bool Lia.
From Verif Require Import Base MoneyModel SplitModel BalanceModel LedgerModel LedgerProgs
  ConcModel ConcLogic LedgerSpec MoneyProof.
Import ListNotations.
Open Scope Z_scope.

(** ** Sums *)
Lemma sumz_app {A} (f : A -> Z) l1 l2 : sumz f (l1 ++ l2) = sumz f l1 + sumz f l2.
Proof. induction l1 as [|x r IH]; simpl; [reflexivity|]. rewrite IH. lia. Qed.

Lemma sumz_ext {A} (f g : A -> Z) l : (forall x, In x l -> f x = g x) -> sumz f l = sumz g l.
Proof.
  induction l as [|x r IH]; simpl; intros H; [reflexivity|].
  rewrite (H x (or_introl eq_refl)), IH; auto.
Qed.

Lemma sumz_zero {A} (f : A -> Z) l : (forall x, In x l -> f x = 0) -> sumz f l = 0.
Proof.
  induction l as [|x r IH]; simpl; intros H; [reflexivity|].
  rewrite (H x (or_introl eq_refl)), IH; auto.
Qed.

Lemma total_cons f who id r j :
  total f who id (r :: j) = (if String.eqb (who r) id then f r else 0) + total f who id j.
Proof. reflexivity. Qed.

Lemma total_app f who id l j : total f who id (l ++ j) = total f who id l + total f who id j.
Proof. apply sumz_app. Qed.

Lemma total_other f who id l :
  (forall r, In r l -> who r <> id) -> total f who id l = 0.
Proof.
  intros H. apply sumz_zero. intros r Hr. destruct (String.eqb_spec (who r) id) as [E|E]; auto.
  exfalso. exact (H r Hr E).
Qed.

(** ** Tables *)
Lemma get_bal_id id l b : get_bal id l = Some b -> b_id b = id.
Proof.
  induction l as [|x r IH]; simpl; [discriminate|].
  destruct (String.eqb_spec (b_id x) id) as [E|E]; auto. intros H; inversion H; subst; auto.
Qed.

Lemma get_bal_in id l b : get_bal id l = Some b -> In b l.
Proof.
  induction l as [|x r IH]; simpl; [discriminate|].
  destruct (String.eqb_spec (b_id x) id) as [E|E]; auto. intros H; inversion H; subst; auto.
Qed.

Lemma get_bal_none id l : get_bal id l = None <-> ~ In id (map b_id l).
Proof.
  induction l as [|x r IH]; simpl; [tauto|].
  destruct (String.eqb_spec (b_id x) id) as [E|E].
  - split; [discriminate|tauto].
  - rewrite IH. tauto.
Qed.

Lemma get_bal_some id l : In id (map b_id l) -> exists b, get_bal id l = Some b.
Proof.
  intros H. destruct (get_bal id l) eqn:E; eauto. apply get_bal_none in E. contradiction.
Qed.

Lemma get_bal_nodup l b : NoDup (map b_id l) -> In b l -> get_bal (b_id b) l = Some b.
Proof.
  induction l as [|x r IH]; simpl; intros Hn Hb; [contradiction|].
  inversion Hn as [|? ? Hx Hr]; subst. destruct Hb as [->|Hb].
  - rewrite String.eqb_refl. reflexivity.
  - destruct (String.eqb_spec (b_id x) (b_id b)) as [E|E]; auto.
    exfalso. apply Hx. rewrite E. apply in_map. exact Hb.
Qed.

Lemma get_bal_ind_in ind cur l b : get_bal_ind ind cur l = Some b -> In b l.
Proof.
  induction l as [|x r IH]; simpl; [discriminate|].
  destruct (_ && _); auto. intros H; inversion H; subst; auto.
Qed.

Lemma get_bals_in ids l b : In b (get_bals ids l) -> In b l /\ In (b_id b) ids.
Proof.
  induction ids as [|i r IH]; simpl; [contradiction|].
  destruct (get_bal i l) as [x|] eqn:E.
  - intros [<-|H].
    + split; [eapply get_bal_in; eauto|left]. symmetry. eapply get_bal_id; eauto.
    + destruct (IH H); auto.
  - intros H. destruct (IH H); auto.
Qed.

Lemma get_bals_nodup ids l : NoDup ids -> NoDup (map b_id (get_bals ids l)).
Proof.
  induction ids as [|i r IH]; simpl; intros H; [constructor|].
  inversion H as [|? ? Hi Hr]; subst.
  destruct (get_bal i l) as [x|] eqn:E; auto. simpl. constructor; auto.
  rewrite (get_bal_id _ _ _ E). intros Hin. apply in_map_iff in Hin as (y & Hy & Hin).
  apply get_bals_in in Hin as [_ Hin]. rewrite Hy in Hin. contradiction.
Qed.

Lemma update_balance_some rows w l l' :
  update_balance rows w l = Some l' ->
  exists b, get_bal (b_id w) l = Some b /\ b_ver b = b_ver w
    /\ map b_id l' = map b_id l
    /\ (forall id, get_bal id l' = if String.eqb (b_id w) id
                                   then Some (recon_trigger rows (upd_row b w)) else get_bal id l).
Proof.
  assert (Hid : forall x, b_id (recon_trigger rows x) = b_id x).
  { intros x. unfold recon_trigger. destruct (b_recon x); reflexivity. }
  revert l'. induction l as [|x r IH]; simpl; intros l' H; [discriminate|].
  destruct (String.eqb_spec (b_id x) (b_id w)) as [E|E].
  - destruct (b_ver x =? b_ver w) eqn:Ev; [|discriminate]. inversion H; subst; clear H.
    exists x. apply Z.eqb_eq in Ev. split; [reflexivity|]. split; [exact Ev|]. simpl. rewrite Hid. simpl.
    split; [reflexivity|]. intros id. rewrite <- E.
    destruct (String.eqb_spec (b_id x) id); reflexivity.
  - destruct (update_balance rows w r) as [r'|] eqn:Er; [|discriminate]. inversion H; subst; clear H.
    destruct (IH r' eq_refl) as (b & Hb & Hv & Hm & Hg). exists b.
    split; [exact Hb|]. split; [exact Hv|]. simpl. rewrite Hm. split; [reflexivity|].
    intros id. rewrite Hg. destruct (String.eqb_spec (b_id x) id) as [E1|E1]; auto.
    destruct (String.eqb_spec (b_id w) id) as [E2|E2]; auto. congruence.
Qed.

Lemma update_set_some rows ws l l' :
  (forall b, In b l -> b_recon b = false) -> NoDup (map b_id l) ->
  (forall w, In w ws -> exists b, get_bal (b_id w) l = Some b /\ b_ver w <= b_ver b) ->
  update_balance_set rows ws l = Some l' ->
  NoDup (map b_id ws)
  /\ (forall w, In w ws -> exists b, get_bal (b_id w) l = Some b /\ b_ver b = b_ver w
                                     /\ get_bal (b_id w) l' = Some (upd_row b w))
  /\ (forall id, ~ In id (map b_id ws) -> get_bal id l' = get_bal id l)
  /\ map b_id l' = map b_id l.
Proof.
  revert l. induction ws as [|w r IH]; simpl; intros l Hrec Hnd Hver H.
  - inversion H; subst. repeat split; try constructor; auto; contradiction.
  - destruct (update_balance rows w l) as [l1|] eqn:Ew; [|discriminate].
    destruct (update_balance_some _ _ _ _ Ew) as (b & Hb & Hv & Hm & Hg).
    assert (Ht : recon_trigger rows (upd_row b w) = upd_row b w).
    { unfold recon_trigger. simpl. rewrite (Hrec b (get_bal_in _ _ _ Hb)). reflexivity. }
    rewrite Ht in Hg.
    assert (Hnd1 : NoDup (map b_id l1)) by (rewrite Hm; exact Hnd).
    assert (Hrec1 : forall x, In x l1 -> b_recon x = false).
    { intros x Hx. pose proof (get_bal_nodup _ _ Hnd1 Hx) as Hx1. rewrite Hg in Hx1.
      destruct (String.eqb (b_id w) (b_id x)).
      - inversion Hx1 as [Hx2]. simpl. apply Hrec. eapply get_bal_in; eauto.
      - apply Hrec. eapply get_bal_in; eauto. }
    assert (Hver1 : forall w', In w' r -> exists x, get_bal (b_id w') l1 = Some x /\ b_ver w' <= b_ver x).
    { intros w' Hw'. rewrite Hg. destruct (Hver w' (or_intror Hw')) as (x & Hx & Hle).
      destruct (String.eqb_spec (b_id w) (b_id w')) as [E|E]; eauto.
      exists (upd_row b w). split; auto. simpl. rewrite <- E in Hx. rewrite Hb in Hx. inversion Hx; subst. lia. }
    destruct (IH l1 Hrec1 Hnd1 Hver1 H) as (A & B & C & D).
    assert (Hw : ~ In (b_id w) (map b_id r)).
    { intros Hin. apply in_map_iff in Hin as (w' & Hw' & Hin).
      destruct (B w' Hin) as (x & Hx & Hxv & _). rewrite Hg, <- Hw', String.eqb_refl in Hx.
      inversion Hx; subst. simpl in Hxv.
      destruct (Hver w' (or_intror Hin)) as (y & Hy & Hle). rewrite Hw', Hb in Hy. inversion Hy; subst. lia. }
    split; [constructor; auto|]. split; [|split].
    + intros w' [<-|Hw'].
      * exists b. split; auto. split; auto. rewrite (C _ Hw), Hg, String.eqb_refl. reflexivity.
      * destruct (B w' Hw') as (x & Hx & Hxv & Hx'). exists x. rewrite Hg in Hx.
        destruct (String.eqb_spec (b_id w) (b_id w')) as [E|E]; auto.
        exfalso. apply Hw. rewrite E. apply in_map. exact Hw'.
    + intros id Hid. rewrite C by tauto. rewrite Hg.
      destruct (String.eqb_spec (b_id w) id) as [E|E]; auto. exfalso. tauto.
    + rewrite D. exact Hm.
Qed.

Definition mkrow (x : kind * txn) : row := {| r_t := snd x; r_kind := fst x |}.

Lemma insert_txn_ok k t bals l l' :
  insert_txn k t bals l = Ok l' ->
  l' = mkrow (k, t) :: l
  /\ ~ In (t_ref t) (map (fun r => t_ref (r_t r)) l)
  /\ ~ In (t_id t) (map (fun r => t_id (r_t r)) l)
  /\ In (t_src t) (map b_id bals) /\ In (t_dst t) (map b_id bals).
Proof.
  unfold insert_txn.
  destruct (ref_exists (t_ref t) l) eqn:E1; [discriminate|].
  destruct (id_exists (t_id t) l) eqn:E2; [discriminate|].
  destruct (get_bal (t_src t) bals) as [bs|] eqn:E3; [|discriminate].
  destruct (get_bal (t_dst t) bals) as [bd|] eqn:E4; [|discriminate].
  intros H; inversion H; subst; clear H. split; [reflexivity|].
  split; [|split; [|split]].
  - intros Hin. apply in_map_iff in Hin as (x & Hx & Hin).
    unfold ref_exists in E1. rewrite <- not_true_iff_false in E1. apply E1.
    apply existsb_exists. exists x. split; auto. rewrite Hx. apply String.eqb_refl.
  - intros Hin. apply in_map_iff in Hin as (x & Hx & Hin).
    unfold id_exists in E2. rewrite <- not_true_iff_false in E2. apply E2.
    apply existsb_exists. exists x. split; auto. rewrite Hx. apply String.eqb_refl.
  - rewrite <- (get_bal_id _ _ _ E3). apply in_map. eapply get_bal_in; eauto.
  - rewrite <- (get_bal_id _ _ _ E4). apply in_map. eapply get_bal_in; eauto.
Qed.

Lemma insert_txns_ok ts bals l l' :
  insert_txns ts bals l = Ok l' ->
  l' = (rev (map mkrow ts) ++ l)%list
  /\ (NoDup (map (fun r => t_ref (r_t r)) l) -> NoDup (map (fun r => t_ref (r_t r)) l'))
  /\ (NoDup (map (fun r => t_id (r_t r)) l) -> NoDup (map (fun r => t_id (r_t r)) l'))
  /\ Forall (fun x => In (t_src (snd x)) (map b_id bals) /\ In (t_dst (snd x)) (map b_id bals)) ts.
Proof.
  revert l. induction ts as [|[k t] r IH]; simpl; intros l H.
  - inversion H; subst. auto.
  - destruct (insert_txn k t bals l) as [l1|] eqn:E; [|discriminate].
    apply insert_txn_ok in E as (-> & Hr & Hi & Hs & Hd).
    apply IH in H as (-> & Hr' & Hi' & Hf). split.
    + rewrite <- app_assoc. reflexivity.
    + split; [|split].
      * intros Hn. apply Hr'. simpl. constructor; auto.
      * intros Hn. apply Hi'. simpl. constructor; auto.
      * constructor; auto.
Qed.

Lemma persist_single_batch k t src dst ob s :
  persist_single k t src dst ob s = persist_batch [(k, t)] [src; dst] (opt_list ob) s.
Proof.
  unfold persist_single, persist_batch. simpl.
  destruct (update_balance _ src _); [|reflexivity].
  destruct (update_balance _ dst _); [|reflexivity].
  destruct (insert_txn _ _ _ _); destruct ob; reflexivity.
Qed.

(** ** The invariant *)
Definition good_q (t : txn) : Prop :=
  (t_status t = SQueued \/ t_status t = SScheduled) /\ 0 <= t_prec t.
Definition good_kt (k : kind) (t : txn) : Prop := kind_status k (t_status t) /\ 0 <= t_prec t.

Section Inv.
Variable cfg : config.
Local Notation qc := (c_queued cfg).

Record inv (s : state) : Prop := {
  i_shows : forall b, In b (s_bals s) -> shows b (s_txns s) /\ b_recon b = false /\ b_queued b = None;
  i_nodup : NoDup (map b_id (s_bals s));
  i_legal : legal_journal qc (s_txns s);
  i_ends : Forall (fun r => In (source r) (map b_id (s_bals s))
                            /\ In (destination r) (map b_id (s_bals s))) (s_txns s);
  i_rows : Forall (fun r => good_kt (r_kind r) (r_t r)) (s_txns s);
  i_refs : NoDup (map (fun r => t_ref (r_t r)) (s_txns s));
  i_ids : NoDup (map (fun r => t_id (r_t r)) (s_txns s));
  i_queue : Forall good_q (s_queue s);
  i_jobs : Forall (fun j => good_q (j_txn j) /\ Forall good_q (j_legs j)) (s_jobs s) }.

(** How the shared state may evolve: rows are only appended; balances persist,
    and whatever changes a balance moves its version. *)
Definition evolves (s s' : state) : Prop :=
  (exists l, s_txns s' = (l ++ s_txns s)%list) /\
  (forall id b, get_bal id (s_bals s) = Some b ->
     exists b', get_bal id (s_bals s') = Some b' /\ b_ver b <= b_ver b'
                /\ (b_ver b' = b_ver b -> b' = b)
                /\ b_ind b' = b_ind b /\ b_cur b' = b_cur b /\ b_track b' = b_track b) /\
  incl (s_queue s) (s_queue s').

(** What each operation needs. *)
Definition opre_batch (ts : list (kind * txn)) (ws : list balance) (s : state) : Prop :=
  (forall w, In w ws -> exists b, get_bal (b_id w) (s_bals s) = Some b /\ b_ver w <= b_ver b) /\
  (NoDup (map b_id ws) ->
   (forall w, In w ws -> exists b, get_bal (b_id w) (s_bals s) = Some b /\ b_ver b = b_ver w) ->
   let j := (rev (map mkrow ts) ++ s_txns s)%list in
   legal_journal qc j
   /\ Forall (fun w => shows w j) ws
   /\ Forall (fun x => In (t_src (snd x)) (map b_id ws) /\ In (t_dst (snd x)) (map b_id ws)) ts
   /\ Forall (fun x => good_kt (fst x) (snd x)) ts).

Definition opre (o : op) (s : state) : Prop :=
  match o with
  | OPersist k t src dst _ => opre_batch [(k, t)] [src; dst] s
  | OPersistBatch ts ws _ => opre_batch ts ws s
  | OEnqueue t => good_q t
  | OSpawn j => good_q (j_txn j) /\ Forall good_q (j_legs j)
  | OInsert t => good_kt KNone t
  | OCreateBal _ _ _ recon _ => recon = false
  | _ => True
  end.

Lemma shows_extend b r j :
  settled r = 0 -> held r = 0 -> shows b j -> shows b (r :: j).
Proof.
  intros H1 H2 (A & B & C & D & E & F). unfold shows, credits, debits, held_in, held_out in *.
  rewrite !total_cons, H1, H2.
  destruct (String.eqb (destination r) (b_id b)), (String.eqb (source r) (b_id b)); simpl; repeat split; lia.
Qed.

Lemma shows_other b l j :
  (forall r, In r l -> source r <> b_id b /\ destination r <> b_id b) -> shows b j -> shows b (l ++ j).
Proof.
  intros H (A & B & C & D & E & F). unfold shows, credits, debits, held_in, held_out in *.
  rewrite !total_app.
  rewrite (total_other settled destination), (total_other settled source),
          (total_other held destination), (total_other held source)
    by (intros r Hr; apply (H r Hr)).
  repeat split; lia.
Qed.

Lemma shows_upd old w j : b_id old = b_id w -> shows w j -> shows (upd_row old w) j.
Proof. intros H. unfold shows, upd_row; simpl. rewrite H. auto. Qed.

Lemma persist_batch_pres ts ws obs s :
  inv s -> opre_batch ts ws s ->
  inv (fst (persist_batch ts ws obs s)) /\ evolves s (fst (persist_batch ts ws obs s)).
Proof.
  intros HI [Hle Hpre].
  assert (Hrefl : evolves s s).
  { split; [exists []; reflexivity|]. split; [|apply incl_refl].
    intros id b Hb. exists b. repeat split; auto; lia. }
  unfold persist_batch.
  destruct (update_balance_set (s_txns s) ws (s_bals s)) as [l'|] eqn:Eu; [|auto].
  destruct (insert_txns ts l' (s_txns s)) as [j|e] eqn:Ei; [|auto]. simpl.
  apply update_set_some in Eu as (Hnd & Hws & Hother & Hids);
    [|intros b Hb; apply (i_shows _ HI b Hb)|apply (i_nodup _ HI)|exact Hle].
  apply insert_txns_ok in Ei as (-> & Hr & Hi & Hf).
  destruct Hpre as (Hlegal & Hsh & Hends & Hgood); auto.
  { intros w Hw. destruct (Hws w Hw) as (b & Hb & Hv & _). eauto. }
  assert (Hrow_in : forall r, In r (rev (map mkrow ts)) -> exists x, In x ts /\ r = mkrow x).
  { intros r Hin. apply in_rev in Hin. apply in_map_iff in Hin as (x & Hx & Hin). eauto. }
  rewrite Forall_forall in Hends, Hgood, Hf, Hsh.
  split.
  - constructor; simpl.
    + intros b Hb.
      assert (Hb' : get_bal (b_id b) l' = Some b).
      { apply get_bal_nodup; auto. rewrite Hids. apply (i_nodup _ HI). }
      destruct (in_dec string_dec (b_id b) (map b_id ws)) as [Hin|Hnin].
      * apply in_map_iff in Hin as (w & Hw & Hin).
        destruct (Hws w Hin) as (b0 & Hb0 & Hv0 & Hb0'). rewrite Hw, Hb' in Hb0'.
        inversion Hb0' as [E]. split.
        -- apply shows_upd; [eapply get_bal_id; eauto|]. apply Hsh. exact Hin.
        -- simpl. split; [|reflexivity]. apply (i_shows _ HI b0). eapply get_bal_in; eauto.
      * rewrite Hother in Hb' by exact Hnin.
        destruct (i_shows _ HI b (get_bal_in _ _ _ Hb')) as (Hs & Hrec & Hq). split; auto.
        apply shows_other; auto. intros r Hrr. destruct (Hrow_in r Hrr) as (x & Hx & ->).
        destruct (Hends x Hx) as [H1 H2]. unfold source, destination; simpl.
        split; intros E; apply Hnin; rewrite <- E; assumption.
    + rewrite Hids. apply (i_nodup _ HI).
    + exact Hlegal.
    + rewrite Hids. apply Forall_app. split; [|apply (i_ends _ HI)].
      apply Forall_forall. intros r Hrr. destruct (Hrow_in r Hrr) as (x & Hx & ->).
      rewrite <- Hids. apply Hf. exact Hx.
    + apply Forall_app. split; [|apply (i_rows _ HI)].
      apply Forall_forall. intros r Hrr. destruct (Hrow_in r Hrr) as (x & Hx & ->).
      apply Hgood. exact Hx.
    + apply Hr. apply (i_refs _ HI).
    + apply Hi. apply (i_ids _ HI).
    + apply (i_queue _ HI).
    + apply (i_jobs _ HI).
  - split; [eexists; reflexivity|]. split; [|apply incl_refl]. simpl.
    intros id b Hb. destruct (in_dec string_dec id (map b_id ws)) as [Hin|Hnin].
    + apply in_map_iff in Hin as (w & Hw & Hin).
      destruct (Hws w Hin) as (b0 & Hb0 & Hv0 & Hb0'). rewrite Hw in Hb0, Hb0'.
      rewrite Hb in Hb0. inversion Hb0; subst b0.
      exists (upd_row b w). simpl. repeat split; auto; lia.
    + rewrite Hother by exact Hnin. exists b. repeat split; auto; lia.
Qed.

Lemma evolves_refl s : evolves s s.
Proof.
  split; [exists []; reflexivity|]. split; [|apply incl_refl].
  intros id b Hb. exists b. repeat split; auto; lia.
Qed.

Lemma evolves_trans s1 s2 s3 : evolves s1 s2 -> evolves s2 s3 -> evolves s1 s3.
Proof.
  intros ((l1 & H1) & B1 & Q1) ((l2 & H2) & B2 & Q2). split; [|split].
  - exists (l2 ++ l1)%list. rewrite H2, H1, app_assoc. reflexivity.
  - intros id b Hb. destruct (B1 id b Hb) as (b1 & Hb1 & V1 & E1 & I1 & C1 & T1).
    destruct (B2 id b1 Hb1) as (b2 & Hb2 & V2 & E2 & I2 & C2 & T2).
    exists b2. split; auto. split; [lia|]. split; [|repeat split; congruence].
    intros Hv. assert (b_ver b1 = b_ver b) by lia. rewrite <- E1 by assumption.
    apply E2. congruence.
  - eapply incl_tran; eauto.
Qed.

(** The trigger recomputes exactly the stored counters. *)
Lemma applied_credit_credits id l :
  Forall (fun r => good_kt (r_kind r) (r_t r)) l -> applied_credit id l = credits id l.
Proof.
  intros H. apply sumz_ext. intros r Hr. rewrite Forall_forall in H.
  destruct (H r Hr) as [Hk _]. unfold settled, destination, amount.
  destruct (String.eqb _ _); [|reflexivity]. simpl.
  destruct (r_kind r); simpl in Hk; try rewrite Hk; simpl; auto.
  destruct Hk as [->|[->| ->]]; reflexivity.
Qed.

Lemma applied_debit_debits id l :
  Forall (fun r => good_kt (r_kind r) (r_t r)) l -> applied_debit id l = debits id l.
Proof.
  intros H. apply sumz_ext. intros r Hr. rewrite Forall_forall in H.
  destruct (H r Hr) as [Hk _]. unfold settled, source, amount.
  destruct (String.eqb _ _); [|reflexivity]. simpl.
  destruct (r_kind r); simpl in Hk; try rewrite Hk; simpl; auto.
  destruct Hk as [->|[->| ->]]; reflexivity.
Qed.

Lemma reconcile_noop id rows l :
  Forall (fun r => good_kt (r_kind r) (r_t r)) rows ->
  (forall b, In b l -> shows b rows /\ b_recon b = false /\ b_queued b = None) ->
  reconcile_balance id rows l = l.
Proof.
  intros Hg. induction l as [|b r IH]; simpl; intros H; [reflexivity|].
  destruct (String.eqb (b_id b) id).
  - f_equal. unfold recon_trigger. simpl.
    destruct (H b (or_introl eq_refl)) as ((A & B & C & D & E & F) & Hr & Hq).
    rewrite applied_credit_credits, applied_debit_debits by assumption.
    rewrite <- E, <- A, <- B, <- Hr. destruct b; reflexivity.
  - f_equal. apply IH. auto.
Qed.

Ltac same_db HI :=
  constructor; simpl;
  [exact (i_shows _ HI)|exact (i_nodup _ HI)|exact (i_legal _ HI)|exact (i_ends _ HI)
  |exact (i_rows _ HI)|exact (i_refs _ HI)|exact (i_ids _ HI)|try exact (i_queue _ HI)|try exact (i_jobs _ HI)].

Ltac ev_same :=
  split; [exists []; reflexivity|]; split;
  [simpl; intros id0 b0 Hb0; exists b0; repeat split; auto; lia | try apply incl_refl].

Lemma exec_pres n o s :
  inv s -> opre o s -> inv (fst (exec n o s)) /\ evolves s (fst (exec n o s)).
Proof.
  intros HI Hp. destruct o; simpl in *; try (split; [exact HI|apply evolves_refl]).
  - (* OFresh *) split; [same_db HI|ev_same].
  - (* OCreateBal *)
    subst recon. unfold create_balance. simpl.
    destruct (get_bal id (s_bals s)) eqn:Eg; [simpl; split; [exact HI|apply evolves_refl]|].
    destruct (_ && _); [simpl; split; [exact HI|apply evolves_refl]|]. simpl.
    apply get_bal_none in Eg. split.
    + constructor; simpl; try apply HI.
      * intros b [<-|Hb]; [|apply (i_shows _ HI b Hb)]. split; [|split; reflexivity].
        pose proof (i_ends _ HI) as He. rewrite Forall_forall in He.
        assert (Hz : forall f, total f source id (s_txns s) = 0 /\ total f destination id (s_txns s) = 0).
        { intros f. split; apply total_other; intros r Hr E; apply Eg; rewrite <- E; apply (He r Hr). }
        unfold shows, credits, debits, held_in, held_out. simpl.
        destruct (Hz settled) as [-> ->]. destruct (Hz held) as [-> ->]. repeat split; reflexivity.
      * constructor; [exact Eg|apply (i_nodup _ HI)].
      * eapply Forall_impl; [|apply (i_ends _ HI)]. intros r [H1 H2]. split; right; assumption.
    + split; [exists []; reflexivity|]. split; [|apply incl_refl].
      intros id0 b0 Hb0. simpl. destruct (String.eqb_spec id id0) as [<-|E].
      * exfalso. apply Eg. rewrite <- (get_bal_id _ _ _ Hb0). apply in_map. eapply get_bal_in; eauto.
      * exists b0. repeat split; auto; lia.
  - (* OLock *) destruct (lock_owner k (s_locks s)); simpl; [split; [exact HI|apply evolves_refl]|].
    split; [same_db HI|ev_same].
  - (* OUnlock *) destruct (lock_owner k (s_locks s)); simpl; [|split; [exact HI|apply evolves_refl]].
    destruct (Nat.eqb n0 n); simpl; [|split; [exact HI|apply evolves_refl]].
    split; [same_db HI|ev_same].
  - (* OInsert *)
    destruct (insert_txn KNone t (s_bals s) (s_txns s)) as [l|e] eqn:E; simpl; [|split; [exact HI|apply evolves_refl]].
    apply insert_txn_ok in E as (-> & Hr & Hi & Hs & Hd). split.
    + constructor; simpl; try apply HI.
      * intros b Hb. destruct (i_shows _ HI b Hb) as (A & B). split; auto.
        apply shows_extend; auto.
      * split; [exact Logic.I|apply (i_legal _ HI)].
      * constructor; [auto|apply (i_ends _ HI)].
      * constructor; [exact Hp|apply (i_rows _ HI)].
      * constructor; [exact Hr|apply (i_refs _ HI)].
      * constructor; [exact Hi|apply (i_ids _ HI)].
    + split; [exists [mkrow (KNone, t)]; reflexivity|]. split; [|apply incl_refl].
      simpl; intros id0 b0 Hb0; exists b0; repeat split; auto; lia.
  - (* OPersist *) rewrite persist_single_batch. apply persist_batch_pres; auto.
  - (* OPersistBatch *) apply persist_batch_pres; auto.
  - (* OEnqueue *) split; [same_db HI; constructor; [exact Hp|apply (i_queue _ HI)]|ev_same].
    apply incl_tl, incl_refl.
  - (* OSpawn *) split; [same_db HI; constructor; [exact Hp|apply (i_jobs _ HI)]|ev_same].
  - (* OSetMeta *) split; [same_db HI|ev_same].
  - (* OReconcile *)
    assert (E : set_bals s (reconcile_balance id (s_txns s) (s_bals s)) = s).
    { rewrite reconcile_noop; [destruct s; reflexivity|apply (i_rows _ HI)|apply (i_shows _ HI)]. }
    rewrite E. split; [exact HI|apply evolves_refl].
Qed.

(** ** Facts about answers *)
Definition negq (s : state) : Prop := negative_queued (s_txns s).

(** [b] was read at some earlier moment. *)
Definition snap (b : balance) (s : state) : Prop :=
  (exists b0, get_bal (b_id b) (s_bals s) = Some b0 /\ b_ver b <= b_ver b0
    /\ (b_ver b0 = b_ver b -> b0 = with_queued b None)
    /\ b_track b0 = b_track b)
  /\ match b_queued b with
     | None => True
     | Some q => qc = true /\ (q < 0 -> negq s)
     end.

Definition rfact (o : op) : resp o -> state -> Prop :=
  match o return resp o -> state -> Prop with
  | OGetBal id => fun x s => match x with Some b => snap b s /\ b_id b = id /\ b_queued b = None | None => True end
  | OGetInd _ _ => fun x s => match x with Some b => snap b s /\ b_queued b = None | None => True end
  | OGetBals ids => fun x s => (forall b, In b x -> snap b s) /\ (NoDup ids -> NoDup (map b_id x))
                               /\ (forall b, In b x -> In (b_id b) ids)
  | OQueued _ => fun x s => x < 0 -> negq s
  | OGetTxn _ => fun x _ => match x with
                            | Some t => 0 <= t_prec t /\ t_limit t = 0%Q /\ t_sources t = [] /\ t_dests t = []
                            | None => True end
  | OFromQueue _ => fun x _ => match x with Some t => good_q t | None => True end
  | OSiblings _ _ => fun x _ => Forall (fun t => good_q t /\ t_status t = SQueued) x
  | _ => fun _ _ => True
  end.

Lemma snap_read b s : inv s -> In b (s_bals s) -> snap b s.
Proof.
  intros HI Hb. destruct (i_shows _ HI b Hb) as (_ & _ & Hq). split.
  - exists b. split; [apply get_bal_nodup; auto; apply (i_nodup _ HI)|].
    split; [lia|]. split; [|reflexivity]. intros _. unfold with_queued. rewrite <- Hq. destruct b; reflexivity.
  - rewrite Hq. exact Logic.I.
Qed.

Lemma negq_evolves s s' : evolves s s' -> negq s -> negq s'.
Proof.
  intros ((l & H) & _) (r & Hr & H1 & H2). exists r. split; auto. rewrite H. apply in_or_app. auto.
Qed.

Lemma snap_evolves b s s' : evolves s s' -> snap b s -> snap b s'.
Proof.
  intros Hev [(b0 & Hb & Hv & He & Ht) Hq]. split.
  - destruct Hev as (_ & HB & _). destruct (HB _ _ Hb) as (b1 & Hb1 & V1 & E1 & _ & _ & T1).
    exists b1. split; auto. split; [lia|]. split; [|congruence].
    intros Hx. rewrite E1 by lia. apply He. lia.
  - destruct (b_queued b); auto. destruct Hq as [H1 H2]. split; auto.
    intros H. eapply negq_evolves; eauto.
Qed.

Lemma get_row_in id l t : get_row id l = Some t -> exists r, In r l /\ r_t r = t.
Proof.
  induction l as [|x r IH]; simpl; [discriminate|].
  destruct (String.eqb (t_id (r_t x)) id).
  - intros H; inversion H; subst. exists x; auto.
  - intros H. destruct (IH H) as (y & Hy & E). exists y; auto.
Qed.

Lemma queue_find_in id l t : queue_find id l = Some t -> In t l.
Proof.
  induction l as [|x r IH]; simpl; [discriminate|].
  destruct (String.eqb (t_id x) id); auto. intros H; inversion H; subst; auto.
Qed.

Lemma queued_debit_neg id l : queued_debit id l < 0 -> negative_queued l.
Proof.
  unfold queued_debit.
  set (f := fun x : row => if String.eqb (t_src (r_t x)) id && status_eqb (t_status (r_t x)) SQueued
                    && negb (existsb (fun c => String.eqb (t_parent (r_t c)) (t_id (r_t x))
                                               && terminal_child_status (t_status (r_t c))) l)
                 then t_precise (r_t x) else 0).
  assert (Hgen : forall l', (forall x, In x l' -> f x < 0 -> t_status (r_t x) = SQueued /\ amount x < 0) ->
                            sumz f l' < 0 -> exists x, In x l' /\ t_status (r_t x) = SQueued /\ amount x < 0).
  { induction l' as [|x r IH]; simpl; intros H Hs; [lia|].
    destruct (Z.neg_nonneg_cases (f x)) as [Hx|Hx].
    - exists x. split; auto.
    - destruct IH as (y & Hy & E); auto; [lia|]. exists y; auto. }
  intros H. destruct (Hgen l) as (x & Hx & E); auto; [|exists x; auto].
  intros x _ Hx. unfold f in Hx.
  destruct (String.eqb (t_src (r_t x)) id); simpl in Hx; [|lia].
  destruct (t_status (r_t x)); simpl in Hx; try lia.
  destruct (negb _) in Hx; [|lia]. split; auto.
Qed.

Lemma pick_rows_fact ov p sel l :
  Forall (fun r => good_kt (r_kind r) (r_t r)) l ->
  Forall (fun t => good_q t /\ t_status t = SQueued) (pick_rows ov p sel l).
Proof.
  intros H. induction sel as [|i r IH]; simpl; [constructor|].
  destruct (get_row i l) as [t|] eqn:E; [|exact IH].
  destruct (is_stuck l t && p t) eqn:Es; [|exact IH]. constructor; [|exact IH].
  apply get_row_in in E as (x & Hx & <-). rewrite Forall_forall in H. destruct (H x Hx) as [_ Hp].
  unfold is_stuck in Es. destruct (t_status (r_t x)) eqn:Et; simpl in Es; try discriminate.
  unfold good_q. simpl. rewrite Et. auto.
Qed.

Lemma rfact_exec n o s : inv s -> rfact o (snd (exec n o s)) (fst (exec n o s)).
Proof.
  intros HI. destruct o; simpl; try exact Logic.I.
  - destruct (get_bal id (s_bals s)) as [b|] eqn:E; [|exact Logic.I].
    split; [apply snap_read; auto; eapply get_bal_in; eauto|].
    split; [eapply get_bal_id; eauto|]. apply (i_shows _ HI b). eapply get_bal_in; eauto.
  - split; [|split].
    + intros b Hb. apply get_bals_in in Hb as [Hb _]. apply snap_read; auto.
    + apply get_bals_nodup.
    + intros b Hb. apply get_bals_in in Hb as [_ Hb]. exact Hb.
  - destruct (get_bal_ind ind cur (s_bals s)) as [b|] eqn:E; [|exact Logic.I].
    apply get_bal_ind_in in E. split; [apply snap_read; auto|apply (i_shows _ HI b E)].
  - apply queued_debit_neg.
  - destruct (get_row id (s_txns s)) as [t|] eqn:E; [|exact Logic.I].
    apply get_row_in in E as (r & Hr & <-). simpl.
    pose proof (i_rows _ HI) as H. rewrite Forall_forall in H. destruct (H r Hr). auto.
  - apply pick_rows_fact. apply (i_rows _ HI).
  - destruct (queue_find id (s_queue s)) as [t|] eqn:E; [|exact Logic.I].
    apply queue_find_in in E. pose proof (i_queue _ HI) as H. rewrite Forall_forall in H. auto.
Qed.

(** ** The proof rules of this layer *)
Definition tt_inv (s : state) : Prop := True.
Definition rel : nat -> state -> state -> Prop := fun _ => evolves.
Definition sf {A} n P (p : prog A) Q := safe tt_inv inv rel n P p Q.
Definition lasting (P : state -> Prop) : Prop := forall s s', evolves s s' -> P s -> P s'.

Lemma lasting_pure (p : Prop) : lasting (fun _ => p).
Proof. intros s s' _ H. exact H. Qed.
Lemma lasting_and P Q : lasting P -> lasting Q -> lasting (fun s => P s /\ Q s).
Proof. intros HP HQ s s' He [H1 H2]. split; [eapply HP|eapply HQ]; eauto. Qed.
Lemma lasting_snap b : lasting (snap b).
Proof. intros s s' He H. eapply snap_evolves; eauto. Qed.
Lemma lasting_snaps m : lasting (fun s => forall b, In b m -> snap b s).
Proof. intros s s' He H b Hb. eapply snap_evolves; eauto. Qed.

Lemma lasting_rfact o x : lasting (rfact o x).
Proof.
  intros s s' He. destruct o; simpl; auto.
  - destruct x; auto. intros (H & ?). split; auto. eapply snap_evolves; eauto.
  - intros (H & ?). split; auto. intros b Hb. eapply snap_evolves; eauto.
  - destruct x; auto. intros (H & ?). split; auto. eapply snap_evolves; eauto.
  - intros H Hx. eapply negq_evolves; eauto.
Qed.

Lemma sf_do {A} n P o (k : resp o -> prog A) Q :
  lasting P -> (forall s, inv s -> P s -> opre o s) ->
  (forall x, sf n (fun s => P s /\ rfact o x s) (k x) Q) -> sf n P (Do o k) Q.
Proof.
  intros HP Ho Hk. exists (fun x s => P s /\ rfact o x s). split; [|split].
  - intros s _ HI Hs _. destruct (exec_pres n o s HI (Ho s HI Hs)) as [H1 H2].
    split; auto. split; [intros m _; exact H2|]. split; [eapply HP; eauto|].
    apply rfact_exec. exact HI.
  - intros x s s' _ _ _ _ He [H1 H2]. split; [eapply HP|eapply lasting_rfact]; eauto.
  - exact Hk.
Qed.

End Inv.
