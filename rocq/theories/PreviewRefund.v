(** Dry runs of refunds against the real thing. *)
From Coq Require Import ZArith QArith List String Bool Lia.
From Verif Require Import LedgerInv LedgerSafe HoldSpec BatchProof BulkProof PreviewAlone PreviewBulk PreviewAct PreviewAction.
From Verif Require Import Base MoneyModel SplitModel BalanceModel LedgerModel LedgerProgs BatchSpec BulkSpec PreviewModel PreviewSpec PreviewRefundSpec.
Import ListNotations.
Local Open Scope string_scope.
Open Scope Z_scope.
Local Open Scope list_scope.

Definition refund_lock (id : string) : string := ("refund:" ++ id)%string.
Definition in_refund (n : nat) (id : string) (s : state) : state := fst (exec n OFresh (set_locks s [(refund_lock id, n)])).
Definition still (s : state) : Prop := s_locks s = [] /\ tidy s /\ new_names s.
Definition reversal (t : txn) (nid : string) (upd : meta -> meta) : txn := set_status (set_metadata (prepare_refund t nid true upd)).
Definition takes (t : txn) : Prop := t_status t = SApplied \/ t_status t = SVoid.

(** ** What is posted *)
Lemma reversal_fields t nid upd A (f : txn -> A) : (forall y q, f (with_status y q) = f y) -> (forall y a b c d e, f (with_flags y a b c d e) = f y) ->
  f (reversal t nid upd) = f (apply_precision_txn (prepare_refund t nid true upd)).
Proof.
  intros H1 H2. unfold reversal. set (z := prepare_refund t nid true upd). unfold set_status. destruct (t_sched _); [rewrite H1; apply H2|].
  destruct (t_status _); rewrite ?H1; apply H2.
Qed.
Lemma precision_fields z A (f : txn -> A) : (forall y p a q, f (with_money y p a q) = f y) -> f (apply_precision_txn z) = f z.
Proof. intros H. unfold apply_precision_txn. destruct (apply_precision _ _ _) as [[p a] q]. apply H. Qed.
Lemma reversal_flags t nid upd : let t' := reversal t nid upd in let z := prepare_refund t nid true upd in
  t_inflight t' = t_inflight z /\ t_allow t' = t_allow z /\ t_skipq t' = t_skipq z.
Proof.
  cbv zeta. unfold reversal. set (z := prepare_refund t nid true upd).
  assert (E : forall A (f : txn -> A), (forall y q, f (with_status y q) = f y) -> f (set_status (set_metadata z)) = f (set_metadata z)).
  { intros A f H. unfold set_status. destruct (t_sched _); [apply H|]. destruct (t_status _); rewrite ?H; reflexivity. }
  rewrite !E by reflexivity. unfold set_metadata. cbn [with_flags t_inflight t_allow t_skipq].
  rewrite !(precision_fields z) by reflexivity. repeat split.
Qed.
Lemma money_same y y' : t_precise y = t_precise y' -> t_amount y = t_amount y' -> t_prec y = t_prec y' ->
  t_precise (apply_precision_txn y) = t_precise (apply_precision_txn y') /\ t_amount (apply_precision_txn y) = t_amount (apply_precision_txn y')
  /\ t_prec (apply_precision_txn y) = t_prec (apply_precision_txn y').
Proof. intros H1 H2 H3. unfold apply_precision_txn. rewrite H1, H2, H3. destruct (apply_precision _ _ _) as [[? ?] ?]. repeat split. Qed.
Lemma reversal_status t nid upd : t_sched t = false -> t_status (reversal t nid upd) = SQueued.
Proof.
  intros H. unfold reversal. set (z := prepare_refund t nid true upd).
  assert (E1 : t_sched (set_metadata z) = false) by (unfold set_metadata; cbn [with_flags t_sched]; rewrite (precision_fields z) by reflexivity; exact H).
  assert (E2 : t_status (set_metadata z) = SNone) by (unfold set_metadata; cbn [with_flags t_status]; rewrite (precision_fields z) by reflexivity; reflexivity).
  unfold set_status. rewrite E1, E2. reflexivity.
Qed.
Lemma normal_fields z A (f : txn -> A) : (forall y q, f (with_status y q) = f y) -> f (normalize z) = f z.
Proof. intros H. unfold normalize. destruct (t_status z); try reflexivity; apply H. Qed.
Lemma reversal_facts t0 m nid upd : let t := db_view_get m t0 in let t' := reversal t nid upd in
  t_src t' = t_dst t0 /\ t_dst t' = t_src t0 /\ t_id t' = nid /\ t_ref t' = (t_id t0 ++ "_refund")%string /\ t_parent t' = t_id t0
  /\ t_allow t' = true /\ t_limit t' = 0%Q /\ t_status t' = SQueued /\ t_skipq t' = true
  /\ same_money (ready_leg (prepare_refund (db_view m t0) "" true (fun m => m))) t'.
Proof.
  intros t t'. destruct (reversal_flags t nid upd) as (F1 & F2 & F3). fold t' in F1, F2, F3.
  set (z := prepare_refund t nid true upd) in *.
  assert (R : forall A (f : txn -> A), (forall y q, f (with_status y q) = f y) -> (forall y a b c d e, f (with_flags y a b c d e) = f y) ->
    (forall y p a q, f (with_money y p a q) = f y) -> f t' = f z).
  { intros A f H1 H2 H3. unfold t'. rewrite (reversal_fields t nid upd A f H1 H2). apply precision_fields. exact H3. }
  rewrite (R _ t_src), (R _ t_dst), (R _ t_id), (R _ t_ref), (R _ t_parent), (R _ t_limit) by reflexivity.
  assert (S' : t_status t' = SQueued) by (apply reversal_status; reflexivity).
  split; [reflexivity|]. split; [reflexivity|]. split; [reflexivity|]. split; [reflexivity|]. split; [reflexivity|].
  split; [exact F2|]. split; [reflexivity|]. split; [exact S'|]. split; [exact F3|].
  set (w := prepare_refund (db_view m t0) "" true (fun m => m)). unfold ready_leg.
  destruct (money_same (normalize w) z) as (W1 & W2 & W3); [rewrite (normal_fields w) by reflexivity; reflexivity..|].
  unfold same_money. rewrite W1, W2, W3.
  rewrite (precision_fields (normalize w) _ t_inflight), (precision_fields (normalize w) _ t_allow), (precision_fields (normalize w) _ t_limit) by reflexivity.
  rewrite (normal_fields w _ t_inflight), (normal_fields w _ t_allow), (normal_fields w _ t_limit) by reflexivity.
  assert (Sx : sort (apply_precision_txn (normalize w)) = 0%nat).
  { unfold sort. rewrite (precision_fields (normalize w) _ t_status) by reflexivity. unfold normalize. change (t_status w) with SNone. cbv iota.
    cbn [with_status t_status]. destruct (t_inflight w); reflexivity. }
  rewrite Sx. unfold sort. rewrite S', F1, F2, (R _ t_limit) by reflexivity.
  unfold t'. rewrite (reversal_fields t nid upd _ t_precise), (reversal_fields t nid upd _ t_amount), (reversal_fields t nid upd _ t_prec) by reflexivity.
  fold z. repeat (split; [reflexivity|]). reflexivity.
Qed.

Lemma settled_precision t nid upd : t_precise (apply_precision_txn (reversal t nid upd)) = t_precise (reversal t nid upd).
Proof.
  set (z := prepare_refund t nid true upd).
  destruct (money_same (reversal t nid upd) (apply_precision_txn z)) as (-> & _ & _); [apply reversal_fields; reflexivity..|].
  rewrite (reversal_fields t nid upd _ t_precise) by reflexivity. fold z.
  unfold apply_precision_txn, apply_precision. set (q := if t_prec z =? 0 then 1 else t_prec z).
  assert (Hq : (q =? 0) = false) by (unfold q; destruct (Z.eqb_spec (t_prec z) 0); apply Z.eqb_neq; lia).
  destruct (0 <? t_precise z) eqn:E1; cbn [with_money t_precise t_amount t_prec]; rewrite Hq; rewrite ?E1; [reflexivity|].
  destruct (0 <? convert_decimal_to_precise (t_amount z) q); reflexivity.
Qed.

Definition posted (cfg : config) (t' : txn) (s : state) : state * res txn :=
  match calculate_distributions (fun m => m) (fun m => m) (t_precise t') [] (t_prec t') with
  | None => (s, Err ESplit)
  | Some _ => let R := core cfg t' s in
      (fst R, match snd R with Ok _ => Ok (with_status t' (if t_inflight t' then SInflight else SApplied)) | Err e => Err e end)
  end.
Lemma queue_run n cfg k z t' s : set_status (set_metadata z) = t' -> t_id (set_metadata z) <> "" -> t_skipq t' = true -> s_locks s = [(k, n)] ->
  starts_with_at (t_src t') = false -> starts_with_at (t_dst t') = false -> t_src t' <> k -> t_dst t' <> k ->
  run n (queue_nosplit cfg z) s = posted cfg t' s.
Proof.
  intros E Hi Hq L A B D1 D2. unfold queue_nosplit, posted. cbv zeta.
  assert (En : run n (ensure_id (set_metadata z)) s = (s, set_metadata z)).
  { unfold ensure_id. apply String.eqb_neq in Hi. rewrite Hi. reflexivity. }
  rewrite run_bind, En. cbn [fst snd]. rewrite E.
  destruct (calculate_distributions _ _ (t_precise t') [] (t_prec t')) as [dm|]; [|reflexivity].
  rewrite Hq. unfold bindr. rewrite run_bind, (single_held n cfg k t' s L A B D1 D2).
  destruct (core cfg t' s) as [s3 [r|e]]; reflexivity.
Qed.
Lemma posted_locks cfg t' s : s_locks (fst (posted cfg t' s)) = s_locks s.
Proof. unfold posted. destruct (calculate_distributions _ _ _ _ _); [apply core_keeps|reflexivity]. Qed.

Lemma refund_run n cfg id s t0 upd : s_locks s = [] -> get_row id (s_txns s) = Some t0 ->
  let t := db_view_get (meta_of (s_meta s) t0) t0 in
  takes t0 -> starts_with_at (t_src t0) = false -> starts_with_at (t_dst t0) = false ->
  t_src t0 <> refund_lock id -> t_dst t0 <> refund_lock id ->
  run n (refund cfg id true upd) s =
    if refund_exists id (t_src t0) (t_dst t0) (s_txns s) then (s, Err EAlreadyRefunded)
    else let R := posted cfg (reversal t ("txn_" ++ s_uuid s (s_ctr s)) upd) (in_refund n id s) in (set_locks (fst R) [], snd R).
Proof.
  intros L G t Ht A B D1 D2.
  assert (Eid : t_id t0 = id) by (eapply get_row_id; eauto).
  assert (Es : set_locks s [] = s) by (rewrite <- L; apply set_locks_same).
  set (s1 := set_locks s [(refund_lock id, n)]).
  assert (P : run n (nid <- fresh "txn" ;; queue_nosplit cfg (prepare_refund t nid true upd)) s1
    = posted cfg (reversal t ("txn_" ++ s_uuid s (s_ctr s)) upd) (in_refund n id s)).
  { assert (F : run n (fresh "txn") s1 = (in_refund n id s, ("txn_" ++ s_uuid s (s_ctr s))%string)) by reflexivity.
    rewrite run_bind, F. cbn [fst snd]. generalize (("txn_" ++ s_uuid s (s_ctr s))%string) (eq_refl : String.eqb ("txn_" ++ s_uuid s (s_ctr s)) "" = false).
    intros nid Hnid.
    destruct (reversal_facts t0 (meta_of (s_meta s) t0) nid upd) as (M1 & M2 & M3 & M4 & M5 & M6 & M7 & M8 & M9 & _).
    fold t in M1, M2, M3, M4, M5, M6, M7, M8, M9.
    refine (queue_run n cfg (refund_lock id) (prepare_refund t nid true upd) (reversal t nid upd) (in_refund n id s) eq_refl _ M9 eq_refl _ _ _ _);
      [|rewrite M1; exact B|rewrite M2; exact A|rewrite M1; exact D2|rewrite M2; exact D1].
    unfold set_metadata. cbn [with_flags t_id]. rewrite precision_fields by reflexivity. cbn [prepare_refund with_status with_flags with_ends with_keys t_id].
    apply String.eqb_neq. exact Hnid. }
  revert P. generalize (posted cfg (reversal t ("txn_" ++ s_uuid s (s_ctr s)) upd) (in_refund n id s)) (posted_locks cfg (reversal t ("txn_" ++ s_uuid s (s_ctr s)) upd) (in_refund n id s)).
  intros X Lx P.
  unfold refund. set (p := bindr _ _).
  assert (Ep : run n p s1 = if refund_exists id (t_src t0) (t_dst t0) (s_txns s) then (s1, Err EAlreadyRefunded) else X).
  { unfold p, bindr. rewrite run_bind.
    assert (F : run n (refund_original id) s1 = (s1, Ok t)).
    { unfold refund_original. cbn [bind act run exec]. change (s_txns s1) with (s_txns s). change (s_meta s1) with (s_meta s). rewrite G. reflexivity. }
    rewrite F. cbn [fst snd]. change (t_status t) with (t_status t0). change (t_id t) with (t_id t0). change (t_src t) with (t_src t0). change (t_dst t) with (t_dst t0).
    rewrite Eid.
    assert (Q : run n (done <- act (ORefunded id (t_src t0) (t_dst t0)) ;;
        if done then Ret (Err EAlreadyRefunded) else nid <- fresh "txn" ;; queue_nosplit cfg (prepare_refund t nid true upd)) s1
      = if refund_exists id (t_src t0) (t_dst t0) (s_txns s) then (s1, Err EAlreadyRefunded) else X).
    { rewrite run_bind. assert (F' : run n (act (ORefunded id (t_src t0) (t_dst t0))) s1 = (s1, refund_exists id (t_src t0) (t_dst t0) (s_txns s))) by reflexivity.
      rewrite F'. cbn [fst snd]. destruct (refund_exists id (t_src t0) (t_dst t0) (s_txns s)); [reflexivity|exact P]. }
    destruct Ht as [Ht|Ht]; rewrite Ht; exact Q. }
  change ("refund:" ++ id)%string with (refund_lock id). rewrite locked_prog.
  - fold s1. rewrite Ep. destruct (refund_exists id (t_src t0) (t_dst t0) (s_txns s)); [|reflexivity].
    cbn [fst snd]. f_equal. transitivity (set_locks s []); [reflexivity|exact Es].
  - exact L.
  - fold s1. intros r s2. rewrite Ep. destruct (refund_exists id (t_src t0) (t_dst t0) (s_txns s)); [intros [= <- <-]; reflexivity|].
    intros Q. rewrite Q in Lx. exact Lx.
Qed.

(** Without a limit on the overdraft what is queued does not matter. *)
Lemma free_alike t t' s d s2 d2 : same_money t t' -> t_allow t = true -> t_limit t = 0%Q -> sort t = 0%nat -> alike s s2 -> alike d d2 ->
  match apply_to_balances t s d, apply_to_balances t' s2 d2 with
  | Ok (t1, a, b), Ok (t1', a2, b2) => alike a a2 /\ alike b b2 /\ t_precise t1' = t_precise t1 /\ 0 < t_precise t1
  | Err e, Err e' => e = e'
  | _, _ => False
  end.
Proof.
  intros M Ha Hl Hs A B.
  assert (E : apply_to_balances t' s2 d2 = update_balances t' s2 d2 /\ apply_to_balances t s d = update_balances t s d).
  { destruct M as (_ & _ & _ & _ & _ & _ & M7). rewrite Hs in M7. unfold sort in *. unfold apply_to_balances.
    split; [destruct (t_status t')|destruct (t_status t)]; try reflexivity; discriminate. }
  destruct E as [-> ->]. pose proof (same_money_precise _ _ M) as (P1 & P2 & P3 & P4 & P5 & P6 & _).
  destruct A as (A1 & A2 & A3 & A4 & A5 & A6). destruct B as (B1 & B2 & B3 & B4 & B5 & B6).
  assert (Fa : t_allow (apply_precision_txn t) = true /\ t_limit (apply_precision_txn t) = 0%Q).
  { unfold apply_precision_txn. destruct (apply_precision _ _ _) as [[? ?] ?]. split; assumption. }
  destruct Fa as [Fa Fl].
  unfold update_balances, validate_txn, can_process. cbv zeta. rewrite P1, P2, P4, P5, P6, Fa, Fl.
  change (true && Qeq_bool 0 0)%bool with true. cbv iota.
  destruct (qlt _ 0); [reflexivity|]. destruct (Z.leb_spec (t_precise (apply_precision_txn t)) 0) as [|Hp]; [reflexivity|].
  unfold compute_balance, add_debit, add_credit, alike.
  destruct (t_inflight (apply_precision_txn t)); simpl; rewrite ?A1, ?A2, ?A3, ?A4, ?A5, ?A6, ?B1, ?B2, ?B3, ?B4, ?B5, ?B6; repeat split; auto.
Qed.

Lemma posted_outcome cfg s s1 l x t' sb db : tidy s -> new_names s -> tidy s1 -> new_names s1 ->
  s_txns s1 = s_txns s -> s_bals s1 = s_bals s -> s_meta s1 = s_meta s -> s_ctr s1 = S (s_ctr s) -> s_uuid s1 = s_uuid s ->
  t_src t' = t_dst l -> t_dst t' = t_src l -> t_id t' = ("txn_" ++ s_uuid s (s_ctr s))%string -> t_ref t' = (t_id l ++ "_refund")%string -> t_parent t' = t_id l ->
  t_allow t' = true -> t_limit t' = 0%Q -> t_status t' = SQueued -> same_money x t' -> t_precise (apply_precision_txn t') = t_precise t' ->
  ref_exists (t_id l ++ "_refund") (s_txns s) = false ->
  get_bal (t_dst l) (s_bals s) = Some sb -> get_bal (t_src l) (s_bals s) = Some db ->
  let X := (set_locks (fst (posted cfg t' s1)) [], snd (posted cfg t' s1)) in
  if String.eqb (t_dst l) (t_src l) then exists s2 e, X = (s2, Err e)
  else match apply_to_balances x sb db with
  | Err _ => exists s2 e, X = (s2, Err e)
  | Ok (_, s', d') => exists s2 r y, X = (s2, Ok y) /\ s_txns s2 = r :: s_txns s
      /\ t_parent (r_t r) = t_id l /\ t_ref (r_t r) = (t_id l ++ "_refund")%string
      /\ ~ In (t_id (r_t r)) (map (fun r => t_id (r_t r)) (s_txns s))
      /\ s_meta s2 = s_meta s /\ still s2 /\ ended (t_dst l) (t_src l) s' d' s s2
  end.
Proof.
  intros T N IT IN I1 I2 I3 I4 I5 M1 M2 M3 M4 M5 M6 M7 M8 Mm Hy Hr Gs Gd X. pose proof N as [N1 N2].
  assert (R : X = (set_locks (fst (posted cfg t' s1)) [], snd (posted cfg t' s1))) by reflexivity. clearbody X. unfold posted in R.
  assert (Hr1 : ref_exists (t_ref t') (s_txns s1) = false) by (rewrite M4, I1; exact Hr).
  assert (Gs1 : get_bal (t_src t') (s_bals s1) = Some sb) by (rewrite M1, I2; exact Gs).
  assert (Gd1 : get_bal (t_dst t') (s_bals s1) = Some db) by (rewrite M2, I2; exact Gd).
  pose proof Mm as (Q1 & Q2 & Q3 & Q4 & Q5 & Q6 & Q7).
  assert (So : sort x = 0%nat) by (rewrite <- Q7; unfold sort; rewrite M8; reflexivity).
  assert (K : match apply_to_balances x sb db, apply_to_balances t' (qb cfg s1 sb) (qb cfg s1 db) with
    | Ok (t1, a, b), Ok (t1', a2, b2) => alike a a2 /\ alike b b2 /\ t_precise t1' = t_precise t1 /\ 0 < t_precise t1
    | Err e, Err e' => e = e' | _, _ => False end).
  { apply free_alike; [exact Mm|congruence|congruence|exact So|apply qb_alike|apply qb_alike]. }
  destruct (calculate_distributions (fun m => m) (fun m => m) (t_precise t') [] (t_prec t')) as [dm|] eqn:Ed.
  2:{ assert (Ax : match apply_to_balances x sb db with Ok _ => False | Err _ => True end).
      { destruct (apply_to_balances x sb db) as [[[t1 a] b]|e] eqn:Ea; [|exact Logic.I].
        destruct (apply_to_balances t' (qb cfg s1 sb) (qb cfg s1 db)) as [[[t1' a2] b2]|e2] eqn:E2'; [|contradiction]. destruct K as (_ & _ & K3 & K4).
        assert (Hp : t_precise t1' = t_precise (apply_precision_txn t')).
        { unfold apply_to_balances in E2'. rewrite M8 in E2'. unfold update_balances in E2'. cbv zeta in E2'.
          destruct (validate_txn _); [|discriminate E2']. destruct (can_process _ _); [|discriminate E2']. injection E2' as <- _ _. reflexivity. }
        destruct (Z.le_gt_cases 0 (t_precise t')) as [Hz|Hz].
        - destruct (no_distribution (t_precise t') (t_prec t') Hz) as (dm & Ed'). congruence.
        - clear - Hz Hp K3 K4 Hy. lia. }
      destruct (apply_to_balances x sb db) as [[[t1 a] b]|e]; [contradiction|]. destruct (String.eqb _ _); eauto. }
  destruct (String.eqb_spec (t_dst l) (t_src l)) as [D|D].
  - destruct (apply_to_balances t' (qb cfg s1 sb) (qb cfg s1 db)) as [[[t1' a2] b2]|e2] eqn:E2'.
    + assert (sb = db) by (rewrite D, Gd in Gs; injection Gs; auto). subst db.
      destruct (apply_to_balances x sb sb) as [[[t1 a] b]|e]; [|contradiction]. destruct K as (_ & _ & K3 & K4).
      rewrite (core_same cfg t' s1 sb t1' a2 b2 IT) in R; [|congruence|exact Hr1|exact Gs1|exact E2'|clear - K3 K4; lia]. cbn [fst snd] in R. eauto.
    + unfold core in R. rewrite Hr1, Gs1, Gd1, E2' in R. cbn [fst snd] in R. eauto.
  - destruct (apply_to_balances t' (qb cfg s1 sb) (qb cfg s1 db)) as [[[t1' a2] b2]|e2] eqn:E2'.
    + destruct (apply_to_balances x sb db) as [[[t1 a] b]|e]; [|contradiction]. destruct K as (K1 & K2 & K3 & K4).
      assert (Hid : id_exists (t_id t') (s_txns s1) = false).
      { rewrite M3, I1. destruct (id_exists ("txn_" ++ s_uuid s (s_ctr s)) (s_txns s)) eqn:E; [|reflexivity]. exfalso.
        unfold id_exists in E. apply existsb_exists in E as (r & Ir & Er). apply String.eqb_eq in Er.
        apply (proj2 (N2 (s_ctr s) (Nat.le_refl _))). rewrite <- Er. apply (in_map (fun r => t_id (r_t r))). exact Ir. }
      destruct (core_ok cfg t' s1 sb db t1' a2 b2 IT IN) as (s3 & E3' & X3 & T3 & N3 & L3 & K5 & V3); auto; try congruence.
      { intros i Hle E. rewrite M3, I5 in E. apply txn_inj, N1 in E. rewrite I4 in Hle. clear - E Hle. lia. }
      { clear - K3 K4. lia. }
      rewrite E3' in R. cbn [fst snd] in R.
      destruct (apply_ids _ _ _ _ _ _ E2') as (_ & _ & _ & _ & J1 & J2 & _ & J3 & _).
      exists (set_locks s3 []). eexists. eexists. split; [exact R|]. split; [cbn [s_txns set_locks]; rewrite X3, I1; reflexivity|].
      cbn [r_t]. set (t3 := clear_terminal (update_details t1' a2 b2)).
      assert (Et3 : t_parent t3 = t_id l /\ t_id t3 = ("txn_" ++ s_uuid s (s_ctr s))%string /\ t_ref t3 = (t_id l ++ "_refund")%string).
      { assert (forall y, t_parent (clear_terminal y) = t_parent y /\ t_id (clear_terminal y) = t_id y /\ t_ref (clear_terminal y) = t_ref y)
          as Hc by (intros y; unfold clear_terminal; destruct (t_status y); repeat split).
        destruct (Hc (update_details t1' a2 b2)) as (C1 & C2 & C3). unfold t3. rewrite C1, C2, C3.
        cbn [update_details t_parent t_id t_ref with_status with_ends]. repeat split; congruence. }
      destruct Et3 as (P1 & P2 & P3). split; [exact P1|]. split; [exact P3|].
      split; [rewrite P2; apply (N2 (s_ctr s)); apply Nat.le_refl|].
      split; [cbn [s_meta set_locks]; rewrite <- I3; apply (f_equal (fun z => s_meta (fst z))) in E3'; cbn [fst] in E3'; rewrite <- E3'; apply core_meta|].
      split; [split; [reflexivity|split; [exact T3|exact N3]]|].
      intros z bz Hz. cbn [s_bals set_locks].
      pose proof (V3 z ""%string) as Vz. unfold view in Vz. rewrite I2 in Vz.
      destruct T as [_ T2]. rewrite Forall_forall in T2.
      assert (Az : starts_with_at z = false). { rewrite <- (get_bal_id _ _ _ Hz). apply T2. eapply get_bal_in; eauto. }
      rewrite Az, Hz in Vz. cbn [option_map] in Vz. rewrite M1, M2 in Vz. unfold bump in Vz. rewrite (get_bal_id _ _ _ Hz) in Vz.
      eexists. split; [exact Vz|]. destruct (String.eqb z (t_src l)); [eapply alike_trans; [exact K2|apply alike_upd]|].
      destruct (String.eqb z (t_dst l)); [eapply alike_trans; [exact K1|apply alike_upd]|reflexivity].
    + destruct (apply_to_balances x sb db) as [[[t1 a] b]|e]; [contradiction|].
      unfold core in R. rewrite Hr1, Gs1, Gd1, E2' in R. cbn [fst snd] in R. eauto.
Qed.

Lemma refund_outcome n cfg s t0 l sb db upd : still s -> get_row (t_id l) (s_txns s) = Some t0 -> db_view (meta_of (s_meta s) t0) t0 = l ->
  takes l -> starts_with_at (t_src l) = false -> starts_with_at (t_dst l) = false ->
  t_src l <> refund_lock (t_id l) -> t_dst l <> refund_lock (t_id l) ->
  refund_exists (t_id l) (t_src l) (t_dst l) (s_txns s) = false -> ref_exists (t_id l ++ "_refund") (s_txns s) = false ->
  get_bal (t_dst l) (s_bals s) = Some sb -> get_bal (t_src l) (s_bals s) = Some db ->
  let x := ready_leg (prepare_refund l "" true (fun m => m)) in
  if String.eqb (t_dst l) (t_src l) then exists s2 e, run n (refund cfg (t_id l) true upd) s = (s2, Err e)
  else match apply_to_balances x sb db with
  | Err _ => exists s2 e, run n (refund cfg (t_id l) true upd) s = (s2, Err e)
  | Ok (_, s', d') => exists s2 r y, run n (refund cfg (t_id l) true upd) s = (s2, Ok y) /\ s_txns s2 = r :: s_txns s
      /\ t_parent (r_t r) = t_id l /\ t_ref (r_t r) = (t_id l ++ "_refund")%string
      /\ ~ In (t_id (r_t r)) (map (fun r => t_id (r_t r)) (s_txns s))
      /\ s_meta s2 = s_meta s /\ still s2 /\ ended (t_dst l) (t_src l) s' d' s s2
  end.
Proof.
  intros (L & T & N) G Ev Hk A B D1 D2 Hn Hr Gs Gd x.
  assert (E0 : t_src t0 = t_src l /\ t_dst t0 = t_dst l /\ t_id t0 = t_id l /\ t_status t0 = t_status l) by (rewrite <- Ev; repeat split).
  destruct E0 as (E1 & E2 & E3 & E4).
  pose proof (refund_run n cfg (t_id l) s t0 upd L G) as R. cbv zeta in R.
  set (t' := reversal (db_view_get (meta_of (s_meta s) t0) t0) ("txn_" ++ s_uuid s (s_ctr s)) upd) in *.
  unfold takes in R, Hk. rewrite E1, E2, E4 in R. specialize (R Hk A B D1 D2). rewrite Hn in R.
  destruct (reversal_facts t0 (meta_of (s_meta s) t0) ("txn_" ++ s_uuid s (s_ctr s)) upd) as (M1 & M2 & M3 & M4 & M5 & M6 & M7 & M8 & M9 & Mm).
  fold t' in M1, M2, M3, M4, M5, M6, M7, M8, M9, Mm. rewrite Ev in Mm. fold x in Mm. rewrite E2 in M1. rewrite E1 in M2. rewrite E3 in M4, M5.
  set (s1 := in_refund n (t_id l) s) in *.
  assert (I : s_txns s1 = s_txns s /\ s_bals s1 = s_bals s /\ s_meta s1 = s_meta s /\ s_ctr s1 = S (s_ctr s) /\ s_uuid s1 = s_uuid s) by (repeat split).
  destruct I as (I1 & I2 & I3 & I4 & I5). pose proof N as [N1 N2].
  assert (IT : tidy s1) by exact T.
  assert (IN : new_names s1) by (split; [exact N1|]; intros i Hi; apply N2; rewrite I4 in Hi; clear - Hi; lia).
  assert (Hy : t_precise (apply_precision_txn t') = t_precise t') by (apply settled_precision).
  rewrite R. apply posted_outcome; assumption.
Qed.
