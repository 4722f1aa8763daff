(** The outbox worker: invariants of every schedule. *)
From Coq Require Import ZArith List String Bool Lia Permutation Sorting.Sorted Ascii.
From Verif Require Import Base ChainModel ChainProof LineageModel LineageSpec AllocProof.
Import ListNotations.
Local Open Scope string_scope.
Open Scope Z_scope.
Local Open Scope list_scope.

(** ** Strings *)
Lemma append_cancel_l (p a b : string) : String.append p a = String.append p b -> a = b.
Proof. induction p; cbn; intros H; [exact H|]. injection H as H. auto. Qed.
Lemma append_length (a b : string) : String.length (String.append a b) = (String.length a + String.length b)%nat.
Proof. induction a; cbn; [reflexivity|rewrite IHa; reflexivity]. Qed.
Lemma append_cancel_r (a b s : string) : String.append a s = String.append b s -> a = b.
Proof.
  revert b; induction a as [|x a IH]; intros b H; destruct b as [|y b]; [reflexivity| | |].
  - apply (f_equal String.length) in H. cbn in H. rewrite append_length in H. lia.
  - apply (f_equal String.length) in H. cbn in H. rewrite append_length in H. lia.
  - cbn in H. injection H as -> H. f_equal. apply IH; exact H.
Qed.
Lemma release_ref_inj r p q : release_ref r p = release_ref r q -> p = q.
Proof. unfold release_ref. intros H. apply append_cancel_l in H. apply append_cancel_l in H. exact H. Qed.
Lemma receive_ref_inj r p q : receive_ref r p = receive_ref r q -> p = q.
Proof. unfold receive_ref. intros H. apply append_cancel_l in H. apply append_cancel_l in H. exact H. Qed.
Lemma shadow_of_inj k b p q : shadow_of k b p = shadow_of k b q -> p = q.
Proof. unfold shadow_of. intros H. apply append_cancel_l in H. apply append_cancel_r in H. exact H. Qed.

(** ** Lists of attempts and entries *)
Lemma find_att_in l id a : find_att l id = Some a -> In a l /\ at_id a = id.
Proof. unfold find_att. intros H. apply find_some in H. destruct H as [H1 H2]. apply Nat.eqb_eq in H2. auto. Qed.
Lemma ids_eq l a b : NoDup (map at_id l) -> In a l -> In b l -> at_id a = at_id b -> a = b.
Proof.
  induction l as [|x l IH]; intros N Ha Hb E; [destruct Ha|]. inversion N as [|? ? N1 N2]; subst.
  destruct Ha as [<-|Ha], Hb as [<-|Hb]; [reflexivity| | |auto].
  - exfalso; apply N1. rewrite E. apply in_map; exact Hb.
  - exfalso; apply N1. rewrite <- E. apply in_map; exact Ha.
Qed.
Lemma in_drop id l a : In a (drop_att id l) <-> In a l /\ at_id a <> id.
Proof. unfold drop_att. rewrite filter_In, negb_true_iff, Nat.eqb_neq. reflexivity. Qed.
Definition with_todo (a : attempt) (t : list act) : attempt := {| at_id := at_id a; at_entry := at_entry a; at_until := at_until a; at_todo := t |}.
Lemma in_set_todo id t l b : In b (set_todo id t l) -> (In b l /\ at_id b <> id) \/ exists a, In a l /\ at_id a = id /\ b = with_todo a t.
Proof.
  unfold set_todo. intros H. apply in_map_iff in H. destruct H as [a [H1 H2]]. destruct (Nat.eqb (at_id a) id) eqn:E.
  - apply Nat.eqb_eq in E. right. exists a. auto.
  - apply Nat.eqb_neq in E. left. subst b. auto.
Qed.
Lemma set_todo_in id t l a : In a l -> at_id a = id -> In (with_todo a t) (set_todo id t l).
Proof. intros H E. unfold set_todo. apply in_map_iff. exists a. rewrite (proj2 (Nat.eqb_eq _ _) E). auto. Qed.
Lemma set_todo_ids id t l : map at_id (set_todo id t l) = map at_id l.
Proof. unfold set_todo. rewrite map_map. apply map_ext. intros a. destruct (Nat.eqb (at_id a) id); reflexivity. Qed.
Lemma drop_ids id l : NoDup (map at_id l) -> NoDup (map at_id (drop_att id l)).
Proof.
  intros N. unfold drop_att. induction l as [|x l IH]; [exact N|]. inversion N as [|? ? N1 N2]; subst. cbn. destruct (negb (Nat.eqb (at_id x) id)); [|auto].
  cbn. constructor; [|auto]. intros X. apply N1. apply in_map_iff in X. destruct X as [y [Y1 Y2]]. apply filter_In in Y2. rewrite <- Y1. apply in_map. apply Y2.
Qed.

Lemma nth_set_entry i f l j : nth_error (set_entry i f l) j = (if Nat.eqb i j then option_map f (nth_error l j) else nth_error l j).
Proof.
  unfold set_entry. destruct (nth_error l i) as [e|] eqn:E.
  - apply nth_error_split in E. destruct E as [l1 [l2 [-> <-]]].
    rewrite firstn_app, Nat.sub_diag, firstn_all, app_nil_r. cbn [firstn].
    replace (S (List.length l1)) with (List.length (l1 ++ [e])) by (rewrite app_length; cbn; lia).
    change (l1 ++ e :: l2) with (l1 ++ [e] ++ l2). rewrite (app_assoc l1 [e] l2), skipn_app, skipn_all, Nat.sub_diag. cbn [skipn app].
    rewrite <- app_assoc. cbn [app].
    destruct (Nat.eqb (List.length l1) j) eqn:J; [apply Nat.eqb_eq in J|apply Nat.eqb_neq in J].
    + subst j. rewrite !nth_error_app2, Nat.sub_diag by lia. reflexivity.
    + destruct (Nat.lt_ge_cases j (List.length l1)) as [L|L].
      * rewrite !nth_error_app1 by lia. reflexivity.
      * rewrite !nth_error_app2 by lia. destruct (j - List.length l1)%nat eqn:D; [lia|reflexivity].
  - destruct (Nat.eqb i j) eqn:J; [|reflexivity]. apply Nat.eqb_eq in J. subst j. rewrite E. reflexivity.
Qed.

(** Entries keep what they say. *)
Definition same_entry (a b : entry) : Prop :=
  en_ref b = en_ref a /\ en_amt b = en_amt a /\ en_src b = en_src a /\ en_dst b = en_dst a /\ en_prov b = en_prov a /\ en_inflight b = en_inflight a /\ en_max b = en_max a.
Definition keeps (l l' : list entry) : Prop := forall i e, nth_error l i = Some e -> exists e', nth_error l' i = Some e' /\ same_entry e e'.
Lemma same_entry_refl e : same_entry e e.
Proof. unfold same_entry; auto 10. Qed.
Lemma keeps_refl l : keeps l l.
Proof. intros i e H. exists e; split; [exact H|apply same_entry_refl]. Qed.
Lemma keeps_set i f l : (forall e, same_entry e (f e)) -> keeps l (set_entry i f l).
Proof.
  intros F j e H. rewrite nth_set_entry, H. destruct (Nat.eqb i j).
  - exists (f e). split; [reflexivity|apply F].
  - exists e; split; [reflexivity|apply same_entry_refl].
Qed.
Lemma keeps_set_back i f l j e' : (forall e, same_entry e (f e)) -> nth_error (set_entry i f l) j = Some e' -> exists e, nth_error l j = Some e /\ same_entry e e'.
Proof.
  intros F H. rewrite nth_set_entry in H. destruct (Nat.eqb i j).
  - destruct (nth_error l j) as [e|]; [|discriminate]. injection H as <-. exists e; split; [reflexivity|apply F].
  - exists e'; split; [exact H|apply same_entry_refl].
Qed.

(** ** Rows *)
Lemma ref_used_in rows r : ref_used rows r = true <-> exists w, In w rows /\ w_ref w = r.
Proof.
  unfold ref_used, row_by_ref. split.
  - destruct (find _ rows) as [w|] eqn:E; [|discriminate]. intros _. apply find_some in E. destruct E as [E1 E2]. apply String.eqb_eq in E2. eauto.
  - intros [w [H1 H2]]. destruct (find _ rows) as [x|] eqn:E; [reflexivity|]. apply find_none with (x := w) in E; [|exact H1]. rewrite H2, String.eqb_refl in E. discriminate.
Qed.
Lemma ref_free rows r w : ref_used rows r = false -> In w rows -> w_ref w <> r.
Proof. intros H Hw E. assert (X : ref_used rows r = true) by (apply ref_used_in; eauto). congruence. Qed.
Lemma refs_add rows w : NoDup (map w_ref rows) -> ref_used rows (w_ref w) = false -> NoDup (map w_ref (rows ++ [w])).
Proof.
  intros N U. rewrite map_app. cbn [map]. apply (Permutation_NoDup (l := w_ref w :: map w_ref rows)).
  - apply Permutation_cons_append.
  - constructor; [|exact N]. intros X. apply in_map_iff in X. destruct X as [x [X1 X2]]. exact (ref_free _ _ _ U X2 X1).
Qed.
Lemma row_by_ref_in rows w : NoDup (map w_ref rows) -> In w rows -> row_by_ref rows (w_ref w) = Some w.
Proof.
  intros N H. unfold row_by_ref. induction rows as [|x rows IH]; [destruct H|]. inversion N as [|? ? N1 N2]; subst. cbn [find].
  destruct H as [->|H]; [rewrite String.eqb_refl; reflexivity|].
  destruct (String.eqb (w_ref x) (w_ref w)) eqn:E; [|auto]. apply String.eqb_eq in E. exfalso; apply N1. rewrite E. apply in_map; exact H.
Qed.

(** ** One step of an attempt, by cases *)
Definition row_of (k : lcfg) (a : attempt) (e : entry) (x : act) : option wrow :=
  match x with
  | XCredit p => Some {| w_ref := credit_ref (en_ref e) p; w_kind := WCredit; w_prov := p; w_shadow := shadow_of k (en_dst e) p; w_amt := en_amt e;
                w_inflight := en_inflight e; w_entry := at_entry a; w_att := at_id a |}
  | XRelease p sh amt => Some {| w_ref := release_ref (en_ref e) p; w_kind := WRelease; w_prov := p; w_shadow := sh; w_amt := amt;
                w_inflight := en_inflight e; w_entry := at_entry a; w_att := at_id a |}
  | XReceive p amt => Some {| w_ref := receive_ref (en_ref e) p; w_kind := WReceive; w_prov := p; w_shadow := shadow_of k (en_dst e) p; w_amt := amt;
                w_inflight := en_inflight e; w_entry := at_entry a; w_att := at_id a |}
  | _ => None
  end.
Definition may_skip (x : act) : Prop := match x with XCreditMap _ | XMaps | XAlloc _ _ | XCheck _ _ _ _ => True | _ => False end.

Inductive ract (k : lcfg) (s : lst) (a : attempt) (e : entry) (rest : list act) (o : outcome) : act -> lst -> Prop :=
| RFail x : ract k s a e rest o x (fail_att s a (l_rows s) (l_maps s))
| RPostFail x w : row_of k a e x = Some w -> ref_used (l_rows s) (w_ref w) = false -> ract k s a e rest o x (fail_att s a (l_rows s ++ [w]) (l_maps s))
| RPost x w : row_of k a e x = Some w -> ref_used (l_rows s) (w_ref w) = false -> ract k s a e rest o x (cont s a (l_rows s ++ [w]) (l_maps s) (l_locks s) rest)
| RBegin (b c : bool) : ract k s a e rest o XBegin (cont s a (l_rows s) (l_maps s) (l_locks s)
      ((if b then [XLock [shadow_of k (en_dst e) (en_prov e); aggregate_of k (en_dst e)]; XCredit (en_prov e); XCreditMap (en_prov e); XUnlock] else [])
              ++ (if c then [XMaps] else [])))
| RLock keys : existsb (locked (l_locks s)) keys = false -> ract k s a e rest o (XLock keys) (cont s a (l_rows s) (l_maps s) (map (fun key => (key, at_id a)) keys ++ l_locks s) rest)
| RUnlock : ract k s a e rest o XUnlock (cont s a (l_rows s) (l_maps s) (unlock (at_id a) (l_locks s)) rest)
| RMap x p : x = XCreditMap p \/ x = XMapDest p -> ract k s a e rest o x (cont s a (l_rows s) (upsert_map k (l_now s) (en_dst e) p (l_maps s)) (l_locks s) rest)
| RSkip x : may_skip x -> ract k s a e rest o x (cont s a (l_rows s) (l_maps s) (l_locks s) rest)
| RMaps keys dest : incl (map mp_shadow (maps_of (l_maps s) (en_src e))) keys ->
    dest = k_track k (en_dst e) && match o with OPrep => false | _ => true end ->
    ract k s a e rest o XMaps (cont s a (l_rows s) (l_maps s) (l_locks s) (XLock keys :: XAlloc (maps_of (l_maps s) (en_src e)) dest :: rest))
| RAlloc ms dest : 0 < en_amt e - prior_released (l_rows s) (en_ref e) ms -> ract k s a e rest o (XAlloc ms dest) (cont s a (l_rows s) (l_maps s) (l_locks s)
    (map (fun al => XCheck (prov_of ms (al_id al)) (al_id al) (al_amt al) dest)
                  (calculate_allocation (sources (l_rows s) ms) (en_amt e - prior_released (l_rows s) (en_ref e) ms) (k_strat k (en_src e))) ++ rest))
| RCheck p sh amt dest : ref_used (l_rows s) (release_ref (en_ref e) p) = false ->
    ract k s a e rest o (XCheck p sh amt dest) (cont s a (l_rows s) (l_maps s) (l_locks s) (XRelease p sh amt :: (if dest then [XReceive p amt; XMapDest p] else []) ++ rest)).

Lemma run_act_cases k s a e x rest o : ract k s a e rest o x (run_act k s a e x rest o).
Proof.
  destruct x; cbn [run_act].
  - destruct o; try apply RFail; apply (RBegin k s a e rest _ (provider_valid k s e && k_track k (en_dst e)) (k_track k (en_src e))).
  - destruct o; try apply RFail; destruct (existsb (locked (l_locks s)) keys) eqn:E; try apply RFail; apply RLock; exact E.
  - apply RUnlock.
  - unfold post. destruct (ref_used _ _) eqn:U; [apply RFail|].
    destruct o; [eapply RPost; [reflexivity|exact U]|apply RFail|eapply RPostFail; [reflexivity|exact U]|eapply RPost; [reflexivity|exact U]].
  - destruct o; try (apply RMap; left; reflexivity). apply RSkip. exact Logic.I.
  - assert (Sk : forall o', ract k s a e rest o' XMaps (cont s a (l_rows s) (l_maps s) (l_locks s) rest)) by (intros; apply RSkip; exact Logic.I).
    destruct o; try apply RFail; destruct (maps_of (l_maps s) (en_src e)) as [|m ms] eqn:M;
      try (destruct (pending_credit k (l_entries s) (en_src e)); [apply RFail|apply Sk]);
      rewrite <- M; (apply RMaps; [|reflexivity]; intros x Hx; apply nodup_In; apply in_or_app; left; exact Hx).
  - destruct o; try apply RFail; destruct (_ <=? 0) eqn:E; try (apply RSkip; exact Logic.I); apply Z.leb_gt in E; apply RAlloc; exact E.
  - destruct o; try apply RFail; destruct (ref_used _ _) eqn:U; try (apply RSkip; exact Logic.I); apply RCheck; exact U.
  - unfold post. destruct (ref_used _ _) eqn:U; [apply RFail|].
    destruct o; [eapply RPost; [reflexivity|exact U]|apply RFail|eapply RPostFail; [reflexivity|exact U]|eapply RPost; [reflexivity|exact U]].
  - unfold post. destruct (ref_used _ _) eqn:U; [apply RFail|].
    destruct o; [eapply RPost; [reflexivity|exact U]|apply RFail|eapply RPostFail; [reflexivity|exact U]|eapply RPost; [reflexivity|exact U]].
  - destruct o; try apply RFail; apply RMap; right; reflexivity.
Qed.

(** ** One event, by cases *)
Definition with_rows (s : lst) (rows : list wrow) : lst :=
  {| l_now := l_now s; l_rows := rows; l_maps := l_maps s; l_entries := l_entries s; l_locks := l_locks s; l_atts := l_atts s; l_next := l_next s |}.
Definition settle_row (ref : string) (w : wrow) : wrow :=
  if String.eqb (w_ref w) ref
  then {| w_ref := w_ref w; w_kind := w_kind w; w_prov := w_prov w; w_shadow := w_shadow w; w_amt := w_amt w;
          w_inflight := false; w_entry := w_entry w; w_att := w_att w |} else w.

Inductive lcase (k : lcfg) (s : lst) : levent -> lst -> Prop :=
| CTick d : 0 < d -> lcase k s (LTick d)
    {| l_now := l_now s + d; l_rows := l_rows s; l_maps := l_maps s; l_entries := l_entries s; l_locks := l_locks s; l_atts := l_atts s; l_next := l_next s |}
| CAccept e : en_status e = EPending -> en_until e = None -> en_attempts e = O -> 0 < en_amt e -> lcase k s (LAccept e)
    {| l_now := l_now s; l_rows := l_rows s; l_maps := l_maps s; l_entries := l_entries s ++ [e]; l_locks := l_locks s; l_atts := l_atts s; l_next := l_next s |}
| CClaim i e : nth_error (l_entries s) i = Some e -> claimable (l_now s) e = true -> lcase k s (LClaim i)
    {| l_now := l_now s; l_rows := l_rows s; l_maps := l_maps s;
                  l_entries := set_entry i (with_status EProcessing (Some (l_now s + k_lock k)) (en_attempts e)) (l_entries s);
                  l_locks := l_locks s;
                  l_atts := {| at_id := l_next s; at_entry := i; at_until := l_now s + k_lock k; at_todo := [XBegin] |} :: l_atts s;
                  l_next := S (l_next s) |}
| CAct id a e x rest o s' : find_att (l_atts s) id = Some a -> at_todo a = x :: rest -> nth_error (l_entries s) (at_entry a) = Some e ->
    ract k s a e rest o x s' -> lcase k s (LStep id o) s'
| CFinish id a : find_att (l_atts s) id = Some a -> at_todo a = [] -> lcase k s (LFinish id)
    {| l_now := l_now s; l_rows := l_rows s; l_maps := l_maps s; l_entries := set_entry (at_entry a) mark_completed (l_entries s);
                                  l_locks := unlock id (l_locks s); l_atts := drop_att id (l_atts s); l_next := l_next s |}
| CCrash id a : find_att (l_atts s) id = Some a -> lcase k s (LCrash id)
    {| l_now := l_now s; l_rows := l_rows s; l_maps := l_maps s; l_entries := l_entries s; l_locks := l_locks s;
                          l_atts := drop_att id (l_atts s); l_next := l_next s |}
| CExpire key : (forall id a, In (key, id) (l_locks s) -> In a (l_atts s) -> at_id a <> id) -> lcase k s (LExpire key)
    {| l_now := l_now s; l_rows := l_rows s; l_maps := l_maps s; l_entries := l_entries s;
                   l_locks := filter (fun x => negb (String.eqb (fst x) key)) (l_locks s); l_atts := l_atts s; l_next := l_next s |}
| CSettle ref : lcase k s (LSettle ref) (with_rows s (map (settle_row ref) (l_rows s)))
| COther ref amt : 0 < amt -> ref_used (l_rows s) ref = false -> lcase k s (LOther ref amt)
    (with_rows s (l_rows s ++ [{| w_ref := ref; w_kind := WOther; w_prov := ""; w_shadow := ""; w_amt := amt; w_inflight := false; w_entry := O; w_att := O |}])).

Lemma lstep_cases k s ev s' : lstep k s ev = Some s' -> lcase k s ev s'.
Proof.
  destruct ev; cbn [lstep]; intros H.
  - destruct (d <=? 0) eqn:D; [discriminate|]. injection H as <-. apply Z.leb_gt in D. apply CTick; exact D.
  - destruct (en_status e) eqn:E1; try discriminate. destruct (en_until e) eqn:E2; [discriminate|]. destruct (en_attempts e) eqn:E3; [|discriminate].
    destruct (0 <? en_amt e) eqn:E4; [|discriminate]. injection H as <-. apply Z.ltb_lt in E4. apply CAccept; assumption.
  - destruct (nth_error _ _) as [e|] eqn:E; [|discriminate]. destruct (claimable _ _) eqn:C; [|discriminate]. injection H as <-. apply CClaim; assumption.
  - destruct (find_att _ _) as [a|] eqn:E; [|discriminate]. destruct (at_todo a) as [|x rest] eqn:T; [discriminate|].
    destruct (nth_error _ _) as [e|] eqn:N; [|discriminate]. injection H as <-. eapply CAct; eauto. apply run_act_cases.
  - destruct (find_att _ _) as [a|] eqn:E; [|discriminate]. destruct (at_todo a) as [|x rest] eqn:T; [|discriminate]. injection H as <-. apply CFinish; assumption.
  - destruct (find_att _ _) as [a|] eqn:E; [|discriminate]. injection H as <-. eapply CCrash; eassumption.
  - destruct (existsb _ _) eqn:E; [discriminate|]. injection H as <-. apply CExpire. intros id a Hl Ha X.
    assert (Y : existsb (fun x : string * nat => String.eqb (fst x) key && existsb (fun a0 => Nat.eqb (at_id a0) (snd x)) (l_atts s)) (l_locks s) = true).
    { apply existsb_exists. exists (key, id). split; [exact Hl|]. cbn [fst snd]. rewrite String.eqb_refl. cbn [andb]. apply existsb_exists. exists a. split; [exact Ha|]. apply Nat.eqb_eq; exact X. }
    congruence.
  - injection H as <-. apply CSettle.
  - destruct ((amt <=? 0) || _) eqn:E; [discriminate|]. apply orb_false_iff in E. destruct E as [E1 E2]. apply Z.leb_gt in E1. injection H as <-. apply COther; assumption.
Qed.

Lemma settle_fields ref w : w_ref (settle_row ref w) = w_ref w /\ w_kind (settle_row ref w) = w_kind w /\ w_prov (settle_row ref w) = w_prov w /\
  w_shadow (settle_row ref w) = w_shadow w /\ w_amt (settle_row ref w) = w_amt w /\ w_entry (settle_row ref w) = w_entry w /\ w_att (settle_row ref w) = w_att w.
Proof. unfold settle_row. destruct (String.eqb (w_ref w) ref); auto 10. Qed.

(** ** Facts of every schedule *)
Definition row_ok (k : lcfg) (es : list entry) (next : nat) (w : wrow) : Prop :=
  0 < w_amt w /\
  match w_kind w with
  | WOther => True
  | WCredit => exists e, nth_error es (w_entry w) = Some e /\ w_ref w = credit_ref (en_ref e) (w_prov w) /\ w_shadow w = shadow_of k (en_dst e) (w_prov w)
  | WReceive => exists e, nth_error es (w_entry w) = Some e /\ w_ref w = receive_ref (en_ref e) (w_prov w) /\ w_shadow w = shadow_of k (en_dst e) (w_prov w)
  | WRelease => (w_att w < next)%nat /\ exists e, nth_error es (w_entry w) = Some e /\ w_ref w = release_ref (en_ref e) (w_prov w) /\ w_shadow w = shadow_of k (en_src e) (w_prov w)
  end.

Definition maps_ok (k : lcfg) (ms : list mapping) : Prop :=
  NoDup (map (fun m => (mp_bal m, mp_prov m)) ms) /\ forall m, In m ms -> mp_shadow m = shadow_of k (mp_bal m) (mp_prov m).
(** The mappings an attempt has read. *)
Definition read_ok (k : lcfg) (maps : list mapping) (b : string) (ms : list mapping) : Prop :=
  NoDup (map mp_prov ms) /\ forall m, In m ms -> In m maps /\ mp_bal m = b /\ mp_shadow m = shadow_of k b (mp_prov m).

Definition prep (x : act) : Prop := match x with XLock _ | XUnlock | XCredit _ | XCreditMap _ => True | _ => False end.
Definition draw (k : lcfg) (maps : list mapping) (e : entry) (x : act) : Prop :=
  match x with
  | XCheck p sh amt _ | XRelease p sh amt => 0 < amt /\ sh = shadow_of k (en_src e) p /\ exists m, In m maps /\ mp_bal m = en_src e /\ mp_prov m = p
  | XReceive p amt => 0 < amt
  | XMapDest _ => True
  | _ => False
  end.
Inductive shape (k : lcfg) (maps : list mapping) (e : entry) : list act -> Prop :=
| HBegin : shape k maps e [XBegin]
| HPrep l t : Forall prep l -> t = [] \/ t = [XMaps] -> shape k maps e (l ++ t)
| HLock ks ms d : incl (map mp_shadow ms) ks -> read_ok k maps (en_src e) ms -> shape k maps e [XLock ks; XAlloc ms d]
| HAlloc ms d : read_ok k maps (en_src e) ms -> shape k maps e [XAlloc ms d]
| HDraw l : Forall (draw k maps e) l -> shape k maps e l.

Definition has_row (rows : list wrow) (kd : wkind) (i : nat) (p : string) (amt : Z) : Prop :=
  exists w, In w rows /\ w_kind w = kd /\ w_entry w = i /\ w_prov w = p /\ w_amt w = amt.
(** A receive to come follows its release. *)
Definition recv_ok (rows : list wrow) (i : nat) (t : list act) : Prop :=
  forall pre p amt post, t = pre ++ XReceive p amt :: post ->
    (exists pre' sh, pre = pre' ++ [XRelease p sh amt]) \/ (pre = [] /\ has_row rows WRelease i p amt).

Record inv1 (k : lcfg) (s : lst) : Prop := {
  b_ids : NoDup (map at_id (l_atts s));
  b_lt : forall a, In a (l_atts s) -> (at_id a < l_next s)%nat;
  b_refs : NoDup (map w_ref (l_rows s));
  b_rows : forall w, In w (l_rows s) -> row_ok k (l_entries s) (l_next s) w;
  b_maps : maps_ok k (l_maps s);
  b_eamt : forall i e, nth_error (l_entries s) i = Some e -> 0 < en_amt e;
  b_shape : forall a, In a (l_atts s) -> exists e, nth_error (l_entries s) (at_entry a) = Some e /\ shape k (l_maps s) e (at_todo a);
  b_recv : forall a, In a (l_atts s) -> recv_ok (l_rows s) (at_entry a) (at_todo a);
  b_got : forall w, In w (l_rows s) -> w_kind w = WReceive -> has_row (l_rows s) WRelease (w_entry w) (w_prov w) (w_amt w)
}.

Lemma row_ok_mono k es es' n n' w : keeps es es' -> (n <= n')%nat -> row_ok k es n w -> row_ok k es' n' w.
Proof.
  intros K L [P H]. split; [exact P|]. destruct (w_kind w); [| | |exact Logic.I].
  - destruct H as [e [E [H1 H2]]]. destruct (K _ _ E) as [e' [E' S]]. destruct S as [S1 [_ [S3 [S4 _]]]]. exists e'. rewrite S1, S4. auto.
  - destruct H as [e [E [H1 H2]]]. destruct (K _ _ E) as [e' [E' S]]. destruct S as [S1 [_ [S3 [S4 _]]]]. exists e'. rewrite S1, S4. auto.
  - destruct H as [A [e [E [H1 H2]]]]. split; [lia|]. destruct (K _ _ E) as [e' [E' S]]. destruct S as [S1 [_ [S3 [S4 _]]]]. exists e'. rewrite S1, S3. auto.
Qed.
Lemma read_ok_mono k maps maps' b ms : incl maps maps' -> read_ok k maps b ms -> read_ok k maps' b ms.
Proof. intros I [N H]. split; [exact N|]. intros m Hm. destruct (H m Hm) as [H1 H2]. split; [apply I; exact H1|exact H2]. Qed.
Lemma draw_mono k maps maps' e e' x : incl maps maps' -> same_entry e e' -> draw k maps e x -> draw k maps' e' x.
Proof.
  intros I [S1 [S2 [S3 _]]] H. destruct x; cbn [draw] in *; auto; rewrite S3; destruct H as [H1 [H2 [m [M1 M2]]]]; (split; [exact H1|split; [exact H2|exists m; split; [apply I; exact M1|exact M2]]]).
Qed.
Lemma shape_mono k maps maps' e e' t : incl maps maps' -> same_entry e e' -> shape k maps e t -> shape k maps' e' t.
Proof.
  intros I S H. pose proof S as [S1 [S2 [S3 _]]]. destruct H.
  - apply HBegin.
  - apply HPrep; assumption.
  - apply HLock; [assumption|]. rewrite S3. eapply read_ok_mono; eassumption.
  - apply HAlloc. rewrite S3. eapply read_ok_mono; eassumption.
  - apply HDraw. eapply Forall_impl; [|eassumption]. intros x. apply draw_mono; assumption.
Qed.
Definition grow (rows rows' : list wrow) : Prop := forall kd i p amt, has_row rows kd i p amt -> has_row rows' kd i p amt.
Lemma grow_refl r : grow r r.
Proof. intros ? ? ? ? H; exact H. Qed.
Lemma grow_app r w : grow r (r ++ [w]).
Proof. intros kd i p amt [x [X1 X2]]. exists x. split; [apply in_or_app; left; exact X1|exact X2]. Qed.
Lemma recv_ok_mono rows rows' i t : grow rows rows' -> recv_ok rows i t -> recv_ok rows' i t.
Proof. intros G H pre p amt post E. destruct (H pre p amt post E) as [A|[A B]]; [left; exact A|right; split; [exact A|apply G; exact B]]. Qed.

Definition rows_next (k : lcfg) (s : lst) (es : list entry) (n : nat) (rows : list wrow) : Prop :=
  NoDup (map w_ref rows) /\ (forall w, In w rows -> row_ok k es n w) /\ grow (l_rows s) rows /\
  (forall w, In w rows -> w_kind w = WReceive -> has_row rows WRelease (w_entry w) (w_prov w) (w_amt w)).

Lemma inv1_next k s s' : inv1 k s -> keeps (l_entries s) (l_entries s') -> (forall i e, nth_error (l_entries s') i = Some e -> 0 < en_amt e) ->
  rows_next k s (l_entries s') (l_next s') (l_rows s') -> maps_ok k (l_maps s') -> incl (l_maps s) (l_maps s') -> (l_next s <= l_next s')%nat ->
  NoDup (map at_id (l_atts s')) ->
  (forall b, In b (l_atts s') -> In b (l_atts s) \/
     ((at_id b < l_next s')%nat /\ (exists e, nth_error (l_entries s') (at_entry b) = Some e /\ shape k (l_maps s') e (at_todo b)) /\ recv_ok (l_rows s') (at_entry b) (at_todo b))) ->
  inv1 k s'.
Proof.
  intros I K P [R1 [R2 [R3 R4]]] M1 M2 L N A. constructor.
  - exact N.
  - intros b Hb. destruct (A b Hb) as [Ho|[H _]]; [|exact H]. pose proof (b_lt _ _ I b Ho). lia.
  - exact R1.
  - exact R2.
  - exact M1.
  - exact P.
  - intros b Hb. destruct (A b Hb) as [Ho|[_ [H _]]]; [|exact H]. destruct (b_shape _ _ I b Ho) as [e [E S]]. destruct (K _ _ E) as [e' [E' SE]].
    exists e'. split; [exact E'|]. eapply shape_mono; eassumption.
  - intros b Hb. destruct (A b Hb) as [Ho|[_ [_ H]]]; [|exact H]. eapply recv_ok_mono; [exact R3|apply (b_recv _ _ I); exact Ho].
  - exact R4.
Qed.

Lemma rows_same k s es n : inv1 k s -> keeps (l_entries s) es -> (l_next s <= n)%nat -> rows_next k s es n (l_rows s).
Proof.
  intros I K L. split; [apply (b_refs _ _ I)|]. split; [intros w Hw; eapply row_ok_mono; [exact K|exact L|apply (b_rows _ _ I); exact Hw]|].
  split; [apply grow_refl|apply (b_got _ _ I)].
Qed.
Lemma rows_add k s es n w : inv1 k s -> keeps (l_entries s) es -> (l_next s <= n)%nat -> ref_used (l_rows s) (w_ref w) = false -> row_ok k es n w ->
  (w_kind w = WReceive -> has_row (l_rows s) WRelease (w_entry w) (w_prov w) (w_amt w)) -> rows_next k s es n (l_rows s ++ [w]).
Proof.
  intros I K L U W G. split; [apply refs_add; [apply (b_refs _ _ I)|exact U]|].
  split; [intros x Hx; apply in_app_or in Hx; destruct Hx as [Hx|[<-|[]]]; [eapply row_ok_mono; [exact K|exact L|apply (b_rows _ _ I); exact Hx]|exact W]|].
  split; [apply grow_app|]. intros x Hx Kx. apply grow_app. apply in_app_or in Hx. destruct Hx as [Hx|[<-|[]]]; [apply (b_got _ _ I); assumption|apply G; exact Kx].
Qed.

Lemma mark_failed_same e : same_entry e (mark_failed e).
Proof. unfold same_entry, mark_failed; cbn; auto 10. Qed.
Lemma mark_completed_same e : same_entry e (mark_completed e).
Proof. unfold same_entry, mark_completed; cbn; auto 10. Qed.
Lemma with_status_same st u n e : same_entry e (with_status st u n e).
Proof. unfold same_entry; cbn; auto 10. Qed.
Lemma eamt_set i f l : (forall e, same_entry e (f e)) -> (forall j e, nth_error l j = Some e -> 0 < en_amt e) -> forall j e, nth_error (set_entry i f l) j = Some e -> 0 < en_amt e.
Proof. intros F P j e H. destruct (keeps_set_back _ _ _ _ _ F H) as [e0 [E0 [_ [S _]]]]. rewrite S. eapply P; exact E0. Qed.

Lemma inv1_fail k s a rows : inv1 k s -> In a (l_atts s) ->
  rows_next k s (set_entry (at_entry a) mark_failed (l_entries s)) (l_next s) rows -> inv1 k (fail_att s a rows (l_maps s)).
Proof.
  intros I Ha R. apply (inv1_next k s); cbn [fail_att l_entries l_rows l_maps l_atts l_next]; auto.
  - apply keeps_set, mark_failed_same.
  - apply eamt_set; [apply mark_failed_same|apply (b_eamt _ _ I)].
  - apply (b_maps _ _ I).
  - apply incl_refl.
  - apply drop_ids, (b_ids _ _ I).
  - intros b Hb. left. apply in_drop in Hb. apply Hb.
Qed.
Lemma inv1_cont k s a e rows maps locks t : inv1 k s -> In a (l_atts s) -> nth_error (l_entries s) (at_entry a) = Some e ->
  rows_next k s (l_entries s) (l_next s) rows -> maps_ok k maps -> incl (l_maps s) maps -> shape k maps e t -> recv_ok rows (at_entry a) t ->
  inv1 k (cont s a rows maps locks t).
Proof.
  intros I Ha E R M1 M2 S V. apply (inv1_next k s); cbn [cont l_entries l_rows l_maps l_atts l_next]; auto.
  - apply keeps_refl.
  - apply (b_eamt _ _ I).
  - rewrite set_todo_ids. apply (b_ids _ _ I).
  - intros b Hb. apply in_set_todo in Hb. destruct Hb as [[Hb _]|[a' [H1 [H2 ->]]]]; [left; exact Hb|].
    assert (a' = a) by (eapply ids_eq; [apply (b_ids _ _ I)|exact H1|exact Ha|exact H2]). subst a'.
    right. split; [exact (b_lt _ _ I a Ha)|]. cbn [with_todo at_entry at_todo]. split; [exists e; auto|exact V].
Qed.

(** Shapes and receives after the first action. *)
Lemma shape_tail k maps e x rest : shape k maps e (x :: rest) -> shape k maps e rest.
Proof.
  intros H. inversion H as [E|l t P T E|ks ms d In R E|ms d R E|l D E]; subst.
  - apply (HPrep k maps e [] []); [constructor|left; reflexivity].
  - destruct l as [|y l]; cbn [app] in E.
    + destruct T as [->| ->]; [discriminate|]. injection E as <- <-. apply (HPrep k maps e [] []); [constructor|left; reflexivity].
    + injection E as <- <-. inversion P; subst. apply HPrep; assumption.
  - apply HAlloc; exact R.
  - apply (HPrep k maps e [] []); [constructor|left; reflexivity].
  - apply HDraw. inversion D; assumption.
Qed.
(** The rest of a drawing action is drawing. *)
Lemma shape_draw k maps e x rest : shape k maps e (x :: rest) ->
  match x with XCheck _ _ _ _ | XRelease _ _ _ | XReceive _ _ | XMapDest _ => draw k maps e x /\ Forall (draw k maps e) rest | _ => True end.
Proof.
  intros H. inversion H as [E|l t P T E|ks ms d In R E|ms d R E|l D E]; subst; try exact Logic.I.
  - destruct l as [|y l]; cbn [app] in E.
    + destruct T as [->| ->]; [discriminate|]. injection E as <- <-. exact Logic.I.
    + injection E as <- <-. inversion P as [|? ? P1 P2]; subst. destruct y; try destruct P1; exact Logic.I.
  - inversion D; subst. destruct x; auto.
Qed.
(** The rest of a preparing action, or of a read. *)
Lemma shape_alloc k maps e ms d rest : shape k maps e (XAlloc ms d :: rest) -> rest = [] /\ read_ok k maps (en_src e) ms.
Proof.
  intros H. inversion H as [|l t P T E| | |l D E]; subst.
  - destruct l as [|y l]; cbn [app] in E.
    + destruct T as [->| ->]; discriminate.
    + injection E as -> _. inversion P as [|? ? P1 _]. destruct P1.
  - auto.
  - inversion D as [|? ? D1 _]. destruct D1.
Qed.
Lemma shape_maps k maps e rest : shape k maps e (XMaps :: rest) -> rest = [].
Proof.
  intros H. inversion H as [|l t P T E| | |l D E]; subst.
  - destruct l as [|y l]; cbn [app] in E.
    + destruct T as [->| ->]; [discriminate|]. injection E as E. auto.
    + injection E as -> _. inversion P as [|? ? P1 _]. destruct P1.
  - inversion D as [|? ? D1 _]. destruct D1.
Qed.
Lemma recv_tail rows i x rest : recv_ok rows i (x :: rest) -> (forall p sh amt, x = XRelease p sh amt -> has_row rows WRelease i p amt) -> recv_ok rows i rest.
Proof.
  intros H X pre p amt post ->. destruct (H (x :: pre) p amt post eq_refl) as [[pre' [sh E]]|[E _]]; [|discriminate].
  destruct pre' as [|y pre']; cbn [app] in E.
  - injection E as -> ->. right. split; [reflexivity|]. eapply X; reflexivity.
  - injection E as -> ->. left. exists pre', sh. reflexivity.
Qed.
(** Putting new actions before the rest. *)
Lemma recv_app rows i x new rest : recv_ok rows i new -> recv_ok rows i (x :: rest) -> (forall p sh amt, x <> XRelease p sh amt) -> recv_ok rows i (new ++ rest).
Proof.
  intros H1 H2 X pre p amt post E.
  assert (C : (exists q, new = pre ++ XReceive p amt :: q) \/ exists q, pre = new ++ q /\ rest = q ++ XReceive p amt :: post).
  { clear H1 H2 X. revert new E. induction pre as [|y pre IH]; intros new E.
    - destruct new as [|z new]; cbn in E; [right; exists []; auto|]. injection E as -> E. left. exists new; reflexivity.
    - destruct new as [|z new]; cbn [app] in E; [right; exists (y :: pre); auto|]. injection E as -> E. destruct (IH new E) as [[q ->]|[q [-> ->]]].
      + left. exists q; reflexivity.
      + right. exists q; auto. }
  destruct C as [[q ->]|[q [-> ->]]]; [eapply H1; reflexivity|].
  destruct (H2 (x :: q) p amt post eq_refl) as [[pre' [sh Q]]|[Q _]]; [|discriminate].
  destruct pre' as [|y pre']; cbn [app] in Q.
  - injection Q as Q _. exfalso; eapply X; exact Q.
  - injection Q as _ ->. left. exists (new ++ pre'), sh. rewrite app_assoc. reflexivity.
Qed.
Lemma recv_none rows i t : (forall p amt, ~ In (XReceive p amt) t) -> recv_ok rows i t.
Proof. intros H pre p amt post ->. exfalso. apply (H p amt). apply in_or_app; right; left; reflexivity. Qed.

Lemma upsert_incl k now b p l : incl l (upsert_map k now b p l).
Proof. unfold upsert_map. destruct (has_map l b p); [apply incl_refl|apply incl_appl, incl_refl]. Qed.
Lemma upsert_ok k now b p l : maps_ok k l -> maps_ok k (upsert_map k now b p l).
Proof.
  intros [N H]. unfold upsert_map. destruct (has_map l b p) eqn:E; [split; assumption|]. split.
  - rewrite map_app. cbn [map]. apply (Permutation_NoDup (l := (b, p) :: map (fun m => (mp_bal m, mp_prov m)) l)); [apply Permutation_cons_append|].
    constructor; [|exact N]. intros X. apply in_map_iff in X. destruct X as [m [X1 X2]]. injection X1 as X1 X3.
    assert (Y : has_map l b p = true) by (unfold has_map; apply existsb_exists; exists m; rewrite X1, X3, !String.eqb_refl; auto). congruence.
  - intros m Hm. apply in_app_or in Hm. destruct Hm as [Hm|[<-|[]]]; [apply H; exact Hm|reflexivity].
Qed.
Lemma in_maps_of l b m : In m (maps_of l b) <-> In m l /\ mp_bal m = b.
Proof.
  unfold maps_of. split.
  - intros H. apply (Permutation_in _ (Permutation_sym (sort_perm _ _))) in H. apply filter_In in H. rewrite String.eqb_eq in H. exact H.
  - intros [H1 H2]. apply (Permutation_in _ (sort_perm _ _)). apply filter_In. rewrite String.eqb_eq. auto.
Qed.
Lemma maps_of_read k l b : maps_ok k l -> read_ok k l b (maps_of l b).
Proof.
  intros [N H]. split.
  - unfold maps_of. eapply Permutation_NoDup; [apply Permutation_map, sort_perm|]. clear H. induction l as [|m l IH]; [constructor|].
    inversion N as [|? ? N1 N2]; subst. cbn [filter]. destruct (String.eqb (mp_bal m) b) eqn:E; [|auto]. apply String.eqb_eq in E. cbn [map]. constructor; [|auto].
    intros X. apply in_map_iff in X. destruct X as [x [X1 X2]]. apply filter_In in X2. destruct X2 as [X2 X3]. apply String.eqb_eq in X3.
    apply N1. apply in_map_iff. exists x. split; [congruence|exact X2].
  - intros m Hm. apply in_maps_of in Hm. destruct Hm as [H1 H2]. split; [exact H1|]. split; [exact H2|]. rewrite (H m H1), H2. reflexivity.
Qed.

(** What is allocated comes from the mappings that were read. *)
Lemma in_sources rows ms x : In x (sources rows ms) -> exists m, In m ms /\ so_id x = mp_shadow m /\ so_bal x = available rows (mp_shadow m) /\ 0 < so_bal x /\ so_at x = mp_at m.
Proof.
  unfold sources. intros H. apply in_flat_map in H. destruct H as [m [H1 H2]].
  destruct ((0 <? shadow_in rows (mp_shadow m)) && (0 <? available rows (mp_shadow m))) eqn:E; [|destruct H2].
  destruct H2 as [<-|[]]. apply andb_true_iff in E. destruct E as [_ E]. apply Z.ltb_lt in E. exists m. auto.
Qed.
Lemma read_shadows k maps b ms : read_ok k maps b ms -> NoDup (map mp_shadow ms).
Proof.
  intros [N H]. induction ms as [|m ms IH]; [constructor|]. cbn [map] in *. inversion N as [|? ? N1 N2]; subst. constructor.
  - intros X. apply in_map_iff in X. destruct X as [y [Y1 Y2]]. apply N1. apply in_map_iff. exists y. split; [|exact Y2].
    destruct (H m (or_introl eq_refl)) as [_ [_ E1]]. destruct (H y (or_intror Y2)) as [_ [_ E2]]. eapply (shadow_of_inj k b). congruence.
  - apply IH; [exact N2|]. intros x Hx. apply H; right; exact Hx.
Qed.
Lemma sources_good k maps b rows ms : read_ok k maps b ms -> good_sources (sources rows ms).
Proof.
  intros R. split.
  - pose proof (read_shadows _ _ _ _ R) as N. clear R. unfold sources. induction ms as [|m ms IH]; [constructor|]. cbn [map flat_map] in *. inversion N as [|? ? N1 N2]; subst.
    destruct (_ && _); [|auto]. cbn [app map so_id]. constructor; [|auto]. intros X. apply in_map_iff in X. destruct X as [x [X1 X2]].
    destruct (in_sources rows ms x X2) as [m' [M1 [M2 _]]]. apply N1. rewrite <- X1, M2. apply in_map; exact M1.
  - intros x Hx. destruct (in_sources _ _ _ Hx) as [m [_ [_ [_ [P _]]]]]. exact P.
Qed.
Lemma prov_of_read k maps b ms m : read_ok k maps b ms -> In m ms -> prov_of ms (mp_shadow m) = mp_prov m.
Proof.
  intros R H. pose proof (read_shadows _ _ _ _ R) as N. clear R. unfold prov_of. induction ms as [|x ms IH]; [destruct H|]. cbn [map find] in *. inversion N as [|? ? N1 N2]; subst.
  destruct H as [->|H]; [rewrite String.eqb_refl; reflexivity|]. destruct (String.eqb (mp_shadow x) (mp_shadow m)) eqn:E; [|apply IH; assumption].
  apply String.eqb_eq in E. exfalso; apply N1. rewrite E. apply in_map; exact H.
Qed.
Lemma allocation_from k maps b rows ms amount strat al : read_ok k maps b ms -> In al (calculate_allocation (sources rows ms) amount strat) ->
  0 < al_amt al /\ exists m, In m ms /\ al_id al = mp_shadow m /\ prov_of ms (al_id al) = mp_prov m /\ al_amt al <= available rows (mp_shadow m).
Proof.
  intros R H. destruct (sources_good _ _ _ rows _ R) as [N _]. destruct (allocation_fits _ amount strat N) as [_ F]. destruct (F al H) as [P [x [X1 [X2 X3]]]].
  split; [exact P|]. destruct (in_sources _ _ _ X1) as [m [M1 [M2 [M3 _]]]]. exists m. split; [exact M1|]. rewrite <- X2, M2. split; [reflexivity|].
  split; [eapply prov_of_read; eassumption|lia].
Qed.

Lemma row_of_ok k s a e x rest w es n : inv1 k s -> In a (l_atts s) -> nth_error (l_entries s) (at_entry a) = Some e -> at_todo a = x :: rest ->
  row_of k a e x = Some w -> keeps (l_entries s) es -> (l_next s <= n)%nat -> row_ok k es n w /\ (w_kind w = WReceive -> has_row (l_rows s) WRelease (w_entry w) (w_prov w) (w_amt w)).
Proof.
  intros I Ha E T W K L. destruct (b_shape _ _ I a Ha) as [e0 [E0 S]]. rewrite E in E0. injection E0 as <-. rewrite T in S. apply shape_draw in S.
  destruct (K _ _ E) as [e' [E' [S1 [_ [S3 [S4 _]]]]]]. pose proof (b_lt _ _ I a Ha) as Lt.
  destruct x; cbn [row_of] in W; try discriminate; injection W as <-; (split; [|intros X; try discriminate X]); unfold row_ok; cbn [w_amt w_kind w_att w_entry w_ref w_prov w_shadow].
  - split; [eapply (b_eamt _ _ I); exact E|]. exists e'. rewrite S1, S4. auto.
  - destruct S as [[P [Sh _]] _]. split; [exact P|]. split; [lia|]. exists e'. rewrite S1, S3. auto.
  - destruct S as [P _]. cbn [draw] in P. split; [exact P|]. exists e'. rewrite S1, S4. auto.
  - destruct (b_recv _ _ I a Ha [] p amt rest T) as [[pre' [sh X']]|[_ H]]; [destruct pre'; discriminate|exact H].
Qed.

Lemma inv1_act k s a e x rest o s' : inv1 k s -> In a (l_atts s) -> at_todo a = x :: rest -> nth_error (l_entries s) (at_entry a) = Some e ->
  ract k s a e rest o x s' -> inv1 k s'.
Proof.
  intros I Ha T E R. destruct (b_shape _ _ I a Ha) as [e0 [E0 S]]. rewrite E in E0. injection E0 as <-. rewrite T in S.
  pose proof (b_recv _ _ I a Ha) as V. rewrite T in V.
  assert (Same : rows_next k s (l_entries s) (l_next s) (l_rows s)) by (apply rows_same; [exact I|apply keeps_refl|lia]).
  assert (Vt : (forall p sh amt, x <> XRelease p sh amt) -> recv_ok (l_rows s) (at_entry a) rest).
  { intros X. eapply recv_tail; [exact V|]. intros p sh amt Y. exfalso; eapply X; exact Y. }
  destruct R.
  - apply inv1_fail; [exact I|exact Ha|]. apply rows_same; [exact I|apply keeps_set, mark_failed_same|lia].
  - apply inv1_fail; [exact I|exact Ha|]. destruct (row_of_ok k s a e x rest w (set_entry (at_entry a) mark_failed (l_entries s)) (l_next s) I Ha E T H) as [W1 W2]; [apply keeps_set, mark_failed_same|lia|].
    apply rows_add; [exact I|apply keeps_set, mark_failed_same|lia|exact H0|exact W1|exact W2].
  - destruct (row_of_ok k s a e x rest w (l_entries s) (l_next s) I Ha E T H) as [W1 W2]; [apply keeps_refl|lia|].
    eapply inv1_cont; [exact I|exact Ha|exact E| |apply (b_maps _ _ I)|apply incl_refl|eapply shape_tail; exact S|].
    + apply rows_add; [exact I|apply keeps_refl|lia|exact H0|exact W1|exact W2].
    + eapply recv_tail; [eapply recv_ok_mono; [apply grow_app|exact V]|]. intros p sh amt ->. cbn [row_of] in H. injection H as <-.
      eexists. split; [apply in_or_app; right; left; reflexivity|cbn; auto].
  - eapply inv1_cont; [exact I|exact Ha|exact E|exact Same|apply (b_maps _ _ I)|apply incl_refl| |].
    + apply HPrep; [destruct b; repeat constructor|destruct c; auto].
    + apply recv_none. intros p amt X. apply in_app_or in X. destruct b, c; cbn in X; intuition discriminate.
  - eapply inv1_cont; [exact I|exact Ha|exact E|exact Same|apply (b_maps _ _ I)|apply incl_refl|eapply shape_tail; exact S|apply Vt; discriminate].
  - eapply inv1_cont; [exact I|exact Ha|exact E|exact Same|apply (b_maps _ _ I)|apply incl_refl|eapply shape_tail; exact S|apply Vt; discriminate].
  - eapply inv1_cont; [exact I|exact Ha|exact E|exact Same|apply upsert_ok, (b_maps _ _ I)|apply upsert_incl| |apply Vt; destruct H as [->| ->]; discriminate].
    eapply shape_mono; [apply upsert_incl|apply same_entry_refl|eapply shape_tail; exact S].
  - eapply inv1_cont; [exact I|exact Ha|exact E|exact Same|apply (b_maps _ _ I)|apply incl_refl|eapply shape_tail; exact S|apply Vt; intros; destruct x; try destruct H; discriminate].
  - apply shape_maps in S. subst rest.
    eapply inv1_cont; [exact I|exact Ha|exact E|exact Same|apply (b_maps _ _ I)|apply incl_refl| |].
    + apply HLock; [exact H|apply maps_of_read, (b_maps _ _ I)].
    + apply recv_none. intros p amt [X|[X|[]]]; discriminate.
  - apply shape_alloc in S. destruct S as [-> S].
    eapply inv1_cont; [exact I|exact Ha|exact E|exact Same|apply (b_maps _ _ I)|apply incl_refl| |].
    + apply HDraw. rewrite app_nil_r. apply Forall_forall. intros y Hy. apply in_map_iff in Hy. destruct Hy as [al [<- Hal]].
      destruct (allocation_from _ _ _ _ _ _ _ _ S Hal) as [P [m [M1 [M2 [M3 _]]]]]. destruct S as [_ S]. destruct (S m M1) as [S1 [S2 S3]].
      cbn [draw]. split; [exact P|]. rewrite M3. split; [congruence|]. exists m; auto.
    + apply recv_none. intros p amt X. rewrite app_nil_r in X. apply in_map_iff in X. destruct X as [al [X _]]. discriminate.
  - pose proof (shape_draw _ _ _ _ _ S) as [D1 D2]. cbn [draw] in D1.
    eapply inv1_cont; [exact I|exact Ha|exact E|exact Same|apply (b_maps _ _ I)|apply incl_refl| |].
    + apply HDraw. constructor; [exact D1|]. apply Forall_app. split; [|exact D2]. destruct dest; repeat constructor. exact (proj1 D1).
    + change (XRelease p sh amt :: (if dest then [XReceive p amt; XMapDest p] else []) ++ rest) with ((XRelease p sh amt :: (if dest then [XReceive p amt; XMapDest p] else [])) ++ rest).
      eapply recv_app; [|exact V|discriminate]. destruct dest.
      * intros pre q am post X. destruct pre as [|y pre]; [discriminate|]. injection X as <- X. destruct pre as [|z pre].
        -- injection X as <- <- _. left. exists [], sh. reflexivity.
        -- injection X as <- X. destruct pre as [|z2 pre]; [discriminate|]. injection X as _ X. destruct pre; discriminate.
      * apply recv_none. intros q am [X|[]]. discriminate.
Qed.

Theorem inv1_step k s ev s' : inv1 k s -> lstep k s ev = Some s' -> inv1 k s'.
Proof.
  intros I H. apply lstep_cases in H. destruct H.
  - apply (inv1_next k s); cbn [l_entries l_rows l_maps l_atts l_next]; auto; [apply keeps_refl|apply (b_eamt _ _ I)|apply rows_same; [exact I|apply keeps_refl|lia]|apply (b_maps _ _ I)|apply incl_refl|apply (b_ids _ _ I)].
  - assert (K : keeps (l_entries s) (l_entries s ++ [e])).
    { intros i x Hx. exists x. split; [rewrite nth_error_app1; [exact Hx|apply nth_error_Some; congruence]|apply same_entry_refl]. }
    apply (inv1_next k s); cbn [l_entries l_rows l_maps l_atts l_next]; auto; [|apply rows_same; [exact I|exact K|lia]|apply (b_maps _ _ I)|apply incl_refl|apply (b_ids _ _ I)].
    intros i x Hx. destruct (Nat.lt_ge_cases i (List.length (l_entries s))) as [L|L].
    + rewrite nth_error_app1 in Hx by lia. eapply (b_eamt _ _ I); exact Hx.
    + rewrite nth_error_app2 in Hx by lia. destruct (i - List.length (l_entries s))%nat as [|j]; [injection Hx as <-; assumption|destruct j; discriminate].
  - assert (K : keeps (l_entries s) (set_entry i (with_status EProcessing (Some (l_now s + k_lock k)) (en_attempts e)) (l_entries s))) by (apply keeps_set; intros; apply with_status_same).
    apply (inv1_next k s); cbn [l_entries l_rows l_maps l_atts l_next]; auto.
    + apply eamt_set; [intros; apply with_status_same|apply (b_eamt _ _ I)].
    + apply rows_same; [exact I|exact K|lia].
    + apply (b_maps _ _ I).
    + apply incl_refl.
    + cbn [map at_id]. constructor; [|apply (b_ids _ _ I)]. intros X. apply in_map_iff in X. destruct X as [b [X1 X2]]. pose proof (b_lt _ _ I b X2). lia.
    + intros b [<-|Hb]; [right|left; exact Hb]. cbn [at_id at_entry at_todo]. split; [lia|]. split.
      * destruct (K _ _ H) as [e' [E' _]]. exists e'. split; [exact E'|apply HBegin].
      * apply recv_none. intros p amt [X|[]]. discriminate.
  - destruct (find_att_in _ _ _ H) as [Ha _]. eapply inv1_act; eassumption.
  - apply (inv1_next k s); cbn [l_entries l_rows l_maps l_atts l_next]; auto.
    + apply keeps_set, mark_completed_same.
    + apply eamt_set; [apply mark_completed_same|apply (b_eamt _ _ I)].
    + apply rows_same; [exact I|apply keeps_set, mark_completed_same|lia].
    + apply (b_maps _ _ I).
    + apply incl_refl.
    + apply drop_ids, (b_ids _ _ I).
    + intros b Hb. left. apply in_drop in Hb. apply Hb.
  - apply (inv1_next k s); cbn [l_entries l_rows l_maps l_atts l_next]; auto; [apply keeps_refl|apply (b_eamt _ _ I)|apply rows_same; [exact I|apply keeps_refl|lia]|apply (b_maps _ _ I)|apply incl_refl|apply drop_ids, (b_ids _ _ I)|].
    intros b Hb. left. apply in_drop in Hb. apply Hb.
  - apply (inv1_next k s); cbn [l_entries l_rows l_maps l_atts l_next]; auto; [apply keeps_refl|apply (b_eamt _ _ I)|apply rows_same; [exact I|apply keeps_refl|lia]|apply (b_maps _ _ I)|apply incl_refl|apply (b_ids _ _ I)].
  - assert (G : grow (l_rows s) (map (settle_row ref) (l_rows s))).
    { intros kd i p amt [w [W1 [W2 [W3 [W4 W5]]]]]. exists (settle_row ref w). destruct (settle_fields ref w) as [F1 [F2 [F3 [F4 [F5 [F6 F7]]]]]].
      split; [apply in_map; exact W1|]. rewrite F2, F3, F5, F6. auto. }
    apply (inv1_next k s); cbn [with_rows l_entries l_rows l_maps l_atts l_next]; auto; [apply keeps_refl|apply (b_eamt _ _ I)| |apply (b_maps _ _ I)|apply incl_refl|apply (b_ids _ _ I)].
    split; [|split; [|split; [exact G|]]].
    + rewrite map_map. rewrite (map_ext _ w_ref (fun w => proj1 (settle_fields ref w))). apply (b_refs _ _ I).
    + intros w Hw. apply in_map_iff in Hw. destruct Hw as [w0 [<- Hw]]. pose proof (b_rows _ _ I w0 Hw) as R. unfold row_ok in *.
      destruct (settle_fields ref w0) as [F1 [F2 [F3 [F4 [F5 [F6 F7]]]]]]. rewrite F1, F2, F3, F4, F5, F6, F7. exact R.
    + intros w Hw Kw. apply in_map_iff in Hw. destruct Hw as [w0 [<- Hw]].
      destruct (settle_fields ref w0) as [F1 [F2 [F3 [F4 [F5 [F6 F7]]]]]]. rewrite F3, F5, F6. apply G. apply (b_got _ _ I); [exact Hw|congruence].
  - apply (inv1_next k s); cbn [with_rows l_entries l_rows l_maps l_atts l_next]; auto; [apply keeps_refl|apply (b_eamt _ _ I)| |apply (b_maps _ _ I)|apply incl_refl|apply (b_ids _ _ I)].
    apply rows_add; [exact I|apply keeps_refl|lia|assumption| |discriminate]. split; [cbn; assumption|exact Logic.I].
Qed.
Lemma inv1_init k : inv1 k linit.
Proof.
  constructor; try (intros x []); try (apply NoDup_nil).
  - split; [apply NoDup_nil|intros x []].
  - intros H; destruct x; discriminate.
Qed.

Lemma along_ind k (C : lst -> levent -> Prop) (P : lst -> Prop) : P linit -> (forall s ev s', P s -> C s ev -> lstep k s ev = Some s' -> P s') -> forall s, lreach_with k C s -> P s.
Proof.
  intros P0 St s [es [A R]]. assert (G : forall es s0, P s0 -> along k C s0 es -> lruns k s0 es = Some s -> P s).
  { clear es A R. induction es as [|e es IH]; intros s0 H0 A R; cbn in *; [injection R as <-; exact H0|].
    destruct A as [A1 A2]. destruct (lstep k s0 e) as [s1|] eqn:E; [|discriminate]. eapply IH; [|exact A2|exact R]. eapply St; eassumption. }
  eapply G; eassumption.
Qed.
Lemma lreach_any k s : lreach k s <-> lreach_with k (fun _ _ => True) s.
Proof.
  split; [|intros [es [_ H]]; exists es; exact H]. intros [es H]. exists es. split; [|exact H].
  revert H. generalize linit. induction es as [|e es IH]; intros s0 H; cbn in *; [exact Logic.I|]. split; [exact Logic.I|].
  destruct (lstep k s0 e); [apply IH; exact H|discriminate].
Qed.
Theorem inv1_reach k C s : lreach_with k C s -> inv1 k s.
Proof. apply along_ind; [apply inv1_init|]. intros s0 ev s' H _ St. eapply inv1_step; eassumption. Qed.
