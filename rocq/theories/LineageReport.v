(** What GET /balances/:id/lineage reports. *)
From Coq Require Import ZArith List String Bool Lia Arith.
From Verif Require Import Base ChainModel LineageModel LineageSpec AllocProof LineageProof LineageBudget LineageLocks LineageDone.
Import ListNotations.
Local Open Scope string_scope.
Open Scope Z_scope.

(** ** The report *)

(** ProviderBreakdown and BalanceLineage, lineage.go:62-85. *)
Record line := { li_prov : string; li_amount : Z; li_spent : Z; li_available : Z }.
(** calculateProviderBreakdown, lineage_queries.go:86-111. *)
Definition breakdown (rows : list wrow) (m : mapping) : line :=
  {| li_prov := mp_prov m; li_amount := shadow_in rows (mp_shadow m); li_spent := shadow_out rows (mp_shadow m);
     li_available := shadow_in rows (mp_shadow m) - shadow_out rows (mp_shadow m) |}.
(** populateLineageProviders, 60-74: what cannot be read ([seen]) is passed over. *)
Fixpoint populate (seen : string -> bool) (rows : list wrow) (ms : list mapping) (lines : list line) (total : Z) : list line * Z :=
  match ms with
  | [] => (lines, total)
  | m :: r => if seen (mp_shadow m) then populate seen rows r (lines ++ [breakdown rows m])%list (total + li_available (breakdown rows m))
              else populate seen rows r lines total
  end.
(** GetBalanceLineage, 27-53; all that is read, is read at once. *)
Definition report (k : lcfg) (seen : string -> bool) (s : lst) (b : string) : option (list line * Z) :=
  if k_track k b then Some (populate seen (l_rows s) (maps_of (l_maps s) b) [] 0) else None.

(** ** What it should say *)

Definition settled_row (w : wrow) : bool := negb (w_inflight w).
Definition pays (w : wrow) : bool := match w_kind w with WCredit | WReceive => true | _ => false end.
Definition draws (w : wrow) : bool := match w_kind w with WRelease => true | _ => false end.
Definition to_bal (s : lst) (b : string) (w : wrow) : bool := match nth_error (l_entries s) (w_entry w) with Some e => String.eqb (en_dst e) b | None => false end.
Definition from_bal (s : lst) (b : string) (w : wrow) : bool := match nth_error (l_entries s) (w_entry w) with Some e => String.eqb (en_src e) b | None => false end.
(** What has been paid into [b] of [p]'s money, and what has been drawn of it, by settled rows
    recorded for transactions to and from [b]. *)
Definition paid_in (s : lst) (b p : string) : Z :=
  sumz (fun w => if pays w && settled_row w && to_bal s b w && String.eqb (w_prov w) p then w_amt w else 0) (l_rows s).
Definition drawn (s : lst) (b p : string) : Z :=
  sumz (fun w => if draws w && settled_row w && from_bal s b w && String.eqb (w_prov w) p then w_amt w else 0) (l_rows s).
(** The same for all providers together. *)
Definition all_paid_in (s : lst) (b : string) : Z := sumz (fun w => if pays w && settled_row w && to_bal s b w then w_amt w else 0) (l_rows s).
Definition all_drawn (s : lst) (b : string) : Z := sumz (fun w => if draws w && settled_row w && from_bal s b w then w_amt w else 0) (l_rows s).
(** The transactions from [b], altogether. *)
Definition debits (s : lst) (b : string) : Z := sumz (fun e => if String.eqb (en_src e) b then en_amt e else 0) (l_entries s).

(** No other balance of any transaction shares a shadow balance with [b]: each has its own
    identity, and the names put together from provider and identity differ. *)
Definition own (k : lcfg) (s : lst) (b : string) : Prop :=
  forall e b' p p', In e (l_entries s) -> b' = en_src e \/ b' = en_dst e -> shadow_of k b' p' = shadow_of k b p -> b' = b.

(** The attempts do not fail just after a payment, before the provider has been noted. *)
Definition noting (x : act) : bool := match x with XCreditMap _ | XMapDest _ => true | _ => false end.
Definition paying (x : act) : bool := match x with XCredit _ | XReceive _ _ => true | _ => false end.
Definition noted (s : lst) (ev : levent) : Prop :=
  match ev with
  | LStep id o => forall a x rest, find_att (l_atts s) id = Some a -> at_todo a = x :: rest ->
      (noting x = true -> o <> OFail) /\ (paying x = true -> o <> OLost)
  | LCrash id => forall a x rest, find_att (l_atts s) id = Some a -> at_todo a = x :: rest -> noting x = false
  | _ => True
  end.

(** ** Proofs *)

Lemma sumz_ext {A} (f g : A -> Z) l : (forall x, In x l -> f x = g x) -> sumz f l = sumz g l.
Proof. induction l as [|x l IH]; intros H; [reflexivity|]. cbn. rewrite (H x) by (left; reflexivity). rewrite IH; [reflexivity|]. intros y Y. apply H. right. exact Y. Qed.
Lemma populate_lines seen rows : forall ms lines total,
  populate seen rows ms lines total =
  ((lines ++ map (breakdown rows) (filter (fun m => seen (mp_shadow m)) ms))%list, total + sumz (fun m => li_available (breakdown rows m)) (filter (fun m => seen (mp_shadow m)) ms)).
Proof.
  induction ms as [|m ms IH]; intros lines total; cbn [populate filter].
  - cbn. rewrite app_nil_r, Z.add_0_r. reflexivity.
  - destruct (seen (mp_shadow m)); rewrite IH; [|reflexivity]. cbn [map sumz]. rewrite <- app_assoc. f_equal. cbn. lia.
Qed.

Lemma line_exact k C seen s b ls t x : lreach_with k C s -> own k s b -> report k seen s b = Some (ls, t) -> In x ls ->
  li_amount x = paid_in s b (li_prov x) /\ li_spent x = drawn s b (li_prov x) /\ li_available x = li_amount x - li_spent x.
Proof.
  intros R O E I. pose proof (inv1_reach k C s R) as V. unfold report in E. destruct (k_track k b); [|discriminate E]. rewrite populate_lines in E. injection E as <- _.
  cbn [app] in I. apply in_map_iff in I as (m & <- & I). apply filter_In in I as [I _]. apply in_maps_of in I as [Im Eb].
  destruct (b_maps k s V) as [_ Sh]. pose proof (Sh m Im) as S. rewrite Eb in S. cbn [breakdown li_amount li_spent li_available li_prov]. split; [|split; [|reflexivity]].
  - unfold shadow_in, paid_in. apply sumz_ext. intros w W. pose proof (b_rows k s V w W) as [_ Rw]. unfold pays, settled_row, to_bal. rewrite S. destruct (w_kind w); cbn [andb].
    + destruct Rw as (e & N & _ & Ws). rewrite N, Ws. destruct (w_inflight w); cbn [negb andb]; [rewrite andb_false_r; reflexivity|]. rewrite andb_true_r.
      destruct (String.eqb_spec (shadow_of k (en_dst e) (w_prov w)) (shadow_of k b (mp_prov m))) as [Q|Q].
      * pose proof (O e (en_dst e) _ _ (nth_error_In _ _ N) (or_intror eq_refl) Q) as Q'. rewrite Q', String.eqb_refl. rewrite Q' in Q. apply shadow_of_inj in Q. rewrite Q, String.eqb_refl. reflexivity.
      * destruct (String.eqb_spec (en_dst e) b) as [Q1|Q1]; [|reflexivity]. destruct (String.eqb_spec (w_prov w) (mp_prov m)) as [Q2|Q2]; [|reflexivity]. exfalso. apply Q. congruence.
    + destruct Rw as (e & N & _ & Ws). rewrite N, Ws. destruct (w_inflight w); cbn [negb andb]; [rewrite andb_false_r; reflexivity|]. rewrite andb_true_r.
      destruct (String.eqb_spec (shadow_of k (en_dst e) (w_prov w)) (shadow_of k b (mp_prov m))) as [Q|Q].
      * pose proof (O e (en_dst e) _ _ (nth_error_In _ _ N) (or_intror eq_refl) Q) as Q'. rewrite Q', String.eqb_refl. rewrite Q' in Q. apply shadow_of_inj in Q. rewrite Q, String.eqb_refl. reflexivity.
      * destruct (String.eqb_spec (en_dst e) b) as [Q1|Q1]; [|reflexivity]. destruct (String.eqb_spec (w_prov w) (mp_prov m)) as [Q2|Q2]; [|reflexivity]. exfalso. apply Q. congruence.
    + reflexivity.
    + reflexivity.
  - unfold shadow_out, drawn. apply sumz_ext. intros w W. pose proof (b_rows k s V w W) as [_ Rw]. unfold draws, settled_row, from_bal. rewrite S. destruct (w_kind w); cbn [andb]; try reflexivity.
    destruct Rw as (_ & e & N & _ & Ws). rewrite N, Ws. destruct (w_inflight w); cbn [negb andb]; [rewrite andb_false_r; reflexivity|]. rewrite andb_true_r.
    destruct (String.eqb_spec (shadow_of k (en_src e) (w_prov w)) (shadow_of k b (mp_prov m))) as [Q|Q].
    * pose proof (O e (en_src e) _ _ (nth_error_In _ _ N) (or_introl eq_refl) Q) as Q'. rewrite Q', String.eqb_refl. rewrite Q' in Q. apply shadow_of_inj in Q. rewrite Q, String.eqb_refl. reflexivity.
    * destruct (String.eqb_spec (en_src e) b) as [Q1|Q1]; [|reflexivity]. destruct (String.eqb_spec (w_prov w) (mp_prov m)) as [Q2|Q2]; [|reflexivity]. exfalso. apply Q. congruence.
Qed.
Lemma lines_once k C seen s b ls t : lreach_with k C s -> report k seen s b = Some (ls, t) -> NoDup (map li_prov ls) /\ t = sumz li_available ls.
Proof.
  intros R E. pose proof (inv1_reach k C s R) as V. unfold report in E. destruct (k_track k b); [|discriminate E]. rewrite populate_lines in E. injection E as <- <-. cbn [app]. split.
  - rewrite map_map. change (fun x => li_prov (breakdown (l_rows s) x)) with mp_prov.
    destruct (maps_of_read k (l_maps s) b (b_maps k s V)) as [N _]. revert N. generalize (maps_of (l_maps s) b). induction l as [|m l IH]; intros N; [constructor|].
    cbn in N. inversion N as [|x y Nx Ny]; subst. cbn. destruct (seen (mp_shadow m)); [|apply IH, Ny]. cbn. constructor; [|apply IH, Ny].
    intros X. apply Nx. apply in_map_iff in X as (m' & <- & X). apply filter_In in X as [X _]. apply in_map, X.
  - rewrite sumz_map. reflexivity.
Qed.
Lemma line_sound k seen s b ls t x : lreach_with k (fun _ => settled) s -> report k seen s b = Some (ls, t) -> In x ls -> 0 <= li_available x.
Proof.
  intros R E I. unfold report in E. destruct (k_track k b); [|discriminate E]. rewrite populate_lines in E. injection E as <- _. cbn [app] in I. apply in_map_iff in I as (m & <- & _).
  cbn. change (0 <= available (l_rows s) (mp_shadow m)). destruct (inv3_reach k s R). auto.
Qed.

(** Sums by provider. *)
Lemma sumz_zero {A} (f : A -> Z) l : (forall x, In x l -> f x = 0) -> sumz f l = 0.
Proof. induction l as [|x l IH]; intros H; [reflexivity|]. cbn. rewrite (H x) by (left; reflexivity). rewrite IH; [reflexivity|]. intros y Y. apply H. right. exact Y. Qed.
Lemma sumz_plus {A} (f g : A -> Z) l : sumz (fun x => f x + g x) l = sumz f l + sumz g l.
Proof. induction l as [|x l IH]; [reflexivity|]. cbn. rewrite IH. lia. Qed.
Lemma sumz_le {A} (f g : A -> Z) l : (forall x, In x l -> f x <= g x) -> sumz f l <= sumz g l.
Proof. induction l as [|x l IH]; intros H; [cbn; lia|]. cbn. pose proof (H x (or_introl eq_refl)). assert (sumz f l <= sumz g l) by (apply IH; intros y Y; apply H; right; exact Y). lia. Qed.
Lemma one_provider (ps : list string) (q : string) (v : Z) : NoDup ps -> sumz (fun p => if String.eqb q p then v else 0) ps = if existsb (String.eqb q) ps then v else 0.
Proof.
  induction ps as [|p ps IH]; intros N; [reflexivity|]. inversion N as [|x l Np Nl]; subst. cbn. rewrite IH by exact Nl. destruct (String.eqb_spec q p) as [->|X]; cbn; [|lia].
  destruct (existsb (String.eqb p) ps) eqn:E; [|lia]. apply existsb_exists in E as (y & Y & E). apply String.eqb_eq in E. subst y. contradiction.
Qed.
Lemma by_provider {A} (f : A -> Z) (pr : A -> string) ps rows : NoDup ps ->
  sumz (fun p => sumz (fun w => if String.eqb (pr w) p then f w else 0) rows) ps = sumz (fun w => if existsb (String.eqb (pr w)) ps then f w else 0) rows.
Proof.
  intros N. induction rows as [|w rows IH]; cbn.
  - apply sumz_zero. reflexivity.
  - rewrite <- IH, <- (one_provider ps (pr w) (f w) N), <- sumz_plus. apply sumz_ext. reflexivity.
Qed.
Lemma if_and (a b : bool) (v : Z) : (if a && b then v else 0) = if b then (if a then v else 0) else 0.
Proof. destruct a, b; reflexivity. Qed.

(** What is drawn for a transaction is at most its amount, so all that is spent is at most all
    that was debited. *)
Lemma sum_indices {A} (l : list A) (g : nat -> A -> Z) (h : A -> Z) : (forall i x, nth_error l i = Some x -> g i x <= h x) ->
  sumz (fun i => match nth_error l i with Some x => g i x | None => 0 end) (seq 0 (List.length l)) <= sumz h l.
Proof.
  revert g. induction l as [|x l IH]; intros g H; [cbn; lia|]. cbn [List.length seq sumz nth_error]. pose proof (H O x eq_refl).
  rewrite <- seq_shift, sumz_map. cbn [nth_error].
  assert (sumz (fun i => match nth_error l i with Some y => g (S i) y | None => 0 end) (seq 0 (List.length l)) <= sumz h l) by (apply IH; intros i y Y; apply (H (S i) y Y)). lia.
Qed.
Lemma by_entry (n : nat) (f : wrow -> Z) rows : (forall w, In w rows -> f w <> 0 -> (w_entry w < n)%nat) ->
  sumz f rows = sumz (fun i => sumz (fun w => if Nat.eqb (w_entry w) i then f w else 0) rows) (seq 0 n).
Proof.
  induction rows as [|w rows IH]; intros H.
  - cbn. symmetry. apply sumz_zero. reflexivity.
  - cbn [sumz]. rewrite IH by (intros x X; apply H; right; exact X). rewrite sumz_plus. f_equal.
    assert (G : forall m i, sumz (fun j => if Nat.eqb (w_entry w) j then f w else 0) (seq i m) = if (Nat.leb i (w_entry w)) && (Nat.ltb (w_entry w) (i + m)) then f w else 0).
    { induction m as [|m IHm]; intros i; cbn [seq sumz].
      - destruct (Nat.leb_spec i (w_entry w)); cbn [andb]; [|reflexivity]. destruct (Nat.ltb_spec (w_entry w) (i + 0)); [lia|reflexivity].
      - rewrite IHm. destruct (Nat.eqb_spec (w_entry w) i), (Nat.leb_spec i (w_entry w)), (Nat.leb_spec (S i) (w_entry w)), (Nat.ltb_spec (w_entry w) (S i + m)), (Nat.ltb_spec (w_entry w) (i + S m)); cbn [andb]; lia. }
    rewrite G. cbn [Nat.leb andb]. rewrite Nat.add_0_l. destruct (Nat.ltb_spec (w_entry w) n) as [L|L]; [reflexivity|].
    destruct (Z.eq_dec (f w) 0) as [->|X]; [reflexivity|]. apply H in X; [lia|left; reflexivity].
Qed.
Theorem drawn_bounded k s b : lreach_with k in_time s -> all_drawn s b <= debits s b.
Proof.
  intros R. pose proof (inv1_reach k _ s R) as V. unfold all_drawn.
  rewrite (by_entry (List.length (l_entries s))).
  2:{ intros w W X. destruct (draws w && settled_row w && from_bal s b w) eqn:E; [|contradiction]. apply andb_prop in E as [_ E]. unfold from_bal in E.
      destruct (nth_error (l_entries s) (w_entry w)) eqn:N; [|discriminate E]. apply nth_error_Some. congruence. }
  unfold debits. refine (Z.le_trans _ _ _ _ (sum_indices (l_entries s) (fun i e => if String.eqb (en_src e) b then released s i else 0) _ _)).
  - apply sumz_le. intros i I. apply in_seq in I as [_ I]. cbn in I. destruct (nth_error (l_entries s) i) as [e|] eqn:N; [|apply nth_error_None in N; lia].
    unfold released, releases. destruct (String.eqb_spec (en_src e) b) as [Eb|Eb].
    + clear I. pose proof (b_rows k s V) as Rw. revert Rw. generalize (l_rows s). induction l as [|w l IH]; intros Rw; [cbn; lia|]. cbn [sumz filter].
      assert (Pw : 0 < w_amt w) by (apply Rw; left; reflexivity). specialize (IH (fun x X => Rw x (or_intror X))).
      assert (Q : is_release i w = draws w && Nat.eqb (w_entry w) i) by (unfold is_release, draws; destruct (w_kind w); reflexivity). rewrite Q.
      destruct (draws w), (Nat.eqb (w_entry w) i); cbn [andb sumz]; try lia. destruct (settled_row w && from_bal s b w); lia.
    + assert (Z0 : sumz (fun w => if Nat.eqb (w_entry w) i then if draws w && settled_row w && from_bal s b w then w_amt w else 0 else 0) (l_rows s) = 0); [|lia].
      apply sumz_zero. intros w W. destruct (Nat.eqb_spec (w_entry w) i) as [E|]; [|reflexivity]. unfold from_bal. rewrite E, N. destruct (String.eqb_spec (en_src e) b); [contradiction|]. rewrite andb_false_r. reflexivity.
  - intros i e N. destruct (String.eqb (en_src e) b); [|lia]. eapply released_bounded; eauto.
Qed.
Theorem spent_bounded k seen s b ls t : lreach_with k in_time s -> own k s b -> report k seen s b = Some (ls, t) -> sumz li_spent ls <= debits s b.
Proof.
  intros R O E. destruct (lines_once k _ seen s b ls t R E) as [N _]. apply Z.le_trans with (all_drawn s b); [|eapply drawn_bounded; eauto].
  rewrite (sumz_ext li_spent (fun x => drawn s b (li_prov x))) by (intros x X; eapply line_exact; eauto). rewrite <- (sumz_map li_prov (drawn s b)).
  unfold drawn. assert (F : forall p, sumz (fun w => if draws w && settled_row w && from_bal s b w && String.eqb (w_prov w) p then w_amt w else 0) (l_rows s)
    = sumz (fun w => if String.eqb (w_prov w) p then (if draws w && settled_row w && from_bal s b w then w_amt w else 0) else 0) (l_rows s)) by (intros p; apply sumz_ext; intros w _; apply if_and).
  rewrite (sumz_ext _ _ (map li_prov ls) (fun p _ => F p)), (by_provider _ w_prov) by exact N. apply sumz_le. intros w W.
  pose proof (b_rows k s (inv1_reach k _ s R) w W) as [P _]. destruct (existsb (String.eqb (w_prov w)) (map li_prov ls)); [lia|]. destruct (draws w && settled_row w && from_bal s b w); lia.
Qed.

(** ** Nothing is left out *)

Fixpoint paired (t : list act) : Prop :=
  match t with
  | [] => True
  | XCredit p :: r => (exists r', r = XCreditMap p :: r') /\ paired r
  | XReceive p _ :: r => (exists r', r = XMapDest p :: r') /\ paired r
  | _ :: r => paired r
  end.
Lemma paired_tail x t : paired (x :: t) -> paired t.
Proof. destruct x; cbn; tauto. Qed.
Lemma paired_app a b : paired a -> paired b -> paired (a ++ b).
Proof.
  intros A B. induction a as [|x a IH]; [exact B|]. pose proof (paired_tail _ _ A) as T. specialize (IH T). destruct x; cbn in *; auto.
  - destruct A as [(r' & ->) _]. split; [eexists; reflexivity|exact IH].
  - destruct A as [(r' & ->) _]. split; [eexists; reflexivity|exact IH].
Qed.
Lemma paired_checks (f : alloc -> act) l : (forall al, exists p sh amt d, f al = XCheck p sh amt d) -> paired (map f l).
Proof. intros H. induction l as [|al l IH]; [exact Logic.I|]. cbn. destruct (H al) as (p & sh & amt & d & ->). exact IH. Qed.

(** The provider of each payment is noted, or about to be. *)
Definition note_of (x : act) : option string := match x with XCreditMap p | XMapDest p => Some p | _ => None end.
Definition at_note (s : lst) (i : nat) (p : string) : Prop :=
  exists a x rest, In a (l_atts s) /\ at_entry a = i /\ at_todo a = x :: rest /\ note_of x = Some p.
Record inv6 (k : lcfg) (s : lst) : Prop := {
  f_pair : forall a, In a (l_atts s) -> paired (at_todo a);
  f_paid : forall w e, In w (l_rows s) -> pays w = true -> nth_error (l_entries s) (w_entry w) = Some e ->
           has_map (l_maps s) (en_dst e) (w_prov w) = true \/ at_note s (w_entry w) (w_prov w);
  f_drawn : forall w e, In w (l_rows s) -> draws w = true -> nth_error (l_entries s) (w_entry w) = Some e -> has_map (l_maps s) (en_src e) (w_prov w) = true
}.
Lemma has_map_incl l l' b p : incl l l' -> has_map l b p = true -> has_map l' b p = true.
Proof. intros I H. apply existsb_exists in H as (m & M & H). apply existsb_exists. exists m. split; [apply I, M|exact H]. Qed.
Lemma has_map_upsert k now b p l : has_map (upsert_map k now b p l) b p = true.
Proof.
  unfold upsert_map. destruct (has_map l b p) eqn:E; [exact E|]. unfold has_map. rewrite existsb_app. cbn. rewrite !String.eqb_refl. cbn. apply orb_true_r.
Qed.
Lemma has_map_in l m b : In m l -> mp_bal m = b -> has_map l b (mp_prov m) = true.
Proof. intros I E. apply existsb_exists. exists m. split; [exact I|]. rewrite E, !String.eqb_refl. reflexivity. Qed.

(** A step: the entries keep their facts, mappings stay, each new row is noted or about to be,
    and attempts that were about to note something have done so or still are. *)
Lemma inv6_next k s s' : inv6 k s -> (forall i e', nth_error (l_entries s') i = Some e' -> (i < List.length (l_entries s))%nat -> exists e, nth_error (l_entries s) i = Some e /\ same_entry e e') ->
  incl (l_maps s) (l_maps s') -> (forall a, In a (l_atts s') -> paired (at_todo a)) ->
  (forall w', In w' (l_rows s') -> (exists w, In w (l_rows s) /\ w_kind w = w_kind w' /\ w_prov w = w_prov w' /\ w_entry w = w_entry w' /\ (w_entry w < List.length (l_entries s))%nat) \/ w_kind w' = WOther \/
     forall e, nth_error (l_entries s') (w_entry w') = Some e ->
       (pays w' = true -> has_map (l_maps s') (en_dst e) (w_prov w') = true \/ at_note s' (w_entry w') (w_prov w')) /\
       (draws w' = true -> has_map (l_maps s') (en_src e) (w_prov w') = true)) ->
  (forall i p e, at_note s i p -> nth_error (l_entries s') i = Some e -> has_map (l_maps s') (en_dst e) p = true \/ at_note s' i p) ->
  inv6 k s'.
Proof.
  intros [Fp Fa Fd] En Mp Pr Rw Nt. split; [exact Pr| |].
  - intros w' e' W P N. destruct (Rw w' W) as [(w & Iw & K1 & K2 & K3 & L)|[K|H]].
    + rewrite <- K3 in N |- *. rewrite <- K2. destruct (En _ _ N L) as (e & N0 & S). assert (P0 : pays w = true) by (unfold pays in *; rewrite K1; exact P).
      destruct (Fa w e Iw P0 N0) as [H|H]; [left|eapply Nt; eauto]. destruct S as (_ & _ & _ & S4 & _). rewrite S4. eapply has_map_incl; eauto.
    + unfold pays in P. rewrite K in P. discriminate P.
    + apply (H e' N). exact P.
  - intros w' e' W P N. destruct (Rw w' W) as [(w & Iw & K1 & K2 & K3 & L)|[K|H]].
    + rewrite <- K3 in N. rewrite <- K2. destruct (En _ _ N L) as (e & N0 & S). assert (P0 : draws w = true) by (unfold draws in *; rewrite K1; exact P).
      destruct S as (_ & _ & S3 & _). rewrite S3. eapply has_map_incl; eauto.
    + unfold draws in P. rewrite K in P. discriminate P.
    + apply (H e' N). exact P.
Qed.
Lemma set_todo_other id t l b : In b l -> at_id b <> id -> In b (set_todo id t l).
Proof.
  intros I N. unfold set_todo. apply in_map_iff. exists b. split; [|exact I]. destruct (Nat.eqb_spec (at_id b) id); [contradiction|reflexivity].
Qed.
Lemma entries_back i f l : (forall e, same_entry e (f e)) -> forall j e', nth_error (set_entry i f l) j = Some e' -> (j < List.length l)%nat -> exists e, nth_error l j = Some e /\ same_entry e e'.
Proof. intros H j e' N _. eapply keeps_set_back; eauto. Qed.
Lemma entries_same (l : list entry) : forall j e', nth_error l j = Some e' -> (j < List.length l)%nat -> exists e, nth_error l j = Some e /\ same_entry e e'.
Proof. intros j e' N _. exists e'. split; [exact N|apply same_entry_refl]. Qed.
Lemma row_entry k s w : inv1 k s -> In w (l_rows s) -> w_kind w = WOther \/ (w_entry w < List.length (l_entries s))%nat.
Proof.
  intros V W. destruct (b_rows k s V w W) as [_ R]. destruct (w_kind w); [right|right|right|left; reflexivity].
  - destruct R as (e & N & _). apply nth_error_Some. congruence.
  - destruct R as (e & N & _). apply nth_error_Some. congruence.
  - destruct R as (_ & e & N & _). apply nth_error_Some. congruence.
Qed.
Lemma rows_kept k s w' (P : Prop) : inv1 k s -> In w' (l_rows s) ->
  (exists w, In w (l_rows s) /\ w_kind w = w_kind w' /\ w_prov w = w_prov w' /\ w_entry w = w_entry w' /\ (w_entry w < List.length (l_entries s))%nat) \/ w_kind w' = WOther \/ P.
Proof. intros V W. destruct (row_entry k s w' V W) as [O|L]; [right; left; exact O|]. left. exists w'. auto. Qed.

(** An attempt ends, with at most one more row, none that is to be noted. *)
Lemma inv6_end k s a es rows locks next now : inv1 k s -> inv6 k s -> In a (l_atts s) ->
  (forall j e', nth_error es j = Some e' -> (j < List.length (l_entries s))%nat -> exists e, nth_error (l_entries s) j = Some e /\ same_entry e e') ->
  (forall x rest, at_todo a = x :: rest -> note_of x = None) ->
  rows = l_rows s \/ (exists w, rows = (l_rows s ++ [w])%list /\ pays w = false /\ forall e, nth_error es (w_entry w) = Some e -> draws w = true -> has_map (l_maps s) (en_src e) (w_prov w) = true) ->
  inv6 k {| l_now := now; l_rows := rows; l_maps := l_maps s; l_entries := es; l_locks := locks; l_atts := drop_att (at_id a) (l_atts s); l_next := next |}.
Proof.
  intros V I A E N R. apply (inv6_next k s); cbn [l_rows l_maps l_entries l_atts cont]; auto.
  - apply incl_refl.
  - intros b B. apply in_drop in B as [B _]. apply (f_pair k s I), B.
  - intros w W. assert (C : In w (l_rows s) \/ (pays w = false /\ forall e, nth_error es (w_entry w) = Some e -> draws w = true -> has_map (l_maps s) (en_src e) (w_prov w) = true)).
    { destruct R as [->|(w0 & -> & H)]; [left; exact W|]. apply in_app_or in W as [W|[<-|[]]]; [left; exact W|right; exact H]. }
    destruct C as [C|[C1 C2]]; [apply (rows_kept k s w _ V C)|]. right. right. intros e Ee. split; [rewrite C1; discriminate|apply C2, Ee].
  - intros i p e (b & x & rest & B & Eb & T & Nx) _. right. exists b, x, rest. split; [|auto]. apply in_drop. split; [exact B|].
    intros Q. pose proof (ids_eq _ _ _ (b_ids k s V) B A Q) as ->. rewrite (N x rest T) in Nx. discriminate Nx.
Qed.
(** An attempt goes on. *)
Lemma inv6_go k s a e x rest rows maps locks t : inv1 k s -> inv6 k s -> In a (l_atts s) -> at_todo a = x :: rest -> nth_error (l_entries s) (at_entry a) = Some e ->
  paired t -> incl (l_maps s) maps -> (forall p, note_of x = Some p -> has_map maps (en_dst e) p = true) ->
  rows = l_rows s \/ (exists w, rows = (l_rows s ++ [w])%list /\ w_entry w = at_entry a /\
     (pays w = true -> exists y t', t = y :: t' /\ note_of y = Some (w_prov w)) /\ (draws w = true -> has_map maps (en_src e) (w_prov w) = true)) ->
  inv6 k (cont s a rows maps locks t).
Proof.
  intros V I A T Ne P M Nt R. apply (inv6_next k s); cbn [l_rows l_maps l_entries l_atts cont]; auto.
  - apply entries_same.
  - intros b B. apply in_set_todo in B as [[B _]|(c & _ & _ & ->)]; [apply (f_pair k s I), B|exact P].
  - intros w W. assert (C : In w (l_rows s) \/ (w_entry w = at_entry a /\ (pays w = true -> exists y t', t = y :: t' /\ note_of y = Some (w_prov w)) /\ (draws w = true -> has_map maps (en_src e) (w_prov w) = true))).
    { destruct R as [->|(w0 & -> & H)]; [left; exact W|]. apply in_app_or in W as [W|[<-|[]]]; [left; exact W|right; exact H]. }
    destruct C as [C|(C0 & C1 & C2)]; [apply (rows_kept k s w _ V C)|]. right. right. intros e1 E1. rewrite C0, Ne in E1. injection E1 as <-. split; [|exact C2].
    intros Pw. destruct (C1 Pw) as (y & t' & -> & Ny). right. exists (with_todo a (y :: t')), y, t'. split; [apply set_todo_in; auto|]. split; [rewrite C0; reflexivity|]. split; [reflexivity|exact Ny].
  - intros i p e1 (b & y & r & B & Eb & Tb & Ny) E1. destruct (Nat.eq_dec (at_id b) (at_id a)) as [Q|Q].
    + pose proof (ids_eq _ _ _ (b_ids k s V) B A Q) as ->. left. rewrite T in Tb. injection Tb as <- <-. rewrite <- Eb, Ne in E1. injection E1 as <-. apply Nt, Ny.
    + right. exists b, y, r. split; [|auto]. apply set_todo_other; auto.
Qed.
Lemma inv6_post k s a e x rest w o : inv1 k s -> inv6 k s -> In a (l_atts s) -> at_todo a = x :: rest -> nth_error (l_entries s) (at_entry a) = Some e ->
  note_of x = None -> paired rest -> w_entry w = at_entry a -> (pays w = true -> o <> OLost) ->
  (pays w = true -> exists y t', rest = y :: t' /\ note_of y = Some (w_prov w)) -> (draws w = true -> has_map (l_maps s) (en_src e) (w_prov w) = true) ->
  inv6 k (post s a w o rest).
Proof.
  intros V I A T Ne Nx P We Lo Pay Dr. unfold post, fail_att.
  assert (Hx : forall y r, at_todo a = y :: r -> note_of y = None) by (intros y r E; rewrite T in E; injection E as <- _; exact Nx).
  destruct (ref_used (l_rows s) (w_ref w)); [apply inv6_end; auto; apply entries_back, mark_failed_same|].
  assert (Go : inv6 k (cont s a (l_rows s ++ [w]) (l_maps s) (l_locks s) rest)).
  { eapply inv6_go; eauto; [apply incl_refl|intros p Q; congruence|]. right. exists w. auto. }
  destruct o; [exact Go| | |exact Go].
  - apply inv6_end; auto. apply entries_back, mark_failed_same.
  - apply inv6_end; auto; [apply entries_back, mark_failed_same|]. right. exists w. split; [reflexivity|]. split.
    + destruct (pays w) eqn:E; [exfalso; apply (Lo eq_refl); reflexivity|reflexivity].
    + intros e1 E1 D. destruct (keeps_set_back (at_entry a) mark_failed (l_entries s) (w_entry w) e1 mark_failed_same E1) as (e0 & E0 & S). rewrite We, Ne in E0. injection E0 as <-.
      destruct S as (_ & _ & S3 & _). rewrite S3. apply Dr, D.
Qed.
Lemma inv6_act k s a e x rest o : inv1 k s -> inv6 k s -> In a (l_atts s) -> at_todo a = x :: rest -> nth_error (l_entries s) (at_entry a) = Some e ->
  (noting x = true -> o <> OFail) -> (paying x = true -> o <> OLost) -> inv6 k (run_act k s a e x rest o).
Proof.
  intros V I A T Ne No Pa. pose proof (f_pair k s I a A) as P. rewrite T in P. pose proof (paired_tail _ _ P) as Pr.
  assert (Sh : shape k (l_maps s) e (x :: rest)).
  { destruct (b_shape k s V a A) as (e' & E' & S). rewrite Ne in E'. injection E' as <-. rewrite T in S. exact S. }
  assert (Fl : note_of x = None -> inv6 k (fail_att s a (l_rows s) (l_maps s))).
  { intros Q. unfold fail_att. apply inv6_end; auto; [apply entries_back, mark_failed_same|]. intros y r E. rewrite T in E. injection E as <- _. exact Q. }
  assert (Go : forall locks t, note_of x = None -> paired t -> inv6 k (cont s a (l_rows s) (l_maps s) locks t)).
  { intros locks t Q Pt. eapply inv6_go; eauto; [apply incl_refl|]. intros p Y. congruence. }
  assert (Mp : forall p, note_of x = Some p -> inv6 k (cont s a (l_rows s) (upsert_map k (l_now s) (en_dst e) p (l_maps s)) (l_locks s) rest)).
  { intros p Q. eapply inv6_go; eauto; [apply upsert_incl|]. intros q Y. rewrite Q in Y. injection Y as <-. apply has_map_upsert. }
  destruct x; cbn [run_act].
  - destruct o; try (apply Fl; reflexivity); apply Go; try reflexivity; apply paired_app;
      try (destruct (provider_valid k s e && k_track k (en_dst e)); cbn; eauto); destruct (k_track k (en_src e)); exact Logic.I.
  - destruct o; try (apply Fl; reflexivity); destruct (existsb (locked (l_locks s)) keys); try (apply Fl; reflexivity); apply Go; auto.
  - apply Go; auto.
  - destruct P as [(r' & Er) _]. apply (inv6_post k s a e _ _ _ _ V I A T Ne eq_refl Pr); [reflexivity|intros _; apply Pa; reflexivity|intros _; exists (XCreditMap p), r'; split; [exact Er|reflexivity]|discriminate].
  - destruct o; try (apply Mp; reflexivity). exfalso. apply No; reflexivity.
  - destruct o; try (apply Fl; reflexivity); destruct (maps_of (l_maps s) (en_src e)) as [|m ms];
      try (destruct (pending_credit k (l_entries s) (en_src e)); [apply Fl; reflexivity|apply Go; auto]); apply Go; auto.
  - destruct o; try (apply Fl; reflexivity); destruct (_ <=? 0); try (apply Go; auto; fail); apply Go; auto; apply paired_app; auto; apply paired_checks; intros al; repeat eexists.
  - destruct o; try (apply Fl; reflexivity); destruct (ref_used _ _); try (apply Go; auto; fail); apply Go; auto; cbn; destruct dest; cbn; eauto.
  - apply shape_draw in Sh as [D _]. destruct D as (_ & _ & m & M1 & M2 & M3). apply (inv6_post k s a e _ _ _ _ V I A T Ne eq_refl Pr); [reflexivity|discriminate|discriminate|]. cbn [w_prov]. intros _. rewrite <- M3. apply has_map_in; auto.
  - destruct P as [(r' & Er) _]. apply (inv6_post k s a e _ _ _ _ V I A T Ne eq_refl Pr); [reflexivity|intros _; apply Pa; reflexivity|intros _; exists (XMapDest p), r'; split; [exact Er|reflexivity]|discriminate].
  - destruct o; try (apply Mp; reflexivity). exfalso. apply No; reflexivity.
Qed.
Lemma at_note_same s s' i p : l_atts s' = l_atts s -> at_note s i p -> at_note s' i p.
Proof. intros E (a & x & r & H). exists a, x, r. rewrite E. exact H. Qed.
Theorem inv6_step k s ev s' : inv1 k s -> inv6 k s -> noted s ev -> lstep k s ev = Some s' -> inv6 k s'.
Proof.
  intros V I C St. destruct ev as [d|e|i|id o|id|id|key|ref|ref amt]; cbn [lstep] in St.
  - destruct (d <=? 0); [discriminate St|]. injection St as <-. apply (inv6_next k s); cbn [l_rows l_maps l_entries l_atts cont]; [exact I|apply entries_same|apply incl_refl|apply (f_pair k s I)|intros w' W; apply (rows_kept k s w' _ V W)|].
    intros i p e H _. right. eapply at_note_same; [|exact H]. reflexivity.
  - destruct (en_status e); try discriminate St. destruct (en_until e); [discriminate St|]. destruct (en_attempts e); [|discriminate St]. destruct (0 <? en_amt e); [|discriminate St].
    injection St as <-. apply (inv6_next k s); cbn [l_rows l_maps l_entries l_atts cont]; [exact I| |apply incl_refl|apply (f_pair k s I)|intros w' W; apply (rows_kept k s w' _ V W)|].
    + intros i e' N L. rewrite nth_error_app1 in N by exact L. exists e'. split; [exact N|apply same_entry_refl].
    + intros i p e0 H _. right. eapply at_note_same; [|exact H]. reflexivity.
  - destruct (nth_error (l_entries s) i) as [e|] eqn:N; [|discriminate St]. destruct (claimable (l_now s) e); [|discriminate St]. injection St as <-.
    apply (inv6_next k s); cbn [l_rows l_maps l_entries l_atts cont]; [exact I| |apply incl_refl| |intros w' W; apply (rows_kept k s w' _ V W)|].
    + apply entries_back. intros e0. apply with_status_same.
    + intros a [<-|A]; [exact Logic.I|apply (f_pair k s I), A].
    + intros j p e0 (a & x & r & A & H) _. right. exists a, x, r. split; [right; exact A|exact H].
  - destruct (find_att (l_atts s) id) as [a|] eqn:F; [|discriminate St]. destruct (at_todo a) as [|x rest] eqn:T; [discriminate St|]. destruct (nth_error (l_entries s) (at_entry a)) as [e|] eqn:N; [|discriminate St].
    injection St as <-. destruct (find_att_in _ _ _ F) as [A _]. destruct (C a x rest F T) as [C1 C2]. apply inv6_act; auto.
  - destruct (find_att (l_atts s) id) as [a|] eqn:F; [|discriminate St]. destruct (at_todo a) as [|x rest] eqn:T; [|discriminate St]. injection St as <-. destruct (find_att_in _ _ _ F) as [A <-].
    apply inv6_end; auto; [apply entries_back, mark_completed_same|]. intros x rest E. congruence.
  - destruct (find_att (l_atts s) id) as [a|] eqn:F; [|discriminate St]. injection St as <-. destruct (find_att_in _ _ _ F) as [A <-].
    apply inv6_end; auto; [apply entries_same|]. intros x rest E. pose proof (C a x rest F E) as Q. destruct x; try discriminate Q; reflexivity.
  - destruct (existsb _ (l_locks s)); [discriminate St|]. injection St as <-. apply (inv6_next k s); cbn [l_rows l_maps l_entries l_atts cont]; [exact I|apply entries_same|apply incl_refl|apply (f_pair k s I)|intros w' W; apply (rows_kept k s w' _ V W)|].
    intros i p e H _. right. eapply at_note_same; [|exact H]. reflexivity.
  - injection St as <-. apply (inv6_next k s); cbn [l_rows l_maps l_entries l_atts cont]; [exact I|apply entries_same|apply incl_refl|apply (f_pair k s I)| |].
    + intros w' W. apply in_map_iff in W as (w & <- & W). fold (settle_row ref w). destruct (settle_fields ref w) as (_ & K & Pv & _ & _ & En & _). rewrite K, Pv, En.
      destruct (row_entry k s w V W) as [O|L]; [right; left; exact O|]. left. exists w. auto.
    + intros i p e H _. right. eapply at_note_same; [|exact H]. reflexivity.
  - destruct ((amt <=? 0) || ref_used (l_rows s) ref); [discriminate St|]. injection St as <-. apply (inv6_next k s); cbn [l_rows l_maps l_entries l_atts cont]; [exact I|apply entries_same|apply incl_refl|apply (f_pair k s I)| |].
    + intros w' W. apply in_app_or in W as [W|[<-|[]]]; [apply (rows_kept k s w' _ V W)|]. right. left. reflexivity.
    + intros i p e H _. right. eapply at_note_same; [|exact H]. reflexivity.
Qed.
Theorem inv6_reach k s : lreach_with k noted s -> inv6 k s.
Proof.
  intros R. assert (H : inv1 k s /\ inv6 k s); [|apply H]. revert s R. apply along_ind.
  - split; [apply inv1_init|]. split; cbn; intros; contradiction.
  - intros s ev s' [V I] C St. split; [eapply inv1_step; eauto|eapply inv6_step; eauto].
Qed.

(** With no attempt under way the total is all there is of [b]'s tracked money. *)
Theorem report_complete k s b ls t : lreach_with k noted s -> own k s b -> l_atts s = [] -> report k (fun _ => true) s b = Some (ls, t) ->
  t = all_paid_in s b - all_drawn s b.
Proof.
  intros R O At E. pose proof (inv6_reach k s R) as I. destruct (lines_once k _ _ s b ls t R E) as [N ->].
  rewrite (sumz_ext li_available (fun x => paid_in s b (li_prov x) + - drawn s b (li_prov x))).
  2:{ intros x X. destruct (line_exact k _ _ s b ls _ x R O E X) as (E1 & E2 & E3). lia. }
  rewrite sumz_plus. assert (Ng : forall (A : Type) (f : A -> Z) l, sumz (fun x => - f x) l = - sumz f l) by (intros A f l; induction l as [|y l IH]; [reflexivity|]; cbn; rewrite IH; lia).
  rewrite Ng. rewrite <- (sumz_map li_prov (paid_in s b)), <- (sumz_map li_prov (drawn s b)).
  assert (Cov : forall b' p, has_map (l_maps s) b' p = true -> b' = b -> In p (map li_prov ls)).
  { intros b' p H ->. unfold report in E. destruct (k_track k b); [|discriminate E]. rewrite populate_lines in E. injection E as <- _. cbn [app].
    apply existsb_exists in H as (m & M & H). apply andb_prop in H as [H1 H2]. apply String.eqb_eq in H1, H2. rewrite map_map. apply in_map_iff. exists m. split; [exact H2|].
    apply filter_In. split; [|reflexivity]. apply in_maps_of. auto. }
  assert (Has : forall p, In p (map li_prov ls) -> existsb (String.eqb p) (map li_prov ls) = true) by (intros p H; apply existsb_exists; exists p; split; [exact H|apply String.eqb_refl]).
  rewrite Z.add_opp_r. f_equal.
  - unfold paid_in, all_paid_in.
    assert (F : forall p, sumz (fun w => if pays w && settled_row w && to_bal s b w && String.eqb (w_prov w) p then w_amt w else 0) (l_rows s)
      = sumz (fun w => if String.eqb (w_prov w) p then (if pays w && settled_row w && to_bal s b w then w_amt w else 0) else 0) (l_rows s)) by (intros p; apply sumz_ext; intros w _; apply if_and).
    rewrite (sumz_ext _ _ (map li_prov ls) (fun p _ => F p)), (by_provider _ w_prov) by exact N. refine (sumz_ext _ _ _ _). intros w W.
    destruct (pays w && settled_row w && to_bal s b w) eqn:Q; [|destruct (existsb (String.eqb (w_prov w)) (map li_prov ls)); reflexivity].
    apply andb_prop in Q as [Q Q3]. apply andb_prop in Q as [Q1 _]. unfold to_bal in Q3. destruct (nth_error (l_entries s) (w_entry w)) as [e|] eqn:Ne; [|discriminate Q3]. apply String.eqb_eq in Q3.
    rewrite Has; [reflexivity|]. destruct (f_paid k s I w e W Q1 Ne) as [H|(a & _ & _ & A & _)]; [eapply Cov; eauto|rewrite At in A; destruct A].
  - unfold drawn, all_drawn.
    assert (F : forall p, sumz (fun w => if draws w && settled_row w && from_bal s b w && String.eqb (w_prov w) p then w_amt w else 0) (l_rows s)
      = sumz (fun w => if String.eqb (w_prov w) p then (if draws w && settled_row w && from_bal s b w then w_amt w else 0) else 0) (l_rows s)) by (intros p; apply sumz_ext; intros w _; apply if_and).
    rewrite (sumz_ext _ _ (map li_prov ls) (fun p _ => F p)), (by_provider _ w_prov) by exact N. refine (sumz_ext _ _ _ _). intros w W.
    destruct (draws w && settled_row w && from_bal s b w) eqn:Q; [|destruct (existsb (String.eqb (w_prov w)) (map li_prov ls)); reflexivity].
    apply andb_prop in Q as [Q Q3]. apply andb_prop in Q as [Q1 _]. unfold from_bal in Q3. destruct (nth_error (l_entries s) (w_entry w)) as [e|] eqn:Ne; [|discriminate Q3]. apply String.eqb_eq in Q3.
    rewrite Has; [reflexivity|]. eapply Cov; [|exact Q3]. eapply (f_drawn k s I); eauto.
Qed.
