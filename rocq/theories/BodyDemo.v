(** Bodies sent with an API key. *)
From Coq Require Import ZArith List String Ascii Bool Lia.
From Verif Require Import Base BodyModel BodySpec BodyProof BodyThms.
Import ListNotations.
Local Open Scope string_scope.
Local Open Scope list_scope.
Open Scope Z_scope.

(** ** The theorems *)

Lemma same_as_float id l l' : tidy (JObj l) -> inject id (JObj l) = Rewritten (JObj l') ->
  (forall f, lower f <> "meta_data" -> orel (alike as_float) (field f l) (field f l'))
  /\ forall M, map_field "meta_data" l [] = Some M ->
     exists M', map_field "meta_data" l' [] = Some M' /\ forall k, k <> "BLNK_GENERATED_BY" -> orel (alike as_float) (get k M) (get k M').
Proof.
  intros T H.
  assert (Gn : forall p n f, True -> float_of n = Some f -> alike as_float (JNum p n) (show f)).
  { intros p n f _ E. destruct (show_reads n f E) as (p' & m & -> & E'). constructor. unfold as_float. simpl. congruence. }
  assert (Gl : forall l, True -> Forall (fun _ : json => True) l) by (intros; apply Forall_forall; auto).
  assert (Go : forall l, True -> Forall (fun _ : string * json => True) l) by (intros; apply Forall_forall; auto).
  split; [intros f Hf; exact (same_fields _ (fun _ => True) Gl Go Gn id l l' T I H f Hf)|].
  intros M HM. exact (same_metadata _ (fun _ => True) Gl Go Gn id l l' T I H M HM).
Qed.

Lemma same_exactly id l l' : tidy (JObj l) -> small (JObj l) -> inject id (JObj l) = Rewritten (JObj l') ->
  (forall f, lower f <> "meta_data" -> orel (alike exactly) (field f l) (field f l'))
  /\ forall M, map_field "meta_data" l [] = Some M ->
     exists M', map_field "meta_data" l' [] = Some M' /\ forall k, k <> "BLNK_GENERATED_BY" -> orel (alike exactly) (get k M) (get k M').
Proof.
  intros T Sm H.
  assert (Gn : forall p n f, small (JNum p n) -> float_of n = Some f -> alike exactly (JNum p n) (show f)).
  { intros p n f [-> B] E. destruct (show_small n B) as (f' & E' & Sh). rewrite E in E'. injection E' as <-. rewrite Sh. constructor. reflexivity. }
  assert (Gl : forall l, small (JList l) -> Forall small l).
  { clear. intros l. rewrite small_l. induction l as [|x r IH]; intros S0; constructor; [apply S0|apply IH, S0]. }
  assert (Go : forall l, small (JObj l) -> Forall (fun kv => small (snd kv)) l).
  { clear. intros l. rewrite small_o. induction l as [|[k x] r IH]; intros S0; constructor; [apply S0|apply IH, S0]. }
  split; [intros f Hf; exact (same_fields _ small Gl Go Gn id l l' T Sm H f Hf)|].
  intros M HM. exact (same_metadata _ small Gl Go Gn id l l' T Sm H M HM).
Qed.

Lemma small_remarshal v : small v -> exists v', remarshal v = Some v'.
Proof.
  induction v as [|b|p n|s|l IH|l IH] using json_rect'; intros S0; try (eexists; reflexivity).
  - destruct S0 as [_ B]. destruct (show_small n B) as (f & E & _). simpl. rewrite E. eexists. reflexivity.
  - rewrite remarshal_list. rewrite small_l in S0. assert (E : exists l', each l = Some l').
    { induction l as [|x r R]; [eexists; reflexivity|]. inversion IH as [|? ? I1 I2]; subst. destruct S0 as [S1 S2]. destruct (I1 S1) as (x' & Ex).
      destruct (R I2 S2) as (r' & Er). simpl. rewrite Ex, Er. eexists. reflexivity. }
    destruct E as (l' & ->). eexists. reflexivity.
  - rewrite remarshal_obj. rewrite small_o in S0. assert (E : forall m, exists m', members l m = Some m').
    { induction l as [|[k x] r R]; intros m; [eexists; reflexivity|]. inversion IH as [|? ? I1 I2]; subst. destruct S0 as [S1 S2]. destruct (I1 S1) as (x' & Ex).
      cbn [snd] in Ex. simpl. rewrite Ex. apply R; auto. }
    destruct (E []) as (m' & ->). eexists. reflexivity.
Qed.
Lemma small_rewritten id l : small (JObj l) -> exists l', inject id (JObj l) = Rewritten (JObj l').
Proof.
  intros S0. destruct (small_remarshal _ S0) as (v & E). unfold inject. rewrite E. rewrite remarshal_obj in E.
  destruct (members l []); [|discriminate]. injection E as <-. eexists. reflexivity.
Qed.

(** Large odd numbers are altered, whatever they are. *)
Lemma show_odd n f p m : Z.odd n = true -> 2 ^ 53 < Z.abs n -> float_of n = Some f -> show f = JNum p m -> m <> n.
Proof.
  intros O B E Sh ->. destruct (float_some _ _ E) as [-> _]. unfold show in Sh.
  set (d := Z.to_nat _) in Sh. assert (Ev : Z.even (shortest d (Z.abs (Z.sgn n * nearest (Z.abs n)))) = true).
  { apply shortest_even. assert (Z.even (Z.sgn n * nearest (Z.abs n)) = true) as V.
    { rewrite Z.even_mul. apply orb_true_iff. right. apply nearest_even. lia. }
    destruct (Z.sgn n * nearest (Z.abs n)) as [|q|q]; [exact V|exact V|]. destruct q; exact V. }
  revert Sh Ev. generalize (shortest d (Z.abs (Z.sgn n * nearest (Z.abs n)))). intros s Sh Ev. injection Sh as _ Sh.
  assert (Z.even n = true) as En by (rewrite <- Sh, Z.even_mul, Ev; apply orb_true_r).
  rewrite <- Z.negb_odd, O in En. discriminate.
Qed.
Lemma odd_altered id l l' f n : tidy (JObj l) -> lower f <> "meta_data" -> int_field f l = Some n -> Z.odd n = true -> 2 ^ 53 < Z.abs n ->
  inject id (JObj l) = Rewritten (JObj l') -> int_field f l' <> Some n.
Proof.
  intros T Nf Hf O B H. destruct (rewritten _ _ _ H) as (m & Em & Sm & E & _). injection E as ->. unfold int_field in *.
  rewrite field_put by (intros Ef; apply Nf; rewrite <- Ef; reflexivity).
  rewrite tidy_o in T. destruct T as [T1 _]. destruct (field f l) as [v|] eqn:F; [|discriminate]. destruct v; try discriminate.
  destruct plain; [|discriminate]. injection Hf as ->.
  destruct (field f m) as [w|] eqn:Fm; [|discriminate]. destruct w as [| |p k| | |]; try discriminate. destruct p; [|discriminate].
  intros Ek. injection Ek as ->. destruct (field_in _ _ _ Fm) as (k1 & I1 & L1). destruct (members_values _ _ _ _ _ Em I1) as [[]|(x & I2 & R)].
  rewrite (in_field f l k1 x T1 I2 L1) in F. injection F as ->. simpl in R. destruct (float_of n) as [fl|] eqn:Ef; [|discriminate].
  assert (R' : show fl = JNum true n) by congruence. exact (show_odd n fl true n O B Ef R' eq_refl).
Qed.

(** ** Cases *)

Definition payment : list (string * json) :=
  [("reference", JText "ref-1"); ("precise_amount", JNum true 1234567); ("skip_queue", JBool true);
   ("sources", JList [JObj [("identifier", JText "@a"); ("distribution", JText "left")]]);
   ("meta_data", JObj [("invoice", JNum true 17); ("BLNK_GENERATED_BY", JText "somebody else")]); ("destination", JText "@b")].
Definition sent : list (string * json) :=
  [("destination", JText "@b"); ("meta_data", JObj [("BLNK_GENERATED_BY", JText "key1"); ("invoice", JNum true 17)]);
   ("precise_amount", JNum true 1234567); ("reference", JText "ref-1"); ("skip_queue", JBool true);
   ("sources", JList [JObj [("distribution", JText "left"); ("identifier", JText "@a")]])].
Lemma payment_sent : inject "key1" (JObj payment) = Rewritten (JObj sent).
Proof. vm_compute. reflexivity. Qed.
Lemma payment_tidy : tidy (JObj payment) /\ small (JObj payment).
Proof.
  split.
  - rewrite tidy_o. split.
    + unfold folded, payment. cbn [map fst]. repeat (constructor; [cbn; intuition discriminate|]). constructor.
    + cbn. repeat (constructor || (cbn; intuition discriminate)).
  - cbn. repeat split; vm_compute; discriminate.
Qed.

Definition large : list (string * json) := [("precise_amount", JNum true 9007199254740993); ("reference", JText "ref-2")].
Lemma large_sent : exists l', inject "key1" (JObj large) = Rewritten (JObj l') /\ int_field "precise_amount" large = Some 9007199254740993
  /\ int_field "precise_amount" l' = Some 9007199254740992.
Proof. eexists. split; [vm_compute; reflexivity|]. split; vm_compute; reflexivity. Qed.
Definition huge : list (string * json) := [("precise_amount", JNum true (10 ^ 21)); ("reference", JText "ref-3")].
Lemma huge_sent : exists l', inject "key1" (JObj huge) = Rewritten (JObj l') /\ int_field "precise_amount" huge = Some (10 ^ 21)
  /\ int_field "precise_amount" l' = None.
Proof. eexists. split; [vm_compute; reflexivity|]. split; vm_compute; reflexivity. Qed.
Lemma two_tidy a b (x y : json) : lower a <> lower b -> tidy x -> tidy y -> tidy (JObj [(a, x); (b, y)]).
Proof. intros N X Y. rewrite tidy_o. split; [|cbn; auto]. constructor; [cbn; intuition congruence|]. constructor; [intros []|constructor]. Qed.

Lemma amount_altered : ~ (forall id l l', tidy (JObj l) -> inject id (JObj l) = Rewritten (JObj l') ->
  int_field "precise_amount" l' = int_field "precise_amount" l).
Proof.
  intros H. destruct large_sent as (l' & E & A & B). assert (T : tidy (JObj large)) by (apply two_tidy; [discriminate|exact I|exact I]).
  specialize (H _ _ _ T E). rewrite A, B in H. discriminate.
Qed.
Lemma amount_refused : ~ (forall id l l' n, tidy (JObj l) -> inject id (JObj l) = Rewritten (JObj l') ->
  int_field "precise_amount" l = Some n -> exists n', int_field "precise_amount" l' = Some n').
Proof.
  intros H. destruct huge_sent as (l' & E & A & B). assert (T : tidy (JObj huge)) by (apply two_tidy; [discriminate|exact I|exact I]).
  destruct (H _ _ _ _ T E A) as (n' & C). rewrite B in C. discriminate.
Qed.

(** What the handler gets. *)
Definition handed (i : injected) : option (list (string * json)) :=
  match i with Rewritten (JObj l) | Untouched (JObj l) => Some l | _ => None end.
Definition spoof : list (string * json) :=
  [("reference", JText "ref-4"); ("precise_amount", JNum true 100); ("note", JNum false (10 ^ 400));
   ("meta_data", JObj [("BLNK_GENERATED_BY", JText "somebody else")])].
Lemma spoof_handed : handed (inject "key1" (JObj spoof)) = Some spoof.
Proof.
  assert (E : remarshal (JObj spoof) = None) by (vm_compute; reflexivity). unfold inject. rewrite E. reflexivity.
Qed.
Lemma spoof_tidy : tidy (JObj spoof).
Proof.
  rewrite tidy_o. split.
  - unfold folded, spoof. cbn [map fst]. repeat (constructor; [cbn; intuition discriminate|]). constructor.
  - cbn. repeat (constructor || (cbn; intuition discriminate)).
Qed.
Lemma spoofed : ~ (forall id l l' meta, tidy (JObj l) -> handed (inject id (JObj l)) = Some l' -> map_field "meta_data" l' [] = Some meta ->
  get "BLNK_GENERATED_BY" meta = Some (JText id)).
Proof.
  intros H. specialize (H _ _ _ [("BLNK_GENERATED_BY", JText "somebody else")] spoof_tidy spoof_handed).
  assert (E : map_field "meta_data" spoof [] = Some [("BLNK_GENERATED_BY", JText "somebody else")]) by reflexivity.
  apply H in E. discriminate.
Qed.

(** A bulk: the handler reads the transactions, and what each says about itself. *)
Definition bulk : list (string * json) :=
  [("transactions", JList [JObj [("reference", JText "ref-5"); ("meta_data", JObj [("BLNK_GENERATED_BY", JText "somebody else")])]]);
   ("atomic", JBool true)].
Lemma bulk_spoofed : ~ (forall id l l' items t meta, tidy (JObj l) -> inject id (JObj l) = Rewritten (JObj l') ->
  field "transactions" l' = Some (JList items) -> In (JObj t) items -> map_field "meta_data" t [] = Some meta ->
  get "BLNK_GENERATED_BY" meta = Some (JText id)).
Proof.
  intros H. assert (T : tidy (JObj bulk)).
  { apply two_tidy; [discriminate| |exact I]. rewrite tidy_l. split; [|exact I]. apply two_tidy; [discriminate|exact I|]. rewrite tidy_o.
    split; [repeat constructor; intros []|cbn; auto]. }
  assert (X : Some (JText "somebody else") = Some (JText "key1")); [|discriminate X].
  apply (H "key1" bulk (put "meta_data" (JObj [("BLNK_GENERATED_BY", JText "key1")]) (put "transactions" (JList [JObj
     [("meta_data", JObj [("BLNK_GENERATED_BY", JText "somebody else")]); ("reference", JText "ref-5")]]) [("atomic", JBool true)]))
     [JObj [("meta_data", JObj [("BLNK_GENERATED_BY", JText "somebody else")]); ("reference", JText "ref-5")]]
     [("meta_data", JObj [("BLNK_GENERATED_BY", JText "somebody else")]); ("reference", JText "ref-5")]
     [("BLNK_GENERATED_BY", JText "somebody else")] T); try reflexivity. left. reflexivity.
Qed.

Definition twice : list (string * json) := [("reference", JText "a"); ("Reference", JText "b")].
Lemma case_reorders : ~ (forall id l l' f, small (JObj l) -> inject id (JObj l) = Rewritten (JObj l') -> lower f <> "meta_data" ->
  orel (alike exactly) (field f l) (field f l')).
Proof.
  intros H. assert (E : inject "key1" (JObj twice) = Rewritten (JObj [("Reference", JText "b");
    ("meta_data", JObj [("BLNK_GENERATED_BY", JText "key1")]); ("reference", JText "a")])) by (vm_compute; reflexivity).
  specialize (H _ twice _ "reference" ltac:(cbn; auto) E ltac:(discriminate)). cbn in H. inversion H as [|? ? A]; subst. inversion A.
Qed.

Lemma null_panics : ~ (forall id body, inject id body <> Panics).
Proof. intros H. exact (H "key1" JNull eq_refl). Qed.
