(** Proofs about hot pairs. *)
From Coq Require Import ZArith List String Ascii Bool Lia.
From Verif Require Import Base HotModel HotSpec.
Import ListNotations.
Local Open Scope string_scope.
Open Scope Z_scope.

(** ** Small facts *)

Lemma nth_set {A} n m (a : A) l :
  nth_error (set_nth n a l) m = if Nat.eqb n m then match nth_error l n with Some _ => Some a | None => None end
                                else nth_error l m.
Proof.
  revert n m. induction l as [|x l IH]; intros n m.
  - destruct n, m; simpl; try reflexivity; destruct (Nat.eqb n m); try reflexivity; now destruct n.
  - destruct n, m; simpl; try reflexivity. apply IH.
Qed.

Lemma in_set_nth {A} n (a x : A) l : In x (set_nth n a l) -> x = a \/ In x l.
Proof.
  revert n. induction l as [|y l IH]; intros [|n] H; simpl in *; try tauto.
  - destruct H as [<-|H]; auto.
  - destruct H as [<-|H]; auto. destruct (IH _ H); auto.
Qed.

Lemma mode_eqb_eq a b : mode_eqb a b = true <-> a = b.
Proof. destruct a, b; simpl; split; congruence. Qed.

Lemma pair_eqb_eq a b : pair_eqb a b = true <-> a = b.
Proof.
  unfold pair_eqb. rewrite !andb_true_iff, !String.eqb_eq. destruct a, b; simpl. split; [intros [[-> ->] ->]; reflexivity|].
  intros H; injection H; auto.
Qed.

Lemma lane_eqb_eq a b : lane_eqb a b = true <-> a = b.
Proof. destruct a, b; simpl; split; congruence. Qed.

(** ** Keys *)

Lemma bar_split a b x y : barless a -> barless b -> a ++ "|" ++ x = b ++ "|" ++ y -> a = b /\ x = y.
Proof.
  revert b. induction a as [|c a IH]; intros [|d b]; simpl; intros Ha Hb H.
  - split; [reflexivity|congruence].
  - injection H as <- _. destruct Hb as [Hb _]. congruence.
  - injection H as -> _. destruct Ha as [Ha _]. congruence.
  - injection H as <- H. destruct Ha as [_ Ha], Hb as [_ Hb].
    destruct (IH b Ha Hb H) as [-> ->]. auto.
Qed.

Lemma key_split p q : barless (p_src p) -> barless (p_dst p) -> barless (p_src q) -> barless (p_dst q) ->
  pair_key p = pair_key q -> p_src p = p_src q /\ p_dst p = p_dst q /\ upper (p_cur p) = upper (p_cur q).
Proof.
  unfold pair_key. intros A B C D H. apply bar_split in H; [|assumption|assumption].
  destruct H as [-> H]. apply bar_split in H; [|assumption|assumption]. tauto.
Qed.

Lemma key_inj p q : well_named p -> well_named q -> pair_key p = pair_key q -> p = q.
Proof.
  intros (A & B & C) (D & E & F) H. apply key_split in H; auto. destruct H as (X & Y & Z0).
  rewrite C, F in Z0. destruct p, q; simpl in *; congruence.
Qed.

(** ** Waiting rows of a store *)

Definition W (p : pair) (l : lane) (s : store) : Prop :=
  exists w, In w (s_rows s) /\ w_pair w = p /\ w_lane w = l /\ w_queued w = true /\ w_child w = false.

Lemma counted_iff p l w : counted p l w = true <-> w_pair w = p /\ w_lane w = l /\ w_queued w = true /\ w_child w = false.
Proof.
  unfold counted. rewrite !andb_true_iff, pair_eqb_eq, lane_eqb_eq, negb_true_iff. tauto.
Qed.

Lemma count_zero p l s : count_rows p l (s_rows s) = 0 -> ~ W p l s.
Proof.
  unfold count_rows. intros H (w & Hin & Hw). apply counted_iff in Hw.
  assert (In w (filter (counted p l) (s_rows s))) by (apply filter_In; auto).
  destruct (filter (counted p l) (s_rows s)); simpl in *; [contradiction|lia].
Qed.

Lemma count_pos p l s : 0 < count_rows p l (s_rows s) -> W p l s.
Proof.
  unfold count_rows. intros H. destruct (filter (counted p l) (s_rows s)) as [|w r] eqn:E; simpl in H; [lia|].
  assert (In w (filter (counted p l) (s_rows s))) by (rewrite E; left; reflexivity).
  apply filter_In in H0. destruct H0 as [Hin Hw]. apply counted_iff in Hw. exists w. tauto.
Qed.

Lemma count_nonneg p l r : 0 <= count_rows p l r.
Proof. unfold count_rows. lia. Qed.

(** ** Programs that do no harm to pair [p] *)

Fixpoint harmless (p : pair) (q : hprog) : Prop :=
  match q with
  | HRet => True
  | HGet k c => forall a, harmless p (c a)
  | HSet k m c => (k <> pair_key p \/ m = MPromoting) /\ forall a, harmless p (c a)
  | HActivate k c => k <> pair_key p /\ forall a, harmless p (c a)
  | HClear k c => k <> pair_key p /\ forall a, harmless p (c a)
  | HActive k c => forall a, harmless p (c a)
  | HBump k c => forall a, harmless p (c a)
  | HTouch k c => forall a, harmless p (c a)
  | HCount _ _ c => forall a, harmless p (c a)
  | HInsert w c => w_pair w <> p /\ forall a, harmless p (c a)
  end.

Lemma report_harmless cfg p p' : harmless p (report cfg p').
Proof.
  unfold report. destruct (_ || _); simpl; [exact Logic.I|].
  intros [n|]; simpl; [|exact Logic.I]. destruct (n <? _); simpl; [exact Logic.I|].
  intros [[]|]; simpl; auto.
Qed.

Lemma resolve_harmless cfg p p' c : pair_key p' <> pair_key p -> (forall a, harmless p (c a)) ->
  harmless p (resolve cfg p' c).
Proof.
  intros Hk Hc. unfold resolve. destruct (negb _); [apply Hc|]. simpl.
  intros [[]|]; simpl; auto.
  - intros [n|]; [|apply Hc]. destruct (n =? 0); simpl; auto. split; auto. intros [|]; apply Hc.
  - intros [[]|]; simpl; auto. intros [n|]; [|apply Hc]. destruct (0 <? n); simpl; split; auto; intros [|]; apply Hc.
  - intros [n|]; [|apply Hc]. destruct (0 <? n); simpl; auto. split; auto. intros [|]; apply Hc.
Qed.

Lemma accept_harmless cfg p p' q : pair_key p' <> pair_key p -> harmless p (accept cfg p' q).
Proof.
  intros Hk. unfold accept. assert (p' <> p) by (intros ->; congruence).
  destruct (_ || _); simpl; [auto|]. apply resolve_harmless; [exact Hk|]. intros [[]|]; simpl; auto.
Qed.

(** What others can do to the pair. *)
Definition mild (p : pair) (s s' : store) : Prop :=
  (s_mode s' (pair_key p) = s_mode s (pair_key p) \/ s_mode s' (pair_key p) = MPromoting) /\
  (forall l, W p l s' -> W p l s).

Lemma mild_refl p s : mild p s s.
Proof. split; auto. Qed.

Lemma W_ext p l s s' : s_rows s' = s_rows s -> W p l s' -> W p l s.
Proof. unfold W. intros ->. auto. Qed.

Lemma put_same {A} (f : string -> A) k a : put f k a k = a.
Proof. unfold put. now rewrite String.eqb_refl. Qed.
Lemma put_other {A} (f : string -> A) k a x : x <> k -> put f k a x = f x.
Proof. unfold put. intros H. destruct (String.eqb_spec x k); congruence. Qed.

Lemma harmless_call p q s : harmless p q -> mild p s (snd (call q s)) /\ harmless p (fst (call q s)) /\ harmless p (after_error q).
Proof.
  destruct q; cbn [call snd fst harmless after_error]; intros H.
  - split; [apply mild_refl|auto].
  - split; [apply mild_refl|auto].
  - destruct H as [Hk H]. split; [|auto]. split; [|intros l; apply W_ext; reflexivity]. simpl.
    destruct (String.eqb_spec (pair_key p) k) as [<-|N]; [|left; now apply put_other].
    rewrite put_same. destruct Hk as [Hk| ->]; [congruence|auto].
  - destruct H as [Hk H]. split; [|auto]. split; [|intros l; apply W_ext; reflexivity]. simpl. left. apply put_other. congruence.
  - destruct H as [Hk H]. split; [|auto]. split; [|intros l; apply W_ext; reflexivity]. simpl. left. apply put_other. congruence.
  - split; [apply mild_refl|auto].
  - split; [|auto]. split; [left; reflexivity|intros l; apply W_ext; reflexivity].
  - split; [apply mild_refl|auto].
  - split; [apply mild_refl|auto].
  - destruct H as [Hw H]. split; [|auto]. split; [left; reflexivity|].
    intros l (x & Hin & Hx). simpl in Hin. apply in_app_or in Hin. destruct Hin as [Hin|[<-|[]]].
    + exists x. auto.
    + destruct Hx as [Hx _]. congruence.
Qed.

(** ** The request being accepted for [p] *)

Fixpoint safe (p : pair) (n h nz nh : bool) (q : hprog) : Prop :=
  match q with
  | HRet => True
  | HGet k c => k = pair_key p /\
      forall m, safe p (n || mode_eqb m MHot) (h || mode_eqb m MNormal)
                       (nz || negb (mode_eqb m MNormal)) (nh || negb (mode_eqb m MHot)) (c (Some m))
  | HSet k m c => k = pair_key p /\ (m = MPromoting \/ m = MCooling) /\ safe p n h true true (c (Some tt))
  | HActivate k c => k = pair_key p /\ n = true /\ safe p n h true false (c (Some tt))
  | HClear k c => k = pair_key p /\ h = true /\ safe p n h false true (c (Some tt))
  | HActive k c => forall b, safe p n h nz nh (c (Some b))
  | HBump k c => False
  | HTouch k c => safe p n h nz nh (c (Some tt))
  | HCount p' l c => p' = p /\
      forall z, 0 <= z ->
        safe p (n || (if lane_eqb l LNormal then z =? 0 else 0 <? z))
               (h || (if lane_eqb l LNormal then 0 <? z else z =? 0)) nz nh (c (Some z))
  | HInsert w c => w_pair w = p /\
      match w_lane w with LHot => n && nz = true | LNormal => h && nh = true end /\
      safe p false false false false (c (Some tt))
  end.

Lemma accept_safe cfg p q : complete p -> h_enabled cfg = true -> safe p false false false false (accept cfg p q).
Proof.
  intros (A & B & C) Hen. apply String.eqb_neq in A, B, C. unfold accept, resolve. rewrite A, B, C, Hen. cbn [orb negb].
  cbn [safe]. split; [reflexivity|]. intros []; cbn.
  - split; [reflexivity|]. split; reflexivity.
  - split; [reflexivity|]. intros z Hz. destruct (Z.eqb_spec z 0) as [->|N]; cbn.
    + split; [reflexivity|]. split; [reflexivity|]. split; [reflexivity|]. split; reflexivity.
    + split; [reflexivity|]. split; [|exact Logic.I]. assert (0 <? z = true) as -> by (apply Z.ltb_lt; lia). reflexivity.
  - intros []; cbn.
    + split; [reflexivity|]. split; reflexivity.
    + split; [reflexivity|]. intros z Hz. destruct (0 <? z) eqn:E; cbn.
      * split; [reflexivity|]. split; [auto|]. split; [reflexivity|]. split; reflexivity.
      * split; [reflexivity|]. assert (z = 0) by (apply Z.ltb_ge in E; lia). subst z.
        split; [reflexivity|]. split; [reflexivity|]. split; reflexivity.
  - split; [reflexivity|]. intros z Hz. destruct (0 <? z) eqn:E; cbn.
    + split; [reflexivity|]. split; reflexivity.
    + split; [reflexivity|]. assert (z = 0) by (apply Z.ltb_ge in E; lia). subst z.
      split; [reflexivity|]. split; [reflexivity|]. split; reflexivity.
Qed.

(** With the lane switched off nothing is ever hot, see below; here the flags in force. *)
Definition holds_flags (p : pair) (n h nz nh : bool) (s : store) : Prop :=
  (n = true -> ~ W p LNormal s) /\ (h = true -> ~ W p LHot s) /\
  (nz = true -> s_mode s (pair_key p) <> MNormal) /\ (nh = true -> s_mode s (pair_key p) <> MHot).

Definition good (p : pair) (s : store) : Prop :=
  ~ (W p LNormal s /\ W p LHot s) /\
  (s_mode s (pair_key p) = MHot -> ~ W p LNormal s) /\
  (s_mode s (pair_key p) = MNormal -> ~ W p LHot s).

Lemma mild_good p s s' : mild p s s' -> good p s -> good p s'.
Proof.
  intros [M R] (A & B & C). split; [|split].
  - intros [H1 H2]. apply A. auto.
  - intros E HW. destruct M as [M|M]; [|congruence]. apply B; [congruence|auto].
  - intros E HW. destruct M as [M|M]; [|congruence]. apply C; [congruence|auto].
Qed.

Lemma mild_flags p n h nz nh s s' : mild p s s' -> holds_flags p n h nz nh s -> holds_flags p n h nz nh s'.
Proof.
  intros [M R] (A & B & C & D). split; [|split; [|split]].
  - intros E HW. apply A; auto.
  - intros E HW. apply B; auto.
  - intros E. destruct M as [->| ->]; [auto|congruence].
  - intros E. destruct M as [->| ->]; [auto|congruence].
Qed.

Lemma safe_call p n h nz nh q s : safe p n h nz nh q -> holds_flags p n h nz nh s -> good p s ->
  good p (snd (call q s)) /\
  exists n' h' nz' nh', safe p n' h' nz' nh' (fst (call q s)) /\ holds_flags p n' h' nz' nh' (snd (call q s)).
Proof.
  intros Hs Hf Hg. pose proof Hf as (Fn & Fh & Fz & Fr). pose proof Hg as (G1 & G2 & G3).
  destruct q; cbn [call snd fst safe] in *.
  - split; [exact Hg|]. exists n, h, nz, nh. auto.
  - destruct Hs as [-> Hs]. split; [exact Hg|]. specialize (Hs (s_mode s (pair_key p))).
    do 4 eexists. split; [exact Hs|].
    split; [|split; [|split]]; rewrite orb_true_iff; intros [E|E]; auto; try (apply mode_eqb_eq in E; auto);
      rewrite negb_true_iff in E; intros E2; rewrite E2 in E; discriminate.
  - destruct Hs as (-> & Hm & Hs). split.
    + split; [|split]; [intros [? ?]; apply G1; split; eapply W_ext; eauto; reflexivity| |];
        simpl; rewrite put_same; destruct Hm as [-> | ->]; discriminate.
    + do 4 eexists. split; [exact Hs|]. split; [|split; [|split]]; simpl; rewrite ?put_same.
      * intros E HW. apply Fn; [exact E|]. eapply W_ext; [|exact HW]. reflexivity.
      * intros E HW. apply Fh; [exact E|]. eapply W_ext; [|exact HW]. reflexivity.
      * destruct Hm as [-> | ->]; discriminate.
      * destruct Hm as [-> | ->]; discriminate.
  - destruct Hs as (-> & -> & Hs). split.
    + split; [|split]; simpl; rewrite ?put_same.
      * intros [? ?]; apply G1; split; eapply W_ext; eauto; reflexivity.
      * intros _ HW. apply Fn; [reflexivity|]. eapply W_ext; [|exact HW]. reflexivity.
      * discriminate.
    + do 4 eexists. split; [exact Hs|]. split; [|split; [|split]]; simpl; rewrite ?put_same.
      * intros E HW. apply Fn; [exact E|]. eapply W_ext; [|exact HW]. reflexivity.
      * intros E HW. apply Fh; [exact E|]. eapply W_ext; [|exact HW]. reflexivity.
      * discriminate.
      * discriminate.
  - destruct Hs as (-> & -> & Hs). split.
    + split; [|split]; simpl; rewrite ?put_same.
      * intros [? ?]; apply G1; split; eapply W_ext; eauto; reflexivity.
      * discriminate.
      * intros _ HW. apply Fh; [reflexivity|]. eapply W_ext; [|exact HW]. reflexivity.
    + do 4 eexists. split; [exact Hs|]. split; [|split; [|split]]; simpl; rewrite ?put_same.
      * intros E HW. apply Fn; [exact E|]. eapply W_ext; [|exact HW]. reflexivity.
      * intros E HW. apply Fh; [exact E|]. eapply W_ext; [|exact HW]. reflexivity.
      * discriminate.
      * discriminate.
  - split; [exact Hg|]. do 4 eexists. split; [apply Hs|exact Hf].
  - destruct Hs.
  - split; [exact Hg|]. do 4 eexists. split; [exact Hs|exact Hf].
  - destruct Hs as [-> Hs]. split; [exact Hg|].
    specialize (Hs (count_rows p l (s_rows s)) (count_nonneg _ _ _)). do 4 eexists. split; [exact Hs|].
    split; [|split; [|split]]; try assumption; rewrite orb_true_iff; intros [E|E]; auto; destruct l; cbn in E.
    + apply Z.eqb_eq in E. now apply count_zero.
    + apply Z.ltb_lt, count_pos in E. intros HW. apply G1. auto.
    + apply Z.ltb_lt, count_pos in E. intros HW. apply G1. auto.
    + apply Z.eqb_eq in E. now apply count_zero.
  - destruct Hs as (Hw & Hl & Hs). split.
    2:{ exists false, false, false, false. split; [exact Hs|]. split; [|split; [|split]]; discriminate. }
    assert (Hin : forall l, W p l {| s_mode := s_mode s; s_active := s_active s; s_conflicts := s_conflicts s; s_rows := s_rows s ++ [w] |} ->
       W p l s \/ l = w_lane w).
    { intros l (x & Hx & Hy). simpl in Hx. apply in_app_or in Hx. destruct Hx as [Hx|[<-|[]]].
      - left. exists x. auto.
      - right. symmetry. tauto. }
    destruct (w_lane w) eqn:El; apply andb_true_iff in Hl; destruct Hl as [H1 H2]; subst; split; [|split| |split]; simpl.
    + intros [A B]. destruct (Hin _ B) as [B'|B']; [|discriminate]. now apply Fh.
    + intros E. exfalso. now apply Fr.
    + intros E HW. destruct (Hin _ HW) as [B'|B']; [|discriminate]. now apply Fh.
    + intros [A B]. destruct (Hin _ A) as [B'|B']; [|discriminate]. now apply Fn.
    + intros E HW. destruct (Hin _ HW) as [B'|B']; [|discriminate]. now apply Fn.
    + intros E. exfalso. now apply Fz.
Qed.

(** ** The whole system *)

Definition job_ok (p : pair) (s : store) (x : job * hprog) : Prop :=
  harmless p (snd x) \/
  (exists q, fst x = JAccept p q) /\ exists n h nz nh, safe p n h nz nh (snd x) /\ holds_flags p n h nz nh s.

(** At most one unfinished request for the pair. *)
Definition alone (p : pair) (y : system) : Prop :=
  forall i j q q' r r', nth_error (y_jobs y) i = Some (JAccept p q, r) -> nth_error (y_jobs y) j = Some (JAccept p q', r') ->
    r <> HRet -> r' <> HRet -> i = j.

Definition sound (p : pair) (y : system) : Prop :=
  good p (y_store y) /\ alone p y /\
  (forall i x, nth_error (y_jobs y) i = Some x -> job_ok p (y_store y) x) /\
  (forall p' q r, In (JAccept p' q, r) (y_jobs y) -> well_named p').

Lemma job_ok_mild p s s' x : mild p s s' -> job_ok p s x -> job_ok p s' x.
Proof.
  intros M [H|(E & n & h & nz & nh & H1 & H2)]; [left; exact H|right]. split; [exact E|].
  exists n, h, nz, nh. split; [exact H1|]. eapply mild_flags; eauto.
Qed.

Lemma safe_ret_harmless p q : q = HRet -> harmless p q.
Proof. intros ->. exact Logic.I. Qed.

Lemma call_ret s : call HRet s = (HRet, s). Proof. reflexivity. Qed.

Lemma posted_mild p s n w : nth_error (s_rows s) n = Some w ->
  mild p s {| s_mode := s_mode s; s_active := s_active s; s_conflicts := s_conflicts s;
              s_rows := set_nth n (with_child w) (s_rows s) |}.
Proof.
  intros E. split; [left; reflexivity|]. intros l (x & Hx & Hy). simpl in Hx.
  apply in_set_nth in Hx. destruct Hx as [->|Hx].
  - destruct Hy as (_ & _ & _ & Hy). discriminate.
  - exists x. auto.
Qed.

(** Replacing the program of one job. *)
Lemma sound_set p y i j q q' s' : sound p y -> nth_error (y_jobs y) i = Some (j, q) -> (q = HRet -> q' = HRet) ->
  good p s' -> (forall k x, k <> i -> nth_error (y_jobs y) k = Some x -> job_ok p s' x) -> job_ok p s' (j, q') ->
  sound p {| y_store := s'; y_jobs := set_nth i (j, q') (y_jobs y) |}.
Proof.
  intros (G & A & J & N) E Hq G' Jo Ji. split; [exact G'|]. split; [|split].
  - intros a b qa qb ra rb Ha Hb Na Nb. simpl in *. rewrite nth_set in Ha, Hb.
    assert (X : forall c qc rc, (if Nat.eqb i c then match nth_error (y_jobs y) i with Some _ => Some (j, q') | None => None end
        else nth_error (y_jobs y) c) = Some (JAccept p qc, rc) -> rc <> HRet ->
        exists rc', nth_error (y_jobs y) c = Some (JAccept p qc, rc') /\ rc' <> HRet).
    { intros c qc rc Hc Nc. destruct (Nat.eqb_spec i c) as [<-|Hn]; [|eauto]. rewrite E in *.
      injection Hc as -> ->. exists q. split; [reflexivity|]. intros ->. apply Nc. auto. }
    destruct (X _ _ _ Ha Na) as (r1 & H1 & N1), (X _ _ _ Hb Nb) as (r2 & H2 & N2). eapply A; eauto.
  - intros k x Hx. simpl in Hx. rewrite nth_set in Hx. destruct (Nat.eqb_spec i k) as [<-|Hn].
    + rewrite E in Hx. injection Hx as <-. exact Ji.
    + eapply Jo; [|exact Hx]. auto.
  - intros p' q0 r Hin. simpl in Hin. apply in_set_nth in Hin. destruct Hin as [Hin|Hin]; [|eapply N; eauto].
    injection Hin as <- ->. apply nth_error_In in E. eapply N; eauto.
Qed.

Lemma sound_store p y s' : sound p y -> mild p (y_store y) s' -> sound p {| y_store := s'; y_jobs := y_jobs y |}.
Proof.
  intros (G & A & J & N) M. split; [eapply mild_good; eauto|]. split; [exact A|]. split; [|exact N].
  intros i x Hx. eapply job_ok_mild; [exact M|]. eapply J; eauto.
Qed.

Lemma sound_harmless p y i j q q' s' : sound p y -> nth_error (y_jobs y) i = Some (j, q) -> (q = HRet -> q' = HRet) ->
  mild p (y_store y) s' -> harmless p q' -> sound p {| y_store := s'; y_jobs := set_nth i (j, q') (y_jobs y) |}.
Proof.
  intros S E Hq M H. eapply sound_set; eauto.
  - destruct S as (G & _). eapply mild_good; eauto.
  - intros k x _ Hx. destruct S as (_ & _ & J & _). eapply job_ok_mild; [exact M|]. eapply J; eauto.
  - left. exact H.
Qed.

Lemma same_put {A} (f : string -> A) k (a : A) : forall x, put f k a x = f x \/ put f k a x = a.
Proof. intros x. unfold put. destruct (String.eqb x k); auto. Qed.

Lemma sound_step cfg p y e : complete p -> h_enabled cfg = true -> well_named p -> (forall x, everything x -> keeps x e y) ->
  sound p y -> sound p (happen cfg e y).
Proof.
  intros Hc Hen Hp Hk S. pose proof S as (G & A & J & N).
  destruct e as [j|i|i f|i|n|k|k|k]; cbn [happen].
  - (* a job starts *)
    split; [exact G|]. split; [|split].
    + intros a b qa qb ra rb Ha Hb Na Nb. simpl in Ha, Hb.
      assert (Old : forall c x, nth_error (y_jobs y ++ [(j, prog_of cfg j)]) c = Some x ->
         nth_error (y_jobs y) c = Some x \/ (c = List.length (y_jobs y) /\ x = (j, prog_of cfg j))).
      { intros c x Hx. destruct (Nat.lt_ge_cases c (List.length (y_jobs y))) as [L|L].
        - rewrite nth_error_app1 in Hx by lia. auto.
        - rewrite nth_error_app2 in Hx by lia. destruct (c - List.length (y_jobs y))%nat as [|m] eqn:Em.
          + simpl in Hx. injection Hx as <-. right. split; [lia|reflexivity].
          + simpl in Hx. destruct m; discriminate. }
      destruct (Old _ _ Ha) as [Ha'|[Ea Xa]], (Old _ _ Hb) as [Hb'|[Eb Xb]].
      * eapply A; eauto.
      * exfalso. injection Xb as <- _. pose proof (Hk OneAtATime Logic.I) as K. simpl in K. apply Na.
        eapply K. eapply nth_error_In; eauto.
      * exfalso. injection Xa as <- _. pose proof (Hk OneAtATime Logic.I) as K. simpl in K. apply Nb.
        eapply K. eapply nth_error_In; eauto.
      * congruence.
    + intros i x Hx. simpl in *. apply nth_error_In in Hx. apply in_app_or in Hx. destruct Hx as [Hx|[<-|[]]].
      * apply In_nth_error in Hx. destruct Hx as [m Hx]. eapply J; eauto.
      * destruct j as [p' q|p']; cbn [prog_of]; [|left; apply report_harmless].
        pose proof (Hk Names Logic.I) as Hn. simpl in Hn.
        destruct (string_dec (pair_key p') (pair_key p)) as [Ek|Nk]; [|left; apply accept_harmless; exact Nk].
        apply key_inj in Ek; auto. subst p'. right. split; [eexists; reflexivity|].
        exists false, false, false, false. split; [apply accept_safe; auto|]. split; [|split; [|split]]; discriminate.
    + intros p' q r Hin. simpl in Hin. apply in_app_or in Hin. destruct Hin as [Hin|[Hin|[]]]; [eapply N; eauto|].
      injection Hin as -> _. exact (Hk Names Logic.I).
  - (* a call *)
    destruct (nth_error (y_jobs y) i) as [[j q]|] eqn:E; [|exact S].
    assert (Hr : q = HRet -> fst (call q (y_store y)) = HRet) by (intros ->; reflexivity).
    destruct (J _ _ E) as [H|((q0 & Ej) & n & h & nz & nh & Hs & Hf)]; simpl in *.
    + destruct (harmless_call p q (y_store y) H) as (M & H1 & _). eapply sound_harmless; eauto.
    + destruct (safe_call _ _ _ _ _ _ _ Hs Hf G) as (G' & n' & h' & nz' & nh' & Hs' & Hf').
      assert (Hd : q = HRet \/ q <> HRet) by (destruct q; [left; reflexivity|right; discriminate..]).
      destruct Hd as [->|Hn].
      * simpl. eapply sound_harmless; eauto; try apply mild_refl; try exact Logic.I.
      * eapply sound_set; eauto.
        -- intros k [jk qk] Hki Hx. destruct (J _ _ Hx) as [H|((q1 & Ek) & _)]; [left; exact H|].
           left. simpl in Ek. subst j jk. simpl.
           assert (Hd : qk = HRet \/ qk <> HRet) by (destruct qk; [left; reflexivity|right; discriminate..]).
           destruct Hd as [->|Hn']; [exact Logic.I|]. exfalso. apply Hki. eapply A; eauto.
        -- right. simpl. split; [eexists; exact Ej|]. exists n', h', nz', nh'. auto.
  - (* a failed call *)
    destruct (nth_error (y_jobs y) i) as [[j q]|] eqn:E; [|exact S].
    pose proof (Hk NoFault Logic.I) as Hn. simpl in Hn.
    destruct (J _ _ E) as [H|((q0 & Ej) & _)]; simpl in *; [|subst j; exfalso; eapply Hn; exact E].
    destruct (harmless_call p q (y_store y) H) as (M & _ & H1).
    eapply sound_harmless; eauto; [intros ->; reflexivity|destruct f; [apply mild_refl|exact M]].
  - (* a death *)
    destruct (nth_error (y_jobs y) i) as [[j q]|] eqn:E; [|exact S].
    eapply sound_harmless; eauto; try apply mild_refl; try exact Logic.I.
  - (* a row is done with *)
    destruct (nth_error (s_rows (y_store y)) n) as [w|] eqn:E; [|exact S].
    apply sound_store; [exact S|]. now apply posted_mild.
  - apply sound_store; [exact S|]. split; [left; reflexivity|intros l; apply W_ext; reflexivity].
  - apply sound_store; [exact S|]. split; [left; reflexivity|intros l; apply W_ext; reflexivity].
  - destruct (Hk NoLapse Logic.I).
Qed.

Lemma sound_history cfg p es y : complete p -> h_enabled cfg = true -> well_named p -> history cfg everything es y -> sound p y.
Proof.
  intros Hc Hen Hp H. induction H as [|es y e H IH Hk].
  - split; [|split; [|split]]; simpl.
    + split; [intros [(w & [] & _) _]|split; [discriminate|intros _ (w & [] & _)]].
    + intros [|?] ? ? ? ? ? X; discriminate.
    + intros [|?] ? X; discriminate.
    + intros ? ? ? [].
  - now apply sound_step.
Qed.

(** ** Properties of all rows *)

Fixpoint only (P : row -> Prop) (q : hprog) : Prop :=
  match q with
  | HRet => True
  | HGet _ c => forall a, only P (c a)
  | HSet _ _ c | HActivate _ c | HClear _ c | HTouch _ c => forall a, only P (c a)
  | HActive _ c => forall a, only P (c a)
  | HBump _ c | HCount _ _ c => forall a, only P (c a)
  | HInsert w c => P w /\ forall a, only P (c a)
  end.

Lemma resolve_only P cfg p' c : (forall a, only P (c a)) -> only P (resolve cfg p' c).
Proof.
  intros Hc. unfold resolve. destruct (negb _); [apply Hc|]. simpl.
  intros [[]|]; simpl; auto.
  - intros [n|]; [|apply Hc]. destruct (n =? 0); simpl; auto. intros [|]; apply Hc.
  - intros [[]|]; simpl; auto. intros [n|]; [|apply Hc]. destruct (0 <? n); simpl; intros [|]; apply Hc.
  - intros [n|]; [|apply Hc]. destruct (0 <? n); simpl; auto. intros [|]; apply Hc.
Qed.

Lemma report_only P cfg p : only P (report cfg p).
Proof.
  unfold report. destruct (_ || _); simpl; [exact Logic.I|].
  intros [n|]; simpl; [|exact Logic.I]. destruct (n <? _); simpl; [exact Logic.I|]. intros [[]|]; simpl; auto.
Qed.

Lemma accept_only (P : row -> Prop) cfg p q : (forall l, P {| w_pair := p; w_lane := l; w_queued := q; w_child := false |}) ->
  only P (accept cfg p q).
Proof.
  intros H. unfold accept. destruct (_ || _); simpl; [auto|]. apply resolve_only. intros a. simpl. auto.
Qed.

Definition all_rows (P : row -> Prop) (s : store) : Prop := forall w, In w (s_rows s) -> P w.

Lemma only_call P q s : only P q -> all_rows P s -> all_rows P (snd (call q s)) /\ only P (fst (call q s)) /\ only P (after_error q).
Proof.
  destruct q; cbn [call snd fst only after_error]; intros H Hn; try (split; [exact Hn|split; auto]).
  destruct H as [Hw H]. split; [|auto]. intros x Hx. simpl in Hx. apply in_app_or in Hx.
  destruct Hx as [Hx|[<-|[]]]; auto.
Qed.

Lemma only_history cfg (R : proviso -> Prop) (P : row -> Prop) es y :
  (forall w, P w -> P (with_child w)) ->
  (forall j y', In (EStart j) es -> (forall x, R x -> keeps x (EStart j) y') -> only P (prog_of cfg j)) ->
  history cfg R es y -> all_rows P (y_store y) /\ forall x, In x (y_jobs y) -> only P (snd x).
Proof.
  intros Hch Hst H. induction H as [|es y e H IH Hk].
  - split; intros ? [].
  - destruct IH as [IH1 IH2]. { intros j y' Hj. apply Hst. apply in_or_app. auto. }
    assert (Set1 : forall i j q s', all_rows P s' -> only P q ->
       all_rows P s' /\ forall x, In x (set_nth i (j, q) (y_jobs y)) -> only P (snd x)).
    { intros i j q s' A B. split; [exact A|]. intros x Hx. apply in_set_nth in Hx. destruct Hx as [->|Hx]; auto. }
    destruct e as [j|i|i f|i|n|k|k|k]; cbn [happen y_store y_jobs]; auto.
    + split; [exact IH1|]. intros x Hx. apply in_app_or in Hx. destruct Hx as [Hx|[<-|[]]]; auto.
      eapply Hst; [|exact Hk]. apply in_or_app. right. left. reflexivity.
    + destruct (nth_error (y_jobs y) i) as [[j q]|] eqn:E; [|auto]. apply nth_error_In in E. cbn [y_store y_jobs].
      destruct (only_call P q _ (IH2 _ E) IH1) as (A & B & C). auto.
    + destruct (nth_error (y_jobs y) i) as [[j q]|] eqn:E; [|auto]. apply nth_error_In in E. cbn [y_store y_jobs].
      destruct (only_call P q _ (IH2 _ E) IH1) as (A & B & C). destruct f; auto.
    + destruct (nth_error (y_jobs y) i) as [[j q]|] eqn:E; [|auto]. cbn [y_store y_jobs]. apply Set1; [exact IH1|exact Logic.I].
    + destruct (nth_error (s_rows (y_store y)) n) as [w|] eqn:E; [|auto]. apply nth_error_In in E. cbn [y_store y_jobs].
      split; [|exact IH2]. intros x Hx. simpl in Hx. apply in_set_nth in Hx. destruct Hx as [->|Hx]; [apply Hch, (IH1 w E)|auto].
Qed.

Lemma incomplete_iff p : (String.eqb (p_src p) "" || String.eqb (p_dst p) "" || String.eqb (p_cur p) "") = false <-> complete p.
Proof.
  unfold complete. rewrite !orb_false_iff, !String.eqb_neq. tauto.
Qed.

(** Hot rows belong to complete pairs, and there are none without the lane. *)
Definition hot_ok (cfg : hot_config) (w : row) : Prop := w_lane w = LHot -> complete (w_pair w) /\ h_enabled cfg = true.

Lemma prog_hot_ok cfg j : only (hot_ok cfg) (prog_of cfg j).
Proof.
  destruct j as [p q|p]; simpl; [|apply report_only]. unfold accept. destruct (_ || _) eqn:E.
  - simpl. split; [discriminate|auto].
  - apply incomplete_iff in E. destruct (h_enabled cfg) eqn:En.
    + apply resolve_only. intros a. simpl. split; [|auto]. intros _. auto.
    + unfold resolve. rewrite En. simpl. split; [discriminate|auto].
Qed.

Lemma hot_rows cfg R es y : history cfg R es y -> all_rows (hot_ok cfg) (y_store y).
Proof.
  intros H. eapply only_history in H; [apply H|auto|]. intros j _ _ _. apply prog_hot_ok.
Qed.

Theorem one_lane cfg es y p : history cfg everything es y -> ~ (waits p LNormal y /\ waits p LHot y).
Proof.
  intros H [HN HH].
  assert (Hp : well_named p).
  { destruct HN as (w & Hin & <- & _). eapply (only_history cfg everything (fun w => well_named (w_pair w))) in H.
    - apply H. exact Hin.
    - auto.
    - intros [p' q|p'] y' _ K; simpl; [|apply report_only]. apply accept_only. intros l0. simpl. exact (K Names Logic.I). }
  assert (complete p /\ h_enabled cfg = true) as [Ec En].
  { destruct HH as (w & Hin & <- & El & _). eapply hot_rows; eauto. }
  destruct (sound_history cfg p es y Ec En Hp H) as ((G & _) & _). apply G. split; assumption.
Qed.

(** ** A pair is hot only after enough conflicts *)

(** Reports on a key. *)
Fixpoint reported (k : string) (es : list event) : Z :=
  match es with
  | [] => 0
  | EStart (JReport q) :: r => (if String.eqb (pair_key q) k then 1 else 0) + reported k r
  | _ :: r => reported k r
  end.

Lemma reported_app k a b : reported k (a ++ b) = reported k a + reported k b.
Proof. induction a as [|e a IH]; [reflexivity|]. destruct e as [[p0 q0|p0]|i|i f|i|n|k0|k0|k0]; simpl; rewrite ?IH; lia. Qed.

(** Bumps of [k] a program still has before it. *)
Definition bumps (k : string) (q : hprog) : Z :=
  match q with HBump k' _ => if String.eqb k' k then 1 else 0 | _ => 0 end.

Definition all_bumps (k : string) (l : list (job * hprog)) : Z := fold_right (fun x a => bumps k (snd x) + a) 0 l.

(** [t]: the threshold is known to have been reached for [k]. *)
Fixpoint earned (cfg : hot_config) (k : string) (first t : bool) (q : hprog) : Prop :=
  match q with
  | HRet => True
  | HGet k' c => earned cfg k false t (c None) /\
      forall m, earned cfg k false (t || (String.eqb k' k && negb (mode_eqb m MNormal))) (c (Some m))
  | HSet k' m c => (k' = k -> m <> MNormal -> t = true) /\ forall a, earned cfg k false t (c a)
  | HActivate k' c => (k' = k -> t = true) /\ forall a, earned cfg k false t (c a)
  | HClear k' c => forall a, earned cfg k false t (c a)
  | HActive k' c => forall a, earned cfg k false t (c a)
  | HBump k' c => first = true /\ earned cfg k false t (c None) /\
      forall n, earned cfg k false (t || (String.eqb k' k && (threshold cfg <=? n))) (c (Some n))
  | HTouch k' c => forall a, earned cfg k false t (c a)
  | HCount _ _ c => forall a, earned cfg k false t (c a)
  | HInsert w c => (w_lane w = LHot -> pair_key (w_pair w) = k -> t = true) /\ forall a, earned cfg k false t (c a)
  end.

Lemma report_earned cfg k p : earned cfg k true false (report cfg p).
Proof.
  unfold report. destruct (_ || _); simpl; [exact Logic.I|]. split; [reflexivity|]. split; [exact Logic.I|].
  intros n. destruct (Z.ltb_spec n (threshold cfg)) as [L|L]; simpl; [exact Logic.I|].
  assert (threshold cfg <=? n = true) as -> by (apply Z.leb_le; lia). rewrite andb_true_r.
  split; [exact Logic.I|]. intros []; simpl; auto.
  split; [|auto]. intros -> _. rewrite String.eqb_refl. reflexivity.
Qed.

Lemma accept_earned cfg k p q : earned cfg k true false (accept cfg p q).
Proof.
  unfold accept. destruct (_ || _); simpl; [split; [discriminate|auto]|]. unfold resolve.
  destruct (negb _); simpl; [split; [discriminate|auto]|]. split; [split; [discriminate|auto]|].
  intros []; simpl.
  - split; [discriminate|auto].
  - rewrite andb_true_r. intros [n|]; simpl; [|split; [discriminate|auto]].
    destruct (n =? 0); simpl; [|split; [discriminate|auto]].
    split; [intros ->; apply String.eqb_refl|]. intros [|]; simpl; split; try discriminate; auto.
    intros _ ->. apply String.eqb_refl.
  - rewrite andb_true_r. assert (X : pair_key p = k -> String.eqb (pair_key p) k = true) by (intros ->; apply String.eqb_refl).
    intros [[]|]; simpl; try (split; [try discriminate; auto|auto]).
    intros [n|]; simpl; [|split; [discriminate|auto]].
    destruct (0 <? n); simpl.
    + split; [auto|]. intros [|]; simpl; split; try discriminate; auto.
    + intros [|]; simpl; split; try discriminate; auto.
  - rewrite andb_true_r. assert (X : pair_key p = k -> String.eqb (pair_key p) k = true) by (intros ->; apply String.eqb_refl).
    intros [n|]; simpl; [|split; [discriminate|auto]].
    destruct (0 <? n); simpl; [split; auto|]. intros [|]; simpl; split; try discriminate; auto.
Qed.

Lemma bumps_zero cfg k t q : earned cfg k false t q -> bumps k q = 0.
Proof. destruct q; simpl; auto. intros [H _]. discriminate. Qed.

(** The threshold has been reached for [k]. *)
Definition ripe (cfg : hot_config) (k : string) (es : list event) : Prop := threshold cfg <= reported k es.

Definition ledgered (cfg : hot_config) (k : string) (es : list event) (y : system) : Prop :=
  (s_mode (y_store y) k <> MNormal -> ripe cfg k es) /\
  (s_conflicts (y_store y) k + all_bumps k (y_jobs y) <= reported k es) /\
  (0 <= all_bumps k (y_jobs y)) /\ (0 <= s_conflicts (y_store y) k) /\
  (forall w, In w (s_rows (y_store y)) -> w_lane w = LHot -> pair_key (w_pair w) = k -> ripe cfg k es) /\
  (forall x, In x (y_jobs y) -> exists f t, earned cfg k f t (snd x) /\ (t = true -> ripe cfg k es)).

Lemma bumps_pos k q : 0 <= bumps k q <= 1.
Proof. destruct q; simpl; try lia. destruct (String.eqb _ _); lia. Qed.

Lemma all_bumps_set k l i j q q' : nth_error l i = Some (j, q) ->
  all_bumps k (set_nth i (j, q') l) = all_bumps k l - bumps k q + bumps k q'.
Proof.
  revert i. induction l as [|x l IH]; intros [|i] E; simpl in *; try discriminate.
  - injection E as ->. simpl. lia.
  - rewrite (IH _ E). lia.
Qed.

Lemma all_bumps_app k l x : all_bumps k (l ++ [x]) = all_bumps k l + bumps k (snd x).
Proof. induction l as [|y l IH]; simpl; [lia|]. rewrite IH. lia. Qed.

Lemma all_bumps_pos k l : 0 <= all_bumps k l.
Proof. induction l as [|x l IH]; simpl; [lia|]. pose proof (bumps_pos k (snd x)). lia. Qed.

Lemma earned_call cfg k f t q s : earned cfg k f t q ->
  exists t', earned cfg k false t' (fst (call q s)) /\
    (t' = true -> t = true \/ s_mode s k <> MNormal \/ threshold cfg <= s_conflicts s k + 1 /\ bumps k q = 1).
Proof.
  destruct q; cbn [call fst earned]; intros H.
  - exists t. auto.
  - destruct H as [_ H]. eexists. split; [apply H|]. rewrite orb_true_iff, andb_true_iff. intros [E|[E1 E2]]; [auto|].
    apply String.eqb_eq in E1. subst k0. right. left. apply negb_true_iff in E2. intros E. rewrite E in E2. discriminate.
  - destruct H as [_ H]. exists t. auto.
  - destruct H as [_ H]. exists t. auto.
  - exists t. auto.
  - exists t. auto.
  - destruct H as (_ & _ & H). eexists. split; [apply H|]. rewrite orb_true_iff, andb_true_iff. intros [E|[E1 E2]]; [auto|].
    right. right. simpl. rewrite E1. apply String.eqb_eq in E1. subst k0. apply Z.leb_le in E2. auto.
  - exists t. auto.
  - exists t. auto.
  - destruct H as [_ H]. exists t. auto.
Qed.

Lemma earned_error cfg k f t q : earned cfg k f t q -> earned cfg k false t (after_error q).
Proof. destruct q; simpl; try tauto; intros H; try apply H. Qed.

Lemma call_mode q s k cfg f t : earned cfg k f t q -> s_mode (snd (call q s)) k <> MNormal -> s_mode s k <> MNormal \/ t = true.
Proof.
  destruct q; cbn [call snd earned s_mode]; intros H Hm; auto; unfold put in Hm; destruct (String.eqb_spec k k0) as [->|]; auto.
  - right. apply H; auto.
  - right. apply H; auto.
Qed.

Lemma call_conflicts q s k : s_conflicts (snd (call q s)) k = s_conflicts s k + bumps k q \/ s_conflicts (snd (call q s)) k = 0.
Proof.
  destruct q; cbn [call snd s_conflicts bumps]; try lia; unfold put.
  - destruct (String.eqb k k0); lia.
  - rewrite (String.eqb_sym k0 k). destruct (String.eqb_spec k k0) as [->|]; lia.
Qed.

Lemma call_rows q s k cfg f t w : earned cfg k f t q -> In w (s_rows (snd (call q s))) -> w_lane w = LHot -> pair_key (w_pair w) = k ->
  In w (s_rows s) \/ t = true.
Proof.
  destruct q; cbn [call snd earned s_rows]; intros H Hin Hl Hk; auto.
  apply in_app_or in Hin. destruct Hin as [Hin|[->|[]]]; [auto|]. right. apply H; auto.
Qed.

Lemma ledgered_history cfg R k es y : history cfg R es y -> ledgered cfg k es y.
Proof.
  intros H. induction H as [|es y e H (A & B & B0 & B1 & C & D) Hk].
  - split; [simpl; congruence|]. simpl. split; [lia|]. split; [lia|]. split; [lia|]. split; intros ? [].
  - assert (Mono : reported k es <= reported k (es ++ [e])).
    { rewrite reported_app. destruct e as [[p0 q0|p0]|i|i f|i|n|k0|k0|k0]; simpl; try lia. destruct (String.eqb _ _); lia. }
    assert (Ripe : ripe cfg k es -> ripe cfg k (es ++ [e])) by (unfold ripe; lia).
    assert (Jobs : forall x, In x (y_jobs y) -> exists f t, earned cfg k f t (snd x) /\ (t = true -> ripe cfg k (es ++ [e]))).
    { intros x Hx. destruct (D x Hx) as (f & t & E & F). exists f, t. auto. }
    assert (Store : forall s', (s_mode s' k <> MNormal -> s_mode (y_store y) k <> MNormal) ->
        (s_conflicts s' k = s_conflicts (y_store y) k \/ s_conflicts s' k = 0) ->
        (forall w, In w (s_rows s') -> exists w', In w' (s_rows (y_store y)) /\ w_lane w' = w_lane w /\ w_pair w' = w_pair w) ->
        ledgered cfg k (es ++ [e]) {| y_store := s'; y_jobs := y_jobs y |}).
    { intros s' H1 H2 H3. unfold ledgered. simpl. split; [auto|]. split; [lia|]. split; [lia|]. split; [lia|]. split; [|exact Jobs].
      intros w Hw Hl Hkk. destruct (H3 w Hw) as (w' & W1 & W2 & W3). apply Ripe. eapply C; eauto; congruence. }
    destruct e as [j|i|i f|i|n|k0|k0|k0]; cbn [happen].
    + unfold ledgered. simpl. rewrite all_bumps_app. cbn [snd].
      assert (Hb : bumps k (prog_of cfg j) <= reported k [EStart j]).
      { destruct j as [p q|p]; simpl.
        - unfold accept. destruct (_ || _); simpl; [lia|]. unfold resolve. destruct (negb _); simpl; lia.
        - unfold report. destruct (_ || _); simpl; destruct (String.eqb (pair_key p) k); lia. }
      pose proof (bumps_pos k (prog_of cfg j)). rewrite reported_app.
      split; [auto|]. split; [lia|]. split; [lia|]. split; [lia|]. split; [intros w Hw Hl Hkk; apply Ripe; eauto|].
      intros x Hx. apply in_app_or in Hx. destruct Hx as [Hx|[<-|[]]]; [auto|].
      exists true, false. split; [|discriminate]. destruct j; simpl; [apply accept_earned|apply report_earned].
    + destruct (nth_error (y_jobs y) i) as [[j q]|] eqn:E.
      2:{ unfold ledgered. split; [auto|]. split; [lia|]. split; [lia|]. split; [lia|]. split; [intros w Hw Hl Hkk; apply Ripe; eauto|exact Jobs]. }
      assert (Hin := nth_error_In _ _ E). destruct (D _ Hin) as (f & t & Eq & Et). simpl in Eq.
      destruct (earned_call cfg k f t q (y_store y) Eq) as (t' & Eq' & Et').
      assert (Hrb : all_bumps k (y_jobs y) >= bumps k q).
      { clear -E. revert i E. induction (y_jobs y) as [|x l IH]; intros [|i] E; simpl in *; try discriminate.
        - injection E as ->. simpl. pose proof (all_bumps_pos k l). lia.
        - specialize (IH _ E). pose proof (bumps_pos k (snd x)). lia. }
      unfold ledgered. simpl. rewrite (all_bumps_set _ _ _ _ _ _ E), (bumps_zero _ _ _ _ Eq').
      pose proof (call_conflicts q (y_store y) k). pose proof (bumps_pos k q).
      split; [|split; [lia|split; [lia|split; [lia|split]]]].
      * intros Hm. destruct (call_mode q _ k cfg f t Eq Hm); auto.
      * intros w Hw Hl Hkk. destruct (call_rows q _ k cfg f t w Eq Hw Hl Hkk); [apply Ripe; eauto|auto].
      * intros x Hx. apply in_set_nth in Hx. destruct Hx as [->|Hx]; [|auto].
        exists false, t'. split; [exact Eq'|]. intros Ht. apply Ripe.
        destruct (Et' Ht) as [X|[X|[X1 X2]]]; auto. unfold ripe. lia.
    + destruct (nth_error (y_jobs y) i) as [[j q]|] eqn:E.
      2:{ unfold ledgered. split; [auto|]. split; [lia|]. split; [lia|]. split; [lia|]. split; [intros w Hw Hl Hkk; apply Ripe; eauto|exact Jobs]. }
      assert (Hin := nth_error_In _ _ E). destruct (D _ Hin) as (f0 & t & Eq & Et). simpl in Eq.
      assert (Hrb : all_bumps k (y_jobs y) >= bumps k q).
      { clear -E. revert i E. induction (y_jobs y) as [|x l IH]; intros [|i] E; simpl in *; try discriminate.
        - injection E as ->. simpl. pose proof (all_bumps_pos k l). lia.
        - specialize (IH _ E). pose proof (bumps_pos k (snd x)). lia. }
      pose proof (earned_error _ _ _ _ _ Eq) as Eq'.
      unfold ledgered. simpl. rewrite (all_bumps_set _ _ _ _ _ _ E), (bumps_zero _ _ _ _ Eq').
      pose proof (call_conflicts q (y_store y) k). pose proof (bumps_pos k q).
      split; [|split; [destruct f; lia|split; [lia|split; [destruct f; lia|split]]]].
      * destruct f; [auto|]. intros Hm. destruct (call_mode q _ k cfg f0 t Eq Hm); auto.
      * intros w Hw Hl Hkk. destruct f; [apply Ripe; eauto|].
        destruct (call_rows q _ k cfg f0 t w Eq Hw Hl Hkk); [apply Ripe; eauto|auto].
      * intros x Hx. apply in_set_nth in Hx. destruct Hx as [->|Hx]; [|auto].
        exists false, t. split; [exact Eq'|auto].
    + destruct (nth_error (y_jobs y) i) as [[j q]|] eqn:E.
      2:{ unfold ledgered. split; [auto|]. split; [lia|]. split; [lia|]. split; [lia|]. split; [intros w Hw Hl Hkk; apply Ripe; eauto|exact Jobs]. }
      unfold ledgered. simpl. rewrite (all_bumps_set _ _ _ _ _ _ E). simpl. pose proof (bumps_pos k q).
      assert (Hrb : all_bumps k (y_jobs y) >= bumps k q).
      { clear -E. revert i E. induction (y_jobs y) as [|x l IH]; intros [|i] E; simpl in *; try discriminate.
        - injection E as ->. simpl. pose proof (all_bumps_pos k l). lia.
        - specialize (IH _ E). pose proof (bumps_pos k (snd x)). lia. }
      split; [auto|]. split; [lia|]. split; [lia|]. split; [lia|]. split; [intros w Hw Hl Hkk; apply Ripe; eauto|].
      intros x Hx. apply in_set_nth in Hx. destruct Hx as [->|Hx]; [|auto]. exists false, false. split; [exact Logic.I|discriminate].
    + destruct (nth_error (s_rows (y_store y)) n) as [w|] eqn:E.
      * apply Store; simpl; auto. intros x Hx. apply in_set_nth in Hx. destruct Hx as [->|Hx]; [|eauto].
        exists w. apply nth_error_In in E. auto.
      * unfold ledgered. split; [auto|]. split; [lia|]. split; [lia|]. split; [lia|]. split; [intros w Hw Hl Hkk; apply Ripe; eauto|exact Jobs].
    + apply Store; simpl; eauto.
    + apply Store; simpl; eauto. unfold put. destruct (String.eqb k k0); auto.
    + apply Store; simpl; eauto. unfold put. destruct (String.eqb k k0); auto; congruence.
Qed.

Lemma conflicts_reported p es : barless (p_src p) -> barless (p_dst p) -> barless_history es -> conflicts p es = reported (pair_key p) es.
Proof.
  intros Hp1 Hp2. induction es as [|e es IH]; intros Hb; [reflexivity|].
  assert (IH' := IH (fun e He => Hb e (or_intror He))). specialize (Hb e (or_introl eq_refl)).
  destruct e as [[p' q|p']|i|i f|i|n|k0|k0|k0]; simpl; auto. rewrite IH'. f_equal.
  destruct Hb as [Hb1 Hb2]. unfold alike. destruct (String.eqb_spec (pair_key p') (pair_key p)) as [E|N].
  - symmetry in E. apply key_split in E; auto. destruct E as (-> & -> & ->). now rewrite !String.eqb_refl.
  - destruct (_ && _) eqn:E; [|reflexivity]. rewrite !andb_true_iff, !String.eqb_eq in E. destruct E as [[E1 E2] E3].
    exfalso. apply N. unfold pair_key. congruence.
Qed.

Theorem hot_after_conflicts cfg es y w : history cfg none_kept es y -> barless_history es ->
  In w (s_rows (y_store y)) -> w_lane w = LHot -> h_enabled cfg = true /\ threshold cfg <= conflicts (w_pair w) es.
Proof.
  intros H Hb Hin Hl. split; [eapply (hot_rows cfg); eauto|].
  assert (Hw : barless (p_src (w_pair w)) /\ barless (p_dst (w_pair w))).
  { clear Hl. revert w Hin. eapply (only_history cfg none_kept (fun w => barless (p_src (w_pair w)) /\ barless (p_dst (w_pair w)))).
    - auto.
    - intros [p' q|p'] y' Hj _; simpl; [|apply report_only]. apply accept_only. intros l0. simpl. exact (Hb _ Hj).
    - exact H. }
  rewrite conflicts_reported by tauto.
  destruct (ledgered_history cfg none_kept (pair_key (w_pair w)) es y H) as (_ & _ & _ & _ & C & _). eapply C; eauto.
Qed.

(** ** Undisturbed *)

Lemma empty_count p l s : queue_empty p l s -> count_rows p l (s_rows s) = 0.
Proof.
  intros H. destruct (Z.eq_dec (count_rows p l (s_rows s)) 0) as [E|N]; [exact E|].
  pose proof (count_nonneg p l (s_rows s)). destruct (count_pos p l s) as (w & Hin & E1 & E2 & E3 & E4); [lia|].
  rewrite (H w Hin E1 E2 E3) in E4. discriminate.
Qed.

Lemma accept_unfold cfg p q : complete p -> h_enabled cfg = true ->
  accept cfg p q = resolve cfg p (fun l => HInsert {| w_pair := p; w_lane := match l with Some l => l | None => LNormal end;
                                                     w_queued := q; w_child := false |} (fun _ => HRet)).
Proof. intros H _. apply incomplete_iff in H. unfold accept. now rewrite H. Qed.

Theorem back_to_normal cfg p q s : complete p -> h_enabled cfg = true ->
  s_mode s (pair_key p) <> MPromoting -> s_active s (pair_key p) = false -> queue_empty p LHot s ->
  let s' := finish (accept cfg p q) s in
  added s s' {| w_pair := p; w_lane := LNormal; w_queued := q; w_child := false |} /\ s_mode s' (pair_key p) = MNormal.
Proof.
  intros Hc Hen Hm Ha Hq. rewrite (accept_unfold cfg p q Hc Hen). unfold resolve. rewrite Hen. cbn [negb finish].
  apply empty_count in Hq. unfold added.
  destruct (s_mode s (pair_key p)) eqn:E; [|congruence| |]; cbn [finish call snd s_rows s_mode].
  - auto.
  - rewrite Ha. cbn [finish]. rewrite Hq. cbn. now rewrite put_same.
  - rewrite Hq. cbn. now rewrite put_same.
Qed.

Lemma report_finish cfg p s : complete p -> h_enabled cfg = true ->
  let s' := finish (report cfg p) s in
  s_rows s' = s_rows s /\ s_active s' (pair_key p) = true /\ s_conflicts s' (pair_key p) = s_conflicts s (pair_key p) + 1 /\
  s_mode s' (pair_key p) = if mode_eqb (s_mode s (pair_key p)) MNormal && (threshold cfg <=? s_conflicts s (pair_key p) + 1)
                           then MPromoting else s_mode s (pair_key p).
Proof.
  intros Hc Hen. apply incomplete_iff in Hc. unfold report. rewrite Hen. cbn [negb orb]. rewrite Hc. cbn [finish].
  cbn [call snd]. destruct (Z.ltb_spec (s_conflicts s (pair_key p) + 1) (threshold cfg)) as [L|L]; cbn [finish s_rows s_active s_conflicts s_mode].
  - rewrite !put_same. assert (threshold cfg <=? s_conflicts s (pair_key p) + 1 = false) as -> by (apply Z.leb_gt; lia).
    rewrite andb_false_r. auto.
  - assert (threshold cfg <=? s_conflicts s (pair_key p) + 1 = true) as -> by (apply Z.leb_le; lia).
    destruct (s_mode s (pair_key p)) eqn:E; cbn; rewrite ?put_same, ?E; auto.
Qed.

Lemma reports_finish cfg p n s : complete p -> h_enabled cfg = true -> 0 <= s_conflicts s (pair_key p) ->
  threshold cfg <= s_conflicts s (pair_key p) + Z.of_nat n -> (0 < n)%nat -> s_mode s (pair_key p) <> MCooling ->
  let s' := reports cfg p n s in
  s_rows s' = s_rows s /\ s_active s' (pair_key p) = true /\ (s_mode s' (pair_key p) = MPromoting \/ s_mode s' (pair_key p) = MHot).
Proof.
  intros Hc Hen. revert s. induction n as [|n IH]; intros s H0 Ht Hn Hm; [lia|]. cbn [reports].
  destruct (report_finish cfg p s Hc Hen) as (R & A & C & M).
  destruct n as [|n].
  - cbn [reports]. rewrite R, A, M. split; [reflexivity|]. split; [reflexivity|].
    assert (threshold cfg <=? s_conflicts s (pair_key p) + 1 = true) as -> by (apply Z.leb_le; lia).
    destruct (s_mode s (pair_key p)); cbn; auto; congruence.
  - destruct (IH (finish (report cfg p) s)) as (R' & A' & M').
    + lia.
    + rewrite C. lia.
    + lia.
    + rewrite M. destruct (_ && _); [discriminate|exact Hm].
    + rewrite R', R. auto.
Qed.

Theorem promoted cfg p q s : complete p -> h_enabled cfg = true -> 0 <= s_conflicts s (pair_key p) ->
  s_mode s (pair_key p) <> MCooling -> queue_empty p LNormal s ->
  let s1 := reports cfg p (Z.to_nat (threshold cfg)) s in
  added s1 (finish (accept cfg p q) s1) {| w_pair := p; w_lane := LHot; w_queued := q; w_child := false |} /\ s_rows s1 = s_rows s.
Proof.
  intros Hc Hen H0 Hm Hq. assert (Hpos : 0 < threshold cfg).
  { unfold threshold. destruct (Z.leb_spec (h_threshold cfg) 0); lia. }
  destruct (reports_finish cfg p (Z.to_nat (threshold cfg)) s Hc Hen H0) as (R & A & M); [lia|lia|exact Hm|].
  cbv zeta. split; [|exact R]. set (s1 := reports cfg p (Z.to_nat (threshold cfg)) s) in *.
  rewrite (accept_unfold cfg p q Hc Hen). unfold resolve. rewrite Hen. cbn [negb finish]. unfold added.
  destruct M as [->| ->]; cbn [finish].
  - rewrite R, (empty_count _ _ _ Hq). cbn. rewrite R. reflexivity.
  - rewrite A. cbn. reflexivity.
Qed.

(** ** Hot until it is quiet *)

Lemma hot_stays cfg p q s : complete p -> h_enabled cfg = true ->
  s_mode s (pair_key p) = MHot -> s_active s (pair_key p) = true ->
  let s' := finish (accept cfg p q) s in
  added s s' {| w_pair := p; w_lane := LHot; w_queued := q; w_child := false |} /\
  s_mode s' (pair_key p) = MHot /\ s_active s' (pair_key p) = true.
Proof.
  intros Hc Hen Hm Ha. rewrite (accept_unfold cfg p q Hc Hen). unfold resolve. rewrite Hen. cbn [negb finish call snd].
  rewrite Hm. cbn [finish call snd]. rewrite Ha. cbn. unfold added. cbn. repeat split; assumption.
Qed.

Theorem stays_hot cfg p q qs s : complete p -> h_enabled cfg = true ->
  s_mode s (pair_key p) = MPromoting -> queue_empty p LNormal s ->
  let s1 := finish (accept cfg p q) s in
  forall rows, let s2 := {| s_mode := s_mode s1; s_active := s_active s1; s_conflicts := s_conflicts s1; s_rows := rows |} in
  s_rows (fold_left (fun s q => finish (accept cfg p q) s) qs s2)
  = (rows ++ map (fun q => {| w_pair := p; w_lane := LHot; w_queued := q; w_child := false |}) qs)%list.
Proof.
  intros Hc Hen Hm Hq s1 rows s2.
  assert (M : s_mode s2 (pair_key p) = MHot /\ s_active s2 (pair_key p) = true).
  { unfold s2, s1. rewrite (accept_unfold cfg p q Hc Hen). unfold resolve. rewrite Hen. cbn [negb finish call snd].
    rewrite Hm. cbn [finish call snd]. apply empty_count in Hq. rewrite Hq. cbn. rewrite !put_same. auto. }
  change rows with (s_rows s2). clearbody s2. clear s1 rows. destruct M as [M A].
  revert s2 M A. induction qs as [|x qs IH]; intros s2 M A; cbn [fold_left map]; [now rewrite app_nil_r|].
  destruct (hot_stays cfg p x s2 Hc Hen M A) as (D & M' & A'). rewrite (IH _ M' A').
  unfold added in D. rewrite D, <- app_assoc. reflexivity.
Qed.
