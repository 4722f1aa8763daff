(** Monitors fire exactly when their condition holds. *)
From Coq Require Import ZArith QArith Qreduction List String Bool Lia Lqa.
From Verif Require Import Base SplitModel BalanceModel MonitorModel MonitorSpec.
Import ListNotations.
Local Open Scope string_scope.
Open Scope Z_scope.

Lemma trunc_int q n : (q == inject_Z n)%Q -> trunc_q q = n.
Proof.
  unfold trunc_q, Qeq, inject_Z. cbn. intros H. rewrite Z.mul_1_r in H. rewrite H. apply Z.quot_mul. lia.
Qed.

Lemma threshold_exact q : plain_threshold q -> (inject_Z (precise_value q) == q_value q * q_prec q)%Q.
Proof.
  intros (n & E & H). unfold precise_value, to_int64. rewrite (trunc_int _ _ E).
  change (2 ^ 63) with 9223372036854775808 in H.
  destruct (-9223372036854775808 <=? n) eqn:E1; [|lia]. destruct (n <? 9223372036854775808) eqn:E2; [|lia].
  symmetry. exact E.
Qed.

Lemma compare_iff v op n t : op <> "=" -> (inject_Z n == t)%Q ->
  (compare_op v op n = true /\ op <> "==" <-> compares op (inject_Z v) t).
Proof.
  intros Hop E. unfold compare_op. split.
  - intros [H Hne].
    destruct (String.eqb_spec op ">") as [->|]; [constructor; rewrite <- E; apply Z.ltb_lt in H; rewrite <- Zlt_Qlt; exact H|].
    destruct (String.eqb_spec op "<") as [->|]; [constructor; rewrite <- E; apply Z.ltb_lt in H; rewrite <- Zlt_Qlt; exact H|].
    destruct (String.eqb_spec op ">=") as [->|]; [constructor; rewrite <- E; apply Z.leb_le in H; rewrite <- Zle_Qle; exact H|].
    destruct (String.eqb_spec op "<=") as [->|]; [constructor; rewrite <- E; apply Z.leb_le in H; rewrite <- Zle_Qle; exact H|].
    destruct (String.eqb_spec op "!=") as [->|].
    { constructor. intros Heq. rewrite <- E in Heq. apply (proj1 (inject_Z_injective v n)) in Heq. rewrite Heq, Z.eqb_refl in H. discriminate. }
    destruct (String.eqb_spec op "==") as [->|]; [tauto|discriminate].
  - intros Hc. inversion Hc as [x y H|x y H|x y H|x y H|x y H|x y H]; subst; try tauto; (split; [|discriminate]); cbn.
    + rewrite <- E in H. apply Z.ltb_lt. rewrite Zlt_Qlt. exact H.
    + rewrite <- E in H. apply Z.ltb_lt. rewrite Zlt_Qlt. exact H.
    + rewrite <- E in H. apply Z.leb_le. rewrite Zle_Qle. exact H.
    + rewrite <- E in H. apply Z.leb_le. rewrite Zle_Qle. exact H.
    + rewrite <- E in H. apply negb_true_iff, Z.eqb_neq. intros ->. apply H. reflexivity.
Qed.

Lemma valid_field q : valid_condition q = true -> exists f, In f monitor_fields /\ q_field q = f.
Proof.
  unfold valid_condition. rewrite !andb_true_iff. intros [[[H _] _] _].
  apply existsb_exists in H. destruct H as (f & Hf & E). apply String.eqb_eq in E. eauto.
Qed.

(** A row that the API created, with its threshold intact. *)
Definition good_row (m : monitor) : Prop :=
  existsb (String.eqb (q_field (m_cond m))) monitor_fields = true /\
  existsb (String.eqb (q_op (m_cond m))) monitor_ops = true /\
  m_precise m = precise_value (m_cond m).

Lemma not_eqeq m : good_row m -> q_op (m_cond m) <> "==".
Proof. intros (_ & H & _) E. rewrite E in H. discriminate. Qed.

Lemma check_iff m b : good_row m -> plain_threshold (m_cond m) -> q_op (m_cond m) <> "=" ->
  (check_condition m b = true <-> condition_holds (m_cond m) b).
Proof.
  intros Hg Hp Hop. pose proof (threshold_exact _ Hp) as E.
  assert (Hne := not_eqeq m Hg). destruct Hg as (Hf & Ho & Epr). rewrite <- Epr in E.
  assert (C : forall v, compare_op v (q_op (m_cond m)) (m_precise m) = true <->
    compares (q_op (m_cond m)) (inject_Z v) (q_value (m_cond m) * q_prec (m_cond m))).
  { intros v. rewrite <- (compare_iff v _ _ _ Hop E). tauto. }
  unfold check_condition, condition_holds.
  apply existsb_exists in Hf. destruct Hf as (f & Hf & Ef). apply String.eqb_eq in Ef. rewrite Ef.
  cbn in Hf. destruct Hf as [<-|[<-|[<-|[<-|[<-|[<-|[]]]]]]]; cbn -[compare_op]; rewrite C;
    (split; [intros H; eexists; split; [constructor|exact H]|intros (v & Hv & H); inversion Hv; subst; exact H]).
Qed.

(** ** The cache *)
Record minv (y : msys) : Prop := {
  mi_rows : forall m, In m (y_table y) -> good_row m;
  mi_ids : NoDup (map m_id (y_table y));
  mi_cache : forall k l, y_cache y k = Some l -> l = monitors_of k (y_table y);
  mi_fills : forall k l, In (k, l) (y_fills y) -> l = monitors_of k (y_table y) }.

Lemma cache_set_some k v c k' l : cache_set k v c k' = Some l -> (k' = k /\ v = Some l) \/ (k' <> k /\ c k' = Some l).
Proof. unfold cache_set. destruct (String.eqb_spec k' k); auto. Qed.

Lemma in_drop_nth {A} n (l : list A) x : In x (drop_nth n l) -> In x l.
Proof. revert n. induction l as [|z l IH]; destruct n; cbn; auto. intros [H|H]; eauto. Qed.

Lemma monitors_app k a b : monitors_of k (a ++ b) = (monitors_of k a ++ monitors_of k b)%list.
Proof. unfold monitors_of. apply filter_app. Qed.

Lemma nodup_filter_map {A B} (f : A -> B) (p : A -> bool) l : NoDup (map f l) -> NoDup (map f (filter p l)).
Proof.
  induction l as [|x l IH]; cbn; auto. inversion 1 as [|? ? Hn Hd]; subst.
  destruct (p x); cbn; auto. constructor; auto. intros Hi. apply Hn.
  apply in_map_iff in Hi. destruct Hi as (z & E & Hz). apply filter_In in Hz. apply in_map_iff. exists z. tauto.
Qed.

Lemma nodup_snoc {A} (l : list A) x : NoDup l -> ~ In x l -> NoDup (l ++ [x]).
Proof.
  intros Hd Hn. induction Hd as [|z l Hz Hd IH]; cbn; [repeat constructor; auto|].
  constructor; [|apply IH; cbn in Hn; tauto]. rewrite in_app_iff. cbn in *. intros [H|[H|[]]]; [tauto|]. subst. tauto.
Qed.

Lemma mstep_inv y e y' out : minv y -> calm y e -> mstep y e = Some (y', out) -> minv y'.
Proof.
  intros [H1 H2 H3 H4] Hc Hs. destruct e as [id bal q|id bal q|id|bal|b|n]; cbn in Hs, Hc.
  - destruct (valid_condition q) eqn:Ev; [|discriminate]. destruct (db_accepts q) eqn:Ed; [|discriminate]. cbn [andb] in Hs.
    destruct (existsb _ _) eqn:Ee; [discriminate|]. injection Hs as <- <-. split; cbn.
    + intros m Hm. apply in_app_or in Hm. destruct Hm as [Hm|[<-|[]]]; auto.
      unfold db_accepts in Ed. rewrite !andb_true_iff in Ed. destruct Ed as [[[[E1 E2] _] _] _].
      split; [exact E1|]. split; [exact E2|]. reflexivity.
    + rewrite map_app. apply nodup_snoc; [exact H2|]. intros Hi.
      apply in_map_iff in Hi. destruct Hi as (m & E & Hm). assert (existsb (fun m => String.eqb (m_id m) id) (y_table y) = true).
      { apply existsb_exists. exists m. split; auto. apply String.eqb_eq. exact E. } congruence.
    + intros k l Hk. apply cache_set_some in Hk. destruct Hk as [[_ Hk]|[Hn Hk]]; [discriminate|].
      rewrite filter_app. cbn. destruct (String.eqb_spec bal k); [congruence|]. rewrite app_nil_r. exact (H3 k l Hk).
    + rewrite Hc. intros k l [].
  - destruct Hc as [Hf Hsame]. destruct (db_accepts q) eqn:Ed; [|discriminate]. cbn [andb] in Hs.
    destruct (existsb _ _) eqn:Ee; [|discriminate]. injection Hs as <- <-. split; cbn.
    + intros m Hm. apply in_map_iff in Hm. destruct Hm as (m0 & E & Hm0).
      destruct (String.eqb_spec (m_id m0) id) as [Ei|]; [|subst; auto]. subst m.
      destruct (Hsame m0 Hm0 Ei) as [_ Ev]. destruct (H1 m0 Hm0) as (_ & _ & Ep).
      unfold db_accepts in Ed. rewrite !andb_true_iff in Ed. destruct Ed as [[[[E1 E2] _] _] _].
      split; [exact E1|]. split; [exact E2|]. cbn. rewrite Ep. unfold precise_value. cbn. rewrite Ev. reflexivity.
    + rewrite map_map. erewrite map_ext; [exact H2|]. intros m. cbn. destruct (String.eqb_spec (m_id m) id); cbn; auto.
    + intros k l Hk. apply cache_set_some in Hk. destruct Hk as [[_ Hk]|[Hn Hk]]; [discriminate|].
      rewrite (H3 k l Hk). clear - Hsame Hn. induction (y_table y) as [|m t IH]; cbn; auto.
      assert (IH' : monitors_of k t = monitors_of k (map (fun m => if String.eqb (m_id m) id
        then {| m_id := id; m_bal := bal; m_cond := {| q_field := q_field q; q_op := q_op q; q_value := q_value q; q_prec := q_prec (m_cond m) |};
                m_precise := m_precise m |} else m) t)) by (apply IH; intros; apply Hsame; cbn; auto).
      unfold monitors_of in *. rewrite <- IH'.
      destruct (String.eqb_spec (m_id m) id) as [Ei|]; cbn; auto.
      destruct (Hsame m (or_introl eq_refl) Ei) as [Eb _]. rewrite Eb.
      destruct (String.eqb_spec bal k); [congruence|reflexivity].
    + rewrite Hf. intros k l [].
  - destruct (find _ _) as [m|] eqn:Ef; [|discriminate]. injection Hs as <- <-.
    apply find_some in Ef. destruct Ef as [Hm Ei]. apply String.eqb_eq in Ei. split; cbn.
    + intros x Hx. apply filter_In in Hx. apply H1. tauto.
    + apply nodup_filter_map. exact H2.
    + intros k l Hk. apply cache_set_some in Hk. destruct Hk as [[_ Hk]|[Hn Hk]]; [discriminate|].
      rewrite (H3 k l Hk). clear - Hn H2 Hm Ei. unfold monitors_of.
      assert (Huniq : forall x, In x (y_table y) -> m_id x = id -> m_bal x <> k).
      { intros x Hx Ex Eb. assert (x = m); [|subst; congruence].
        rewrite <- Ex in Ei. clear - H2 Hm Ei Hx. induction (y_table y) as [|z t IH]; [destruct Hx|]. cbn in H2. inversion H2 as [|? ? Hz Ht]; subst.
        destruct Hx as [->|Hx], Hm as [->|Hm]; auto.
        - exfalso. apply Hz. rewrite <- Ei. apply in_map. exact Hm.
        - exfalso. apply Hz. rewrite Ei. apply in_map. exact Hx. }
      clear - Huniq. induction (y_table y) as [|z t IH]; cbn; auto.
      assert (IH' := IH (fun x Hx => Huniq x (or_intror Hx))).
      destruct (String.eqb_spec (m_id z) id) as [E|E]; cbn.
      * destruct (String.eqb_spec (m_bal z) k) as [Eb|]; [destruct (Huniq z (or_introl eq_refl) E Eb)|exact IH'].
      * destruct (String.eqb (m_bal z) k); [f_equal|]; exact IH'.
    + rewrite Hc. intros k l [].
  - injection Hs as <- <-. split; try assumption; cbn [y_cache y_table]. intros k l Hk. apply cache_set_some in Hk. destruct Hk as [[_ Hk]|[_ Hk]]; [discriminate|exact (H3 k l Hk)].
  - destruct (y_cache y (b_id b)) eqn:Ec; injection Hs as <- <-; [split; assumption|]. split; try assumption; cbn [y_fills y_table].
    intros k l Hk. apply in_app_or in Hk. destruct Hk as [Hk|[Hk|[]]]; [apply H4; exact Hk|]. injection Hk as <- <-. reflexivity.
  - destruct (nth_error _ _) as [[k l]|] eqn:En; [|discriminate]. injection Hs as <- <-. split; try assumption; cbn [y_fills y_table y_cache].
    + intros k' l' Hk. apply cache_set_some in Hk. destruct Hk as [[-> Hk]|[_ Hk]]; [|auto].
      injection Hk as <-. apply H4. eapply nth_error_In; eauto.
    + intros k' l' Hk. apply H4. eapply in_drop_nth; eauto.
Qed.

Lemma mruns_inv es : forall y y', minv y -> mruns calm y es y' -> minv y'.
Proof.
  induction es as [|e es IH]; cbn; intros y y' Hi H; [subst; exact Hi|].
  destruct H as (Hc & y1 & out & Hs & Hr). eapply IH; [|exact Hr]. eapply mstep_inv; eauto.
Qed.

Lemma mreach_inv y : mreach y -> minv y.
Proof.
  intros [es H]. eapply mruns_inv; [|exact H]. split; cbn; try tauto; try constructor. discriminate.
Qed.

(** On every update of a balance exactly those of its monitors fire whose condition holds. *)
Lemma fires_exactly y b y' out : mreach y -> mstep y (MCheck b) = Some (y', out) ->
  forall m, plain_threshold (m_cond m) -> q_op (m_cond m) <> "=" ->
  (In m out <-> In m (y_table y) /\ m_bal m = b_id b /\ condition_holds (m_cond m) b).
Proof.
  intros Hr Hs m Hp Hop. apply mreach_inv in Hr. destruct Hr as [H1 H2 H3 H4].
  assert (Hout : out = filter (fun m => check_condition m b) (monitors_of (b_id b) (y_table y))).
  { cbn in Hs. destruct (y_cache y (b_id b)) as [l|] eqn:Ec; injection Hs as <- <-; auto. rewrite (H3 _ _ Ec). reflexivity. }
  subst out. unfold monitors_of. rewrite !filter_In, String.eqb_eq. split.
  - intros [[Ht Eb] Hc]. split; auto. split; auto. apply check_iff; auto.
  - intros (Ht & Eb & Hc). split; auto. apply check_iff; auto.
Qed.

Lemma each_fires_once y b y' out : mreach y -> mstep y (MCheck b) = Some (y', out) -> NoDup (map m_id out).
Proof.
  intros Hr Hs. apply mreach_inv in Hr. destruct Hr as [H1 H2 H3 H4].
  assert (Hout : out = filter (fun m => check_condition m b) (monitors_of (b_id b) (y_table y))).
  { cbn in Hs. destruct (y_cache y (b_id b)) as [l|] eqn:Ec; injection Hs as <- <-; auto. rewrite (H3 _ _ Ec). reflexivity. }
  subst out. unfold monitors_of. apply nodup_filter_map, nodup_filter_map. exact H2.
Qed.

(** An equality monitor never fires. *)
Lemma equality_never_fires m b : q_op (m_cond m) = "=" -> check_condition m b = false.
Proof.
  intros E. unfold check_condition. rewrite E.
  repeat match goal with |- context [if ?c then _ else _] => destruct c end; reflexivity.
Qed.

(** Accepted requests are visible and deleted ones are gone. *)
Lemma created_is_watched y id bal q y' out : mstep y (MCreate id bal q) = Some (y', out) ->
  In {| m_id := id; m_bal := bal; m_cond := q; m_precise := precise_value q |} (y_table y').
Proof. cbn. destruct (_ && _); [|discriminate]. intros H. injection H as <- <-. cbn. apply in_or_app. right. left. reflexivity. Qed.

Lemma deleted_is_gone y id y' out : mstep y (MDelete id) = Some (y', out) -> forall m, In m (y_table y') -> m_id m <> id.
Proof.
  cbn. destruct (find _ _) as [m0|]; [|discriminate]. intros H. injection H as <- <-. cbn. intros m Hm. apply filter_In in Hm.
  destruct Hm as [_ Hm]. apply negb_true_iff, String.eqb_neq in Hm. exact Hm.
Qed.
