From Coq Require Import ZArith QArith List String Bool Arith Lia.
From Verif Require Import Base MoneyModel SplitModel BalanceModel CellModel CellSpec.
Import ListNotations.
Local Open Scope Z_scope.
Local Open Scope list_scope.

Lemma field_eqb_eq f g : field_eqb f g = true <-> f = g.
Proof. destruct f, g; split; intros H; try reflexivity; discriminate H. Qed.
Lemma field_refl f : field_eqb f f = true. Proof. destruct f; reflexivity. Qed.
Lemma set_same {A} (f : nat -> A) i v : set f i v i = v. Proof. unfold set. rewrite Nat.eqb_refl. reflexivity. Qed.
Lemma set_other {A} (f : nat -> A) i j v : i <> j -> set f i v j = f j.
Proof. intros H. unfold set. destruct (Nat.eqb_spec i j); [contradiction|reflexivity]. Qed.
Lemma replace_length {A} (l : list A) : forall i v, List.length (replace l i v) = List.length l.
Proof. induction l; intros [|i] v; cbn; auto. Qed.
Lemma nth_replace {A} (l : list A) : forall i v d, (i < List.length l)%nat -> nth i (replace l i v) d = v.
Proof. induction l; intros [|i] v d H; cbn in *; try lia; [reflexivity|apply IHl; lia]. Qed.
Lemma nth_replace_other {A} (l : list A) : forall i j v d, i <> j -> nth j (replace l i v) d = nth j l d.
Proof. induction l; intros [|i] [|j] v d H; cbn; auto; try lia. Qed.

Lemma replace_twice {A} (l : list A) : forall i v v', replace (replace l i v) i v' = replace l i v'.
Proof. induction l; intros [|i] v v'; cbn; auto. f_equal. apply IHl. Qed.

Record agree (m : mem) (w : plain) : Prop := {
  ag_nb : List.length (p_bal w) = m_nb m;
  ag_nt : List.length (p_txn w) = m_nt m;
  ag_bal : forall b, (b < m_nb m)%nat -> nth b (p_bal w) no_row = (read_bal m b, option_map (m_int m) (m_bal m b FQCr));
  ag_txn : forall x, (x < m_nt m)%nat -> nth x (p_txn w) no_txn = read_txn m x;
  ag_res : p_res w = m_res m;
  ag_out : p_out w = m_out m;
  td_ptr : forall b f p, (b < m_nb m)%nat -> m_bal m b f = Some p -> (p < m_next m)%nat;
  td_own : forall b f c g p, (b < m_nb m)%nat -> (c < m_nb m)%nat -> m_bal m b f = Some p -> m_bal m c g = Some p -> b = c /\ f = g;
  td_amt : forall x p, (x < m_nt m)%nat -> o_amt (m_txn m x) = Some p -> (p < m_next m)%nat /\ forall b f, (b < m_nb m)%nat -> m_bal m b f <> Some p;
  td_void : forall x, (x < m_nt m)%nat -> t_status (o_rest (m_txn m x)) = SVoid -> o_amt (m_txn m x) <> None }.

Lemma bal_read m w b : agree m w -> (b < m_nb m)%nat -> bal w b = read_bal m b.
Proof. intros A H. unfold bal. rewrite (ag_bal _ _ A b H). reflexivity. Qed.

(** ** Writing a counter *)
Definition put (f : field) (z : Z) (v : balance) : balance :=
  match f with
  | FBal => with_counters v z (b_cr v) (b_db v) (b_ibal v) (b_icr v) (b_idb v)
  | FIBal => with_counters v (b_bal v) (b_cr v) (b_db v) z (b_icr v) (b_idb v)
  | FCr => with_counters v (b_bal v) z (b_db v) (b_ibal v) (b_icr v) (b_idb v)
  | FICr => with_counters v (b_bal v) (b_cr v) (b_db v) (b_ibal v) z (b_idb v)
  | FDb => with_counters v (b_bal v) (b_cr v) z (b_ibal v) (b_icr v) (b_idb v)
  | FIDb => with_counters v (b_bal v) (b_cr v) (b_db v) (b_ibal v) (b_icr v) z
  | _ => v
  end.
Definition counter (f : field) : bool := match f with FQDb | FQCr => false | _ => true end.
Definition get (f : field) (v : balance) : Z :=
  match f with FBal => b_bal v | FIBal => b_ibal v | FCr => b_cr v | FICr => b_icr v | FDb => b_db v | FIDb => b_idb v | _ => 0 end.

Lemma get_read m b f : counter f = true -> get f (read_bal m b) = at_ m (m_bal m b f).
Proof. destruct f; intros H; try discriminate H; reflexivity. Qed.

Lemma write m w b f p z : agree m w -> (b < m_nb m)%nat -> counter f = true -> m_bal m b f = Some p ->
  agree (put_int m p z) (with_bal w b (put f z (bal w b))).
Proof.
  intros A Hb Hf Hp.
  assert (K : forall c g, (c < m_nb m)%nat -> option_map (m_int (put_int m p z)) (m_bal m c g) = if Nat.eqb b c && field_eqb f g then Some z else option_map (m_int m) (m_bal m c g)).
  { intros c g Hc. destruct (m_bal m c g) as [q|] eqn:E.
    - cbn. unfold set. destruct (Nat.eqb_spec p q) as [<-|N].
      + destruct (td_own _ _ A b f c g p Hb Hc Hp E) as [-> ->]. rewrite Nat.eqb_refl, field_refl. reflexivity.
      + destruct (Nat.eqb_spec b c) as [->|]; [|reflexivity]. destruct (field_eqb f g) eqn:Eg; [|reflexivity]. apply field_eqb_eq in Eg. subst g. congruence.
    - cbn. destruct (Nat.eqb_spec b c) as [->|]; [|reflexivity]. destruct (field_eqb f g) eqn:Eg; [|reflexivity]. apply field_eqb_eq in Eg. subst g. congruence. }
  assert (K0 : forall c g, (c < m_nb m)%nat -> at_ (put_int m p z) (m_bal m c g) = if Nat.eqb b c && field_eqb f g then z else at_ m (m_bal m c g)).
  { intros c g Hc. pose proof (K c g Hc) as E. destruct (m_bal m c g); cbn in E |- *; destruct (Nat.eqb b c && field_eqb f g); congruence. }
  split; cbn [with_bal p_bal p_txn p_res p_out put_int m_nb m_nt m_next m_bal m_txn m_res m_out]; try apply A.
  - rewrite replace_length. apply A.
  - intros c Hc. destruct (Nat.eq_dec b c) as [<-|N].
    + rewrite nth_replace by (rewrite (ag_nb _ _ A); exact Hb). rewrite (ag_bal _ _ A b Hb). cbn [snd]. f_equal.
      * rewrite (bal_read _ _ _ A Hb). unfold read_bal. cbn [put_int m_bal]. rewrite !K0, K by exact Hb. rewrite Nat.eqb_refl. destruct f; try discriminate Hf; reflexivity.
      * change (m_int (put_int m p z)) with (m_int (put_int m p z)). rewrite K by exact Hb. destruct f; try discriminate Hf; rewrite andb_false_r; reflexivity.
    + rewrite nth_replace_other by exact N. rewrite (ag_bal _ _ A c Hc). f_equal.
      * unfold read_bal. cbn [put_int m_bal]. rewrite !K0, K by exact Hc. apply Nat.eqb_neq in N. rewrite N. reflexivity.
      * rewrite K by exact Hc. apply Nat.eqb_neq in N. rewrite N. reflexivity.
  - intros x Hx. rewrite (ag_txn _ _ A x Hx). unfold read_txn. cbn [put_int m_txn]. destruct (o_amt (m_txn m x)) as [q|] eqn:E; [|reflexivity].
    cbn. rewrite set_other; [reflexivity|]. intros ->. exact (proj2 (td_amt _ _ A x q Hx E) b f Hb Hp).
Qed.

(** ** New integers *)
Lemma fresh m w z : agree m w -> agree (snd (new_int m z)) w.
Proof.
  intros A.
  assert (K : forall c g, (c < m_nb m)%nat -> option_map (set (m_int m) (m_next m) z) (m_bal m c g) = option_map (m_int m) (m_bal m c g)).
  { intros c g Hc. destruct (m_bal m c g) as [q|] eqn:E; [|reflexivity]. cbn. rewrite set_other; [reflexivity|]. pose proof (td_ptr _ _ A c g q Hc E). lia. }
  assert (K0 : forall c g, (c < m_nb m)%nat -> at_ (snd (new_int m z)) (m_bal m c g) = at_ m (m_bal m c g)).
  { intros c g Hc. pose proof (K c g Hc) as E. destruct (m_bal m c g); cbn in *; congruence. }
  split.
  - apply A.
  - apply A.
  - intros c Hc. rewrite (ag_bal _ _ A c Hc). f_equal.
    + unfold read_bal. change (m_bal (snd (new_int m z))) with (m_bal m). rewrite !K0 by exact Hc. change (m_int (snd (new_int m z))) with (set (m_int m) (m_next m) z).
      rewrite K by exact Hc. reflexivity.
    + symmetry. apply K. exact Hc.
  - intros x Hx. rewrite (ag_txn _ _ A x Hx). unfold read_txn. change (m_txn (snd (new_int m z))) with (m_txn m). destruct (o_amt (m_txn m x)) as [q|] eqn:E; [|reflexivity].
    cbn. rewrite set_other; [reflexivity|]. pose proof (proj1 (td_amt _ _ A x q Hx E)). lia.
  - apply A.
  - apply A.
  - intros b f p Hb E. pose proof (td_ptr _ _ A b f p Hb E). cbn. lia.
  - apply A.
  - intros x p Hx E. destruct (td_amt _ _ A x p Hx E) as [H1 H2]. split; [cbn; lia|exact H2].
  - apply A.
Qed.

(** ** Initializing *)
Definition ready (m : mem) (b : nat) : Prop := forall f, counter f = true -> m_bal m b f <> None.
Definition keeps (m m' : mem) : Prop :=
  m_txn m' = m_txn m /\ m_nb m' = m_nb m /\ m_nt m' = m_nt m /\ forall b f, m_bal m b f <> None -> m_bal m' b f <> None.
Lemma keeps_refl m : keeps m m. Proof. repeat split; auto. Qed.
Lemma keeps_trans a b c : keeps a b -> keeps b c -> keeps a c.
Proof. intros (H1 & H2 & H3 & H4) (K1 & K2 & K3 & K4). repeat split; try congruence. intros x f H. apply K4, H4, H. Qed.

Lemma init1_agree m w b f : agree m w -> (b < m_nb m)%nat -> counter f = true -> agree (init1 b m f) w /\ keeps m (init1 b m f) /\ m_bal (init1 b m f) b f <> None.
Proof.
  intros A Hb Hf. unfold init1. destruct (m_bal m b f) as [p|] eqn:E; [split; [exact A|split; [apply keeps_refl|congruence]]|].
  pose proof (fresh m w 0 A) as F. cbn [new_int]. cbn [new_int snd] in F. set (m1 := {| m_int := set (m_int m) (m_next m) 0 |}) in *.
  assert (P0 : m_int m1 (m_next m) = 0) by (cbn; apply set_same).
  assert (G : forall c g, put_field m1 b f (Some (m_next m)) = put_field m1 b f (Some (m_next m)) -> m_bal (put_field m1 b f (Some (m_next m))) c g = if Nat.eqb b c && field_eqb f g then Some (m_next m) else m_bal m c g).
  { intros c g _. cbn. unfold set. destruct (Nat.eqb_spec b c) as [->|]; [|reflexivity]. destruct (field_eqb f g); reflexivity. }
  specialize (fun c g => G c g eq_refl).
  assert (V : forall c g, at_ m1 (m_bal (put_field m1 b f (Some (m_next m))) c g) = at_ m1 (m_bal m c g)).
  { intros c g. rewrite G. destruct (Nat.eqb_spec b c) as [->|]; [|reflexivity]. destruct (field_eqb f g) eqn:Eg; [|reflexivity].
    apply field_eqb_eq in Eg. subst g. rewrite E. cbn [at_ andb]. exact P0. }
  assert (Q : forall c g, counter g = false -> m_bal (put_field m1 b f (Some (m_next m))) c g = m_bal m c g).
  { intros c g Hg. rewrite G. destruct (field_eqb f g) eqn:Eg; [apply field_eqb_eq in Eg; congruence|]. rewrite andb_false_r. reflexivity. }
  split; [|split].
  - split; cbn [put_field m_nb m_nt m_next m_txn m_res m_out]; try apply F.
    + intros c Hc. rewrite (ag_bal _ _ F c Hc). f_equal.
      * unfold read_bal. rewrite (Q c FQDb eq_refl). change (at_ (put_field m1 b f (Some (m_next m)))) with (at_ m1). rewrite !V. reflexivity.
      * rewrite (Q c FQCr eq_refl). reflexivity.
    + intros c g p Hc. rewrite G. destruct (Nat.eqb b c && field_eqb f g); [intros [= <-]; cbn; lia|]. intros Ep. pose proof (td_ptr _ _ A c g p Hc Ep). cbn. lia.
    + intros c g c' g' p Hc Hc'. rewrite !G. destruct (Nat.eqb_spec b c) as [<-|N], (Nat.eqb_spec b c') as [<-|N']; cbn [andb].
      * destruct (field_eqb f g) eqn:Eg, (field_eqb f g') eqn:Eg'; rewrite ?field_eqb_eq in *; subst; auto.
        -- intros [= <-] Ep. pose proof (td_ptr _ _ A _ _ _ Hc Ep). lia.
        -- intros Ep [= <-]. pose proof (td_ptr _ _ A _ _ _ Hc Ep). lia.
        -- apply (td_own _ _ A); assumption.
      * destruct (field_eqb f g) eqn:Eg; rewrite ?field_eqb_eq in *; subst.
        -- intros [= <-] Ep. pose proof (td_ptr _ _ A _ _ _ Hc' Ep). lia.
        -- apply (td_own _ _ A); assumption.
      * destruct (field_eqb f g') eqn:Eg; rewrite ?field_eqb_eq in *; subst.
        -- intros Ep [= <-]. pose proof (td_ptr _ _ A _ _ _ Hc Ep). lia.
        -- apply (td_own _ _ A); assumption.
      * apply (td_own _ _ A); assumption.
    + intros x p Hx Ep. destruct (td_amt _ _ F x p Hx Ep) as [H1 H2]. split; [exact H1|]. intros c g Hc. rewrite G.
      destruct (Nat.eqb b c && field_eqb f g); [|apply H2; exact Hc]. intros [= <-]. pose proof (proj1 (td_amt _ _ A x _ Hx Ep)). lia.
  - repeat split. intros c g H. rewrite G. destruct (Nat.eqb b c && field_eqb f g); [discriminate|exact H].
  - rewrite G, Nat.eqb_refl, field_refl. discriminate.
Qed.

Lemma init_agree m w b : agree m w -> (b < m_nb m)%nat -> agree (init m b) w /\ keeps m (init m b) /\ ready (init m b) b.
Proof.
  intros A Hb. unfold init.
  assert (H : forall fs m, agree m w -> (b < m_nb m)%nat -> (forall f, In f fs -> counter f = true) ->
    agree (fold_left (init1 b) fs m) w /\ keeps m (fold_left (init1 b) fs m) /\ forall f, In f fs -> m_bal (fold_left (init1 b) fs m) b f <> None).
  { clear m A Hb. induction fs as [|f fs IH]; intros m A Hb Hf; [split; [exact A|split; [apply keeps_refl|intros f []]]|].
    cbn [fold_left]. destruct (init1_agree m w b f A Hb (Hf f (or_introl eq_refl))) as (A1 & K1 & N1).
    destruct (IH (init1 b m f) A1) as (A2 & K2 & N2); [destruct K1 as (_ & -> & _); exact Hb|intros g Hg; apply Hf; right; exact Hg|].
    split; [exact A2|]. split; [eapply keeps_trans; eauto|]. intros g [<-|Hg]; [apply K2, N1|apply N2, Hg]. }
  destruct (H [FIDb; FICr; FIBal; FDb; FCr; FBal] m A Hb) as (H1 & H2 & H3).
  - intros f Hf. cbn in Hf. intuition (subst; reflexivity).
  - split; [exact H1|]. split; [exact H2|]. intros f Hf. apply H3. destruct f; try discriminate Hf; cbn; intuition.
Qed.

Lemma keeps_put m p z : keeps m (put_int m p z). Proof. repeat split; auto. Qed.
Lemma keeps_ready m m' b : keeps m m' -> ready m b -> ready m' b.
Proof. intros K R f Hf. apply K, R, Hf. Qed.

(** z.op(x, y) on two counters of one balance *)
Lemma ints_agree m w b f g h o : agree m w -> (b < m_nb m)%nat -> ready m b -> counter f = true -> counter g = true -> counter h = true ->
  exists m', ints o m (m_bal m b f) (m_bal m b g) (m_bal m b h) = Some m' /\ agree m' (with_bal w b (put f (o (get g (bal w b)) (get h (bal w b))) (bal w b))) /\ keeps m m'.
Proof.
  intros A Hb R Hf Hg Hh. assert (K : forall h, counter h = true -> get h (bal w b) = at_ m (m_bal m b h)) by (intros k Hk; rewrite (bal_read m w b A Hb); apply get_read; exact Hk).
  rewrite !K by assumption. unfold ints.
  destruct (m_bal m b f) as [p|] eqn:Ef; [|exfalso; exact (R f Hf Ef)].
  destruct (m_bal m b g) as [q|] eqn:Eg; [|exfalso; exact (R g Hg Eg)].
  destruct (m_bal m b h) as [r|] eqn:Eh; [|exfalso; exact (R h Hh Eh)].
  eexists. split; [reflexivity|]. split; [apply (write m w b f p _ A Hb Hf Ef)|apply keeps_put].
Qed.

Lemma ints_amt m w b f o x : agree m w -> (b < m_nb m)%nat -> ready m b -> counter f = true -> (x < m_nt m)%nat -> o_amt (m_txn m x) <> None ->
  exists m', ints o m (m_bal m b f) (m_bal m b f) (o_amt (m_txn m x)) = Some m' /\
    agree m' (with_bal w b (put f (o (get f (bal w b)) (t_precise (nth x (p_txn w) no_txn))) (bal w b))) /\ keeps m m'.
Proof.
  intros A Hb R Hf Hx Ha. assert (K : get f (bal w b) = at_ m (m_bal m b f)) by (rewrite (bal_read m w b A Hb); apply get_read; exact Hf).
  rewrite K. rewrite (ag_txn _ _ A x Hx). unfold ints, read_txn. cbn [with_money t_precise].
  destruct (m_bal m b f) as [p|] eqn:Ef; [|exfalso; exact (R f Hf Ef)]. destruct (o_amt (m_txn m x)) as [q|] eqn:Ea; [|contradiction].
  eexists. split; [reflexivity|]. split; [apply (write m w b f p _ A Hb Hf Ef)|apply keeps_put].
Qed.

Lemma with_bal_twice w b v v' : with_bal (with_bal w b v) b v' = with_bal w b v'.
Proof.
  unfold with_bal. cbn [p_bal p_txn p_res p_out]. f_equal.
  generalize (p_bal w) as l. intros l. assert (E : snd (nth b (replace l b (v, snd (nth b l no_row))) no_row) = snd (nth b l no_row)).
  { destruct (Nat.lt_ge_cases b (List.length l)) as [L|L]; [rewrite nth_replace by exact L; reflexivity|]. rewrite !nth_overflow by (rewrite ?replace_length; lia). reflexivity. }
  rewrite E. apply replace_twice.
Qed.

Lemma bal_with w b v : (b < List.length (p_bal w))%nat -> bal (with_bal w b v) b = v.
Proof. intros H. unfold bal, with_bal. cbn [p_bal]. rewrite nth_replace by exact H. reflexivity. Qed.

(** ** The methods of a balance *)
Section Methods.
  Context (x : nat).

  Lemma debit_agree m w b i : agree m w -> (b < m_nb m)%nat -> (x < m_nt m)%nat -> o_amt (m_txn m x) <> None ->
    exists m', h_debit m b (o_amt (m_txn m x)) i = Some m' /\ agree m' (with_bal w b (add_debit (bal w b) (t_precise (nth x (p_txn w) no_txn)) i)) /\ keeps m m'.
  Proof.
    intros A Hb Hx Ha. destruct (init_agree m w b A Hb) as (A1 & K1 & R1). unfold h_debit. destruct K1 as (T1 & B1 & N1 & F1). rewrite <- T1.
    destruct (ints_amt (init m b) w b (if i then FIDb else FDb) Z.add x A1) as (m' & E & A2 & K2);
      [rewrite B1; exact Hb|exact R1|destruct i; reflexivity|rewrite N1; exact Hx|rewrite T1; exact Ha|].
    exists m'. split; [exact E|]. split; [destruct i; exact A2|]. eapply keeps_trans; [|exact K2]. repeat split; assumption.
  Qed.

  Lemma credit_agree m w b i : agree m w -> (b < m_nb m)%nat -> (x < m_nt m)%nat -> o_amt (m_txn m x) <> None ->
    exists m', h_credit m b (o_amt (m_txn m x)) i = Some m' /\ agree m' (with_bal w b (add_credit (bal w b) (t_precise (nth x (p_txn w) no_txn)) i)) /\ keeps m m'.
  Proof.
    intros A Hb Hx Ha. destruct (init_agree m w b A Hb) as (A1 & K1 & R1). unfold h_credit. destruct K1 as (T1 & B1 & N1 & F1). rewrite <- T1.
    destruct (ints_amt (init m b) w b (if i then FICr else FCr) Z.add x A1) as (m' & E & A2 & K2);
      [rewrite B1; exact Hb|exact R1|destruct i; reflexivity|rewrite N1; exact Hx|rewrite T1; exact Ha|].
    exists m'. split; [exact E|]. split; [destruct i; exact A2|]. eapply keeps_trans; [|exact K2]. repeat split; assumption.
  Qed.
End Methods.

Lemma compute_agree m w b i : agree m w -> (b < m_nb m)%nat ->
  exists m', h_compute m b i = Some m' /\ agree m' (with_bal w b (compute_balance (bal w b) i)) /\ keeps m m'.
Proof.
  intros A Hb. destruct (init_agree m w b A Hb) as (A1 & K1 & R1). unfold h_compute. pose proof K1 as (T1 & B1 & N1 & F1).
  destruct i.
  - destruct (ints_agree (init m b) w b FIBal FICr FIDb Z.sub A1) as (m' & E & A2 & K2); [rewrite B1; exact Hb|exact R1|reflexivity|reflexivity|reflexivity|].
    exists m'. split; [exact E|]. split; [exact A2|eapply keeps_trans; eauto].
  - destruct (ints_agree (init m b) w b FBal FCr FDb Z.sub A1) as (m' & E & A2 & K2); [rewrite B1; exact Hb|exact R1|reflexivity|reflexivity|reflexivity|].
    exists m'. split; [exact E|]. split; [exact A2|eapply keeps_trans; eauto].
Qed.

(** ** Transactions *)
Lemma precision_agree m w x : agree m w -> (x < m_nt m)%nat ->
  agree (h_precision m x) (with_txn w x (apply_precision_txn (nth x (p_txn w) no_txn))) /\ o_amt (m_txn (h_precision m x) x) <> None
  /\ m_nb (h_precision m x) = m_nb m /\ m_nt (h_precision m x) = m_nt m /\ m_bal (h_precision m x) = m_bal m.
Proof.
  intros A Hx. rewrite (ag_txn _ _ A x Hx). unfold h_precision. set (t := read_txn m x).
  assert (St : t_status (apply_precision_txn t) = t_status (o_rest (m_txn m x))).
  { unfold apply_precision_txn. destruct (apply_precision (t_precise t) (t_amount t) (t_prec t)) as [[p a] q]. reflexivity. }
  assert (Ev : forall z, z = t_precise (apply_precision_txn t) -> with_money (apply_precision_txn t) z (t_amount (apply_precision_txn t)) (t_prec (apply_precision_txn t)) = apply_precision_txn t).
  { intros z ->. unfold apply_precision_txn. destruct (apply_precision (t_precise t) (t_amount t) (t_prec t)) as [[p a] q]. reflexivity. }
  destruct (0 <? t_precise t) eqn:P.
  - assert (Pr : t_precise (apply_precision_txn t) = t_precise t).
    { unfold apply_precision_txn, apply_precision. rewrite P. reflexivity. }
    assert (Am : o_amt (m_txn m x) <> None). { intros N. unfold t, read_txn in P. rewrite N in P. discriminate P. }
    split; [|cbn [put_txn m_txn m_nb m_nt m_bal]; rewrite set_same; auto].
    split; cbn [with_txn p_bal p_txn p_res p_out put_txn m_nb m_nt m_next m_bal m_txn m_res m_out]; try apply A.
    + rewrite replace_length. apply A.
    + intros y Hy. unfold read_txn. cbn [put_txn m_txn]. destruct (Nat.eq_dec x y) as [<-|N].
      * rewrite nth_replace by (rewrite (ag_nt _ _ A); exact Hx). rewrite set_same. cbn [o_amt o_rest]. symmetry. apply Ev. rewrite Pr. reflexivity.
      * rewrite nth_replace_other by exact N. rewrite set_other by exact N. apply (ag_txn _ _ A y Hy).
    + intros y p Hy. destruct (Nat.eq_dec x y) as [<-|N]; [rewrite set_same; cbn [o_amt]|rewrite set_other by exact N]; apply (td_amt _ _ A); assumption.
    + intros y Hy. destruct (Nat.eq_dec x y) as [<-|N]; [rewrite set_same; cbn [o_amt o_rest]; auto|rewrite set_other by exact N; apply (td_void _ _ A); assumption].
  - pose proof (fresh m w (t_precise (apply_precision_txn t)) A) as F. unfold new_int in *. cbn [snd] in F.
    set (m1 := {| m_int := set (m_int m) (m_next m) _ |}) in *.
    split; [|cbn [put_txn m_txn m_nb m_nt m_bal]; rewrite set_same; cbn [o_amt]; repeat split; discriminate].
    split; cbn [with_txn p_bal p_txn p_res p_out put_txn m_nb m_nt m_next m_bal m_txn m_res m_out]; try apply F.
    + rewrite replace_length. apply A.
    + intros y Hy. unfold read_txn. cbn [put_txn m_txn]. destruct (Nat.eq_dec x y) as [<-|N].
      * rewrite nth_replace by (rewrite (ag_nt _ _ A); exact Hx). rewrite set_same. cbn [o_amt o_rest]. symmetry. apply Ev. cbn. apply set_same.
      * rewrite nth_replace_other by exact N. rewrite set_other by exact N. apply (ag_txn _ _ F y Hy).
    + intros y p Hy. destruct (Nat.eq_dec x y) as [<-|N]; [rewrite set_same; cbn [o_amt]|rewrite set_other by exact N; apply (td_amt _ _ F); assumption].
      intros [= <-]. split; [cbn; lia|]. intros b f Hb Eb. pose proof (td_ptr _ _ A b f _ Hb Eb). lia.
    + intros y Hy. destruct (Nat.eq_dec x y) as [<-|N]; [rewrite set_same; cbn [o_amt o_rest]; discriminate|rewrite set_other by exact N; apply (td_void _ _ F); assumption].
Qed.

Lemma precision_again t : t_precise (apply_precision_txn (apply_precision_txn t)) = t_precise (apply_precision_txn t).
Proof.
  unfold apply_precision_txn, apply_precision. destruct (0 <? t_precise t) eqn:P.
  - cbn [with_money t_precise t_amount t_prec]. rewrite P. reflexivity.
  - cbn [with_money t_precise t_amount t_prec]. set (q := if t_prec t =? 0 then 1 else t_prec t).
    assert (Q0 : q =? 0 = false). { unfold q. destruct (t_prec t =? 0) eqn:E; [reflexivity|exact E]. }
    rewrite Q0. destruct (0 <? convert_decimal_to_precise (t_amount t) q); reflexivity.
Qed.
Lemma txn_with w x t : (x < List.length (p_txn w))%nat -> nth x (p_txn (with_txn w x t)) no_txn = t.
Proof. intros H. cbn [with_txn p_txn]. apply nth_replace. exact H. Qed.

(** ** The methods, in full *)
Definition moves (m m' : mem) : Prop := m_nb m' = m_nb m /\ m_nt m' = m_nt m.
Lemma moves_trans a b c : moves a b -> moves b c -> moves a c.
Proof. intros [H1 H2] [K1 K2]. split; congruence. Qed.
Lemma keeps_moves m m' : keeps m m' -> moves m m'. Proof. intros (_ & H1 & H2 & _). split; assumption. Qed.

Lemma update_agree m w x s d : agree m w -> (x < m_nt m)%nat -> (s < m_nb m)%nat -> (d < m_nb m)%nat ->
  let t' := apply_precision_txn (nth x (p_txn w) no_txn) in
  let w1 := with_txn w x t' in
  let wr := match validate_txn t' with
    | Err e => (w1, Some e)
    | Ok _ => match can_process t' (bal w1 s) with
      | Err e => (w1, Some e)
      | Ok _ =>
        let w2 := with_bal w1 s (compute_balance (add_debit (bal w1 s) (t_precise t') (t_inflight t')) (t_inflight t')) in
        (with_bal w2 d (compute_balance (add_credit (bal w2 d) (t_precise t') (t_inflight t')) (t_inflight t')), None)
      end end in
  exists m', h_update m x s d = Some (m', snd wr) /\ agree m' (fst wr) /\ moves m m'.
Proof.
  intros A Hx Hs Hd t' w1 wr. destruct (precision_agree m w x A Hx) as (A1 & Am & B1 & T1 & _). unfold h_update.
  set (m1 := h_precision m x) in *. fold t' in A1. fold w1 in A1.
  assert (Et : read_txn m1 x = t'). { rewrite <- (ag_txn _ _ A1 x) by (rewrite T1; exact Hx). apply txn_with. rewrite (ag_nt _ _ A). exact Hx. }
  rewrite Et. unfold wr. destruct (validate_txn t') as [[]|e]; [|exists m1; split; [reflexivity|]; split; [exact A1|]; split; assumption].
  assert (Hs1 : (s < m_nb m1)%nat) by (rewrite B1; exact Hs). assert (Hd1 : (d < m_nb m1)%nat) by (rewrite B1; exact Hd). assert (Hx1 : (x < m_nt m1)%nat) by (rewrite T1; exact Hx).
  destruct (init_agree m1 w1 s A1 Hs1) as (A2 & K2 & _).
  assert (E : exists m2, h_can m1 x s = (m2, can_process t' (bal w1 s)) /\ agree m2 w1 /\ keeps m1 m2).
  { unfold h_can. rewrite Et. destruct (t_allow t' && Qeq_bool (t_limit t') 0) eqn:Al.
    - exists m1. split; [|split; [exact A1|apply keeps_refl]]. unfold can_process. rewrite Al. reflexivity.
    - exists (init m1 s). split; [|split; assumption]. cbv zeta. rewrite <- (bal_read _ w1 s A2) by (destruct K2 as (_ & -> & _); exact Hs1). reflexivity. }
  clear A2 K2. destruct E as (m2 & -> & A2 & K2). destruct (can_process t' (bal w1 s)) as [[]|e];
    [|exists m2; split; [reflexivity|]; split; [exact A2|]; apply keeps_moves in K2; eapply moves_trans; [|exact K2]; split; assumption].
  pose proof K2 as (T2 & B2 & N2 & _).
  destruct (init_agree m2 w1 s A2) as (A3 & K3 & _); [rewrite B2; exact Hs1|]. pose proof (keeps_trans _ _ _ K2 K3) as K3'.
  destruct (init_agree (init m2 s) w1 d A3) as (A4 & K4 & _); [destruct K3' as (_ & -> & _); exact Hd1|]. pose proof (keeps_trans _ _ _ K3' K4) as K4'.
  clear A3 K3 K3' K4 A2 K2 T2 B2 N2. cbv zeta. set (m4 := init (init m2 s) d) in *. destruct K4' as (T4 & B4 & N4 & F4).
  assert (Et4 : read_txn m4 x = t'). { rewrite <- (ag_txn _ _ A4 x) by (rewrite N4; exact Hx1). apply txn_with. rewrite (ag_nt _ _ A). exact Hx. }
  rewrite Et4. set (i := t_inflight t').
  assert (P1 : t_precise (nth x (p_txn w1) no_txn) = t_precise t'). { unfold w1. rewrite txn_with; [reflexivity|rewrite (ag_nt _ _ A); exact Hx]. }
  destruct (debit_agree x m4 w1 s i A4) as (m5 & E5 & A5 & K5); [rewrite B4; exact Hs1|rewrite N4; exact Hx1|rewrite T4; exact Am|].
  rewrite E5. cbn [bind]. rewrite P1 in A5. pose proof K5 as (T5 & B5 & N5 & F5).
  destruct (compute_agree m5 _ s i A5) as (m6 & E6 & A6 & K6); [rewrite B5, B4; exact Hs1|].
  assert (Ls : (s < List.length (p_bal w1))%nat) by (rewrite (ag_nb _ _ A1); exact Hs1).
  rewrite E6. cbn [bind]. rewrite with_bal_twice, bal_with in A6 by exact Ls. pose proof K6 as (T6 & B6 & N6 & F6).
  set (w2 := with_bal w1 s _) in *. rewrite <- T5, <- T6.
  destruct (credit_agree x m6 w2 d i A6) as (m7 & E7 & A7 & K7); [rewrite B6, B5, B4; exact Hd1|rewrite N6, N5, N4; exact Hx1|rewrite T6, T5, T4; exact Am|].
  rewrite E7. cbn [bind]. change (p_txn w2) with (p_txn w1) in A7. rewrite P1 in A7. pose proof K7 as (T7 & B7 & N7 & F7).
  destruct (compute_agree m7 _ d i A7) as (m8 & E8 & A8 & K8); [rewrite B7, B6, B5, B4; exact Hd1|].
  rewrite E8. cbn [bind]. rewrite with_bal_twice, bal_with in A8 by (rewrite (ag_nb _ _ A6), B6, B5, B4; exact Hd1). destruct K8 as (T8 & B8 & N8 & _).
  exists m8. split; [reflexivity|]. split; [exact A8|]. split; congruence.
Qed.

Definition at_of (f : field) (v : balance) (a : Z) (e : err) (r : balance) : res balance := if get f v <? a then Err e else Ok r.

Lemma check_agree m w b f x e : agree m w -> (b < m_nb m)%nat -> (x < m_nt m)%nat -> m_bal m b f <> None -> counter f = true -> o_amt (m_txn m x) <> None ->
  h_check m (m_bal m b f) (o_amt (m_txn m x)) e = Some (if get f (bal w b) <? t_precise (nth x (p_txn w) no_txn) then Some e else None).
Proof.
  intros A Hb Hx Hf Hc Ha. rewrite (bal_read m w b A Hb), get_read by exact Hc. rewrite (ag_txn _ _ A x Hx). unfold h_check, read_txn. cbn [with_money t_precise].
  destruct (m_bal m b f); [|contradiction]. destruct (o_amt (m_txn m x)); [|contradiction]. reflexivity.
Qed.

Lemma commit_agree m w b x f g e (H : (f = FIDb /\ g = FDb) \/ (f = FICr /\ g = FCr)) : agree m w -> (x < m_nt m)%nat -> (b < m_nb m)%nat ->
  let t' := apply_precision_txn (nth x (p_txn w) no_txn) in let a := t_precise t' in
  let w1 := with_txn w x t' in let v := bal w b in
  let wr := if get f v <? a then (w1, Some e)
            else (with_bal w1 b (compute_balance (compute_balance (put g (get g v + a) (put f (get f v - a) v)) true) false), None) in
  exists m', h_commit m b x f g e = Some (m', snd wr) /\ agree m' (fst wr) /\ moves m m'.
Proof.
  intros A Hx Hb t' a w1 v wr. unfold h_commit. destruct (init_agree m w b A Hb) as (A1 & K1 & R1). set (m1 := init m b) in *. pose proof K1 as (T1 & B1 & N1 & F1).
  assert (Hx1 : (x < m_nt m1)%nat) by (rewrite N1; exact Hx). assert (Hb1 : (b < m_nb m1)%nat) by (rewrite B1; exact Hb).
  destruct (precision_agree m1 w x A1 Hx1) as (A2 & Am & B2 & N2 & F2). set (m2 := h_precision m1 x) in *. fold t' in A2. fold w1 in A2.
  assert (R2 : ready m2 b). { intros h Hh. rewrite F2. apply R1, Hh. }
  assert (Hf : counter f = true) by (destruct H as [[-> ->]|[-> ->]]; reflexivity). assert (Hg : counter g = true) by (destruct H as [[-> ->]|[-> ->]]; reflexivity).
  assert (Hx2 : (x < m_nt m2)%nat) by (rewrite N2; exact Hx1). assert (Hb2 : (b < m_nb m2)%nat) by (rewrite B2; exact Hb1).
  assert (P1 : t_precise (nth x (p_txn w1) no_txn) = a). { unfold w1. rewrite txn_with; [reflexivity|rewrite (ag_nt _ _ A); exact Hx]. }
  assert (L1 : (b < List.length (p_bal w1))%nat) by (rewrite (ag_nb _ _ A2); exact Hb2).
  cbv zeta. rewrite (check_agree m2 w1 b f x e A2 Hb2 Hx2 (R2 f Hf) Hf Am). cbn [bind]. rewrite P1. change (bal w1 b) with v. unfold wr. destruct (get f v <? a).
  - exists m2. split; [reflexivity|]. split; [exact A2|]. split; congruence.
  - destruct (ints_amt m2 w1 b f Z.sub x A2 Hb2 R2 Hf Hx2 Am) as (m3 & E3 & A3 & K3). rewrite E3. cbn [bind]. rewrite P1 in A3. change (bal w1 b) with v in A3.
    pose proof K3 as (T3 & B3 & N3 & F3). rewrite <- T3.
    destruct (ints_amt m3 _ b g Z.add x A3) as (m4 & E4 & A4 & K4); [rewrite B3; exact Hb2|exact (keeps_ready _ _ _ K3 R2)|exact Hg|rewrite N3; exact Hx2|rewrite T3; exact Am|].
    rewrite E4. cbn [bind]. rewrite with_bal_twice, bal_with in A4 by exact L1. change (p_txn (with_bal w1 b (put f (get f v - a) v))) with (p_txn w1) in A4. rewrite P1 in A4.
    pose proof K4 as (T4 & B4 & N4 & F4).
    destruct (compute_agree m4 _ b true A4) as (m5 & E5 & A5 & K5); [congruence|]. rewrite E5. cbn [bind]. rewrite with_bal_twice, bal_with in A5 by exact L1. pose proof K5 as (T5 & B5 & N5 & F5).
    destruct (compute_agree m5 _ b false A5) as (m6 & E6 & A6 & K6); [congruence|]. rewrite E6. cbn [bind]. rewrite with_bal_twice, bal_with in A6 by exact L1. destruct K6 as (T6 & B6 & N6 & F6).
    exists m6. split; [reflexivity|]. split; [|split; congruence]. cbn [fst].
    replace (get g v) with (get g (put f (get f v - a) v)) by (destruct H as [[-> ->]|[-> ->]]; reflexivity). exact A6.
Qed.

Lemma rollback_agree m w b x f e : f = FIDb \/ f = FICr -> agree m w -> (x < m_nt m)%nat -> (b < m_nb m)%nat -> o_amt (m_txn m x) <> None ->
  let a := t_precise (nth x (p_txn w) no_txn) in let v := bal w b in
  let wr := if get f v <? a then (w, Some e) else (with_bal w b (compute_balance (put f (get f v - a) v) true), None) in
  exists m', h_rollback m b (o_amt (m_txn m x)) f e = Some (m', snd wr) /\ agree m' (fst wr) /\ moves m m' /\ m_txn m' = m_txn m.
Proof.
  intros H A Hx Hb Ha a v wr. unfold h_rollback. destruct (init_agree m w b A Hb) as (A1 & K1 & R1). set (m1 := init m b) in *. pose proof K1 as (T1 & B1 & N1 & F1).
  assert (Hx1 : (x < m_nt m1)%nat) by (rewrite N1; exact Hx). assert (Hb1 : (b < m_nb m1)%nat) by (rewrite B1; exact Hb).
  assert (Hf : counter f = true) by (destruct H as [->| ->]; reflexivity). rewrite <- T1 in Ha |- *.
  cbv zeta. rewrite (check_agree m1 w b f x e A1 Hb1 Hx1 (R1 f Hf) Hf Ha). cbn [bind]. fold a v. unfold wr. destruct (get f v <? a).
  - exists m1. split; [reflexivity|]. split; [exact A1|]. split; [split; assumption|reflexivity].
  - destruct (ints_amt m1 w b f Z.sub x A1 Hb1 R1 Hf Hx1 Ha) as (m3 & E3 & A3 & K3). rewrite E3. cbn [bind]. fold a v in A3. pose proof K3 as (T3 & B3 & N3 & F3).
    destruct (compute_agree m3 _ b true A3) as (m5 & E5 & A5 & K5); [congruence|]. rewrite E5. cbn [bind].
    rewrite with_bal_twice, bal_with in A5 by (rewrite (ag_nb _ _ A); exact Hb). destruct K5 as (T5 & B5 & N5 & F5).
    exists m5. split; [reflexivity|]. split; [exact A5|]. split; [split|]; congruence.
Qed.

Lemma apply_agree m w x s d : agree m w -> (x < m_nt m)%nat -> (s < m_nb m)%nat -> (d < m_nb m)%nat ->
  exists m', h_apply m x s d = Some (m', snd (apply w x s d)) /\ agree m' (fst (apply w x s d)) /\ moves m m'.
Proof.
  intros A Hx Hs Hd. pose proof (ag_txn _ _ A x Hx) as Et.
  assert (U : t_status (nth x (p_txn w) no_txn) <> SCommit -> t_status (nth x (p_txn w) no_txn) <> SVoid ->
    exists m', h_update m x s d = Some (m', snd (apply w x s d)) /\ agree m' (fst (apply w x s d)) /\ moves m m').
  { intros H1 H2. destruct (update_agree m w x s d A Hx Hs Hd) as (m' & H). exists m'. cbv zeta in H. unfold apply.
    destruct (t_status (nth x (p_txn w) no_txn)); try contradiction; exact H. }
  unfold h_apply. rewrite <- Et. destruct (t_status (nth x (p_txn w) no_txn)) eqn:St; try (apply U; discriminate); clear U; unfold apply; rewrite St.
  - assert (Ha : o_amt (m_txn m x) <> None). { apply (td_void _ _ A x Hx). rewrite Et in St. exact St. }
    destruct (rollback_agree m w s x FIDb EInflightDebit (or_introl eq_refl) A Hx Hs Ha) as (m1 & E1 & A1 & M1 & T1). cbv zeta in E1, A1. rewrite E1. cbn [bind snd fst].
    unfold rollback_inflight_debit at 1 2. cbn [get] in A1 |- *. set (t := nth x (p_txn w) no_txn) in *.
    destruct (b_idb (bal w s) <? t_precise t); cbn [one snd fst] in A1 |- *; [exists m1; auto|]. destruct M1 as [B1 N1].
    set (w1 := with_bal w s _) in *. rewrite <- T1.
    destruct (rollback_agree m1 w1 d x FICr EInflightCredit (or_intror eq_refl) A1) as (m2 & E2 & A2 & M2 & T2); [congruence|congruence|rewrite T1; exact Ha|]. cbv zeta in E2, A2. rewrite E2.
    change (nth x (p_txn w1) no_txn) with t in A2 |- *. unfold rollback_inflight_credit. cbn [get] in A2 |- *.
    assert (Ew : with_bal w s (compute_balance (with_counters (bal w s) (b_bal (bal w s)) (b_cr (bal w s)) (b_db (bal w s)) (b_ibal (bal w s)) (b_icr (bal w s)) (b_idb (bal w s) - t_precise t)) true) = w1) by reflexivity.
    rewrite ?Ew. exists m2.
    destruct (b_icr (bal w1 d) <? t_precise t); cbn [one snd fst] in A2 |- *; (split; [reflexivity|]; split; [exact A2|]; apply (moves_trans m m1 m2); [split|]; assumption).
  - destruct (commit_agree m w s x FIDb FDb EInflightDebit (or_introl (conj eq_refl eq_refl)) A Hx Hs) as (m1 & E1 & A1 & M1). cbv zeta in E1, A1. rewrite E1. cbn [bind snd fst].
    unfold commit_inflight_debit at 1 2. cbn [get] in A1 |- *. set (t' := apply_precision_txn (nth x (p_txn w) no_txn)) in *. change (bal (with_txn w x t') s) with (bal w s).
    destruct (b_idb (bal w s) <? t_precise t'); cbn [one snd fst] in A1 |- *; [exists m1; auto|]. destruct M1 as [B1 N1].
    set (w1 := with_bal (with_txn w x t') s _) in *.
    assert (Ex : nth x (p_txn w1) no_txn = t'). { apply (txn_with w x t'). rewrite (ag_nt _ _ A). exact Hx. }
    destruct (commit_agree m1 w1 d x FICr FCr EInflightCredit (or_intror (conj eq_refl eq_refl)) A1) as (m2 & E2 & A2 & M2); [congruence|congruence|]. cbv zeta in E2, A2. rewrite E2.
    assert (Pa : t_precise (apply_precision_txn t') = t_precise t') by apply precision_again. rewrite Ex, Pa in A2 |- *. unfold commit_inflight_credit. cbn [get] in A2 |- *.
    assert (Ew : with_bal (with_txn w x t') s (compute_balance (compute_balance (with_counters (bal w s) (b_bal (bal w s)) (b_cr (bal w s)) (b_db (bal w s) + t_precise t') (b_ibal (bal w s)) (b_icr (bal w s)) (b_idb (bal w s) - t_precise t')) true) false) = w1) by reflexivity.
    rewrite ?Ew. change (bal (with_txn w1 x (apply_precision_txn t')) d) with (bal w1 d). exists m2.
    destruct (b_icr (bal w1 d) <? t_precise t'); cbn [one snd fst] in A2 |- *; (split; [reflexivity|]; split; [exact A2|]; apply (moves_trans m m1 m2); [split|]; assumption).
Qed.

(** ** Copies and new objects *)
Definition vals (m : mem) (c : field -> option nat) (f : field) : option Z := option_map (m_int m) (c f).

Lemma new_bal_agree m w c : agree m w -> (forall f p, c f = Some p -> (p < m_next m)%nat) ->
  (forall f g p, c f = Some p -> c g = Some p -> f = g) ->
  (forall f b g p, (b < m_nb m)%nat -> c f = Some p -> m_bal m b g <> Some p) ->
  (forall f x p, (x < m_nt m)%nat -> c f = Some p -> o_amt (m_txn m x) <> Some p) ->
  agree (new_bal m c) (more_bal w (row (vals m c))).
Proof.
  intros A H1 H2 H3 H4.
  assert (B : forall b, (b < m_nb m)%nat -> m_bal (new_bal m c) b = m_bal m b) by (intros b Hb; cbn; apply set_other; lia).
  assert (Bn : m_bal (new_bal m c) (m_nb m) = c) by (cbn; apply set_same).
  split.
  - cbn. rewrite app_length, (ag_nb _ _ A). cbn. lia.
  - apply A.
  - intros b Hb. cbn [new_bal m_nb] in Hb. cbn [more_bal p_bal]. destruct (Nat.eq_dec b (m_nb m)) as [->|N].
    + rewrite app_nth2 by (rewrite (ag_nb _ _ A); lia). rewrite (ag_nb _ _ A), Nat.sub_diag. cbn [nth]. unfold read_bal. rewrite Bn.
      unfold row, vals. f_equal. f_equal; match goal with |- or0 (option_map _ ?p) = _ => destruct p; reflexivity end.
    + assert (Hb' : (b < m_nb m)%nat) by lia. rewrite app_nth1 by (rewrite (ag_nb _ _ A); lia). rewrite (ag_bal _ _ A b Hb'). unfold read_bal. rewrite (B b Hb'). reflexivity.
  - apply A.
  - apply A.
  - apply A.
  - intros b f p Hb E. cbn [new_bal m_nb] in Hb. destruct (Nat.eq_dec b (m_nb m)) as [->|N]; [rewrite Bn in E; exact (H1 f p E)|].
    rewrite B in E by lia. apply (td_ptr _ _ A b f p); [lia|exact E].
  - intros b f b' g p Hb Hb' E E'. cbn [new_bal m_nb] in Hb, Hb'.
    destruct (Nat.eq_dec b (m_nb m)) as [->|N], (Nat.eq_dec b' (m_nb m)) as [->|N'].
    + rewrite Bn in E, E'. split; [reflexivity|exact (H2 f g p E E')].
    + rewrite Bn in E. rewrite B in E' by lia. exfalso. apply (H3 f b' g p); [lia|exact E|exact E'].
    + rewrite Bn in E'. rewrite B in E by lia. exfalso. apply (H3 g b f p); [lia|exact E'|exact E].
    + rewrite B in E, E' by lia. apply (td_own _ _ A b f b' g p); auto; lia.
  - intros x p Hx E. destruct (td_amt _ _ A x p Hx E) as [K1 K2]. split; [exact K1|]. intros b f Hb. cbn [new_bal m_nb] in Hb.
    destruct (Nat.eq_dec b (m_nb m)) as [->|N]; [rewrite Bn; intros E'; exact (H4 f x p Hx E' E)|rewrite B by lia; apply K2; lia].
  - apply A.
Qed.

Lemma new_txn_agree m w o : agree m w -> (forall p, o_amt o = Some p -> (p < m_next m)%nat /\ forall b f, (b < m_nb m)%nat -> m_bal m b f <> Some p) ->
  (t_status (o_rest o) = SVoid -> o_amt o <> None) ->
  agree (new_txn m o) (more_txn w (priced (o_rest o) (at_ m (o_amt o)))).
Proof.
  intros A H1 H2.
  assert (B : forall x, (x < m_nt m)%nat -> m_txn (new_txn m o) x = m_txn m x) by (intros b Hb; cbn; apply set_other; lia).
  assert (Bn : m_txn (new_txn m o) (m_nt m) = o) by (cbn; apply set_same).
  split; try apply A.
  - cbn. rewrite app_length, (ag_nt _ _ A). cbn. lia.
  - intros x Hx. cbn [new_txn m_nt] in Hx. cbn [more_txn p_txn]. destruct (Nat.eq_dec x (m_nt m)) as [->|N].
    + rewrite app_nth2 by (rewrite (ag_nt _ _ A); lia). rewrite (ag_nt _ _ A), Nat.sub_diag. cbn [nth]. unfold read_txn. rewrite Bn. reflexivity.
    + rewrite app_nth1 by (rewrite (ag_nt _ _ A); lia). rewrite (ag_txn _ _ A) by lia. unfold read_txn. rewrite B by lia. reflexivity.
  - intros x p Hx E. cbn [new_txn m_nt] in Hx. destruct (Nat.eq_dec x (m_nt m)) as [->|N]; [rewrite Bn in E; exact (H1 p E)|].
    rewrite B in E by lia. apply (td_amt _ _ A x p); [lia|exact E].
  - intros x Hx E. cbn [new_txn m_nt] in Hx. destruct (Nat.eq_dec x (m_nt m)) as [->|N]; [rewrite Bn in E |- *; exact (H2 E)|].
    rewrite B in E |- * by lia. apply (td_void _ _ A x); [lia|exact E].
Qed.

(** A fold that makes the pointers of a new balance, one by one. *)
Definition made (m0 m : mem) (c : field -> option nat) (src : field -> option Z) (fs : list field) : Prop :=
  moves m0 m /\ m_bal m = m_bal m0 /\ m_txn m = m_txn m0 /\ (m_next m0 <= m_next m)%nat /\ (forall p, (p < m_next m0)%nat -> m_int m p = m_int m0 p) /\
  (forall f, In f fs -> vals m c f = src f) /\
  (forall f p, In f fs -> c f = Some p -> (m_next m0 <= p < m_next m)%nat) /\
  (forall f g p, In f fs -> In g fs -> c f = Some p -> c g = Some p -> f = g).

Lemma made_one m0 m c src fs f : made m0 m c src fs -> forall r, r = match src f with
    | None => (m, fun g => if field_eqb f g then None else c g)
    | Some z => let (q, m') := new_int m z in (m', fun g => if field_eqb f g then Some q else c g) end ->
  made m0 (fst r) (snd r) src (f :: fs) /\ forall w, agree m w -> agree (fst r) w.
Proof.
  intros ((M1 & M2) & M3 & M4 & M5 & M6 & M7 & M8 & M9) r ->. destruct (src f) as [z|] eqn:Es.
  - split; [|intros w A; exact (fresh m w z A)]. cbn [fst snd new_int].
    split; [split; assumption|]. split; [exact M3|]. split; [exact M4|]. split; [cbn; lia|]. split; [intros p Hp; cbn; rewrite set_other by lia; apply M6; exact Hp|].
    split; [|split].
    + intros g Hg. unfold vals. cbn [m_int]. destruct (field_eqb f g) eqn:Eg.
      * apply field_eqb_eq in Eg. subst g. cbn. rewrite set_same. symmetry. exact Es.
      * destruct Hg as [->|Hg]; [rewrite field_refl in Eg; discriminate Eg|]. rewrite <- (M7 g Hg). unfold vals. destruct (c g) as [p|] eqn:Ec; [|reflexivity].
        cbn. rewrite set_other; [reflexivity|]. pose proof (M8 g p Hg Ec). lia.
    + intros g p Hg. cbn [m_next]. destruct (field_eqb f g) eqn:Eg; [intros [= <-]; lia|]. destruct Hg as [->|Hg]; [rewrite field_refl in Eg; discriminate Eg|].
      intros Ec. pose proof (M8 g p Hg Ec). lia.
    + intros g h p Hg Hh. destruct (field_eqb f g) eqn:Eg, (field_eqb f h) eqn:Eh; rewrite ?field_eqb_eq in *; try congruence.
      * intros [= <-] Ec. destruct Hh as [->|Hh]; [rewrite field_refl in Eh; discriminate Eh|]. pose proof (M8 h _ Hh Ec). lia.
      * intros Ec [= <-]. destruct Hg as [->|Hg]; [rewrite field_refl in Eg; discriminate Eg|]. pose proof (M8 g _ Hg Ec). lia.
      * destruct Hg as [->|Hg]; [rewrite field_refl in Eg; discriminate Eg|]. destruct Hh as [->|Hh]; [rewrite field_refl in Eh; discriminate Eh|]. apply M9; assumption.
  - split; [|intros w A; exact A]. cbn [fst snd].
    split; [split; assumption|]. split; [exact M3|]. split; [exact M4|]. split; [exact M5|]. split; [exact M6|].
    split; [|split].
    + intros g Hg. unfold vals. destruct (field_eqb f g) eqn:Eg.
      * apply field_eqb_eq in Eg. subst g. symmetry. exact Es.
      * destruct Hg as [->|Hg]; [rewrite field_refl in Eg; discriminate Eg|]. apply (M7 g Hg).
    + intros g p Hg. destruct (field_eqb f g) eqn:Eg; [discriminate|]. destruct Hg as [->|Hg]; [rewrite field_refl in Eg; discriminate Eg|]. apply M8, Hg.
    + intros g h p Hg Hh. destruct (field_eqb f g) eqn:Eg; [discriminate|]. destruct (field_eqb f h) eqn:Eh; [discriminate|].
      destruct Hg as [->|Hg]; [rewrite field_refl in Eg; discriminate Eg|]. destruct Hh as [->|Hh]; [rewrite field_refl in Eh; discriminate Eh|]. apply M9; assumption.
Qed.

Lemma made_fold m0 src (stp : mem * (field -> option nat) -> field -> mem * (field -> option nat)) w :
  (forall m c fs f, made m0 m c src fs -> stp (m, c) f = match src f with
    | None => (m, fun g => if field_eqb f g then None else c g)
    | Some z => let (q, m') := new_int m z in (m', fun g => if field_eqb f g then Some q else c g) end) ->
  forall l m c fs, made m0 m c src fs -> agree m w -> exists m' c', fold_left stp l (m, c) = (m', c') /\ made m0 m' c' src (rev l ++ fs) /\ agree m' w.
Proof.
  intros H. induction l as [|f l IH]; intros m c fs M A; [exists m, c; split; [reflexivity|split; assumption]|].
  cbn [fold_left rev]. destruct (made_one m0 m c src fs f M (stp (m, c) f) (H m c fs f M)) as [M1 A1]. destruct (stp (m, c) f) as [m1 c1]. cbn [fst snd] in M1, A1.
  destruct (IH m1 c1 (f :: fs) M1 (A1 w A)) as (m' & c' & E' & M' & A'). exists m', c'. split; [exact E'|]. split; [|exact A']. rewrite <- app_assoc. exact M'.
Qed.

Lemma row_ext c c' : (forall f, c f = c' f) -> row c = row c'.
Proof. intros H. unfold row. rewrite !H. reflexivity. Qed.

Lemma made_new m0 m c src w : agree m0 w -> agree m w -> made m0 m c src [FQCr; FQDb; FIDb; FDb; FICr; FCr; FIBal; FBal] -> agree (new_bal m c) (more_bal w (row src)).
Proof.
  intros A0 A ((M1 & M2) & M3 & M4 & M5 & M6 & M7 & M8 & M9).
  assert (Al : forall f, In f [FQCr; FQDb; FIDb; FDb; FICr; FCr; FIBal; FBal]) by (intros []; cbn; intuition).
  rewrite <- (row_ext (vals m c) src) by (intros f; apply M7, Al).
  apply new_bal_agree; [exact A|intros f p E; apply (M8 f p (Al f) E)|intros f g p; apply M9; apply Al| |].
  - intros f b g p Hb E. rewrite M3. rewrite M1 in Hb. intros E'. pose proof (td_ptr _ _ A0 b g p Hb E'). pose proof (M8 f p (Al f) E). lia.
  - intros f x p Hx E. rewrite M4. rewrite M2 in Hx. intros E'. pose proof (proj1 (td_amt _ _ A0 x p Hx E')). pose proof (M8 f p (Al f) E). lia.
Qed.

Lemma made_nil m c src : made m m c src [].
Proof. repeat split; auto; intros; contradiction. Qed.

Lemma load_agree m w c : agree m w -> agree (load m c) (more_bal w (row c)) /\ m_nb (load m c) = S (m_nb m).
Proof.
  intros A. unfold load.
  destruct (made_fold m c (load1 c) w (fun m c0 fs f _ => eq_refl) [FBal; FIBal; FCr; FICr; FDb; FIDb; FQDb; FQCr] m (fun _ => None) [] (made_nil m _ c) A) as (m' & c' & E & M & A').
  rewrite E. split; [exact (made_new m m' c' c w A A' M)|]. cbn. f_equal. apply M.
Qed.

Lemma clone_agree m w b : agree m w -> (b < m_nb m)%nat -> agree (clone_bal m b) (more_bal w (nth b (p_bal w) no_row)) /\ m_nb (clone_bal m b) = S (m_nb m) /\ m_nt (clone_bal m b) = m_nt m.
Proof.
  intros A Hb. unfold clone_bal. set (src := vals m (m_bal m b)).
  destruct (made_fold m src (clone1 b) w) with (l := [FBal; FIBal; FCr; FICr; FDb; FIDb; FQDb; FQCr]) (m := m) (c := m_bal m b) (fs := @nil field) as (m' & c' & E & M & A').
  - intros m1 c fs f ((M1 & M2) & M3 & M4 & M5 & M6 & _). unfold clone1. cbn [fst snd]. rewrite M3. unfold src, vals. destruct (m_bal m b f) as [p|] eqn:Ep; [|reflexivity].
    cbn [option_map clone_int]. rewrite M6 by (apply (td_ptr _ _ A b f p Hb Ep)). reflexivity.
  - apply made_nil.
  - exact A.
  - rewrite E. split; [|split; [cbn; f_equal|]; apply M]. replace (nth b (p_bal w) no_row) with (row src); [exact (made_new m m' c' src w A A' M)|].
    rewrite (ag_bal _ _ A b Hb). unfold row, src, vals, read_bal. f_equal. f_equal; match goal with |- or0 (option_map _ ?p) = _ => destruct p; reflexivity end.
Qed.

Lemma clone_txn_agree m w x : agree m w -> (x < m_nt m)%nat -> agree (clone_txn m x) (more_txn w (nth x (p_txn w) no_txn)).
Proof.
  intros A Hx. unfold clone_txn. rewrite (ag_txn _ _ A x Hx). unfold read_txn. destruct (o_amt (m_txn m x)) as [p|] eqn:E; cbn [clone_int].
  - pose proof (fresh m w (m_int m p) A) as F. unfold new_int in *. cbn [snd] in F. set (m1 := {| m_int := set (m_int m) (m_next m) _ |}) in *.
    replace (at_ m (Some p)) with (at_ m1 (Some (m_next m))) by (cbn; apply set_same).
    apply (new_txn_agree m1 w {| o_amt := Some (m_next m); o_rest := o_rest (m_txn m x) |} F); cbn [o_amt o_rest]; [|discriminate].
    intros q [= <-]. split; [cbn; lia|]. intros b f Hb Ep. pose proof (td_ptr _ _ A b f _ Hb Ep). lia.
  - apply (new_txn_agree m w {| o_amt := None; o_rest := o_rest (m_txn m x) |} A); cbn [o_amt o_rest]; [discriminate|].
    intros St. exfalso. exact (td_void _ _ A x Hx St E).
Qed.

Lemma decode_agree m w t a : agree m w -> (a = None -> t_status t <> SVoid) -> agree (decode m t a) (more_txn w (priced t (or0 a))).
Proof.
  intros A H. unfold decode. destruct a as [z|].
  - pose proof (fresh m w z A) as F. unfold new_int in *. cbn [snd] in F. set (m1 := {| m_int := set (m_int m) (m_next m) _ |}) in *.
    replace (or0 (Some z)) with (at_ m1 (Some (m_next m))) by (cbn; apply set_same).
    apply (new_txn_agree m1 w {| o_amt := Some (m_next m); o_rest := t |} F); cbn [o_amt o_rest]; [|discriminate].
    intros q [= <-]. split; [cbn; lia|]. intros b f Hb Ep. pose proof (td_ptr _ _ A b f _ Hb Ep). lia.
  - apply (new_txn_agree m w {| o_amt := None; o_rest := t |} A); cbn [o_amt o_rest]; [discriminate|]. intros St. exfalso. exact (H eq_refl St).
Qed.

Lemma figures_agree m w b : agree m w -> (b < m_nb m)%nat -> h_figures m b = figures (bal w b).
Proof.
  intros A Hb. rewrite (bal_read m w b A Hb). unfold h_figures, figures. cbv zeta. destruct (b_queued (read_bal m b)); cbn [or0]; [reflexivity|]. rewrite Z.sub_0_r. reflexivity.
Qed.

Lemma out_agree m w l : agree m w -> agree (add_out m l) (more_out w l).
Proof. intros A. split; try apply A. cbn. rewrite (ag_out _ _ A). reflexivity. Qed.
Lemma res_agree m w r : agree m w -> agree (add_res m r) (more_res w r).
Proof. intros A. split; try apply A. cbn. rewrite (ag_res _ _ A). reflexivity. Qed.

Lemma project_agree m w i j : agree m w -> (i < m_nb m)%nat -> (j < m_nb m)%nat -> agree (project m i j) (step w (OProject i j)).
Proof.
  intros A Hi Hj. unfold step. rewrite (ag_nb _ _ A). rewrite (proj2 (Nat.ltb_lt _ _) Hi), (proj2 (Nat.ltb_lt _ _) Hj). cbn [andb].
  destruct (clone_agree m w i A Hi) as (A1 & B1 & _). destruct (clone_agree (clone_bal m i) _ j A1) as (A2 & B2 & _); [lia|].
  assert (Ej : nth j (p_bal (more_bal w (nth i (p_bal w) no_row))) no_row = nth j (p_bal w) no_row) by (cbn; apply app_nth1; rewrite (ag_nb _ _ A); exact Hj).
  rewrite Ej in A2. set (w2 := more_bal (more_bal w (nth i (p_bal w) no_row)) (nth j (p_bal w) no_row)) in *.
  unfold project. cbv zeta. set (m1 := clone_bal m i) in *. set (m2 := clone_bal m1 j) in *. rewrite B1, B2, B1. rewrite !Nat.sub_succ, !Nat.sub_0_r.
  destruct (init_agree m2 w2 (m_nb m) A2) as (A3 & (_ & B3 & _) & _); [lia|]. destruct (init_agree (init m2 (m_nb m)) w2 (S (m_nb m)) A3) as (A4 & (_ & B4 & _) & _); [lia|].
  rewrite (figures_agree _ w2 (m_nb m) A4) by lia. rewrite (figures_agree _ w2 (S (m_nb m)) A4) by lia.
  assert (Bi : bal w2 (m_nb m) = bal w i). { unfold bal, w2. cbn [more_bal p_bal]. rewrite <- app_assoc. rewrite app_nth2 by (rewrite (ag_nb _ _ A); lia). rewrite (ag_nb _ _ A), Nat.sub_diag. reflexivity. }
  assert (Bj : bal w2 (S (m_nb m)) = bal w j). { unfold bal, w2. cbn [more_bal p_bal]. rewrite <- app_assoc. rewrite app_nth2 by (rewrite (ag_nb _ _ A); lia). rewrite (ag_nb _ _ A). replace (S (m_nb m) - m_nb m)%nat with 1%nat by lia. reflexivity. }
  rewrite Bi, Bj. apply out_agree. exact A4.
Qed.

Lemma act_agree m w o : agree m w -> match o with ODecode t None | OShare _ t => t_status t <> SVoid | _ => True end ->
  exists m', act m o = Some m' /\ agree m' (step w o).
Proof.
  intros A H. destruct o as [c|t a|b|x|x t|x|x s d|i j]; unfold act, step; rewrite ?(ag_nb _ _ A), ?(ag_nt _ _ A).
  - eexists. split; [reflexivity|]. apply load_agree, A.
  - eexists. split; [reflexivity|]. apply decode_agree; [exact A|]. intros ->. exact H.
  - destruct (Nat.ltb_spec b (m_nb m)); [|cbn [andb]; rewrite ?andb_false_r; eauto]. eexists. split; [reflexivity|]. apply clone_agree; assumption.
  - destruct (Nat.ltb_spec x (m_nt m)); [|cbn [andb]; rewrite ?andb_false_r; eauto]. eexists. split; [reflexivity|]. apply clone_txn_agree; assumption.
  - destruct (Nat.ltb_spec x (m_nt m)) as [L|L]; [|cbn [andb]; rewrite ?andb_false_r; eauto]. eexists. split; [reflexivity|]. rewrite (ag_txn _ _ A x L).
    apply (new_txn_agree m w {| o_amt := o_amt (m_txn m x); o_rest := t |} A); cbn [o_amt o_rest]; [intros p E; apply (td_amt _ _ A x p L E)|intros St; contradiction].
  - destruct (Nat.ltb_spec x (m_nt m)) as [L|L]; [|cbn [andb]; rewrite ?andb_false_r; eauto]. eexists. split; [reflexivity|]. apply precision_agree; assumption.
  - destruct (Nat.ltb_spec x (m_nt m)) as [L|L]; [|cbn [andb]; rewrite ?andb_false_r; eauto]. destruct (Nat.ltb_spec s (m_nb m)) as [Ls|Ls]; [|cbn [andb]; rewrite ?andb_false_r; eauto]. destruct (Nat.ltb_spec d (m_nb m)) as [Ld|Ld]; [|cbn [andb]; rewrite ?andb_false_r; eauto]. cbn [andb].
    destruct (apply_agree m w x s d A L Ls Ld) as (m' & E & A' & _). rewrite E. cbn [bind]. eexists. split; [reflexivity|]. cbn [fst snd].
    destruct (apply w x s d) as [w' r]. apply res_agree. exact A'.
  - destruct (Nat.ltb_spec i (m_nb m)) as [Ls|Ls]; [|cbn [andb]; rewrite ?andb_false_r; eauto]. destruct (Nat.ltb_spec j (m_nb m)) as [Ld|Ld]; [|cbn [andb]; rewrite ?andb_false_r; eauto]. cbn [andb]. eexists. split; [reflexivity|].
    pose proof (project_agree m w i j A Ls Ld) as P. unfold step in P. rewrite (ag_nb _ _ A), (proj2 (Nat.ltb_lt _ _) Ls), (proj2 (Nat.ltb_lt _ _) Ld) in P. exact P.
Qed.

Lemma run_cons o os m : run (o :: os) m = bind (act m o) (run os).
Proof.
  unfold run. cbn [fold_left bind]. destruct (act m o); [reflexivity|]. cbn [bind]. induction os; [reflexivity|exact IHos].
Qed.
Lemma run_agree os : forall m w, agree m w -> voids_priced os -> exists m', run os m = Some m' /\ agree m' (steps os w).
Proof.
  induction os as [|o os IH]; intros m w A H; [exists m; split; [reflexivity|exact A]|].
  rewrite run_cons. destruct (act_agree m w o A (H o (or_introl eq_refl))) as (m1 & E & A1). rewrite E. cbn [bind]. apply IH; [exact A1|]. intros o' Ho. apply H. right. exact Ho.
Qed.
Lemma empty_agree : agree empty nothing.
Proof. split; cbn; try reflexivity; intros; lia. Qed.
Lemma agree_seen m w : agree m w -> seen m = w.
Proof.
  intros A. destruct w as [bs ts rs os]. unfold seen. f_equal; [| |symmetry; exact (ag_res _ _ A)|symmetry; exact (ag_out _ _ A)].
  - apply (nth_ext _ _ no_row no_row); [rewrite map_length, seq_length; symmetry; exact (ag_nb _ _ A)|]. intros n Hn. rewrite map_length, seq_length in Hn.
    rewrite (nth_indep _ no_row ((fun b => (read_bal m b, option_map (m_int m) (m_bal m b FQCr))) O)) by (rewrite map_length, seq_length; exact Hn).
    rewrite (map_nth (fun b => (read_bal m b, option_map (m_int m) (m_bal m b FQCr)))). rewrite seq_nth by exact Hn. symmetry. exact (ag_bal _ _ A n Hn).
  - apply (nth_ext _ _ no_txn no_txn); [rewrite map_length, seq_length; symmetry; exact (ag_nt _ _ A)|]. intros n Hn. rewrite map_length, seq_length in Hn.
    rewrite (nth_indep _ no_txn (read_txn m O)) by (rewrite map_length, seq_length; exact Hn).
    rewrite (map_nth (read_txn m)). rewrite seq_nth by exact Hn. symmetry. exact (ag_txn _ _ A n Hn).
Qed.

(** ** The refinement *)
Lemma values os : voids_priced os -> exists m, run os empty = Some m /\ seen m = steps os nothing.
Proof.
  intros H. destruct (run_agree os empty nothing empty_agree H) as (m & E & A). exists m. split; [exact E|apply agree_seen, A].
Qed.

(** ** Consequences *)
Lemma steps_app os os' w : steps (os ++ os') w = steps os' (steps os w). Proof. apply fold_left_app. Qed.
Lemma priced_app os os' : voids_priced (os ++ os') -> voids_priced os /\ voids_priced os'.
Proof. intros H. split; intros o Ho; apply H, in_or_app; auto. Qed.

Lemma shown_run os m : voids_priced os -> run os empty = Some m -> seen m = steps os nothing.
Proof. intros H E. destruct (values os H) as (m' & E' & S'). congruence. Qed.

Lemma nth_error_replace {A} (l : list A) : forall i j v, i <> j -> nth_error (replace l i v) j = nth_error l j.
Proof. induction l; intros [|i] [|j] v H; cbn; auto; try lia. Qed.
Definition old {A} (l l' : list A) (i : nat) : Prop := forall v, nth_error l i = Some v -> nth_error l' i = Some v.
Lemma old_app {A} (l r : list A) i : old l (l ++ r) i.
Proof. intros v H. rewrite nth_error_app1; [exact H|]. apply nth_error_Some. congruence. Qed.

Lemma apply_apart w x s d i : s <> i -> d <> i -> nth_error (p_bal (fst (apply w x s d))) i = nth_error (p_bal w) i.
Proof.
  intros Hs Hd. assert (U : forall w v, nth_error (p_bal (with_bal w s v)) i = nth_error (p_bal w) i) by (intros; cbn; apply nth_error_replace, Hs).
  assert (V : forall w v, nth_error (p_bal (with_bal w d v)) i = nth_error (p_bal w) i) by (intros; cbn; apply nth_error_replace, Hd).
  unfold apply, one. destruct (t_status (nth x (p_txn w) no_txn)); try (destruct (validate_txn _); [|reflexivity]; destruct (can_process _ _); [|reflexivity]; cbn [fst]; rewrite V, U; reflexivity).
  - destruct (rollback_inflight_debit _ _); [|reflexivity]. destruct (rollback_inflight_credit _ _); cbn [fst]; rewrite ?V, U; reflexivity.
  - destruct (commit_inflight_debit _ _); [|reflexivity]. destruct (commit_inflight_credit _ _); cbn [fst]; rewrite ?V; cbn [with_txn p_bal]; rewrite U; reflexivity.
Qed.
Lemma apply_apart_txn w x s d i : x <> i -> nth_error (p_txn (fst (apply w x s d))) i = nth_error (p_txn w) i.
Proof.
  intros Hx. assert (U : forall w v, nth_error (p_txn (with_txn w x v)) i = nth_error (p_txn w) i) by (intros; cbn; apply nth_error_replace, Hx).
  unfold apply, one. destruct (t_status (nth x (p_txn w) no_txn)); try (destruct (validate_txn _); [|apply U]; destruct (can_process _ _); [|apply U]; apply U).
  - destruct (rollback_inflight_debit _ _); [|reflexivity]. destruct (rollback_inflight_credit _ _); reflexivity.
  - destruct (commit_inflight_debit _ _); [|apply U]. destruct (commit_inflight_credit _ _); cbn [fst]; [change (p_txn (with_bal ?w d ?v)) with (p_txn w)|]; rewrite U; apply U.
Qed.

Lemma step_apart w o i : not_applied i [o] -> old (p_bal w) (p_bal (step w o)) i.
Proof.
  intros H v E. destruct o as [c|t a|b|x|x t|x|x s d|j k]; unfold step.
  - apply old_app, E.
  - exact E.
  - destruct (Nat.ltb b _); [apply old_app, E|exact E].
  - destruct (Nat.ltb x _); exact E.
  - destruct (Nat.ltb x _); exact E.
  - destruct (Nat.ltb x _); exact E.
  - destruct (_ && _ && _); [|exact E]. destruct (H x s d (or_introl eq_refl)) as [Hs Hd]. pose proof (apply_apart w x s d i Hs Hd) as K. destruct (apply w x s d). cbn [fst] in K. cbn. congruence.
  - destruct (_ && _); [|exact E]. cbn. rewrite <- app_assoc. apply old_app, E.
Qed.
Lemma step_apart_txn w o i : not_used i [o] -> old (p_txn w) (p_txn (step w o)) i.
Proof.
  intros [H H'] v E. destruct o as [c|t a|b|x|x t|x|x s d|j k]; unfold step.
  - exact E.
  - apply old_app, E.
  - destruct (Nat.ltb b _); exact E.
  - destruct (Nat.ltb x _); [apply old_app, E|exact E].
  - destruct (Nat.ltb x _); [apply old_app, E|exact E].
  - destruct (Nat.ltb x _); [|exact E]. cbn. rewrite nth_error_replace; [exact E|]. intros ->. apply H'. left. reflexivity.
  - destruct (_ && _ && _); [|exact E]. assert (N : x <> i) by (intros ->; apply (H s d); left; reflexivity). pose proof (apply_apart_txn w x s d i N) as K. destruct (apply w x s d). cbn [fst] in K. cbn. congruence.
  - destruct (_ && _); exact E.
Qed.
Lemma steps_apart os i : forall w, not_applied i os -> old (p_bal w) (p_bal (steps os w)) i.
Proof.
  induction os as [|o os IH]; intros w H v E; [exact E|]. apply (IH (step w o)); [intros x s d Hi; apply (H x s d); right; exact Hi|].
  apply step_apart; [intros x s d [->|[]]; apply (H x s d); left; reflexivity|exact E].
Qed.
Lemma steps_apart_txn os i : forall w, not_used i os -> old (p_txn w) (p_txn (steps os w)) i.
Proof.
  induction os as [|o os IH]; intros w [H H'] v E; [exact E|]. apply (IH (step w o)); [split; [intros s d Hi; apply (H s d); right; exact Hi|intros Hi; apply H'; right; exact Hi]|].
  apply step_apart_txn; [split; [intros s d [->|[]]; apply (H s d); left; reflexivity|intros [->|[]]; apply H'; left; reflexivity]|exact E].
Qed.

Lemma apart os os' m m' i v : voids_priced (os ++ os') -> run os empty = Some m -> run (os ++ os') empty = Some m' -> not_applied i os' ->
  shown m i = Some v -> shown m' i = Some v.
Proof.
  intros H E E' N S. destruct (priced_app _ _ H) as [H1 H2]. unfold shown in *. rewrite (shown_run os m H1 E) in S. rewrite (shown_run _ m' H E'), steps_app.
  apply steps_apart; assumption.
Qed.
Lemma apart_txn os os' m m' i v : voids_priced (os ++ os') -> run os empty = Some m -> run (os ++ os') empty = Some m' -> not_used i os' ->
  shown_txn m i = Some v -> shown_txn m' i = Some v.
Proof.
  intros H E E' N S. destruct (priced_app _ _ H) as [H1 H2]. unfold shown_txn in *. rewrite (shown_run os m H1 E) in S. rewrite (shown_run _ m' H E'), steps_app.
  apply steps_apart_txn; assumption.
Qed.
(** A copy shows what the balance showed when it was made. *)
Lemma copies os b m m' v : voids_priced os -> run os empty = Some m -> run (os ++ [OCopy b]) empty = Some m' -> shown m b = Some v ->
  shown m' (List.length (p_bal (seen m))) = Some v.
Proof.
  intros H E E' S. assert (H' : voids_priced (os ++ [OCopy b])). { intros o Ho. apply in_app_iff in Ho. destruct Ho as [Ho|[<-|[]]]; [apply H, Ho|exact I]. }
  unfold shown in *. rewrite (shown_run _ m' H' E'), steps_app. rewrite (shown_run os m H E) in *. set (w := steps os nothing) in *. cbn [steps fold_left step].
  assert (L : (b < List.length (p_bal w))%nat) by (apply nth_error_Some; congruence). rewrite (proj2 (Nat.ltb_lt _ _) L). cbn.
  rewrite nth_error_app2, Nat.sub_diag by lia. cbn. f_equal. apply nth_error_nth with (d := no_row) in S. exact S.
Qed.

(** One application to two balances is that of the other models. *)
Lemma apply_two w x s d : s <> d -> (s < List.length (p_bal w))%nat -> (d < List.length (p_bal w))%nat ->
  match apply_to_balances (nth x (p_txn w) no_txn) (bal w s) (bal w d) with
  | Ok (_, s', d') => snd (apply w x s d) = None /\ bal (fst (apply w x s d)) s = s' /\ bal (fst (apply w x s d)) d = d'
  | Err e => snd (apply w x s d) = Some e
  end.
Proof.
  intros N Hs Hd.
  assert (B1 : forall w v, (s < List.length (p_bal w))%nat -> bal (with_bal w s v) s = v) by (intros; apply bal_with; assumption).
  assert (B2 : forall w v, (d < List.length (p_bal w))%nat -> bal (with_bal w d v) d = v) by (intros; apply bal_with; assumption).
  assert (B3 : forall w v, bal (with_bal w s v) d = bal w d) by (intros; unfold bal, with_bal; cbn; rewrite nth_replace_other by exact N; reflexivity).
  assert (B4 : forall w v, bal (with_bal w d v) s = bal w s) by (intros; unfold bal, with_bal; cbn; rewrite nth_replace_other by (intros K; apply N; congruence); reflexivity).
  assert (L : forall w v, List.length (p_bal (with_bal w s v)) = List.length (p_bal w)) by (intros; cbn; apply replace_length).
  unfold apply, apply_to_balances, update_balances, one. set (t := nth x (p_txn w) no_txn). set (t' := apply_precision_txn t). change (bal (with_txn w x t') s) with (bal w s).
  destruct (t_status t); try (destruct (validate_txn t'); [|reflexivity]; destruct (can_process t' (bal w s)); [|reflexivity]; cbn [fst snd];
    rewrite B4, B1, B2, B3 by (rewrite ?L; assumption); auto).
  - destruct (rollback_inflight_debit (bal w s) _) as [s'|]; [|reflexivity]. rewrite B3. destruct (rollback_inflight_credit (bal w d) _) as [d'|]; [|reflexivity].
    cbn [fst snd]. rewrite B4, B1, B2 by (rewrite ?L; assumption). auto.
  - destruct (commit_inflight_debit (bal w s) _) as [s'|]; [|reflexivity].
    set (w1 := with_bal (with_txn w x t') s s').
    assert (K : bal w1 d = bal w d) by exact (B3 (with_txn w x t') s'). rewrite K. destruct (commit_inflight_credit (bal w d) _) as [d'|]; [|reflexivity].
    cbn [fst snd]. rewrite B4, B2 by (cbn; rewrite ?replace_length; assumption).
    split; [reflexivity|]. split; [|reflexivity]. change (bal w1 s = s'). apply B1. exact Hs.
Qed.

Lemma apply_rest w x s d : p_res (fst (apply w x s d)) = p_res w /\ p_out (fst (apply w x s d)) = p_out w /\ List.length (p_bal (fst (apply w x s d))) = List.length (p_bal w).
Proof.
  assert (L : forall w b v, List.length (p_bal (with_bal w b v)) = List.length (p_bal w)) by (intros; cbn; apply replace_length).
  unfold apply, one. destruct (t_status (nth x (p_txn w) no_txn)); try (destruct (validate_txn _); [|auto]; destruct (can_process _ _); [|auto]; cbn [fst]; rewrite !L; auto).
  - destruct (rollback_inflight_debit _ _); [|auto]. destruct (rollback_inflight_credit _ _); cbn [fst]; rewrite !L; auto.
  - destruct (commit_inflight_debit _ _); [|auto]. destruct (commit_inflight_credit _ _); cbn [fst]; rewrite ?L; cbn [with_txn p_bal]; rewrite ?L; auto.
Qed.

Lemma applied_is os x s d m m' t vs vd : voids_priced os -> run os empty = Some m -> run (os ++ [OApply x s d]) empty = Some m' -> s <> d ->
  shown_txn m x = Some t -> shown m s = Some vs -> shown m d = Some vd ->
  match apply_to_balances t (fst vs) (fst vd) with
  | Ok (_, s', d') => p_res (seen m') = p_res (seen m) ++ [None] /\ shown m' s = Some (s', snd vs) /\ shown m' d = Some (d', snd vd)
  | Err e => p_res (seen m') = p_res (seen m) ++ [Some e]
  end.
Proof.
  intros H E E' N Sx Ss Sd. assert (H' : voids_priced (os ++ [OApply x s d])). { intros o Ho. apply in_app_iff in Ho. destruct Ho as [Ho|[<-|[]]]; [apply H, Ho|exact I]. }
  unfold shown, shown_txn in *. rewrite (shown_run _ m' H' E'), steps_app. rewrite (shown_run os m H E) in *. set (w := steps os nothing) in *. cbn [steps fold_left step].
  assert (Lx : (x < List.length (p_txn w))%nat) by (apply nth_error_Some; congruence). assert (Ls : (s < List.length (p_bal w))%nat) by (apply nth_error_Some; congruence).
  assert (Ld : (d < List.length (p_bal w))%nat) by (apply nth_error_Some; congruence).
  rewrite (proj2 (Nat.ltb_lt _ _) Lx), (proj2 (Nat.ltb_lt _ _) Ls), (proj2 (Nat.ltb_lt _ _) Ld). cbn [andb].
  pose proof (apply_two w x s d N Ls Ld) as K. unfold bal in K. rewrite (nth_error_nth _ _ no_txn Sx), (nth_error_nth _ _ no_row Ss), (nth_error_nth _ _ no_row Sd) in K.
  assert (R : p_res (fst (apply w x s d)) = p_res w /\ List.length (p_bal (fst (apply w x s d))) = List.length (p_bal w) /\ forall b, snd (nth b (p_bal (fst (apply w x s d))) no_row) = snd (nth b (p_bal w) no_row)).
  { assert (Q : forall l (b c : nat) (v : balance), snd (nth c (replace l b (v, snd (nth b l no_row))) no_row) = snd (nth c l no_row)).
    { intros l b c v. destruct (Nat.eq_dec b c) as [->|Nb]; [|rewrite nth_replace_other by exact Nb; reflexivity].
      destruct (Nat.lt_ge_cases c (List.length l)) as [L|L]; [rewrite nth_replace by exact L; reflexivity|]. rewrite !nth_overflow by (rewrite ?replace_length; lia). reflexivity. }
    unfold apply, one. destruct (t_status _); try (destruct (validate_txn _); [|auto]; destruct (can_process _ _); [|auto]; cbn [fst]; split; [reflexivity|]; split; [cbn; rewrite !replace_length; reflexivity|]; intros b; unfold with_bal at 1; cbn [p_bal]; rewrite Q; cbn [with_bal p_bal]; rewrite Q; reflexivity).
    - destruct (rollback_inflight_debit _ _); [|auto]. destruct (rollback_inflight_credit _ _); cbn [fst].
      + split; [reflexivity|]; split; [cbn; rewrite !replace_length; reflexivity|]; intros b; unfold with_bal at 1; cbn [p_bal]; rewrite Q; cbn [with_bal p_bal]; rewrite Q; reflexivity.
      + split; [reflexivity|]; split; [cbn; rewrite !replace_length; reflexivity|]; intros b; unfold with_bal at 1; cbn [p_bal]; rewrite Q; reflexivity.
    - destruct (commit_inflight_debit _ _); [|auto]. destruct (commit_inflight_credit _ _); cbn [fst].
      + split; [reflexivity|]; split; [cbn; rewrite !replace_length; reflexivity|]; intros b; unfold with_bal at 1; cbn [p_bal with_txn]; rewrite Q; cbn [with_bal p_bal with_txn]; rewrite Q; reflexivity.
      + split; [reflexivity|]; split; [cbn; rewrite !replace_length; reflexivity|]; intros b; cbn [p_bal with_txn]; unfold with_bal at 1; cbn [p_bal with_txn]; rewrite Q; reflexivity. }
  destruct (apply w x s d) as [w' r]. cbn [fst snd] in K, R. destruct R as (R1 & R2 & R3). cbn [more_res p_res p_bal]. rewrite R1.
  destruct (apply_to_balances t (fst vs) (fst vd)) as [[[t1 s'] d']|e]; [|rewrite K; reflexivity].
  destruct K as (K1 & K2 & K3). split; [rewrite K1; reflexivity|]. unfold bal in K2, K3.
  split; (erewrite nth_error_nth' with (d := no_row) by lia); f_equal; [rewrite (surjective_pairing (nth s _ _)), R3, K2, (nth_error_nth _ _ no_row Ss)|rewrite (surjective_pairing (nth d _ _)), R3, K3, (nth_error_nth _ _ no_row Sd)]; reflexivity.
Qed.

(** A post that fails changes no balance. *)
Lemma failed os x s d m m' t e : voids_priced os -> run os empty = Some m -> run (os ++ [OApply x s d]) empty = Some m' ->
  shown_txn m x = Some t -> t_status t <> SCommit -> t_status t <> SVoid -> p_res (seen m') = p_res (seen m) ++ [Some e] -> p_bal (seen m') = p_bal (seen m).
Proof.
  intros H E E' Sx N1 N2 R. assert (H' : voids_priced (os ++ [OApply x s d])). { intros o Ho. apply in_app_iff in Ho. destruct Ho as [Ho|[<-|[]]]; [apply H, Ho|exact I]. }
  unfold shown_txn in *. rewrite (shown_run _ m' H' E'), steps_app in *. rewrite (shown_run os m H E) in *. set (w := steps os nothing) in *. cbn [steps fold_left step] in *.
  destruct (_ && _ && _); [|reflexivity]. unfold apply in *. rewrite (nth_error_nth _ _ no_txn Sx) in *.
  destruct (t_status t); try contradiction;
    (destruct (validate_txn _); [|reflexivity]; destruct (can_process _ _); [|reflexivity]; exfalso; cbn in R; apply app_inv_head in R; discriminate R).
Qed.

(** ** The dry run *)
Lemma dry_priced c1 c2 t a ok : (a = None -> t_status t <> SVoid) -> voids_priced (dry_run c1 c2 t a ok).
Proof. intros H o Ho. destruct ok; cbn in Ho; repeat (destruct Ho as [<-|Ho]; [first [exact I|destruct a; [exact I|exact (H eq_refl)]]|]); contradiction. Qed.

Lemma dry c1 c2 t a m ok : (a = None -> t_status t <> SVoid) -> run (dry_run c1 c2 t a ok) empty = Some m ->
  let s := fst (row c1) in let d := fst (row c2) in
  shown_txn m 0 = Some (priced t (or0 a)) /\
  match apply_to_balances (apply_precision_txn (priced t (or0 a))) s d with
  | Ok (_, s', d') => p_res (seen m) = [None] /\ (ok = true -> p_out (seen m) = [figures s ++ figures s'; figures d ++ figures d'])
  | Err e => p_res (seen m) = [Some e]
  end /\
  (ok = false -> p_out (seen m) = [figures s ++ figures s; figures d ++ figures d]).
Proof.
  intros H E s d. unfold shown_txn. rewrite (shown_run _ m (dry_priced c1 c2 t a ok H) E). unfold dry_run. rewrite steps_app.
  set (w := steps [ODecode t a; OCopyTxn 0; OPrec 1; OLoad c1; OLoad c2; OCopy 0; OCopy 1] nothing).
  assert (Ew : w = {| p_bal := [row c1; row c2; row c1; row c2]; p_txn := [priced t (or0 a); apply_precision_txn (priced t (or0 a))]; p_res := []; p_out := [] |}) by reflexivity.
  change (steps [ODecode t a; OCopyTxn 0; OPrec 1; OLoad c1; OLoad c2; OCopy 0; OCopy 1; OApply 1 0 1] nothing) with (step w (OApply 1 0 1)).
  assert (E1 : step w (OApply 1 0 1) = let (w', r) := apply w 1 0 1 in more_res w' r) by (rewrite Ew; reflexivity). rewrite E1.
  pose proof (apply_two w 1 0 1) as K. rewrite Ew in K at 1 2. specialize (K ltac:(lia) ltac:(cbn; lia) ltac:(cbn; lia)).
  assert (T0 : nth_error (p_txn (fst (apply w 1 0 1))) 0 = Some (priced t (or0 a))) by (rewrite apply_apart_txn by lia; rewrite Ew; reflexivity).
  assert (B2 : nth_error (p_bal (fst (apply w 1 0 1))) 2 = Some (row c1)) by (rewrite apply_apart by lia; rewrite Ew; reflexivity).
  assert (B3 : nth_error (p_bal (fst (apply w 1 0 1))) 3 = Some (row c2)) by (rewrite apply_apart by lia; rewrite Ew; reflexivity).
  assert (R : p_res (fst (apply w 1 0 1)) = [] /\ p_out (fst (apply w 1 0 1)) = [] /\ List.length (p_bal (fst (apply w 1 0 1))) = 4%nat).
  { destruct (apply_rest w 1 0 1) as (-> & -> & ->). rewrite Ew. auto. }
  replace (nth 1 (p_txn w) no_txn) with (apply_precision_txn (priced t (or0 a))) in K by (rewrite Ew; reflexivity).
  replace (bal w 0) with s in K by (rewrite Ew; reflexivity). replace (bal w 1) with d in K by (rewrite Ew; reflexivity).
  destruct (apply w 1 0 1) as [w' r]. cbn [fst snd] in *. destruct R as (R1 & R2 & R3).
  destruct w' as [bs ts rs os]. cbn [p_bal p_txn p_res p_out] in *. subst rs os. destruct bs as [|x0 [|x1 [|x2 [|x3 [|]]]]]; try discriminate R3. cbn in B2, B3. injection B2 as ->. injection B3 as ->.
  split; [destruct ok; exact T0|]. destruct (apply_to_balances _ s d) as [[[t1 s'] d']|e].
  - destruct K as (-> & <- & <-). split; [destruct ok; (split; [reflexivity|intros K; first [discriminate K|reflexivity]])|]. intros ->. reflexivity.
  - subst r. split; [destruct ok; reflexivity|]. intros ->. reflexivity.
Qed.
