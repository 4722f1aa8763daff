(** Concrete executions that refute tempting claims. *)
From Coq Require Import ZArith QArith List String Bool Lia.
From Verif Require Import Base SplitModel BalanceModel LedgerModel LedgerProgs ConcModel LedgerSpec
  BudgetSpec LedgerInv LedgerSafe LedgerThms Sched.
Import ListNotations.
Local Open Scope string_scope.
Open Scope Z_scope.

(** ** A balance created with the reconciliation flag loses its first post *)
Definition recon_run : list cmd :=
  (whole 0 (RBalance "@ann" "USD" true false) ++
   whole 1 (RQueue env0 (ctxn "@bank" "@ann" "r1" 500 false true true)))%list.

Lemma recon_flag_breaks :
  exists y, steps cfg0 (fun _ _ => True) (init_sys uuids) y /\
    sumz b_cr (s_bals (y_st y)) <> sumz b_db (s_bals (y_st y)).
Proof.
  apply (played_witness cfg0 (fun _ _ => True) all_ok recon_run uuids
           (fun s => negb (sumz b_cr (s_bals s) =? sumz b_db (s_bals s)))
           (fun s => sumz b_cr (s_bals s) <> sumz b_db (s_bals s))); auto.
  intros s H. apply negb_true_iff, Z.eqb_neq in H. exact H.
Qed.

(** ** Overdraft through a negative commit, no lock ever expiring *)
Definition no_expiry (y : sys) (e : event) : Prop :=
  no_recon_flag y e /\ match e with EExpire _ => False | _ => True end.
Definition no_expiryb (y : sys) (e : event) : bool :=
  match e with
  | EExpire _ => false
  | EStart (RBalance _ _ recon _) => negb recon
  | _ => true
  end.
Lemma no_expiryb_ok y e : no_expiryb y e = true -> no_expiry y e.
Proof.
  destruct e as [r|n|n|k]; simpl; try discriminate; intros H; split; simpl; auto.
  destruct r; simpl in *; auto. destruct recon; auto; discriminate.
Qed.
Lemma no_expiry_step y n : no_expiry y (EStep n).
Proof. split; exact Logic.I. Qed.

Definition spoofed : meta :=
  {| m_inflight := true; m_atomic := false; m_allow := false; m_qparent := ""; m_provider := "" |}.

Definition overdraft_run : list cmd :=
  (whole 0 (RQueue env0 (ctxn "@bank" "@x" "fund" 500 false true true)) ++
   whole 1 (RQueue env0 (ctxn "@x" "@y" "hold" 60 true false true)) ++
   whole 2 (RQueue env0 (with_meta (ctxn "@x" "@y" "h" 100 false false false) spoofed)) ++
   background 3 0 ++
   whole 4 (RCommit "txn_5" 60 "") ++
   deliver 5 0 ++
   whole 6 (RQueue env0 (ctxn "@y" "@z" "spend" 160 false false true)) ++
   whole 7 (RCommit "txn_5" 0 ""))%list.

Definition never_overdraft (id : string) (j : list row) : bool :=
  forallb (fun r => negb (String.eqb (t_src (r_t r)) id) ||
                    match r_kind r with
                    | KPost | KHold => negb (t_allow (r_t r)) && Qle_bool (t_limit (r_t r)) 0
                    | _ => true
                    end) j.

Lemma never_overdraft_ok id j : never_overdraft id j = true -> overdraft_at_most id 0 j.
Proof.
  unfold never_overdraft. rewrite forallb_forall. intros H r Hr Hs Hk. specialize (H r Hr).
  rewrite Hs, String.eqb_refl in H. simpl in H.
  assert (H' : negb (t_allow (r_t r)) && Qle_bool (t_limit (r_t r)) 0 = true) by (destruct Hk as [Hk|Hk]; rewrite Hk in H; exact H).
  apply andb_prop in H' as [H1 H2]. apply Qle_bool_imp_le in H2. split.
  - intros [Ha _]. rewrite Ha in H1. discriminate.
  - intros l [Hg _]. exfalso. apply (Qlt_not_le _ _ Hg H2).
Qed.

Lemma overdraft_by_commit :
  exists y, steps cfg0 no_expiry (init_sys uuids) y /\
    exists b, In b (s_bals (y_st y)) /\ overdraft_at_most (b_id b) 0 (s_txns (y_st y)) /\ b_bal b - b_idb b < 0.
Proof.
  apply (played_witness cfg0 no_expiry no_expiryb overdraft_run uuids
    (fun s => existsb (fun b => never_overdraft (b_id b) (s_txns s) && (b_bal b - b_idb b <? 0)) (s_bals s))
    (fun s => exists b, In b (s_bals s) /\ overdraft_at_most (b_id b) 0 (s_txns s) /\ b_bal b - b_idb b < 0)).
  - exact no_expiryb_ok.
  - exact no_expiry_step.
  - intros s H. apply existsb_exists in H as (b & Hb & H). apply andb_prop in H as [H1 H2].
    exists b. split; [exact Hb|]. split; [apply never_overdraft_ok; exact H1|apply Z.ltb_lt; exact H2].
  - vm_compute. reflexivity.
Qed.

(** ** Lock expiry: a hold is committed twice, then a counter goes negative *)
(** [n]: thread that just read the committed total; then its lock expires. *)
Definition stalled_commit (n : nat) : list cmd :=
  [CReq (RCommit "txn_3" 0 ""); CRun n 4; CExpire "inflight-commit:txn_3"].

Definition overcommit_run : list cmd :=
  (whole 0 (RQueue env0 (ctxn "@bank" "@x" "fund" 500 false true true)) ++
   whole 1 (RQueue env0 (ctxn "@x" "@y" "hold" 100 true false true)) ++
   whole 2 (RQueue env0 (ctxn "@x" "@y" "other" 100 true false true)) ++
   stalled_commit 3 ++ stalled_commit 4 ++ [CRun 3 400; CRun 4 400])%list.

Lemma overcommit :
  exists y, steps cfg0 no_recon_flag (init_sys uuids) y /\
    exists h, In h (s_txns (y_st y)) /\ t_status (r_t h) = SInflight /\
      t_precise (r_t h) < committed (t_id (r_t h)) (s_txns (y_st y)).
Proof.
  apply (played_witness cfg0 no_recon_flag (fun y e => match e with EStart (RBalance _ _ r _) => negb r | _ => true end)
    overcommit_run uuids
    (fun s => existsb (fun h => status_eqb (t_status (r_t h)) SInflight &&
        (t_precise (r_t h) <? committed (t_id (r_t h)) (s_txns s))) (s_txns s))
    (fun s => exists h, In h (s_txns s) /\ t_status (r_t h) = SInflight /\
      t_precise (r_t h) < committed (t_id (r_t h)) (s_txns s))).
  - intros y e. destruct e as [r| | |]; simpl; auto. destruct r; simpl; auto. destruct recon; auto; discriminate.
  - intros; exact Logic.I.
  - intros s H. apply existsb_exists in H as (h & Hh & H). apply andb_prop in H as [H1 H2].
    exists h. split; [exact Hh|]. split; [apply status_eqb_eq; exact H1|apply Z.ltb_lt; exact H2].
  - vm_compute. reflexivity.
Qed.

Definition negative_run : list cmd :=
  (overcommit_run ++ stalled_commit 5 ++ stalled_commit 6 ++ stalled_commit 7 ++
   [CRun 5 400; CRun 6 400; CRun 7 400])%list.

Lemma negative_counter :
  exists y, steps cfg0 no_recon_flag (init_sys uuids) y /\ exists b, In b (s_bals (y_st y)) /\ b_cr b < 0.
Proof.
  apply (played_witness cfg0 no_recon_flag (fun y e => match e with EStart (RBalance _ _ r _) => negb r | _ => true end)
    negative_run uuids
    (fun s => existsb (fun b => b_cr b <? 0) (s_bals s)) (fun s => exists b, In b (s_bals s) /\ b_cr b < 0)).
  - intros y e. destruct e as [r| | |]; simpl; auto. destruct r; simpl; auto. destruct recon; auto; discriminate.
  - intros; exact Logic.I.
  - intros s H. apply existsb_exists in H as (b & Hb & H). exists b. split; [exact Hb|apply Z.ltb_lt; exact H].
  - vm_compute. reflexivity.
Qed.

(** ** A queued hold committed under its own id and under its copy's *)
Definition queued_hold_run : list cmd :=
  (whole 0 (RQueue env0 (ctxn "@bank" "@x" "fund" 500 false true true)) ++
   whole 1 (RQueue env0 (ctxn "@x" "@y" "other" 100 true false true)) ++
   whole 2 (RQueue env0 (ctxn "@x" "@y" "h" 100 true false false)) ++
   background 3 0 ++ deliver 4 0 ++
   whole 5 (RCommit "txn_5" 100 "") ++
   whole 6 (RCommit "txn_6" 100 ""))%list.

Lemma queued_hold_twice :
  exists y, steps cfg0 no_expiry (init_sys uuids) y /\
    exists q c, In q (s_txns (y_st y)) /\ In c (s_txns (y_st y)) /\
      t_status (r_t q) = SQueued /\ t_status (r_t c) = SInflight /\ t_parent (r_t c) = t_id (r_t q) /\
      t_precise (r_t q) < committed (t_id (r_t q)) (s_txns (y_st y)) + committed (t_id (r_t c)) (s_txns (y_st y)).
Proof.
  apply (played_witness cfg0 no_expiry no_expiryb queued_hold_run uuids
    (fun s => existsb (fun q => existsb (fun c =>
        status_eqb (t_status (r_t q)) SQueued && status_eqb (t_status (r_t c)) SInflight
        && String.eqb (t_parent (r_t c)) (t_id (r_t q))
        && (t_precise (r_t q) <? committed (t_id (r_t q)) (s_txns s) + committed (t_id (r_t c)) (s_txns s)))
       (s_txns s)) (s_txns s))
    (fun s => exists q c, In q (s_txns s) /\ In c (s_txns s) /\
      t_status (r_t q) = SQueued /\ t_status (r_t c) = SInflight /\ t_parent (r_t c) = t_id (r_t q) /\
      t_precise (r_t q) < committed (t_id (r_t q)) (s_txns s) + committed (t_id (r_t c)) (s_txns s))).
  - exact no_expiryb_ok.
  - exact no_expiry_step.
  - intros s H. apply existsb_exists in H as (q & Hq & H). apply existsb_exists in H as (c & Hc & H).
    repeat rewrite andb_true_iff in H. destruct H as [[[H1 H2] H3] H4].
    exists q, c. split; [exact Hq|]. split; [exact Hc|].
    split; [apply status_eqb_eq; exact H1|]. split; [apply status_eqb_eq; exact H2|].
    split; [apply String.eqb_eq; exact H3|apply Z.ltb_lt; exact H4].
  - vm_compute. reflexivity.
Qed.
