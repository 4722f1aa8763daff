(** Concrete histories for the lineage outbox, and the movements it forgets. *)
From Coq Require Import ZArith QArith List String Bool Lia.
From Verif Require Import Base SplitModel BalanceModel LedgerModel LedgerProgs ConcModel LedgerSpec
  ProvSpec HoldSpec LedgerRefute Sched Demo TidyDemo OutboxSpec OutboxProof.
Import ListNotations.
Local Open Scope string_scope.
Open Scope list_scope.
Open Scope Z_scope.

Definition trackedb (s : state) (id : string) : bool :=
  existsb (fun b => String.eqb (b_id b) id && b_track b) (s_bals s).
Lemma trackedb_ok s id : trackedb s id = true -> tracked s id.
Proof.
  intros H. apply existsb_exists in H as (b & Hb & H). apply andb_prop in H as [H1 H2].
  exists b. split; [exact Hb|]. split; [apply String.eqb_eq; exact H1|exact H2].
Qed.
Definition kind_is (k : kind) (r : row) : bool :=
  match k, r_kind r with KPost, KPost | KHold, KHold | KCommit, KCommit | KVoid, KVoid | KNone, KNone => true | _, _ => false end.
Lemma kind_is_ok k r : kind_is k r = true -> r_kind r = k.
Proof. unfold kind_is. destruct k, (r_kind r); congruence. Qed.
Lemma no_entries s r : match entries_of s r with [] => true | _ => false end = true -> entries_of s r = [].
Proof. destruct (entries_of s r); congruence. Qed.

(** A movement of kind [k] from a tracked balance, without any entry. *)
Definition forgotten (k : kind) (ref : string) (s : state) : Prop :=
  exists r, In r (s_txns s) /\ t_ref (r_t r) = ref /\ r_kind r = k /\ tracked s (source r) /\ entries_of s r = [].
Definition forgottenb (k : kind) (ref : string) (s : state) : bool :=
  existsb (fun r => String.eqb (t_ref (r_t r)) ref && kind_is k r && trackedb s (source r)
    && match entries_of s r with [] => true | _ => false end) (s_txns s).
Lemma forgottenb_ok k ref s : forgottenb k ref s = true -> forgotten k ref s.
Proof.
  intros H. apply existsb_exists in H as (r & Hr & H). repeat rewrite andb_true_iff in H. destruct H as [[[H1 H2] H3] H4].
  exists r. split; [exact Hr|]. split; [apply String.eqb_eq; exact H1|]. split; [apply kind_is_ok; exact H2|].
  split; [apply trackedb_ok; exact H3|apply no_entries; exact H4].
Qed.

Definition funded : list cmd :=
  (whole 0 (RBalance "@ann" "USD" false true) ++
   whole 1 (RQueue env0 (ctxn "@bank" "@ann" "fund" 50000 false true true)))%list.

(** A hold that went through the queue, and its commit. *)
Definition queued_hold_cmds : list cmd :=
  (funded ++ whole 2 (RQueue env0 (ctxn "@ann" "@bob" "q" 900 true false false)) ++
   background 3 0 ++ deliver 4 0 ++ whole 5 (RCommit "txn_5" 0 "done"))%list.
Lemma queued_hold_forgotten :
  exists y, steps cfg0 careful (init_sys uuids) y /\ forgotten KHold "q_q" (y_st y) /\ forgotten KCommit "done" (y_st y).
Proof.
  apply (witness queued_hold_cmds (fun s => forgottenb KHold "q_q" s && forgottenb KCommit "done" s)
    (fun s => forgotten KHold "q_q" s /\ forgotten KCommit "done" s)).
  - intros s H. apply andb_prop in H as [H1 H2]. split; apply forgottenb_ok; assumption.
  - vm_compute. reflexivity.
Qed.

(** A hold that is a member of a bulk request, and a leg of a split hold. *)
Definition split_hold : txn :=
  {| t_id := ""; t_parent := ""; t_src := "@ann"; t_dst := ""; t_ref := "s"; t_cur := "USD";
     t_status := SNone; t_precise := 100; t_amount := 0; t_prec := 100; t_inflight := true;
     t_allow := false; t_limit := 0; t_skipq := true; t_atomic := false; t_sched := false;
     t_meta := meta0; t_sources := [];
     t_dests := [{|d_id := "@a"; d_spec := DFixed (3#10) |}; {|d_id := "@b"; d_spec := DLeft |}] |}.
Definition bulk_hold_cmds : list cmd :=
  (funded ++ whole 2 (RBulk env0 [ctxn "@ann" "@bob" "m" 900 false false false] false true true) ++
   whole 3 (RQueue env0 split_hold))%list.
Lemma bulk_and_split_hold_forgotten :
  exists y, steps cfg0 careful (init_sys uuids) y /\ forgotten KHold "m" (y_st y) /\ forgotten KHold "s-1" (y_st y).
Proof.
  apply (witness bulk_hold_cmds (fun s => forgottenb KHold "m" s && forgottenb KHold "s-1" s)
    (fun s => forgotten KHold "m" s /\ forgotten KHold "s-1" s)).
  - intros s H. apply andb_prop in H as [H1 H2]. split; apply forgottenb_ok; assumption.
  - vm_compute. reflexivity.
Qed.

(** A client that sends the metadata key "inflight" hides a queued posting. *)
Definition hidden_cmds : list cmd :=
  (funded ++ whole 2 (RQueue env0 (with_meta (ctxn "@ann" "@bob" "h" 100 false false false) spoofed)) ++
   background 3 0 ++ deliver 4 0)%list.
Lemma hidden_posting :
  exists y, steps cfg0 no_expiry (init_sys uuids) y /\ forgotten KPost "h_q" (y_st y).
Proof.
  apply (played_witness cfg0 no_expiry no_expiryb hidden_cmds uuids (forgottenb KPost "h_q") (forgotten KPost "h_q")).
  - exact no_expiryb_ok.
  - exact no_expiry_step.
  - apply forgottenb_ok.
  - vm_compute. reflexivity.
Qed.

(** A history with a queued posting and a direct hold out of a tracked balance, and a
    credit into it with a named provider. *)
Definition gift : meta := {| m_inflight := false; m_atomic := false; m_allow := false; m_qparent := ""; m_provider := "acme" |}.
Definition recorded_cmds : list cmd :=
  (funded ++ whole 2 (RQueue env0 (with_meta (ctxn "@bank" "@ann" "g" 70 false true true) gift)) ++
   whole 3 (RQueue env0 (ctxn "@ann" "@bob" "hold" 60 true false true)) ++
   whole 4 (RQueue env0 (ctxn "@ann" "@bob" "q" 50 false false false)) ++ background 5 0 ++ deliver 6 0)%list.
Lemma recorded_run :
  exists y, steps cfg0 careful (init_sys uuids) y
    /\ map (fun o => (o_txn o, o_provider o, (o_credit o, o_debit o), o_amount o, o_inflight o)) (s_outbox (y_st y))
       = [("txn_7", "", (false, true), 50, false); ("txn_4", "", (false, true), 60, true);
          ("txn_3", "acme", (true, false), 70, false)].
Proof.
  destruct (played cfg0 carefulb recorded_cmds uuids) as [s|] eqn:E; [|vm_compute in E; discriminate].
  destruct (played_steps cfg0 careful carefulb recorded_cmds uuids s carefulb_ok careful_step E) as (y & Hy & Hs).
  exists y. split; [exact Hy|]. rewrite Hs.
  assert (H : option_map (fun s => map (fun o => (o_txn o, o_provider o, (o_credit o, o_debit o), o_amount o, o_inflight o)) (s_outbox s)) (played cfg0 carefulb recorded_cmds uuids)
    = Some [("txn_7", "", (false, true), 50, false); ("txn_4", "", (false, true), 60, true);
          ("txn_3", "acme", (true, false), 70, false)]) by (vm_compute; reflexivity).
  rewrite E in H. simpl in H. congruence.
Qed.
