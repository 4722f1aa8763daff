(** Concrete splits for C16. *)
From Coq Require Import ZArith QArith List String Bool Lia Lqa Permutation.
From Verif Require Import Base MoneyModel SplitModel BalanceModel LedgerModel LedgerProgs ConcModel PostSpec Sched SplitSpec SplitThms.
Import ListNotations.
Local Open Scope string_scope.
Open Scope Z_scope.

Definition d0 (id : string) (s : dspec) : distribution := {| d_id := id; d_spec := s |}.
Definition ten_tenths : list distribution := map (fun id => d0 id (DPercent 10)) ["a"; "b"; "c"; "d"; "e"; "f"; "g"; "h"; "i"; "j"].
Definition fixed_and_percent : list distribution :=
  [d0 "a" (DFixed 90); d0 "b" (DPercent (333 # 100)); d0 "c" (DPercent (333 # 100)); d0 "d" DLeft].
Definition over_asked : list distribution := [d0 "a" (DFixed 80); d0 "b" (DPercent 50)].
Definition under_asked : list distribution := [d0 "a" (DFixed 30); d0 "b" (DFixed 20)].
Definition negative_ask : list distribution := [d0 "a" (DFixed (-50)); d0 "b" DLeft].
Definition mixed_split : list distribution := [d0 "a" (DFixed (5 # 2)); d0 "b" (DPercent (333 # 10)); d0 "c" DLeft].

Ltac nodup := repeat (constructor; [simpl; intuition discriminate|]); constructor.
Ltac legs := let d := fresh in let H := fresh in intros d H; simpl in H;
  repeat (destruct H as [<-|H]); try tauto; (split; [discriminate|vm_compute; discriminate]).
Ltac one_left := let H1 := fresh in let H2 := fresh in let E1 := fresh in let E2 := fresh in
  intros ? ? H1 H2 E1 E2; simpl in H1, H2;
  repeat (destruct H1 as [<-|H1]; try discriminate E1); try tauto;
  repeat (destruct H2 as [<-|H2]; try discriminate E2); try tauto.

Lemma tiny_shares : proper 3 1 ten_tenths /\
  exists m, calculate_distributions (fun m => m) (fun m => m) 3 ten_tenths 1 = Some m /\ handed_out m = 0.
Proof.
  split.
  - split; [nodup|]. split; [simpl; intuition discriminate|]. split; [legs|]. split; [vm_compute; discriminate|].
    split; [one_left|]. right. vm_compute. reflexivity.
  - eexists. split; [vm_compute; reflexivity|reflexivity].
Qed.
Lemma fixed_is_off : proper 100 1 fixed_and_percent /\
  exists m, calculate_distributions (fun m => m) (fun m => m) 100 fixed_and_percent 1 = Some m
    /\ got m "a" = 91 /\ asked 100 1 {| d_id := "a"; d_spec := DFixed 90 |} = 90%Q.
Proof.
  split.
  - split; [nodup|]. split; [simpl; intuition discriminate|]. split; [legs|]. split; [vm_compute; discriminate|].
    split; [one_left|]. left. exists (d0 "d" DLeft). simpl. auto 6.
  - eexists. split; [vm_compute; reflexivity|]. split; reflexivity.
Qed.
Lemma improper_accepted :
  (exists m, calculate_distributions (fun m => m) (fun m => m) 100 over_asked 1 = Some m /\ got m "a" = 50 /\ got m "b" = 50)
  /\ (exists m, calculate_distributions (fun m => m) (fun m => m) 100 under_asked 1 = Some m /\ got m "a" = 80 /\ got m "b" = 20)
  /\ (exists m, calculate_distributions (fun m => m) (fun m => m) 100 negative_ask 1 = Some m /\ got m "a" = -50 /\ got m "b" = 150).
Proof. split; [|split]; (eexists; split; [vm_compute; reflexivity|split; reflexivity]). Qed.

Definition mixed_txn : txn := with_splits (with_money (with_ends (ctxn "@src" "" "r" 1000 false true false) "@src" "") 1000 10 100) [] mixed_split.
Lemma mixed_case : fair_env env0 /\ proper 1000 100 mixed_split /\
  (exists d, In d mixed_split /\ (1 <= entitled 1000 100 mixed_split d)%Q) /\
  calculate_distributions (fun m => m) (fun m => m) 1000 mixed_split 100 = Some [("a", 250); ("b", 333); ("c", 417)].
Proof.
  split; [split; [|split]; intros m; apply Permutation_refl|]. split; [|split].
  - split; [nodup|]. split; [simpl; intuition discriminate|]. split; [legs|]. split; [vm_compute; discriminate|].
    split; [one_left|]. left. exists (d0 "c" DLeft). simpl. auto 6.
  - exists (d0 "a" (DFixed (5 # 2))). split; [simpl; auto|vm_compute; discriminate].
  - vm_compute. reflexivity.
Qed.
Lemma runs_traces n {A} (p : prog A) : forall s, exists tr, traces n p tr (Some (snd (run n p s))).
Proof.
  induction p as [a|o k IH]; intros s; simpl.
  - exists []. auto.
  - destruct (exec n o s) as [s' r] eqn:E. destruct (IH r s') as (tr & H). exists ((s, s') :: tr). right.
    exists s, tr. rewrite E. auto.
Qed.
Lemma mixed_legs : exists tr ls, traces 0 (split_txn env0 mixed_txn) tr (Some (Ok ls))
  /\ map (fun l => (t_dst l, t_precise l)) ls = [("a", 250); ("b", 333); ("c", 417)]
  /\ t_precise mixed_txn = 1000 /\ split_over mixed_txn = mixed_split.
Proof.
  destruct (runs_traces 0 (split_txn env0 mixed_txn) (init_state uuids)) as (tr & H). exists tr.
  match type of H with traces _ _ _ (Some ?x) => let y := eval vm_compute in x in
    match y with Ok ?ls => exists ls end end.
  split; [|vm_compute; auto]. exact H.
Qed.
