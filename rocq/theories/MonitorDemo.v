(** Concrete monitor histories. *)
From Coq Require Import ZArith QArith List String Bool Lia.
From Verif Require Import Base SplitModel BalanceModel MonitorModel MonitorSpec MonitorProof.
Import ListNotations.
Local Open Scope string_scope.
Open Scope Z_scope.

Fixpoint mrun (y : msys) (es : list mevent) : option (msys * list monitor) :=
  match es with
  | [] => Some (y, [])
  | e :: r => match mstep y e with
              | Some (y', out) => match r with [] => Some (y', out) | _ => mrun y' r end
              | None => None
              end
  end.
Definition mstate (es : list mevent) : msys := match mrun monitors_init es with Some (y, _) => y | None => monitors_init end.

Lemma mruns_app p es : forall y y1 e y2 out, mruns p y es y1 -> p y1 e -> mstep y1 e = Some (y2, out) -> mruns p y (es ++ [e]) y2.
Proof.
  induction es as [|x es IH]; cbn; intros y y1 e y2 out H Hp Hs.
  - subst. split; [exact Hp|]. eauto.
  - destruct H as (Hx & z & o & Hz & Hr). split; [exact Hx|]. exists z, o. split; [exact Hz|]. eapply IH; eauto.
Qed.

Definition bal_demo (id : string) (v : Z) : balance :=
  {| b_id := id; b_ind := ""; b_cur := "USD"; b_bal := v; b_cr := v; b_db := 0; b_ibal := 0; b_icr := 0; b_idb := 0;
     b_queued := None; b_ver := 1; b_recon := false; b_track := false |}.
Definition cond_demo (op : string) (v : Z) : condition :=
  {| q_field := "balance"; q_op := op; q_value := inject_Z v; q_prec := 100 # 1 |}.
Definition mon_demo (id bal op : string) (v : Z) (p : Z) : monitor :=
  {| m_id := id; m_bal := bal; m_cond := cond_demo op v; m_precise := p |}.

(** Three monitors: over 50.00, equal to 60.00, and one of another balance. *)
Definition three : list mevent :=
  [MCreate "m1" "a" (cond_demo ">" 50); MCreate "m2" "a" (cond_demo "=" 60); MCreate "m3" "b" (cond_demo "<" 10)].
Lemma three_table : y_table (mstate three) = [mon_demo "m1" "a" ">" 50 5000; mon_demo "m2" "a" "=" 60 6000; mon_demo "m3" "b" "<" 10 1000].
Proof. vm_compute. reflexivity. Qed.

Ltac calm_run := repeat (split; [cbn; auto|]; eexists; eexists; split; [cbn; reflexivity|]); reflexivity.

Lemma three_reach : mreach (mstate three).
Proof. exists three. calm_run. Qed.

Lemma three_fires : exists y', mstep (mstate three) (MCheck (bal_demo "a" 6000)) = Some (y', [mon_demo "m1" "a" ">" 50 5000]).
Proof. eexists. vm_compute. reflexivity. Qed.

Lemma three_case : In (mon_demo "m1" "a" ">" 50 5000) (y_table (mstate three)) /\
  plain_threshold (cond_demo ">" 50) /\ condition_holds (cond_demo ">" 50) (bal_demo "a" 6000) /\
  ~ condition_holds (cond_demo ">" 50) (bal_demo "a" 5000).
Proof.
  split; [vm_compute; auto|]. split; [exists 5000; split; [reflexivity|lia]|]. split.
  - exists 6000. split; [constructor|]. constructor. reflexivity.
  - intros (v & Hv & Hc). inversion Hv; subst. inversion Hc as [x y H| | | | |]; subst. vm_compute in H. discriminate.
Qed.

(** The equality monitor misses its moment. *)
Lemma equality_missed : In (mon_demo "m2" "a" "=" 60 6000) (y_table (mstate three)) /\
  condition_holds (cond_demo "=" 60) (bal_demo "a" 6000).
Proof. split; [vm_compute; auto|]. exists 6000. split; [constructor|]. constructor. reflexivity. Qed.

(** Raising the value from 50.00 to 80.00 does not raise the threshold. *)
Definition raised : list mevent := [MCreate "m1" "a" (cond_demo ">" 50); MUpdate "m1" "a" (cond_demo ">" 80)].
Lemma raised_reach : mreach_any (mstate raised).
Proof. exists raised. unfold raised. repeat (split; [exact Logic.I|]; eexists; eexists; split; [cbn; reflexivity|]). reflexivity. Qed.
Lemma raised_fires : exists y', mstep (mstate raised) (MCheck (bal_demo "a" 6000)) = Some (y', [mon_demo "m1" "a" ">" 80 5000]).
Proof. eexists. vm_compute. reflexivity. Qed.
Lemma raised_not : ~ condition_holds (cond_demo ">" 80) (bal_demo "a" 6000).
Proof. intros (v & Hv & Hc). inversion Hv; subst. inversion Hc as [x y H| | | | |]; subst. vm_compute in H. discriminate. Qed.

(** A monitor moved to another balance goes on firing for the old one. *)
Definition moved : list mevent :=
  [MCreate "m1" "a" (cond_demo ">" 50); MCheck (bal_demo "a" 0); MFill 0; MUpdate "m1" "b" (cond_demo ">" 50)].
Lemma moved_reach : mreach_any (mstate moved).
Proof. exists moved. unfold moved. repeat (split; [exact Logic.I|]; eexists; eexists; split; [cbn; reflexivity|]). reflexivity. Qed.
Lemma moved_fires : exists y', mstep (mstate moved) (MCheck (bal_demo "a" 6000)) = Some (y', [mon_demo "m1" "a" ">" 50 5000]).
Proof. eexists. vm_compute. reflexivity. Qed.
Lemma moved_table : y_table (mstate moved) = [mon_demo "m1" "b" ">" 50 5000].
Proof. vm_compute. reflexivity. Qed.

(** A monitor created while a lookup is in progress is missed: the lookup fills the
    cache with what it read before. *)
Definition raced : list mevent := [MCheck (bal_demo "a" 0); MCreate "m1" "a" (cond_demo ">" 50); MFill 0].
Lemma raced_reach : mreach_any (mstate raced).
Proof. exists raced. unfold raced. repeat (split; [exact Logic.I|]; eexists; eexists; split; [cbn; reflexivity|]). reflexivity. Qed.
Lemma raced_silent : exists y', mstep (mstate raced) (MCheck (bal_demo "a" 6000)) = Some (y', []).
Proof. eexists. vm_compute. reflexivity. Qed.
Lemma raced_table : y_table (mstate raced) = [mon_demo "m1" "a" ">" 50 5000].
Proof. vm_compute. reflexivity. Qed.
