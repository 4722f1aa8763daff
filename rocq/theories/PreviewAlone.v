(** What a post does when nobody else is around. *)
From Coq Require Import ZArith QArith List String Bool Lia.
From Verif Require Import LedgerInv LedgerSafe BatchProof BulkProof.
From Verif Require Import Base MoneyModel SplitModel BalanceModel LedgerModel LedgerProgs BatchSpec PreviewModel PreviewSpec.
Import ListNotations.
Local Open Scope string_scope.
Open Scope Z_scope.

Section Locks.
Variable n : nat.
Lemma owner_n k l o : Forall (fun x : string * nat => snd x = n) l -> lock_owner k l = Some o -> o = n.
Proof.
  induction 1 as [|[k' o'] r H _ IH]; simpl; [discriminate|]. destruct (String.eqb k k'); [|exact IH]. intros [= <-]. exact H.
Qed.
Lemma unlock_n ks s : Forall (fun x : string * nat => snd x = n) (s_locks s) ->
  exists l, run n (unlock_keys ks) s = (set_locks s l, tt) /\ forall x, In x l -> In x (s_locks s) /\ ~ In (fst x) ks.
Proof.
  revert s. induction ks as [|k r IH]; intros s F.
  - exists (s_locks s). rewrite set_locks_same. split; [reflexivity|]. auto.
  - assert (E : exists l1, fst (exec n (OUnlock k) s) = set_locks s l1 /\ forall x, In x l1 -> In x (s_locks s) /\ fst x <> k).
    { simpl. destruct (lock_owner k (s_locks s)) as [o|] eqn:E.
      - rewrite (owner_n _ _ _ F E), Nat.eqb_refl. simpl. exists (del_lock k (s_locks s)). split; [reflexivity|]. apply del_in.
      - exists (s_locks s). rewrite set_locks_same. split; [reflexivity|]. intros x Hx. split; [exact Hx|].
        rewrite <- (owner_none _ _ E) in Hx. apply del_in in Hx. tauto. }
    destruct E as (l1 & E & H1).
    assert (Er : run n (unlock_keys (k :: r)) s = run n (unlock_keys r) (fst (exec n (OUnlock k) s))).
    { cbn [unlock_keys bind act run]. destruct (exec n (OUnlock k) s). reflexivity. }
    rewrite Er, E.
    destruct (IH (set_locks s l1)) as (l & El & Hl).
    { simpl. rewrite Forall_forall in F |- *. intros x Hx. apply F, H1, Hx. }
    exists l. split; [exact El|]. intros x Hx. destruct (Hl x Hx) as [Hx1 Hx2]. destruct (H1 x Hx1) as [Hx3 Hx4].
    split; [exact Hx3|]. intros [Hx5|Hx5]; congruence.
Qed.
Lemma lock_n ks : forall got s, NoDup ks -> (forall k, In k ks -> ~ In k (map fst (s_locks s))) ->
  exists l, run n (lock_keys ks got) s = (set_locks s (l ++ s_locks s), true)
    /\ Forall (fun x => snd x = n /\ In (fst x) ks) l.
Proof.
  induction ks as [|k r IH]; intros got s Hn Hd.
  - exists []. split; [|constructor]. change ([] ++ s_locks s)%list with (s_locks s). rewrite set_locks_same. reflexivity.
  - cbn [lock_keys bind act run exec]. rewrite (owner_absent k) by (apply Hd; left; reflexivity). cbn [fst snd].
    inversion Hn as [|? ? Hk Hr]; subst.
    destruct (IH (k :: got) (set_locks s ((k, n) :: s_locks s)) Hr) as (l & E & F).
    { simpl. intros k' Hk' [->|H]; [tauto|]. apply (Hd k'); [right; exact Hk'|exact H]. }
    exists (l ++ [(k, n)])%list. split.
    + simpl in E |- *. rewrite E, <- app_assoc. reflexivity.
    + apply Forall_app. split; [|constructor; [simpl; auto|constructor]].
      eapply Forall_impl; [|exact F]. simpl. tauto.
Qed.
(** Locks taken and given back. *)
Lemma bracket k ks s : NoDup ks -> s_locks s = [] ->
  exists l, run n (wait_lock k ks) s = (set_locks s l, true)
   /\ forall s', s_locks s' = l -> run n (unlock_keys (rev ks)) s' = (set_locks s' [], tt).
Proof.
  intros N L. destruct (lock_n ks [] s N) as (l & E & F); [rewrite L; simpl; tauto|].
  rewrite L, app_nil_r in E. exists l. split; [destruct k; cbn [wait_lock]; rewrite run_bind, E; reflexivity|].
  intros s' L'. destruct (unlock_n (rev ks) s') as (l2 & E2 & H2).
  { rewrite L'. eapply Forall_impl; [|exact F]. simpl. tauto. }
  rewrite E2. assert (l2 = []) as ->; [|reflexivity].
  destruct l2 as [|x q]; [reflexivity|]. destruct (H2 x (or_introl eq_refl)) as [Hx1 Hx2]. rewrite L' in Hx1.
  rewrite Forall_forall in F. destruct (F x Hx1) as [_ Hx3]. exfalso. apply Hx2. rewrite <- in_rev. exact Hx3.
Qed.
End Locks.

(** ** Finding balances *)
Definition view (s : state) (x cur : string) : option balance :=
  if starts_with_at x then get_bal_ind x cur (s_bals s) else get_bal x (s_bals s).
Definition qb (cfg : config) (s : state) (b : balance) : balance :=
  if c_queued cfg then with_queued b (Some (queued_debit (b_id b) (s_txns s))) else b.
Definition born (n : nat) (s : state) (x cur : string) : state :=
  set_bals (fst (exec n OFresh s)) (fresh_balance ("bln_" ++ s_uuid s (s_ctr s)) x cur false false :: s_bals s).
Definition settle (n : nat) (s : state) (x cur : string) : state :=
  if starts_with_at x then match get_bal_ind x cur (s_bals s) with Some _ => s | None => born n s x cur end else s.
Definition rid (s : state) (x cur : string) : string :=
  if starts_with_at x then match get_bal_ind x cur (s_bals s) with Some b => b_id b | None => "bln_" ++ s_uuid s (s_ctr s) end else x.

Lemma ind_keys ind cur l b : get_bal_ind ind cur l = Some b -> b_ind b = ind /\ b_cur b = cur.
Proof.
  induction l as [|x r IH]; simpl; [discriminate|]. destruct (String.eqb_spec (b_ind x) ind) as [E|E]; simpl; [|exact IH].
  destruct (String.eqb_spec (b_cur x) cur) as [E2|E2]; simpl; [|exact IH]. intros [= <-]. auto.
Qed.
Lemma view_named s x cur b : view s x cur = Some b -> named s x cur b.
Proof.
  unfold view, named. destruct (starts_with_at x); intros H.
  - split; [eapply get_bal_ind_in; eauto|eapply ind_keys; eauto].
  - split; [eapply get_bal_in; eauto|eapply get_bal_id; eauto].
Qed.
Lemma tidy_get s b : tidy s -> In b (s_bals s) -> get_bal (b_id b) (s_bals s) = Some b.
Proof. intros [N _] I. apply get_bal_nodup; assumption. Qed.

Lemma get_balance_run n cfg id s : run n (get_balance cfg id) s =
  (s, match get_bal id (s_bals s) with None => Err EBalanceNotFound | Some b => Ok (qb cfg s b) end).
Proof.
  unfold get_balance, qb. cbn [bind act run exec]. destruct (get_bal id (s_bals s)) as [b|] eqn:E; cbn [bind run]; [|reflexivity].
  rewrite <- (get_bal_id _ _ _ E). destruct (c_queued cfg); reflexivity.
Qed.
Lemma born_ind n s x cur : get_bal_ind x cur (s_bals (born n s x cur)) = Some (fresh_balance ("bln_" ++ s_uuid s (s_ctr s)) x cur false false).
Proof. simpl. rewrite !String.eqb_refl. reflexivity. Qed.
Lemma create_run n cfg x cur s : starts_with_at x = true -> tidy s -> new_names s ->
  run n (get_or_create cfg x cur) s =
    (settle n s x cur, match view (settle n s x cur) x cur with Some b => Ok (qb cfg (settle n s x cur) b) | None => Err EBalanceNotFound end)
  /\ view (settle n s x cur) x cur <> None
  /\ rid s x cur = match view (settle n s x cur) x cur with Some b => b_id b | None => "" end.
Proof.
  intros A T [_ N]. unfold get_or_create, settle, view, rid. rewrite A. cbn [bind act run exec].
  destruct (get_bal_ind x cur (s_bals s)) as [b|] eqn:E.
  - rewrite E. split; [|split; [discriminate|reflexivity]].
    destruct (c_queued cfg) eqn:Q; [|unfold qb; rewrite Q; reflexivity].
    rewrite get_balance_run, (tidy_get s b T (get_bal_ind_in _ _ _ _ E)). reflexivity.
  - rewrite born_ind. split; [|split; [discriminate|reflexivity]].
    unfold fresh. cbn [bind act run exec]. unfold create_balance.
    set (b := fresh_balance _ x cur false false). cbn [s_bals set_ctr].
    assert (G : get_bal (b_id b) (s_bals s) = None).
    { apply get_bal_none. apply (N (s_ctr s)). lia. }
    rewrite G. change (b_ind b) with x. change (b_cur b) with cur. rewrite E, andb_false_r. cbn [bind run exec].
    fold b. cbn [s_bals set_bals get_bal_ind].
    change (b_ind b) with x. change (b_cur b) with cur. rewrite !String.eqb_refl. cbn [andb bind run].
    change (set_bals (set_ctr s (S (s_ctr s)) ((s_ctr s, n) :: s_owner s)) (b :: s_bals s)) with (born n s x cur).
    destruct (c_queued cfg) eqn:Q; [|unfold qb; rewrite Q; reflexivity].
    rewrite get_balance_run. cbn [s_bals born set_bals get_bal]. fold b. rewrite String.eqb_refl. reflexivity.
Qed.
Lemma resolve_run n cfg x cur s : tidy s -> new_names s ->
  run n (resolve_id cfg x cur) s = (settle n s x cur, Ok (rid s x cur)).
Proof.
  intros T N. unfold resolve_id. destruct (starts_with_at x) eqn:A; [|unfold settle, rid; rewrite A; reflexivity].
  destruct (create_run n cfg x cur s A T N) as (R & V & I). unfold bindr. rewrite run_bind, R. cbn [fst snd].
  destruct (view (settle n s x cur) x cur) as [b|]; [|contradiction]. rewrite I. cbn [run].
  unfold qb. destruct (c_queued cfg); reflexivity.
Qed.

(** ** The resolved state *)
(** A later state of the same books: everything but balances, ids drawn and locks. *)
Definition later (s s' : state) : Prop :=
  s_uuid s' = s_uuid s /\ (s_ctr s <= s_ctr s')%nat.
Lemma later_refl s : later s s. Proof. split; [reflexivity|lia]. Qed.
Lemma later_trans a b c : later a b -> later b c -> later a c.
Proof. intros [H1 H2] [H3 H4]. split; [congruence|lia]. Qed.
Lemma unguessed_later s s' x : later s s' -> unguessed s x -> unguessed s' x.
Proof. intros [E L] H i Hi. rewrite E. apply H. lia. Qed.

Lemma at_bln u : starts_with_at ("bln_" ++ u) = false. Proof. reflexivity. Qed.
Lemma bln_inj a b : "bln_" ++ a = "bln_" ++ b -> a = b. Proof. intros H. simpl in H. congruence. Qed.

Lemma settle_facts n s x cur : tidy s -> new_names s ->
  tidy (settle n s x cur) /\ new_names (settle n s x cur) /\ later s (settle n s x cur)
  /\ s_txns (settle n s x cur) = s_txns s /\ s_locks (settle n s x cur) = s_locks s
  /\ s_outbox (settle n s x cur) = s_outbox s
  /\ incl (s_bals s) (s_bals (settle n s x cur)).
Proof.
  intros T N. unfold settle. destruct (starts_with_at x); [|repeat (split; auto using later_refl, incl_refl)].
  destruct (get_bal_ind x cur (s_bals s)); [repeat (split; auto using later_refl, incl_refl)|].
  destruct T as [T1 T2]. destruct N as [N1 N2]. split; [|split; [|split; [|split; [|split; [|split]]]]]; try reflexivity.
  - split; simpl.
    + constructor; [apply (N2 (s_ctr s)); lia|exact T1].
    + constructor; [simpl; auto|exact T2].
  - split; [exact N1|]. intros i Hi. simpl in Hi |- *. destruct (N2 i) as [H1 H2]; [lia|]. split; [|exact H2].
    intros [E|E]; [|tauto]. apply N1 in E || (inversion E as [E2]; apply N1 in E2). lia.
  - split; [reflexivity|]. simpl. lia.
  - apply incl_tl, incl_refl.
Qed.
Lemma settle_view n s x cur z zc : unguessed s z ->
  view (settle n s x cur) z zc =
    match view s z zc with
    | Some b => Some b
    | None => if starts_with_at x && String.eqb x z && String.eqb cur zc
              then Some (fresh_balance ("bln_" ++ s_uuid s (s_ctr s)) x cur false false) else None
    end.
Proof.
  intros U. unfold settle. destruct (starts_with_at x) eqn:A; [|destruct (view s z zc); reflexivity].
  destruct (get_bal_ind x cur (s_bals s)) as [b|] eqn:E.
  - destruct (view s z zc) eqn:V; [reflexivity|].
    destruct (String.eqb_spec x z) as [<-|]; [|reflexivity]. destruct (String.eqb_spec cur zc) as [<-|]; [|reflexivity].
    unfold view in V. rewrite A in V. congruence.
  - unfold view, born, set_bals. cbn [s_bals get_bal get_bal_ind b_id b_ind b_cur fresh_balance]. destruct (starts_with_at z) eqn:Az.
    + destruct (String.eqb_spec x z) as [<-|N]; [|destruct (get_bal_ind z zc (s_bals s)); reflexivity].
      destruct (String.eqb_spec cur zc) as [<-|N]; [rewrite E; reflexivity|destruct (get_bal_ind x zc (s_bals s)); reflexivity].
    + destruct (String.eqb_spec ("bln_" ++ s_uuid s (s_ctr s)) z) as [Eq|N].
      * exfalso. apply (U (s_ctr s)); [lia|]. symmetry. exact Eq.
      * destruct (get_bal z (s_bals s)); [reflexivity|]. destruct (String.eqb_spec x z) as [<-|]; [congruence|reflexivity].
Qed.
Lemma settle_rid n s x cur : tidy s -> new_names s -> starts_with_at x = true ->
  exists b, view (settle n s x cur) x cur = Some b /\ b_id b = rid s x cur /\ get_bal (rid s x cur) (s_bals (settle n s x cur)) = Some b.
Proof.
  intros T N A. destruct (create_run n {| c_queued := false; c_lock_attempts := 0; c_coalesce := true; c_refcheck := true;
     c_funds_retry := true; c_reject_lock := false; c_max_retry := 3 |} x cur s A T N) as (_ & V & I).
  destruct (view (settle n s x cur) x cur) as [b|] eqn:E; [|contradiction]. exists b. split; [reflexivity|]. split; [symmetry; exact I|].
  rewrite I. apply tidy_get; [apply settle_facts; assumption|]. apply view_named in E. apply E.
Qed.
Lemma rid_plain s x cur : tidy s -> starts_with_at (rid s x cur) = false.
Proof.
  intros [_ F]. unfold rid. destruct (starts_with_at x) eqn:A; [|exact A]. destruct (get_bal_ind x cur (s_bals s)) as [b|] eqn:E; [|reflexivity].
  rewrite Forall_forall in F. apply F. eapply get_bal_ind_in; eauto.
Qed.

(** ** The post itself *)
Definition core (cfg : config) (t : txn) (s : state) : state * res txn :=
  if ref_exists (t_ref t) (s_txns s) then (s, Err EDupReference)
  else match get_bal (t_src t) (s_bals s) with
  | None => (s, Err EBalanceNotFound)
  | Some sb =>
    match get_bal (t_dst t) (s_bals s) with
    | None => (s, Err EBalanceNotFound)
    | Some db =>
      match apply_to_balances t (qb cfg s sb) (qb cfg s db) with
      | Err e => (s, Err e)
      | Ok (t1, s', d') =>
        let t2 := update_details t1 s' d' in
        if t_precise t2 =? 0 then (s, Ok t2)
        else match persist_single (kind_of t1) (clear_terminal t2) s' d' (prepare_outbox t2 s' d') s with
             | (s3, Ok _) => (s3, Ok (clear_terminal t2))
             | (s3, Err e) => (s3, Err e)
             end
      end
    end
  end.
Lemma locked_run n cfg t s : starts_with_at (t_src t) = false -> starts_with_at (t_dst t) = false ->
  run n (record_locked cfg t) s = core cfg t s.
Proof.
  intros A B. unfold record_locked, core. cbn [bind act run exec]. destruct (ref_exists (t_ref t) (s_txns s)); [reflexivity|].
  unfold bindr, get_end. rewrite A, B, run_bind, get_balance_run. cbn [fst snd].
  destruct (get_bal (t_src t) (s_bals s)) as [sb|] eqn:E1; [|reflexivity]. rewrite run_bind, get_balance_run. cbn [fst snd].
  destruct (get_bal (t_dst t) (s_bals s)) as [db|] eqn:E2; [|reflexivity].
  assert (Ei : with_ends t (b_id (qb cfg s sb)) (b_id (qb cfg s db)) = t).
  { assert (forall b, b_id (qb cfg s b) = b_id b) as H by (intros b; unfold qb; destruct (c_queued cfg); reflexivity).
    rewrite !H, (get_bal_id _ _ _ E1), (get_bal_id _ _ _ E2). destruct t; reflexivity. }
  rewrite Ei. destruct (apply_to_balances t (qb cfg s sb) (qb cfg s db)) as [[[t1 s'] d']|e]; [|reflexivity]. cbv zeta.
  destruct (_ =? 0); [reflexivity|]. cbn [bind run exec].
  destruct (persist_single _ _ _ _ _ _) as [s3 [x|e]]; reflexivity.
Qed.
Lemma core_locks cfg t s l : core cfg t (set_locks s l) = (set_locks (fst (core cfg t s)) l, snd (core cfg t s)).
Proof.
  unfold core. cbn [s_txns s_bals set_locks]. destruct (ref_exists _ _); [reflexivity|].
  destruct (get_bal (t_src t) (s_bals s)) as [sb|]; [|reflexivity]. destruct (get_bal (t_dst t) (s_bals s)) as [db|]; [|reflexivity].
  assert (H : forall b, qb cfg (set_locks s l) b = qb cfg s b) by reflexivity. rewrite !H.
  destruct (apply_to_balances t (qb cfg s sb) (qb cfg s db)) as [[[t1 s'] d']|e]; [|reflexivity]. cbv zeta.
  destruct (_ =? 0); [reflexivity|]. unfold persist_single. cbn [s_txns s_bals set_locks].
  destruct (update_balance (s_txns s) s' (s_bals s)) as [b1|]; [|reflexivity].
  destruct (update_balance (s_txns s) d' b1) as [b2|]; [|reflexivity].
  destruct (insert_txn _ _ _ _); reflexivity.
Qed.
Lemma core_keeps cfg t s : s_locks (fst (core cfg t s)) = s_locks s.
Proof. rewrite <- (set_locks_same s) at 1. rewrite core_locks. reflexivity. Qed.

Definition both (n : nat) (s : state) (t : txn) : state := settle n (settle n s (t_src t) (t_cur t)) (t_dst t) (t_cur t).
Definition with_ids (n : nat) (s : state) (t : txn) : txn :=
  with_ends t (rid s (t_src t) (t_cur t)) (rid (settle n s (t_src t) (t_cur t)) (t_dst t) (t_cur t)).
Lemma single_run n cfg t s : tidy s -> new_names s -> s_locks s = [] ->
  run n (record_single cfg t) s = core cfg (with_ids n s t) (both n s t).
Proof.
  intros T N L. unfold record_single, bindr. rewrite run_bind, resolve_run by assumption. cbn [fst snd].
  destruct (settle_facts n s (t_src t) (t_cur t) T N) as (T1 & N1 & _ & _ & L1 & _).
  rewrite run_bind, resolve_run by assumption. cbn [fst snd]. fold (both n s t). fold (with_ids n s t).
  destruct (settle_facts n (settle n s (t_src t) (t_cur t)) (t_dst t) (t_cur t) T1 N1) as (T2 & N2 & _ & _ & L2 & _).
  fold (both n s t) in *. cbv zeta. set (ks := lock_set _).
  destruct (bracket n (c_lock_attempts cfg) ks (both n s t)) as (l & W & U); [apply lock_set_nodup|congruence|].
  rewrite run_bind, W. cbn [fst snd]. rewrite run_bind, locked_run, core_locks; [|apply rid_plain; assumption|apply rid_plain; assumption].
  cbn [fst snd]. rewrite run_bind, U by reflexivity. cbn [fst snd run].
  assert (E : set_locks (set_locks (fst (core cfg (with_ids n s t) (both n s t))) l) [] = fst (core cfg (with_ids n s t) (both n s t))).
  { rewrite <- (set_locks_same (fst (core cfg (with_ids n s t) (both n s t)))) at 2. rewrite core_keeps, L2, L1, L. reflexivity. }
  rewrite E. destruct (core cfg (with_ids n s t) (both n s t)); reflexivity.
Qed.

(** ** When it is recorded *)
Definition bump (a d : string) (s' d' b : balance) : balance :=
  if String.eqb (b_id b) d then upd_row b d' else if String.eqb (b_id b) a then upd_row b s' else b.
Lemma update_ind rows w l l' i c : tame l -> update_balance rows w l = Some l' ->
  get_bal_ind i c l' = option_map (fun b => if String.eqb (b_id b) (b_id w) then upd_row b w else b) (get_bal_ind i c l).
Proof.
  revert l'. induction l as [|x r IH]; intros l' [N F] U; simpl in U; [discriminate|].
  inversion N as [|? ? N1 N2]; subst. inversion F as [|? ? (F1 & _) F2]; subst.
  destruct (String.eqb_spec (b_id x) (b_id w)) as [E|E].
  - destruct (b_ver x =? b_ver w); [|discriminate]. injection U as <-.
    assert (Et : recon_trigger rows (upd_row x w) = upd_row x w) by (unfold recon_trigger; simpl; rewrite F1; reflexivity).
    rewrite Et. simpl. destruct (String.eqb (b_ind x) i && String.eqb (b_cur x) c).
    + simpl. rewrite E, String.eqb_refl. reflexivity.
    + destruct (get_bal_ind i c r) as [b|] eqn:G; [|reflexivity]. simpl.
      destruct (String.eqb_spec (b_id b) (b_id w)) as [E2|E2]; [|reflexivity].
      exfalso. apply N1. rewrite E, <- E2. apply in_map. eapply get_bal_ind_in; eauto.
  - destruct (update_balance rows w r) as [r'|] eqn:U2; [|discriminate]. injection U as <-.
    simpl. destruct (String.eqb (b_ind x) i && String.eqb (b_cur x) c).
    + simpl. destruct (String.eqb_spec (b_id x) (b_id w)); [contradiction|reflexivity].
    + apply IH; [split; assumption|reflexivity].
Qed.
Lemma update_bal rows w l l' id : tame l -> update_balance rows w l = Some l' ->
  get_bal id l' = option_map (fun b => if String.eqb (b_id b) (b_id w) then upd_row b w else b) (get_bal id l).
Proof.
  intros T U. destruct (update_tame _ _ _ _ T U) as (_ & _ & b & G & _ & H). rewrite H.
  destruct (String.eqb_spec (b_id w) id) as [<-|N].
  - rewrite G. simpl. rewrite (get_bal_id _ _ _ G), String.eqb_refl. reflexivity.
  - destruct (get_bal id l) as [x|] eqn:E; [|reflexivity]. simpl. rewrite (get_bal_id _ _ _ E).
    destruct (String.eqb_spec id (b_id w)); [congruence|reflexivity].
Qed.

Lemma apply_ids t s d t1 s' d' : apply_to_balances t s d = Ok (t1, s', d') ->
  b_id s' = b_id s /\ b_ver s' = b_ver s /\ b_id d' = b_id d /\ b_ver d' = b_ver d
  /\ t_id t1 = t_id t /\ t_ref t1 = t_ref t /\ t_status t1 = t_status t /\ t_parent t1 = t_parent t
  /\ t_cur t1 = t_cur t /\ t_inflight t1 = t_inflight t.
Proof.
  destruct (precision_keys t) as (P1 & P2 & P3 & P4 & P5 & P6 & P7).
  assert (P8 : t_cur (apply_precision_txn t) = t_cur t) by (unfold apply_precision_txn; destruct (apply_precision _ _ _) as [[? ?] ?]; reflexivity).
  unfold apply_to_balances, update_balances, commit_inflight_debit, commit_inflight_credit, rollback_inflight_debit, rollback_inflight_credit.
  destruct (t_status t) eqn:Es; intros H.
  all: repeat match type of H with
    | context[match ?x with _ => _ end] => destruct x eqn:?; try discriminate
    end.
  all: repeat match goal with
    | E : Ok _ = Ok _ |- _ => injection E; clear E; intros; subst
    | E : (if ?x then _ else _) = Ok _ |- _ => destruct x; [discriminate|]
    end.
  all: rewrite ?P1, ?P2, ?P3, ?P4, ?P7, ?P8; unfold compute_balance, add_debit, add_credit;
    repeat match goal with |- context[if ?x then _ else _] => destruct x end; repeat split; auto.
Qed.
Lemma qb_id cfg s b : b_id (qb cfg s b) = b_id b. Proof. unfold qb. destruct (c_queued cfg); reflexivity. Qed.
Lemma qb_ver cfg s b : b_ver (qb cfg s b) = b_ver b. Proof. unfold qb. destruct (c_queued cfg); reflexivity. Qed.

(** A post whose two balances are distinct is recorded, and only these two change. *)
Lemma core_ok cfg t s sb db t1 s' d' : tidy s -> new_names s -> t_src t <> t_dst t ->
  ref_exists (t_ref t) (s_txns s) = false -> id_exists (t_id t) (s_txns s) = false ->
  (forall i, (s_ctr s <= i)%nat -> t_id t <> ("txn_" ++ s_uuid s i)%string) ->
  get_bal (t_src t) (s_bals s) = Some sb -> get_bal (t_dst t) (s_bals s) = Some db ->
  apply_to_balances t (qb cfg s sb) (qb cfg s db) = Ok (t1, s', d') -> t_precise t1 <> 0 ->
  let t3 := clear_terminal (update_details t1 s' d') in
  exists s3, core cfg t s = (s3, Ok t3)
  /\ s_txns s3 = {| r_t := t3; r_kind := kind_of t1 |} :: s_txns s
  /\ tidy s3 /\ new_names s3 /\ later s s3 /\ s_locks s3 = s_locks s
  /\ forall z zc, view s3 z zc = option_map (bump (t_src t) (t_dst t) s' d') (view s z zc).
Proof.
  intros T N D R I Inew Gs Gd Ea Hp t3.
  destruct (apply_ids _ _ _ _ _ _ Ea) as (I1 & V1 & I2 & V2 & K1 & K2 & K3 & _). rewrite qb_id in I1, I2. rewrite qb_ver in V1, V2.
  pose proof (get_bal_id _ _ _ Gs) as Es. pose proof (get_bal_id _ _ _ Gd) as Ed.
  assert (Tm : tame (s_bals s)) by exact T.
  destruct (update_current (s_txns s) s' (s_bals s) sb Tm) as (b1 & U1); [rewrite I1, Es; exact Gs|congruence|].
  destruct (update_tame _ _ _ _ Tm U1) as (T1 & _ & _).
  assert (Gd1 : get_bal (t_dst t) b1 = Some db).
  { rewrite (update_bal _ _ _ _ _ Tm U1), Gd. simpl. destruct (String.eqb_spec (b_id db) (b_id s')) as [Q|Q]; [|reflexivity]. congruence. }
  destruct (update_current (s_txns s) d' b1 db T1) as (b2 & U2); [rewrite I2, Ed; exact Gd1|congruence|].
  destruct (update_tame _ _ _ _ T1 U2) as (T2 & _ & _).
  assert (M2 : map b_id b2 = map b_id (s_bals s)).
  { destruct (update_balance_some _ _ _ _ U2) as (? & _ & _ & M & _). destruct (update_balance_some _ _ _ _ U1) as (? & _ & _ & M1 & _). congruence. }
  assert (Vw : forall q x,
     get_bal_ind q x b2 = option_map (bump (t_src t) (t_dst t) s' d') (get_bal_ind q x (s_bals s))
     /\ get_bal q b2 = option_map (bump (t_src t) (t_dst t) s' d') (get_bal q (s_bals s))).
  { intros q x. rewrite (update_ind _ _ _ _ _ _ T1 U2), (update_ind _ _ _ _ _ _ Tm U1).
    rewrite (update_bal _ _ _ _ _ T1 U2), (update_bal _ _ _ _ _ Tm U1).
    assert (Hb : forall b, (if String.eqb (b_id (if String.eqb (b_id b) (b_id s') then upd_row b s' else b)) (b_id d')
       then upd_row (if String.eqb (b_id b) (b_id s') then upd_row b s' else b) d'
       else (if String.eqb (b_id b) (b_id s') then upd_row b s' else b)) = bump (t_src t) (t_dst t) s' d' b).
    { intros b. unfold bump. rewrite I1, I2, Es, Ed. destruct (String.eqb_spec (b_id b) (t_src t)) as [Q|Q]; [simpl|reflexivity].
      destruct (String.eqb_spec (b_id b) (t_dst t)); [congruence|reflexivity]. }
    split; [destruct (get_bal_ind q x (s_bals s))|destruct (get_bal q (s_bals s))]; simpl; try rewrite Hb; reflexivity. }
  assert (E3 : t_src t3 = t_src t /\ t_dst t3 = t_dst t /\ t_ref t3 = t_ref t /\ t_id t3 = t_id t).
  { unfold t3. rewrite clear_src, clear_dst, clear_ref. simpl. rewrite I1, I2, Es, Ed, K2. repeat split.
    unfold clear_terminal, update_details. destruct (t_status (with_status _ _)); simpl; exact K1. }
  destruct E3 as (E31 & E32 & E33 & E34).
  assert (Eins : insert_txn (kind_of t1) t3 b2 (s_txns s) = Ok ({| r_t := t3; r_kind := kind_of t1 |} :: s_txns s)).
  { unfold insert_txn. rewrite E31, E32, E33, E34, R, I.
    rewrite (proj2 (Vw (t_src t) "")), (proj2 (Vw (t_dst t) "")), Gs, Gd. reflexivity. }
  exists (set_db s b2 ({| r_t := t3; r_kind := kind_of t1 |} :: s_txns s) (opt_list (prepare_outbox (update_details t1 s' d') s' d') ++ s_outbox s)).
  split; [|split; [reflexivity|split; [exact T2|split; [|split; [split; [reflexivity|simpl; lia]|split; [reflexivity|]]]]]].
  - unfold core. rewrite R, Gs, Gd, Ea. cbv zeta. destruct (Z.eqb_spec (t_precise (update_details t1 s' d')) 0) as [Q|Q]; [exfalso; apply Hp; exact Q|].
    unfold persist_single. rewrite U1, U2. fold t3. rewrite Eins. reflexivity.
  - destruct N as [N1 N2]. split; [exact N1|]. intros i Hi. change (s_ctr (set_db s b2 ({| r_t := t3; r_kind := kind_of t1 |} :: s_txns s)
      (opt_list (prepare_outbox (update_details t1 s' d') s' d') ++ s_outbox s))) with (s_ctr s) in Hi. cbn [set_db s_bals s_txns s_uuid map r_t].
    rewrite M2, E34. destruct (N2 i Hi) as [H1 H2]. split; [exact H1|]. intros [H|H]; [apply (Inew i Hi H)|exact (H2 H)].
  - intros z zc. unfold view. cbn [set_db s_bals]. destruct (starts_with_at z); apply (Vw z zc).
Qed.
Lemma core_same cfg t s sb t1 s' d' : tidy s -> t_src t = t_dst t ->
  ref_exists (t_ref t) (s_txns s) = false ->
  get_bal (t_src t) (s_bals s) = Some sb ->
  apply_to_balances t (qb cfg s sb) (qb cfg s sb) = Ok (t1, s', d') -> t_precise t1 <> 0 ->
  core cfg t s = (s, Err EConflict).
Proof.
  intros T D R Gs Ea Hp.
  destruct (apply_ids _ _ _ _ _ _ Ea) as (I1 & V1 & I2 & V2 & _). rewrite qb_id in I1, I2. rewrite qb_ver in V1, V2.
  pose proof (get_bal_id _ _ _ Gs) as Es. assert (Tm : tame (s_bals s)) by exact T.
  unfold core. rewrite R, <- D, Gs, Ea. cbv zeta. destruct (Z.eqb_spec (t_precise (update_details t1 s' d')) 0) as [Q|Q]; [exfalso; apply Hp; exact Q|].
  unfold persist_single. destruct (update_balance (s_txns s) s' (s_bals s)) as [b1|] eqn:U1; [|reflexivity].
  destruct (update_tame _ _ _ _ Tm U1) as (T1 & _ & b & G & _ & H).
  destruct (update_balance (s_txns s) d' b1) as [b2|] eqn:U2; [|reflexivity]. exfalso.
  destruct (update_tame _ _ _ _ T1 U2) as (_ & _ & c & Gc & Vc & _). rewrite H, I1, I2, String.eqb_refl in Gc. injection Gc as <-.
  rewrite I1, Es, Gs in G. injection G as <-. simpl in Vc. lia.
Qed.

(** ** Equal inputs *)
Definition sort (t : txn) : nat := match t_status t with SCommit => 1 | SVoid => 2 | _ => 0 end%nat.
Definition same_money (t t' : txn) : Prop :=
  t_precise t' = t_precise t /\ t_amount t' = t_amount t /\ t_prec t' = t_prec t
  /\ t_inflight t' = t_inflight t /\ t_allow t' = t_allow t /\ t_limit t' = t_limit t /\ sort t' = sort t.
Lemma same_money_refl t : same_money t t. Proof. repeat split. Qed.
Lemma same_money_trans a b c : same_money a b -> same_money b c -> same_money a c.
Proof. intros (A1 & A2 & A3 & A4 & A5 & A6 & A7) (B1 & B2 & B3 & B4 & B5 & B6 & B7). repeat split; congruence. Qed.
Lemma same_money_sym a b : same_money a b -> same_money b a.
Proof. intros (A1 & A2 & A3 & A4 & A5 & A6 & A7). repeat split; congruence. Qed.
Lemma same_money_precise t t' : same_money t t' -> same_money (apply_precision_txn t) (apply_precision_txn t').
Proof.
  intros (A1 & A2 & A3 & A4 & A5 & A6 & A7). unfold apply_precision_txn. rewrite A1, A2, A3.
  destruct (apply_precision _ _ _) as [[p a] q]. unfold sort in *. repeat split; simpl; try congruence; exact A7.
Qed.
(** After the second time the precision is settled. *)
Lemma precision_twice t : same_money (apply_precision_txn (apply_precision_txn t))
  (apply_precision_txn (apply_precision_txn (apply_precision_txn t))).
Proof.
  unfold apply_precision_txn, apply_precision. set (q := if t_prec t =? 0 then 1 else t_prec t).
  assert (Hq : (q =? 0) = false) by (unfold q; destruct (Z.eqb_spec (t_prec t) 0); apply Z.eqb_neq; lia).
  destruct (0 <? t_precise t) eqn:E.
  - repeat (cbn [with_money t_precise t_amount t_prec]; rewrite ?Hq, ?E). repeat split.
  - repeat (cbn [with_money t_precise t_amount t_prec]; rewrite ?Hq).
    destruct (0 <? convert_decimal_to_precise (t_amount t) q) eqn:E2;
      repeat (cbn [with_money t_precise t_amount t_prec]; rewrite ?Hq, ?E2); repeat split.
Qed.
Lemma same_money_normal t : same_money t (normalize t).
Proof. unfold normalize, same_money, sort. destruct (t_status t) eqn:E; simpl; rewrite ?E; repeat split; destruct (t_inflight t); reflexivity. Qed.
Lemma alike_refl b : alike b b. Proof. repeat split. Qed.
Lemma alike_trans a b c : alike a b -> alike b c -> alike a c.
Proof. intros (A1 & A2 & A3 & A4 & A5 & A6) (B1 & B2 & B3 & B4 & B5 & B6). repeat split; congruence. Qed.
Lemma alike_sym a b : alike a b -> alike b a.
Proof. intros (A1 & A2 & A3 & A4 & A5 & A6). repeat split; congruence. Qed.

Lemma alike_queued b q : alike b (with_queued b q). Proof. repeat split. Qed.
Lemma alike_upd b w : alike w (upd_row b w). Proof. repeat split. Qed.
Lemma update_alike t t' s d s2 d2 : same_money (apply_precision_txn t) (apply_precision_txn t') -> alike s s2 -> b_queued s2 = b_queued s -> alike d d2 ->
  match update_balances t s d, update_balances t' s2 d2 with
  | Ok (t1, a, b), Ok (t1', a2, b2) => alike a a2 /\ alike b b2 /\ t_precise t1' = t_precise t1 /\ 0 < t_precise t1
  | Err e, Err e' => e = e'
  | _, _ => False
  end.
Proof.
  intros (P1 & P2 & P3 & P4 & P5 & P6 & P7) (A1 & A2 & A3 & A4 & A5 & A6) Q (B1 & B2 & B3 & B4 & B5 & B6).
  unfold update_balances, validate_txn, can_process. cbv zeta. rewrite P1, P2, P3, P4, P5, P6, A1, A6, Q.
    destruct (qlt _ 0); [reflexivity|]. destruct (Z.leb_spec (t_precise (apply_precision_txn t)) 0) as [|L]; [reflexivity|].
    assert (F : forall e : res unit, match e with
       | Ok _ => alike (compute_balance (add_debit s (t_precise (apply_precision_txn t)) (t_inflight (apply_precision_txn t))) (t_inflight (apply_precision_txn t)))
                   (compute_balance (add_debit s2 (t_precise (apply_precision_txn t)) (t_inflight (apply_precision_txn t))) (t_inflight (apply_precision_txn t)))
                 /\ alike (compute_balance (add_credit d (t_precise (apply_precision_txn t)) (t_inflight (apply_precision_txn t))) (t_inflight (apply_precision_txn t)))
                   (compute_balance (add_credit d2 (t_precise (apply_precision_txn t)) (t_inflight (apply_precision_txn t))) (t_inflight (apply_precision_txn t)))
       | Err _ => True end).
    { intros [x|e]; [|exact Logic.I]. unfold compute_balance, add_debit, add_credit, alike.
      destruct (t_inflight (apply_precision_txn t)); simpl; rewrite ?A1, ?A2, ?A3, ?A4, ?A5, ?A6, ?B1, ?B2, ?B3, ?B4, ?B5, ?B6; repeat split. }
    repeat match goal with |- context[if ?x then _ else _] => destruct x end; try reflexivity.
    all: try (split; [apply (F (Ok tt))|split; [apply (F (Ok tt))|split; [exact P1|exact L]]]).
Qed.
Lemma update_is_apply t s d : sort t = 0%nat -> apply_to_balances t s d = update_balances t s d.
Proof. unfold sort, apply_to_balances. destruct (t_status t); try discriminate; reflexivity. Qed.
Lemma apply_alike t t' s d s2 d2 : same_money t t' -> alike s s2 -> b_queued s2 = b_queued s -> alike d d2 ->
  match apply_to_balances t s d, apply_to_balances t' s2 d2 with
  | Ok (t1, a, b), Ok (t1', a2, b2) => alike a a2 /\ alike b b2 /\ t_precise t1' = t_precise t1 /\ (sort t = 0%nat -> 0 < t_precise t1)
  | Err e, Err e' => e = e'
  | _, _ => False
  end.
Proof.
  intros M (A1 & A2 & A3 & A4 & A5 & A6) Q (B1 & B2 & B3 & B4 & B5 & B6).
  pose proof (same_money_precise _ _ M) as M'. destruct M as (M1 & M2 & M3 & M4 & M5 & M6 & M7). pose proof M' as (P1 & P2 & P3 & P4 & P5 & P6 & P7).
  assert (U : match update_balances t s d, update_balances t' s2 d2 with
    | Ok (t1, a, b), Ok (t1', a2, b2) => alike a a2 /\ alike b b2 /\ t_precise t1' = t_precise t1 /\ 0 < t_precise t1
    | Err e, Err e' => e = e' | _, _ => False end).
  { apply update_alike; [exact M'|repeat split; assumption|exact Q|repeat split; assumption]. }
  unfold apply_to_balances. unfold sort in M7 |- *. destruct (t_status t) eqn:S1; destruct (t_status t') eqn:S2; simpl in M7; try discriminate.
  all: try (destruct (update_balances t s d) as [[[? ?] ?]|]; destruct (update_balances t' s2 d2) as [[[? ?] ?]|]; tauto).
  - unfold rollback_inflight_debit, rollback_inflight_credit. rewrite M1, A6, B5. destruct (_ <? _); [reflexivity|]. destruct (_ <? _); [reflexivity|].
    unfold compute_balance, alike. simpl. rewrite ?A1, ?A2, ?A3, ?A4, ?A5, ?A6, ?B1, ?B2, ?B3, ?B4, ?B5, ?B6. repeat split; auto; discriminate.
  - unfold commit_inflight_debit, commit_inflight_credit. cbv zeta. rewrite P1, A6, B5. destruct (_ <? _); [reflexivity|]. destruct (_ <? _); [reflexivity|].
    unfold compute_balance, alike. simpl. rewrite ?A1, ?A2, ?A3, ?A4, ?A5, ?A6, ?B1, ?B2, ?B3, ?B4, ?B5, ?B6. repeat split; auto; discriminate.
Qed.

Lemma no_distribution p q : 0 <= p -> exists m, calculate_distributions (fun m => m) (fun m => m) p [] q = Some m.
Proof.
  intros H. unfold calculate_distributions. destruct (Z.eqb_spec p 0); [eauto|]. simpl. rewrite andb_false_r.
  unfold validate_distributions. simpl.
  assert (E : qlt (q_of_Z p) 0 = false) by (unfold qlt; apply negb_false_iff, Qle_bool_iff; unfold q_of_Z, Qle; simpl; lia). rewrite E. simpl. eauto.
Qed.
