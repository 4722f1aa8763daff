(** Dry runs: some that come true, and some that do not. *)
From Coq Require Import ZArith QArith List String Bool Lia.
From Verif Require Import TidyDemo PreviewAlone PreviewReach BulkDemo.
From Verif Require Import Base SplitModel SplitSpec BalanceModel LedgerModel LedgerProgs ConcModel LedgerSafe Sched Demo HoldSpec BatchSpec BulkSpec PreviewModel PreviewSpec.
Import ListNotations.
Local Open Scope string_scope.
Open Scope list_scope.
Open Scope Z_scope.

(** Looking at the state reached by [cs]. *)
Lemma saw {A} cfg cs (f : state -> A) v : option_map f (played cfg no_reconb cs uuids) = Some v ->
  exists y, steps cfg no_recon_flag (init_sys uuids) y /\ f (y_st y) = v.
Proof.
  destruct (played cfg no_reconb cs uuids) as [s|] eqn:E; [|discriminate]. cbn [option_map]. intros H.
  destruct (played_steps cfg no_recon_flag no_reconb cs uuids s no_reconb_ok no_recon_step E) as (y & Hy & <-). exists y. split; [exact Hy|congruence].
Qed.
Lemma at_unguessed s x : starts_with_at x = true -> unguessed s x.
Proof. intros H i _ ->. discriminate. Qed.
Lemma id_unguessed s x : new_names s -> In x (map b_id (s_bals s)) -> unguessed s x.
Proof. intros [_ N] H i Hi ->. destruct (N i Hi) as [N1 _]. contradiction. Qed.

(** What an entry shows: is the balance new, who is it, and its figures afterwards. *)
Definition entry (p : projection) : bool * string * (Z * Z * Z) * (Z * Z) :=
  (pj_virtual p, b_ind (pj_before p), (b_bal (pj_after p), b_cr (pj_after p), b_db (pj_after p)), (b_icr (pj_after p), b_idb (pj_after p))).
Definition show (r : res preview) : option (option err * list (bool * string * (Z * Z * Z) * (Z * Z))) :=
  match r with Ok p => Some (pv_rejection p, map entry (pv_balances p)) | Err _ => None end.
Definition calmb (s : state) : bool := match s_locks s with [] => true | _ => false end.
Lemma calmb_ok s : calmb s = true -> s_locks s = [].
Proof. unfold calmb. destruct (s_locks s); [reflexivity|discriminate]. Qed.

Definition pay_ts : list txn :=
  [ctxn "@ann" "@bob" "b1" 150 false false false; ctxn "@bob" "@carol" "b2" 120 false false false;
   ctxn "@ann" "@carol" "b3" 200 false false false].
Definition stxn (ref : string) (p : Z) (ds : list distribution) : txn :=
  {| t_id := ""; t_parent := ""; t_src := "@ann"; t_dst := ""; t_ref := ref; t_cur := "USD";
      t_status := SNone; t_precise := p; t_amount := 0; t_prec := 100; t_inflight := false;
      t_allow := false; t_limit := 0; t_skipq := true; t_atomic := false; t_sched := false;
      t_meta := meta0; t_sources := []; t_dests := ds |}.
Definition share (x : string) (d : dspec) : distribution := {| d_id := x; d_spec := d |}.
Definition thirds : txn := stxn "two" 200 [share "@bob" (DPercent (33#1)); share "@carol" (DFixed (1#2)); share "@dan" DLeft].
Definition cfgq : config := {| c_queued := true; c_lock_attempts := 0; c_coalesce := true; c_refcheck := true;
     c_funds_retry := true; c_reject_lock := false; c_max_retry := 3 |}.
Definition queued_cmds : list cmd := bulk_cmds ++ whole 2 (RQueue env0 (ctxn "@ann" "@bob" "later" 300 false false false)) ++ background 3 0.
Definition two_names : list txn := [ctxn "@ann" "@bob" "b1" 300 false false false; ctxn "bln_2" "@bob" "b2" 300 false false false].
Definition euro (t : txn) : txn :=
  {| t_id := t_id t; t_parent := t_parent t; t_src := t_src t; t_dst := t_dst t; t_ref := t_ref t; t_cur := "EUR";
     t_status := t_status t; t_precise := t_precise t; t_amount := t_amount t; t_prec := t_prec t; t_inflight := t_inflight t;
     t_allow := t_allow t; t_limit := t_limit t; t_skipq := t_skipq t; t_atomic := t_atomic t; t_sched := t_sched t;
     t_meta := t_meta t; t_sources := t_sources t; t_dests := t_dests t |}.
Definition two_curs : list txn := [ctxn "@ann" "@bob" "b1" 100 false false false; euro (ctxn "@ann" "@bob" "b2" 100 false false false)].
Definition again_cmds : list cmd := bulk_cmds ++ whole 2 (RQueue env0 thirds).
Definition nobody : txn := stxn "none" 100 [share "@bob" DNothing].
Definition env1 : split_env := {| se_q := fun m => rev m; se_z := fun m => rev m; se_l := fun m => m |}.
Definition halves : txn := stxn "odd" 101 [share "@bob" (DPercent (50#1)); share "@carol" (DPercent (50#1))].

Definition answer {A} (r : res A) : option err := match r with Ok _ => None | Err e => Some e end.
Lemma answer_ok {A} (r : res A) : answer r = None -> exists a, r = Ok a.
Proof. destruct r; [eauto|discriminate]. Qed.
Lemma answer_err {A} (r : res A) e : answer r = Some e -> r = Err e.
Proof. destruct r; [discriminate|]. intros H. injection H as ->. reflexivity. Qed.
Lemma show_ok r e l : show r = Some (e, l) -> exists p, r = Ok p /\ pv_rejection p = e /\ map entry (pv_balances p) = l.
Proof. destruct r as [p|]; [|discriminate]. intros H. exists p. cbn [show] in H. split; [reflexivity|]. split; congruence. Qed.

(** A hold for someone new. *)
Definition new_hold : txn := ctxn "@ann" "@carol" "p1" 150 true false true.
Lemma new_hold_ok s : api_txn new_hold /\ unsplit new_hold /\ t_skipq new_hold = true /\ unguessed s (t_src new_hold) /\ unguessed s (t_dst new_hold).
Proof. split; [apply api_txnb_ok; reflexivity|]. split; [split; reflexivity|]. split; [reflexivity|]. split; apply at_unguessed; reflexivity. Qed.
Lemma single_example : exists y p,
  steps cfg0 no_recon_flag (init_sys uuids) y /\ s_locks (y_st y) = []
  /\ snd (run 9 (preview_transaction cfg0 env0 new_hold) (y_st y)) = Ok p /\ would_apply p = true
  /\ map entry (pv_balances p) = [(false, "@ann", (500, 500, 0), (0, 250)); (true, "@carol", (0, 0, 0), (150, 0))]
  /\ balance_view (fst (run 9 (queue_transaction cfg0 env0 new_hold) (y_st y)))
     = [("@carol", (0, 0, 0), (150, 0)); ("@bob", (0, 0, 0), (100, 0)); ("@ann", (500, 500, 0), (0, 250)); ("@bank", (-500, 0, 500), (0, 0))].
Proof.
  destruct (saw cfg0 bulk_cmds (fun s => (s_locks s, show (snd (run 9 (preview_transaction cfg0 env0 new_hold) s)),
      balance_view (fst (run 9 (queue_transaction cfg0 env0 new_hold) s))))
    ([], Some (None, [(false, "@ann", (500, 500, 0), (0, 250)); (true, "@carol", (0, 0, 0), (150, 0))]),
     [("@carol", (0, 0, 0), (150, 0)); ("@bob", (0, 0, 0), (100, 0)); ("@ann", (500, 500, 0), (0, 250)); ("@bank", (-500, 0, 500), (0, 0))]))
    as (y & Hy & H); [vm_compute; reflexivity|].
  apply pair_equal_spec in H as [H H3]. apply pair_equal_spec in H as [H1 H2]. apply show_ok in H2 as (p & H2 & H4 & H5).
  exists y, p. unfold would_apply. rewrite H4. auto 10.
Qed.

(** A bulk whose second member spends what the first one brings. *)
Lemma pay_ok : Forall api_txn pay_ts /\ Forall unsplit pay_ts.
Proof. split; [|repeat constructor]. repeat (apply Forall_cons; [apply api_txnb_ok; reflexivity|]). constructor. Qed.
Lemma same_cur_named s ts : (forall t, In t ts -> t_cur t = "USD" /\ starts_with_at (t_src t) = true /\ starts_with_at (t_dst t) = true) ->
  one_name_each s ts /\ forall t x, In t ts -> names t x -> unguessed s x.
Proof.
  intros H.
  assert (Q : forall t x, In t ts -> names t x -> t_cur t = "USD" /\ starts_with_at x = true).
  { intros t x It [-> | ->]; destruct (H t It) as (A & B & C); auto. }
  split; [|intros t x It Nx; apply at_unguessed; apply (Q t x It Nx)].
  intros t t' x y It It' Nx Ny. destruct (Q t x It Nx) as [C1 A1]. destruct (Q t' y It' Ny) as [C2 A2]. split; [|intros; congruence].
  intros D b [_ N1] [_ N2]. rewrite A1 in N1. rewrite A2 in N2. destruct N1, N2. congruence.
Qed.
Lemma pay_names s : one_name_each s pay_ts /\ forall t x, In t pay_ts -> names t x -> unguessed s x.
Proof. apply same_cur_named. intros t [<-|[<-|[<-|[]]]]; repeat split. Qed.
Lemma bulk_example30 : exists y p b,
  steps cfg0 no_recon_flag (init_sys uuids) y /\ s_locks (y_st y) = []
  /\ snd (run 9 (preview_bulk cfg0 env0 pay_ts false true) (y_st y)) = Ok p /\ would_apply p = true
  /\ map entry (pv_balances p) = [(false, "@ann", (150, 500, 350), (0, 100)); (false, "@bob", (30, 150, 120), (100, 0)); (true, "@carol", (320, 320, 0), (0, 0))]
  /\ snd (run 9 (bulk cfg0 env0 pay_ts true false true) (y_st y)) = Ok b
  /\ balance_view (fst (run 9 (bulk cfg0 env0 pay_ts true false true) (y_st y)))
     = [("@carol", (320, 320, 0), (0, 0)); ("@bob", (30, 150, 120), (100, 0)); ("@ann", (150, 500, 350), (0, 100)); ("@bank", (-500, 0, 500), (0, 0))].
Proof.
  destruct (saw cfg0 bulk_cmds (fun s => (s_locks s, show (snd (run 9 (preview_bulk cfg0 env0 pay_ts false true) s)),
      answer (snd (run 9 (bulk cfg0 env0 pay_ts true false true) s)), balance_view (fst (run 9 (bulk cfg0 env0 pay_ts true false true) s))))
    ([], Some (None, [(false, "@ann", (150, 500, 350), (0, 100)); (false, "@bob", (30, 150, 120), (100, 0)); (true, "@carol", (320, 320, 0), (0, 0))]), None,
     [("@carol", (320, 320, 0), (0, 0)); ("@bob", (30, 150, 120), (100, 0)); ("@ann", (150, 500, 350), (0, 100)); ("@bank", (-500, 0, 500), (0, 0))]))
    as (y & Hy & H); [vm_compute; reflexivity|].
  apply pair_equal_spec in H as [H H3]. apply pair_equal_spec in H as [H H6]. apply pair_equal_spec in H as [H1 H2].
  apply show_ok in H2 as (p & H2 & H4 & H5). apply answer_ok in H6 as (b & H6).
  exists y, p, b. unfold would_apply. rewrite H4. auto 10.
Qed.

(** A split. *)
Lemma thirds_ok s : api_txn thirds /\ is_split thirds /\ t_skipq thirds = true /\ fair_env env0
  /\ one_name_each s (participants thirds) /\ (forall l x, In l (participants thirds) -> names l x -> unguessed s x).
Proof.
  split; [apply api_txnb_ok; reflexivity|]. split; [split; [right; split; [reflexivity|discriminate]|repeat constructor; discriminate]|].
  split; [reflexivity|]. split; [repeat split; intros m; apply Permutation.Permutation_refl|].
  apply same_cur_named. intros t [<-|[<-|[<-|[]]]]; repeat split.
Qed.
Fixpoint any_suffix (p : string) (x : string) : bool :=
  match p, x with
  | EmptyString, _ => true
  | String a p, String b x => Ascii.eqb a b && any_suffix p x
  | _, _ => false
  end.
Lemma any_suffix_app p q : any_suffix p (p ++ q) = true.
Proof. induction p as [|a p IH]; simpl; [destruct q; reflexivity|]. rewrite Ascii.eqb_refl. exact IH. Qed.
Lemma no_suffix r l : existsb (fun x => any_suffix (r ++ "-") (t_ref (r_t x))) l = false -> forall i, ref_exists (r ++ "-" ++ nat_str i) l = false.
Proof.
  intros H i. unfold ref_exists. induction l as [|x l IH]; [reflexivity|]. cbn [existsb] in H |- *. apply orb_false_elim in H as [H1 H2].
  rewrite (IH H2). destruct (String.eqb_spec (t_ref (r_t x)) (r ++ "-" ++ nat_str i)) as [E|]; [|reflexivity].
  rewrite E in H1. assert (A : (r ++ "-" ++ nat_str i)%string = ((r ++ "-") ++ nat_str i)%string).
  { clear. induction r as [|a r IH]; [reflexivity|]. cbn [append]. f_equal. exact IH. }
  rewrite A, any_suffix_app in H1. discriminate.
Qed.
Lemma split_example30 : exists y p b,
  steps cfg0 no_recon_flag (init_sys uuids) y /\ s_locks (y_st y) = []
  /\ (forall i, ref_exists (t_ref thirds ++ "-" ++ nat_str i) (s_txns (y_st y)) = false)
  /\ snd (run 9 (preview_transaction cfg0 env0 thirds) (y_st y)) = Ok p /\ would_apply p = true
  /\ map entry (pv_balances p) = [(false, "@ann", (300, 500, 200), (0, 100)); (true, "@carol", (50, 50, 0), (0, 0));
       (false, "@bob", (66, 66, 0), (100, 0)); (true, "@dan", (84, 84, 0), (0, 0))]
  /\ snd (run 9 (queue_transaction cfg0 env0 thirds) (y_st y)) = Ok b
  /\ balance_view (fst (run 9 (queue_transaction cfg0 env0 thirds) (y_st y)))
     = [("@dan", (84, 84, 0), (0, 0)); ("@carol", (50, 50, 0), (0, 0)); ("@bob", (66, 66, 0), (100, 0)); ("@ann", (300, 500, 200), (0, 100)); ("@bank", (-500, 0, 500), (0, 0))].
Proof.
  destruct (saw cfg0 bulk_cmds (fun s => (s_locks s, existsb (fun x => any_suffix "two-" (t_ref (r_t x))) (s_txns s),
      show (snd (run 9 (preview_transaction cfg0 env0 thirds) s)),
      answer (snd (run 9 (queue_transaction cfg0 env0 thirds) s)), balance_view (fst (run 9 (queue_transaction cfg0 env0 thirds) s))))
    ([], false, Some (None, [(false, "@ann", (300, 500, 200), (0, 100)); (true, "@carol", (50, 50, 0), (0, 0));
       (false, "@bob", (66, 66, 0), (100, 0)); (true, "@dan", (84, 84, 0), (0, 0))]), None,
     [("@dan", (84, 84, 0), (0, 0)); ("@carol", (50, 50, 0), (0, 0)); ("@bob", (66, 66, 0), (100, 0)); ("@ann", (300, 500, 200), (0, 100)); ("@bank", (-500, 0, 500), (0, 0))]))
    as (y & Hy & H); [vm_compute; reflexivity|].
  apply pair_equal_spec in H as [H H3]. apply pair_equal_spec in H as [H H6]. apply pair_equal_spec in H as [H H2]. apply pair_equal_spec in H as [H1 H7].
  apply show_ok in H2 as (p & H2 & H4 & H5). apply answer_ok in H6 as (b & H6).
  exists y, p, b. unfold would_apply. rewrite H4. split; [exact Hy|]. split; [exact H1|]. split; [apply (no_suffix "two"); exact H7|]. auto 10.
Qed.

(** ** Dry runs that do not come true *)
Lemma wrong {B} cfg cs (p : prog (res preview)) (q : prog (res B)) e :
  option_map (fun s => (s_locks s, option_map fst (show (snd (run 9 p s))), answer (snd (run 9 q s)))) (played cfg no_reconb cs uuids)
    = Some ([], Some None, Some e) ->
  exists y v, steps cfg no_recon_flag (init_sys uuids) y /\ s_locks (y_st y) = []
    /\ snd (run 9 p (y_st y)) = Ok v /\ would_apply v = true /\ snd (run 9 q (y_st y)) = Err e.
Proof.
  intros H. apply saw in H as (y & Hy & H). apply pair_equal_spec in H as [H H3]. apply pair_equal_spec in H as [H1 H2].
  destruct (snd (run 9 p (y_st y))) as [v|] eqn:V; [|discriminate]. exists y, v. cbn [show option_map fst] in H2.
  assert (pv_rejection v = None) as E by congruence. unfold would_apply. rewrite E. apply answer_err in H3. auto 10.
Qed.

(** Debits still in the queue count when posting from an indicator, not in its dry run. *)
Definition spend : txn := ctxn "@ann" "@carol" "p1" 150 false false true.
Lemma spend_ok s : api_txn spend /\ unsplit spend /\ t_skipq spend = true /\ unguessed s (t_src spend) /\ unguessed s (t_dst spend).
Proof. split; [apply api_txnb_ok; reflexivity|]. split; [split; reflexivity|]. split; [reflexivity|]. split; apply at_unguessed; reflexivity. Qed.
Lemma queued_wrong : exists y v, steps cfgq no_recon_flag (init_sys uuids) y /\ s_locks (y_st y) = []
    /\ snd (run 9 (preview_transaction cfgq env0 spend) (y_st y)) = Ok v /\ would_apply v = true
    /\ snd (run 9 (queue_transaction cfgq env0 spend) (y_st y)) = Err EInsufficient.
Proof. apply (wrong cfgq queued_cmds). vm_compute. reflexivity. Qed.

(** A balance named in two ways is projected twice. *)
Lemma two_names_wrong : exists y v, steps cfg0 no_recon_flag (init_sys uuids) y /\ s_locks (y_st y) = []
    /\ snd (run 9 (preview_bulk cfg0 env0 two_names false true) (y_st y)) = Ok v /\ would_apply v = true
    /\ snd (run 9 (bulk cfg0 env0 two_names true false true) (y_st y)) = Err EInsufficient.
Proof. apply (wrong cfg0 bulk_cmds). vm_compute. reflexivity. Qed.

(** An indicator with two currencies is projected as one balance. *)
Lemma two_curs_wrong : exists y v, steps cfg0 no_recon_flag (init_sys uuids) y /\ s_locks (y_st y) = []
    /\ snd (run 9 (preview_bulk cfg0 env0 two_curs false true) (y_st y)) = Ok v /\ would_apply v = true
    /\ snd (run 9 (bulk cfg0 env0 two_curs true false true) (y_st y)) = Err EInsufficient.
Proof. apply (wrong cfg0 bulk_cmds). vm_compute. reflexivity. Qed.
Lemma bulks_ok : (Forall api_txn two_names /\ Forall unsplit two_names) /\ Forall api_txn two_curs /\ Forall unsplit two_curs.
Proof.
  repeat split; try (repeat (apply Forall_cons; [apply api_txnb_ok; reflexivity|]); constructor); repeat constructor.
Qed.

(** The dry run of a split does not look for the reference. *)
Definition retry : txn := stxn "two" 100 [share "@bob" DLeft].
Lemma split_again_wrong : exists y v, steps cfg0 no_recon_flag (init_sys uuids) y /\ s_locks (y_st y) = []
    /\ snd (run 9 (preview_transaction cfg0 env0 retry) (y_st y)) = Ok v /\ would_apply v = true
    /\ snd (run 9 (queue_transaction cfg0 env0 retry) (y_st y)) = Err EDupReference.
Proof. apply (wrong cfg0 again_cmds). vm_compute. reflexivity. Qed.

(** A split that gives nothing to anyone "would apply". *)
Lemma nobody_wrong : exists y v, steps cfg0 no_recon_flag (init_sys uuids) y /\ s_locks (y_st y) = []
    /\ snd (run 9 (preview_transaction cfg0 env0 nobody) (y_st y)) = Ok v /\ would_apply v = true
    /\ snd (run 9 (queue_transaction cfg0 env0 nobody) (y_st y)) = Err EBalanceNotFound.
Proof. apply (wrong cfg0 bulk_cmds). vm_compute. reflexivity. Qed.
Lemma splits_ok : (api_txn retry /\ is_split retry) /\ (api_txn nobody /\ is_split nobody) /\ api_txn halves /\ is_split halves.
Proof.
  repeat split; try (apply api_txnb_ok; reflexivity); try (right; split; [reflexivity|discriminate]); repeat constructor; discriminate.
Qed.

(** Who gets the odd cent is decided anew, at random, by dry run and post. *)
Lemma env1_fair : fair_env env1.
Proof. repeat split; intros m; try apply Permutation.Permutation_refl; apply Permutation.Permutation_rev. Qed.
Lemma odd_cent_wrong : exists y p,
  steps cfg0 no_recon_flag (init_sys uuids) y /\ s_locks (y_st y) = []
  /\ snd (run 9 (preview_transaction cfg0 env0 halves) (y_st y)) = Ok p /\ would_apply p = true
  /\ map entry (pv_balances p) = [(false, "@ann", (399, 500, 101), (0, 100)); (false, "@bob", (51, 51, 0), (100, 0)); (true, "@carol", (50, 50, 0), (0, 0))]
  /\ balance_view (fst (run 9 (queue_transaction cfg0 env1 halves) (y_st y)))
     = [("@carol", (51, 51, 0), (0, 0)); ("@bob", (50, 50, 0), (100, 0)); ("@ann", (399, 500, 101), (0, 100)); ("@bank", (-500, 0, 500), (0, 0))].
Proof.
  destruct (saw cfg0 bulk_cmds (fun s => (s_locks s, show (snd (run 9 (preview_transaction cfg0 env0 halves) s)),
      balance_view (fst (run 9 (queue_transaction cfg0 env1 halves) s))))
    ([], Some (None, [(false, "@ann", (399, 500, 101), (0, 100)); (false, "@bob", (51, 51, 0), (100, 0)); (true, "@carol", (50, 50, 0), (0, 0))]),
     [("@carol", (51, 51, 0), (0, 0)); ("@bob", (50, 50, 0), (100, 0)); ("@ann", (399, 500, 101), (0, 100)); ("@bank", (-500, 0, 500), (0, 0))]))
    as (y & Hy & H); [vm_compute; reflexivity|].
  apply pair_equal_spec in H as [H H3]. apply pair_equal_spec in H as [H1 H2]. apply show_ok in H2 as (p & H2 & H4 & H5).
  exists y, p. unfold would_apply. rewrite H4. auto 10.
Qed.
