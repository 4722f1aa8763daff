(** Pressure decided exactly, and cases: configurations, reports and schedules. *)
From Coq Require Import Floats.SpecFloat.
From Coq Require Import ZArith List String Ascii Bool Lia.
From Verif Require Import QueueFloat QueueModel QueueSpec QueueProof.
Import ListNotations.
Local Open Scope string_scope.
Open Scope Z_scope.

Lemma in64 z : - 2 ^ 63 <= z < 2 ^ 63 -> int64 z = true.
Proof. intros H. unfold int64. apply andb_true_intro. split; [apply Z.leb_le|apply Z.ltb_lt]; lia. Qed.
Lemma no_limit c used max : max <= 0 -> memory_full c {| m_used := used; m_max := max |} = false.
Proof. intros H. unfold memory_full, usage. simpl. apply Z.leb_le in H. rewrite H. reflexivity. Qed.

Lemma limited_percent c k : limited c k -> percent c = to_float k /\ 0 < k <= 2 ^ 53.
Proof.
  intros (j & Hj & Ec & H). assert (E : SFleb (to_float j) (to_float 0) = (j <=? 0)) by (apply to_float_leb; [exact Hj|lia]).
  unfold percent. rewrite Ec, E. destruct (Z.leb_spec j 0); destruct H as [[H ->]|[H ->]]; split; try reflexivity; lia.
Qed.

(** The default threshold is decided exactly. *)
Theorem evaluate_default c e used max n : answers e used max n -> limited c 85 ->
  0 <= used <= 2 ^ 53 -> 0 <= max <= 2 ^ 48 ->
  exists v, evaluate c e = Some v /\ (v = true <-> pressed 85 c used max n).
Proof.
  intros He Hl Hu Hm. destruct (limited_percent c 85 Hl) as [Hp _]. rewrite (evaluate_answers c e used max n He) by (apply in64; lia). eexists. split; [reflexivity|].
  rewrite orb_true_iff, andb_true_iff, Z.ltb_lt, Z.leb_le. unfold pressed.
  destruct (Z.eq_dec max 0) as [->|Hz].
  - rewrite no_limit by lia. intuition (try discriminate; lia).
  - rewrite default_exact by (try exact Hp; lia). rewrite Z.leb_le. intuition lia.
Qed.

(** Any whole percentage is decided up to one part in 2^50. *)
Theorem evaluate_near c e k used max n : answers e used max n -> limited c k ->
  0 <= used < 2 ^ 63 -> 0 <= max < 2 ^ 63 ->
  exists v, evaluate c e = Some v
    /\ (0 < max /\ k * max * 2 ^ 50 <= 100 * used * (2 ^ 50 - 1) \/ 0 < q_max_pending c /\ q_max_pending c <= sum_of n (counted c) -> v = true)
    /\ (v = true -> 0 < max /\ k * max * 2 ^ 50 <= 100 * used * (2 ^ 50 + 1) \/ 0 < q_max_pending c /\ q_max_pending c <= sum_of n (counted c)).
Proof.
  intros He Hl Hu Hm. destruct (limited_percent c k Hl) as [Hp Hk]. rewrite (evaluate_answers c e used max n He) by (apply in64; lia). eexists. split; [reflexivity|].
  rewrite orb_true_iff, andb_true_iff, Z.ltb_lt, Z.leb_le.
  destruct (Z.eq_dec max 0) as [->|Hz].
  - rewrite no_limit by lia. intuition (try discriminate; lia).
  - destruct (whole_percent_near c k used max Hp Hk Hu ltac:(lia)) as [A B]. intuition lia.
Qed.

(** Only readings refuse: redis said it is full, or every queue was counted and there
    are too many. *)
Theorem refuses_by c e : evaluate c e = Some true ->
  (e_redis e = true /\ exists i, e_info e = Some i /\ memory_full c (parse_memory i) = true)
  \/ 0 < q_max_pending c /\ exists n, (forall q, In q (counted c) -> e_count e q = Some (n q)) /\ q_max_pending c <= sum_of n (counted c).
Proof.
  unfold evaluate. intros H.
  assert (R : (if (0 <? q_max_pending c) && e_inspector e then
      match total (e_count e) (counted c) with Some n => Some (q_max_pending c <=? n) | None => None end else Some false) = Some true ->
      0 < q_max_pending c /\ exists n, (forall q, In q (counted c) -> e_count e q = Some (n q)) /\ q_max_pending c <= sum_of n (counted c)).
  { clear H. destruct (0 <? q_max_pending c) eqn:E1; [|discriminate]. destruct (e_inspector e); [|discriminate]. simpl.
    destruct (total _ _) as [k|] eqn:E2; [|discriminate]. intros H. injection H as H. apply Z.ltb_lt in E1. apply Z.leb_le in H. split; [exact E1|].
    exists (fun q => match e_count e q with Some n => n | None => 0 end).
    assert (G : forall qs k, total (e_count e) qs = Some k ->
      (forall q, In q qs -> e_count e q = Some match e_count e q with Some n => n | None => 0 end)
      /\ sum_of (fun q => match e_count e q with Some n => n | None => 0 end) qs = k).
    { induction qs as [|q r IH]; simpl; intros k' Hk.
      - injection Hk as <-. split; [contradiction|reflexivity].
      - destruct (e_count e q) as [m|] eqn:Eq; [|discriminate]. destruct (total (e_count e) r) as [t|] eqn:Et; [|discriminate].
        injection Hk as <-. destruct (IH t eq_refl) as [I1 I2]. split; [|rewrite I2; reflexivity].
        intros q' [<-|Hq]; [rewrite Eq; reflexivity|auto]. }
    destruct (G _ _ E2) as [G1 G2]. split; [exact G1|]. rewrite G2. exact H. }
  destruct (e_redis e); [|right; auto]. destruct (e_info e) as [i|]; [|discriminate].
  destruct (memory_full c (parse_memory i)) eqn:E; [left; eauto|right; auto].
Qed.

Theorem counts_every_queue c lane src : 0 < q_number c -> In (queue_of c lane src) (counted c).
Proof.
  intros Hn. unfold queue_of, counted. apply in_or_app. destruct (q_hot c && String.eqb lane "hot") eqn:E.
  - apply andb_true_iff in E as [-> _]. right. left. reflexivity.
  - left. apply (in_map (fun i => (q_name c ++ "_" ++ int_text i)%string)). apply in_upto. pose proof (hash_range src).
    pose proof (Z.rem_bound_pos (hash_balance src) (q_number c)). lia.
Qed.

(** ** Cases *)
Definition qc : qconfig := {| q_name := ""; q_expiry := ""; q_commit := ""; q_number := 0; q_hot := true; q_hot_name := "";
  q_press := true; q_percent := to_float 0; q_interval := 0; q_max_pending := 1000 |}.
Example default_routes :
  queue_of (queue_defaults qc) "" "bln_1" = "new:transaction_4" /\ queue_of (queue_defaults qc) "hot" "bln_1" = "hot_transactions"
  /\ queue_of (queue_defaults qc) "" "bln_2" = "new:transaction_3".
Proof. vm_compute. auto. Qed.
Example default_percent : limited (queue_defaults qc) 85.
Proof. exists 85. split; [lia|]. split; [vm_compute; reflexivity|]. left. split; reflexivity. Qed.

(** A negative number of queues is kept, and then nobody serves the queue chosen. *)
Definition with_number (n : Z) : qconfig := {| q_name := ""; q_expiry := ""; q_commit := ""; q_number := n; q_hot := true; q_hot_name := "";
  q_press := true; q_percent := to_float 0; q_interval := 0; q_max_pending := 1000 |}.
Lemma unserved : exists c lane src, ~ In (queue_of (queue_defaults c) lane src) (served (queue_defaults c)).
Proof.
  exists (with_number (-4)), "", "bln_1". vm_compute. intros H. repeat (destruct H as [H|H]; [discriminate|]). contradiction.
Qed.
(** A balance named by its indicator and the same balance named by its id are sources
    with different queues. *)
Lemma indicator_routes : exists c a b, a <> b /\ queue_of (queue_defaults c) "" a <> queue_of (queue_defaults c) "" b.
Proof. exists qc, "@ann", "bln_1". vm_compute. split; discriminate. Qed.

(** A report as redis writes it. *)
Definition report1 (used max : Z) : list (string * string) :=
  [("used_memory", int_text used); ("used_memory_human", "800.00M"); ("maxmemory", int_text max); ("maxmemory_policy", "noeviction")].
Lemma report1_ok used max : Forall (fun c => c <> newline) (chars (int_text used)) -> Forall (fun c => c <> newline) (chars (int_text max)) ->
  reports (report1 used max) used max.
Proof.
  intros Hu Hm. split; [|split; [|split; [left; reflexivity|right; right; left; reflexivity]]].
  - repeat (constructor; [split; [split; [discriminate|repeat (constructor; [split; [reflexivity|split; discriminate]|]); constructor]|
      try assumption; repeat (constructor; [discriminate|]); constructor]|]). constructor.
  - simpl. repeat (constructor; [simpl; intuition discriminate|]). constructor.
Qed.
Definition env1 (used max : Z) : qenv :=
  {| e_redis := true; e_info := Some (report (report1 used max)); e_inspector := true; e_count := fun _ => Some 7 |}.
Lemma env1_answers used max : answers (env1 used max) used max (fun _ => 7).
Proof.
  split; [reflexivity|]. split; [|split; [reflexivity|reflexivity]]. exists (report1 used max). split; [reflexivity|].
  apply report1_ok; (eapply Forall_impl; [|apply int_digits]); simpl; tauto.
Qed.
Example at_limit : evaluate (queue_defaults qc) (env1 85 100) = Some true /\ evaluate (queue_defaults qc) (env1 84 100) = Some false
  /\ evaluate (queue_defaults (with_number 143)) (env1 0 0) = Some true /\ evaluate (queue_defaults (with_number 141)) (env1 0 0) = Some false.
Proof. vm_compute. auto. Qed.

(** With a limit of 57 percent, exactly 57 of 100 bytes is not refused: 57/100*100 is
    rounded to just under 57. *)
Definition with_percent (k : Z) : qconfig := {| q_name := "t"; q_expiry := "e"; q_commit := "c"; q_number := 2; q_hot := false; q_hot_name := "h";
  q_press := true; q_percent := to_float k; q_interval := 0; q_max_pending := 0 |}.
Lemma boundary_missed : exists c k e used max n, limited c k /\ answers e used max n /\ pressed k c used max n /\ evaluate c e = Some false.
Proof.
  exists (with_percent 57), 57, (env1 57 100), 57, 100, (fun _ => 7).
  split; [exists 57; split; [lia|]; split; [reflexivity|]; left; split; reflexivity|]. split; [apply env1_answers|].
  split; [left; lia|]. vm_compute. reflexivity.
Qed.

(** A slow request writes down an old verdict: an hour later another request is refused
    on it, although redis has been found idle since. *)
Definition slow : list bevent :=
  [BLook 0; BEval 0 0 (env1 90 100); BLook 1; BEval 1 1 (env1 10 100); BStore 1 2; BStore 0 3600000000000; BLook 3600000000001].
Definition breplay (c : qconfig) (y : bsys) (ev : bevent) : option bsys :=
  match ev with
  | BLook t =>
    if t <? b_now y then None
    else if negb (q_press c) then Some {| b_cache := b_cache y; b_thr := b_thr y ++ [Finished]; b_now := t; b_evals := b_evals y; b_dec := (t, false) :: b_dec y |}
    else match b_cache y with
         | Some (a, v) => if t - a <? interval c
             then Some {| b_cache := b_cache y; b_thr := b_thr y ++ [Finished]; b_now := t; b_evals := b_evals y; b_dec := (t, v) :: b_dec y |}
             else Some {| b_cache := b_cache y; b_thr := b_thr y ++ [Working]; b_now := t; b_evals := b_evals y; b_dec := b_dec y |}
         | None => Some {| b_cache := b_cache y; b_thr := b_thr y ++ [Working]; b_now := t; b_evals := b_evals y; b_dec := b_dec y |}
         end
  | BEval i t e =>
    if t <? b_now y then None else
    match nth_error (b_thr y) i with
    | Some Working => match evaluate c e with
        | None => Some {| b_cache := b_cache y; b_thr := replace i Finished (b_thr y); b_now := t; b_evals := (t, e) :: b_evals y; b_dec := (t, false) :: b_dec y |}
        | Some v => Some {| b_cache := b_cache y; b_thr := replace i (Got v) (b_thr y); b_now := t; b_evals := (t, e) :: b_evals y; b_dec := b_dec y |}
        end
    | _ => None
    end
  | BStore i t =>
    if t <? b_now y then None else
    match nth_error (b_thr y) i with
    | Some (Got v) => Some {| b_cache := Some (t, v); b_thr := replace i Finished (b_thr y); b_now := t; b_evals := b_evals y; b_dec := (t, v) :: b_dec y |}
    | _ => None
    end
  end%list.
Lemma breplay_ok c y ev y' : breplay c y ev = Some y' -> bstep c y ev y'.
Proof.
  destruct ev as [t|i t e|i t]; cbn [breplay bstep]; destruct (t <? b_now y) eqn:E; try discriminate; apply Z.ltb_ge in E; intros H; (split; [exact E|]).
  - destruct (negb (q_press c)); [congruence|]. destruct (b_cache y) as [[a v]|]; [destruct (t - a <? interval c)|]; congruence.
  - destruct (nth_error (b_thr y) i) as [[| |]|]; try discriminate. split; [reflexivity|]. destruct (evaluate c e); congruence.
  - destruct (nth_error (b_thr y) i) as [[| |]|] eqn:N; try discriminate. exists v. split; [reflexivity|congruence].
Qed.
Fixpoint bplay (c : qconfig) (y : bsys) (l : list bevent) : option bsys :=
  match l with [] => Some y | ev :: r => match breplay c y ev with Some y' => bplay c y' r | None => None end end.
Lemma bplay_ok c y0 l : forall y y', bsteps c y0 y -> bplay c y l = Some y' -> bsteps c y0 y'.
Proof.
  induction l as [|ev r IH]; simpl; intros y y' H Hp; [congruence|]. destruct (breplay c y ev) as [y2|] eqn:E; [|discriminate].
  eapply IH; [|exact Hp]. eapply b_next; [exact H|apply breplay_ok; exact E].
Qed.
Lemma stale : exists c y t, bsteps c (binit 0) y /\ In (t, true) (b_dec y)
  /\ exists te, (forall te' e, In (te', e) (b_evals y) -> evaluate c e = Some true -> te' = te) /\ t - te > 1000 * interval c
  /\ exists te' e, In (te', e) (b_evals y) /\ te < te' /\ evaluate c e = Some false.
Proof.
  set (c := with_percent 85). destruct (bplay c (binit 0) slow) as [y|] eqn:E; [|vm_compute in E; discriminate].
  exists c, y, 3600000000001. assert (Hs : bsteps c (binit 0) y) by (eapply bplay_ok; [apply b_refl|exact E]). split; [exact Hs|].
  assert (Ey : y = match bplay c (binit 0) slow with Some y => y | None => binit 0 end) by (rewrite E; reflexivity). clear E Hs.
  assert (D : b_dec y = [(3600000000001, true); (3600000000000, true); (2, false)]) by (rewrite Ey; vm_compute; reflexivity).
  assert (V : b_evals y = [(1, env1 10 100); (0, env1 90 100)]) by (rewrite Ey; vm_compute; reflexivity).
  rewrite D, V. split; [left; reflexivity|]. exists 0. split; [|split].
  - intros te' e [H|[H|[]]]; injection H as <- <-; [|reflexivity]. intros H. vm_compute in H. discriminate.
  - vm_compute. reflexivity.
  - exists 1, (env1 10 100). split; [left; reflexivity|]. split; [lia|vm_compute; reflexivity].
Qed.
