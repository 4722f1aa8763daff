(** The search index at work, and where what one would expect fails. *)
From Coq Require Import List String Bool Arith ZArith Lia.
From Verif Require Import SearchModel SearchSpec SearchPage SearchInv SearchDocs SearchLive SearchNote.
Import ListNotations.
Local Open Scope string_scope.
Local Open Scope nat_scope.
Local Open Scope list_scope.

Definition rec (id : string) (at_ : Z) (refs : list (coll * string)) (d : string) : row := {| r_id := id; r_created := at_; r_refs := refs; r_data := d |}.
Definition gen : row := rec general_id 0 [] "General Ledger".
Definition tables (ls is bs ts rs : list row) (c : coll) : list row :=
  match c with Ledgers => ls | Identities => is | Balances => bs | Transactions => ts | Reconciliations => rs end.
Definition world_of (t : coll -> list row) : world := {| w_tab := t; w_ix := fun _ => None; w_tasks := []; w_runs := []; w_last := None |}.
Fixpoint times (n : nat) (e : event) : list event := match n with 0 => [] | S m => e :: times m e end.
Definition st (i : nat) : event := EStep i Fine Ledgers tie0.
Definition setup (i : nat) : list event := times 7 (st i) ++ map (fun c => EStep i Fine c tie0) every ++ times 2 (st i).
Definition serve (k n : nat) : list event := map (fun c => EWork k Fine c) every ++ times (n + 3) (EWork k Fine Ledgers).

Fixpoint aloneb (i : nat) (es : list event) (w : world) : bool :=
  forallb (fun j => (j =? i) || match nth_error (w_runs w) j with Some u => match u_stage u with SEnd => true | _ => false end | None => true end) (seq 0 (List.length (w_runs w)))
  && match es with [] => true | e :: r => aloneb i r (happen e w) end.
Lemma aloneb_alone : forall i es w, aloneb i es w = true -> alone i es w.
Proof.
  intros i es. induction es as [|e es IH]; intros w H es1 es2 E j u N R.
  all: cbn [aloneb] in H; apply andb_prop in H as [H1 H2].
  all: assert (Now : forall u, nth_error (w_runs w) j = Some u -> u_stage u = SEnd)
    by (intros v V; rewrite forallb_forall in H1; assert (I : In j (seq 0 (List.length (w_runs w)))) by (apply in_seq; split; [lia|]; cbn; apply nth_error_Some; congruence);
        apply H1 in I; destruct (Nat.eqb_spec j i); [congruence|]; rewrite V in I; destruct (u_stage v); cbn in I; try discriminate I; reflexivity).
  - destruct es1; [apply Now, R|discriminate E].
  - destruct es1 as [|e1 es1]; [apply Now, R|]. cbn in E. injection E as <- E. eapply (IH (happen e w) H2 es1 es2 E); eauto.
Qed.
Fixpoint no_deleteb (es : list event) : bool := match es with [] => true | EDelete _ :: _ => false | _ :: r => no_deleteb r end.
Lemma no_deleteb_ok : forall es, no_deleteb es = true -> no_delete es.
Proof. induction es as [|e es IH]; intros H id I; [destruct I|]. destruct I as [->|I]; [discriminate H|]. destruct e; cbn in H; try discriminate H; eapply IH; eauto. Qed.
Ltac never := apply no_deleteb_ok; vm_compute; reflexivity.
Fixpoint servedb (es : list event) : bool := match es with [] => true | EStep _ Fails _ _ :: _ => false | _ :: r => servedb r end.
Lemma servedb_ok : forall i es, servedb es = true -> served i es.
Proof.
  intros i. induction es as [|e es IH]; intros H o p t I; [destruct I|]. destruct I as [->|I]; [destruct o; cbn in H; congruence|].
  assert (R : servedb es = true) by (destruct e as [| | | | | | |j [] q s|]; cbn in H; congruence). eapply IH; eauto.
Qed.
Ltac serving := apply servedb_ok; vm_compute; reflexivity.
Definition refsb (w : world) (c : coll) (refs : list (coll * string)) : bool :=
  forallb (fun x => (rank_of (fst x) <? rank_of c) && existsb (fun r => String.eqb (r_id r) (snd x)) (w_tab w (fst x))) refs.
Lemma refsb_ok : forall w c refs, refsb w c refs = true -> refs_in w c refs.
Proof.
  intros w c refs H c' id I. unfold refsb in H. rewrite forallb_forall in H. apply H in I. cbn [fst snd] in I. apply andb_prop in I as [R E].
  apply Nat.ltb_lt in R. split; [exact R|]. apply existsb_exists in E as (r & J & E). apply String.eqb_eq in E. eauto.
Qed.
Ltac apart := let c := fresh in intros c; destruct c; vm_compute; repeat constructor; cbn; intuition discriminate.

(** ** A rebuilding beside which people go on working *)

Definition shop : coll -> list row :=
  tables [rec "l1" 5 [] "Shop"; gen] [rec "p1" 6 [] "Ada"; rec "p2" 7 [] "Ben"; rec "p3" 8 [] "Cem"]
         [rec "b1" 9 [(Ledgers, "l1"); (Identities, "p1")] "b1: 0"; rec "b2" 10 [(Ledgers, general_id)] "b2: 0"]
         [rec "t1" 11 [(Balances, "b1"); (Balances, "b2")] "b1 to b2: 10"] [rec "r1" 12 [] "reconciled"].
Definition begun (n : Z) (w : world) : world := happen (EBegin n) w.
Definition busy_day : list event :=
  setup 0 ++ times 4 (st 0) ++ [EInsert Identities (rec "p4" 20 [] "Dan"); ENote [(Identities, "p4")]]
  ++ times 5 (st 0) ++ [EUpdate Balances "b1" [(Ledgers, "l1"); (Identities, "p2")] "b1: -10"]
  ++ times 30 (st 0).
Example busy_hypotheses : started 0 (begun 2 (world_of shop)) /\ alone 0 busy_day (begun 2 (world_of shop)) /\ no_delete busy_day
  /\ dated (play busy_day (begun 2 (world_of shop))) /\ served 0 busy_day /\ closed (begun 2 (world_of shop)) busy_day
  /\ completed 0 (play busy_day (begun 2 (world_of shop))) [].
Proof.
  split; [exists 2%Z; reflexivity|]. split; [apply aloneb_alone; vm_compute; reflexivity|]. split; [never|]. split; [apart|].
  split; [serving|]. split.
  - split.
    + intros c r I. destruct c; cbn in I; decompose [or] I; try contradiction; subst r; apply refsb_ok; vm_compute; reflexivity.
    + intros c id refs d I X. cbn in I. decompose [or] I; try discriminate; try contradiction.
      match goal with E : _ = EUpdate _ _ _ _ |- _ => injection E as <- <- <- <- end. apply refsb_ok. vm_compute. reflexivity.
  - eexists. split; [vm_compute; reflexivity|]. split; reflexivity.
Qed.
Example busy_shown : map (fun c => w_ix (play busy_day (begun 2 (world_of shop))) c) every
  = [Some [(general_id, "General Ledger"); ("l1", "Shop")]; Some [("p1", "Ada"); ("p2", "Ben"); ("p3", "Cem"); ("p4", "Dan")];
     Some [("b1", "b1: -10"); ("b2", "b2: 0")]; Some [("t1", "b1 to b2: 10")]; Some []].
Proof. vm_compute. reflexivity. Qed.

(** ** Where it fails *)

(** Nothing is waiting and nothing is under way. *)
Definition quiet (w : world) : Prop := w_tasks w = [] /\ forall j u, nth_error (w_runs w) j = Some u -> u_stage u = SEnd.
Fixpoint quietb_runs (l : list run) : bool := match l with [] => true | u :: r => match u_stage u with SEnd => quietb_runs r | _ => false end end.
Lemma quietb_quiet : forall w, w_tasks w = [] -> quietb_runs (w_runs w) = true -> quiet w.
Proof.
  intros w T Q. split; [exact T|]. intros j. revert Q. generalize (w_runs w). induction j as [|j IH]; intros [|u l] Q v E; try discriminate E; cbn in Q, E.
  - injection E as <-. destruct (u_stage u); try discriminate Q. reflexivity.
  - destruct (u_stage u); try discriminate Q. eapply IH; eauto.
Qed.

(** An update whose task is done while the rebuilding holds the old row in its hands. *)
Definition small : coll -> list row := tables [gen] [rec "p1" 6 [] "Ada"] [] [] [].
Definition stale_run : list event :=
  setup 0 ++ times 4 (st 0) ++ [st 0]                                   (* the page with p1 has been read *)
  ++ [EUpdate Identities "p1" [] "Ada L."; ENote [(Identities, "p1")]] ++ serve 0 1 ++ times 6 (st 0).
Theorem stale_refuted : exists es w, started 0 w /\ alone 0 es w /\ no_delete es /\ dated (play es w) /\ served 0 es
  /\ completed 0 (play es w) [] /\ quiet (play es w)
  /\ exists r, In r (w_tab (play es w) Identities) /\ r_data r = "Ada L." /\ shows (play es w) Identities (r_id r) "Ada".
Proof.
  exists stale_run, (begun 2 (world_of small)). split; [exists 2%Z; reflexivity|]. split; [apply aloneb_alone; vm_compute; reflexivity|]. split; [never|].
  split; [apart|]. split; [serving|].
  split; [eexists; split; [vm_compute; reflexivity|]; split; reflexivity|]. split; [apply quietb_quiet; vm_compute; reflexivity|].
  eexists. split; [vm_compute; left; reflexivity|]. split; vm_compute; reflexivity.
Qed.

(** Two changes of one record, their tasks done in the other order. *)
Definition swapped : list event :=
  [EUpdate Identities "p1" [] "Ada L."; ENote [(Identities, "p1")]; EUpdate Identities "p1" [] "Ada Lovelace"; ENote [(Identities, "p1")]]
  ++ serve 1 1 ++ serve 0 1.
Theorem swapped_refuted : exists es w, w_runs w = [] /\ quiet (play es w)
  /\ exists r, In r (w_tab (play es w) Identities) /\ r_data r = "Ada Lovelace" /\ shows (play es w) Identities (r_id r) "Ada L.".
Proof.
  exists swapped, (world_of small). split; [reflexivity|]. split; [apply quietb_quiet; vm_compute; reflexivity|].
  eexists. split; [vm_compute; left; reflexivity|]. split; vm_compute; reflexivity.
Qed.

(** PUT /identities/:id queues no task. *)
Definition put_identity : list event := [ENote [(Identities, "p1")]] ++ serve 0 1 ++ [EUpdate Identities "p1" [] "Ada L."].
Theorem put_refuted : quiet (play put_identity (world_of small))
  /\ exists r, In r (w_tab (play put_identity (world_of small)) Identities) /\ r_data r = "Ada L."
     /\ shows (play put_identity (world_of small)) Identities (r_id r) "Ada".
Proof.
  split; [apply quietb_quiet; vm_compute; reflexivity|]. eexists. split; [vm_compute; left; reflexivity|]. split; vm_compute; reflexivity.
Qed.
(** A deleted identity is still found. *)
Definition deleted_identity : list event := [ENote [(Identities, "p1")]] ++ serve 0 1 ++ [EDelete "p1"].
Theorem ghost_refuted : quiet (play deleted_identity (world_of small)) /\ w_tab (play deleted_identity (world_of small)) Identities = []
  /\ finds (play deleted_identity (world_of small)) Identities "p1".
Proof. split; [apply quietb_quiet; vm_compute; reflexivity|]. split; [vm_compute; reflexivity|]. exists "Ada". vm_compute. reflexivity. Qed.

(** An identity is deleted between two pages: the next page starts one row too late. *)
Definition people : coll -> list row := tables [gen] [rec "p1" 6 [] "Ada"; rec "p2" 7 [] "Ben"; rec "p3" 8 [] "Cem"] [] [] [].
Definition delete_run : list event := setup 0 ++ times 4 (st 0) ++ times 4 (st 0) ++ [EDelete "p3"] ++ times 10 (st 0).
Theorem delete_refuted : exists es w, started 0 w /\ alone 0 es w /\ dated (play es w) /\ served 0 es /\ completed 0 (play es w) [] /\ quiet (play es w)
  /\ exists r, In r (w_tab w Identities) /\ In r (w_tab (play es w) Identities) /\ ~ finds (play es w) Identities (r_id r).
Proof.
  exists delete_run, (begun 2 (world_of people)). split; [exists 2%Z; reflexivity|]. split; [apply aloneb_alone; vm_compute; reflexivity|].
  split; [apart|]. split; [serving|].
  split; [eexists; split; [vm_compute; reflexivity|]; split; reflexivity|]. split; [apply quietb_quiet; vm_compute; reflexivity|].
  exists (rec "p1" 6 [] "Ada"). split; [left; reflexivity|]. split; [vm_compute; left; reflexivity|]. intros (d & E). vm_compute in E. discriminate E.
Qed.

(** Rows created at one time: the second page need not follow the order of the first. *)
Definition twins : coll -> list row := tables [gen] [rec "p1" 6 [] "Ada"; rec "p2" 6 [] "Ben"] [] [] [].
Definition first (id s : string) : nat := if String.eqb s id then 0 else 1.
Definition tie_run : list event :=
  setup 0 ++ times 4 (st 0) ++ [EStep 0 Fine Ledgers (first "p1")] ++ times 2 (st 0) ++ [EStep 0 Fine Ledgers (first "p2")] ++ times 8 (st 0).
Theorem tie_refuted : exists es w, started 0 w /\ alone 0 es w /\ no_delete es /\ served 0 es /\ completed 0 (play es w) [] /\ quiet (play es w)
  /\ exists r, In r (w_tab w Identities) /\ ~ finds (play es w) Identities (r_id r).
Proof.
  exists tie_run, (begun 1 (world_of twins)). split; [exists 1%Z; reflexivity|]. split; [apply aloneb_alone; vm_compute; reflexivity|]. split; [never|].
  split; [serving|].
  split; [eexists; split; [vm_compute; reflexivity|]; split; reflexivity|]. split; [apply quietb_quiet; vm_compute; reflexivity|].
  exists (rec "p2" 6 [] "Ben"). split; [right; left; reflexivity|]. intros (d & E). vm_compute in E. discriminate E.
Qed.

(** Reconciliations are dropped and not shown again. *)
Definition known : list event := [ENote [(Reconciliations, "r1")]] ++ serve 0 1.
Theorem reconciliations_refuted : exists es1 es2 w, finds (play es1 w) Reconciliations "r1" /\ started 0 (begun 0 (play es1 w))
  /\ alone 0 es2 (begun 0 (play es1 w)) /\ no_delete es2 /\ dated (play es2 (begun 0 (play es1 w))) /\ served 0 es2
  /\ completed 0 (play es2 (begun 0 (play es1 w))) [] /\ quiet (play es2 (begun 0 (play es1 w)))
  /\ (exists r, In r (w_tab (play es2 (begun 0 (play es1 w))) Reconciliations) /\ r_id r = "r1")
  /\ ~ finds (play es2 (begun 0 (play es1 w))) Reconciliations "r1".
Proof.
  exists known, (setup 0 ++ times 24 (st 0)), (world_of shop). split; [eexists; vm_compute; reflexivity|]. split; [exists 0%Z; reflexivity|].
  split; [apply aloneb_alone; vm_compute; reflexivity|]. split; [never|]. split; [apart|].
  split; [serving|].
  split; [eexists; split; [vm_compute; reflexivity|]; split; reflexivity|]. split; [apply quietb_quiet; vm_compute; reflexivity|].
  split; [eexists; split; [vm_compute; left; reflexivity|]; reflexivity|]. intros (d & E). vm_compute in E. discriminate E.
Qed.

(** Two requests, the second before the first run has moved: both are taken, and the first
    reports success while the second has dropped what it wrote. *)
Definition both_run : list event := [EBegin 0] ++ setup 0 ++ times 4 (st 0) ++ times 4 (st 0) ++ [st 0; st 0] ++ times 3 (st 1).
Theorem both_refuted : exists es w, started 0 w /\ no_delete es /\ dated (play es w) /\ served 0 es /\ completed 0 (play es w) []
  /\ List.length (w_runs (play es w)) = 2
  /\ exists r, In r (w_tab w Ledgers) /\ ~ finds (play es w) Ledgers (r_id r).
Proof.
  exists both_run, (begun 0 (world_of small)). split; [exists 0%Z; reflexivity|]. split; [never|].
  split; [apart|]. split; [serving|].
  split; [eexists; split; [vm_compute; reflexivity|]; split; reflexivity|]. split; [vm_compute; reflexivity|].
  exists gen. split; [left; reflexivity|]. intros (d & E). vm_compute in E. discriminate E.
Qed.

(** Four records are indexed, six are reported. *)
Theorem count_refuted : exists es w u, started 0 w /\ alone 0 es w /\ nth_error (w_runs (play es w)) 0 = Some u /\ u_status u = Completed
  /\ (forall c, NoDup (map r_id (w_tab w c))) /\ w_tab (play es w) = w_tab w
  /\ List.length (w_tab w Ledgers ++ w_tab w Identities ++ w_tab w Balances ++ w_tab w Transactions) = 4 /\ u_processed u = 6 /\ u_total u = 6.
Proof.
  exists (setup 0 ++ times 20 (st 0)), (begun 2 (world_of people)). eexists. split; [exists 2%Z; reflexivity|].
  split; [apply aloneb_alone; vm_compute; reflexivity|]. split; [vm_compute; reflexivity|]. split; [reflexivity|]. split; [apart|].
  split; [vm_compute; reflexivity|]. repeat split; vm_compute; reflexivity.
Qed.

(** The general ledger's metadata are set and shown; the next task, about an identity, puts the
    ledger as it is set up in its place. *)
Definition overwritten : list event :=
  [EUpdate Ledgers general_id [] "General Ledger of ACME"; ENote [(Ledgers, general_id)]] ++ serve 0 1 ++ [ENote [(Identities, "p1")]] ++ serve 0 1.
Theorem general_refuted : quiet (play overwritten (world_of small))
  /\ exists r, In r (w_tab (play overwritten (world_of small)) Ledgers) /\ r_id r = general_id /\ r_data r = "General Ledger of ACME"
     /\ shows (play overwritten (world_of small)) Ledgers general_id general_doc.
Proof.
  split; [apply quietb_quiet; vm_compute; reflexivity|]. eexists. split; [vm_compute; left; reflexivity|]. repeat split; vm_compute; reflexivity.
Qed.

(** A transaction whose destination is no balance (as it stands in a transaction that was
    rejected) is not indexed; the rebuilding is completed. *)
Definition rejected : coll -> list row :=
  tables [gen] [] [rec "b1" 9 [(Ledgers, general_id)] "b1: 0"] [rec "t1" 11 [(Balances, "b1"); (Balances, "@World")] "rejected"] [].
Theorem rejected_refuted : exists es w, started 0 w /\ alone 0 es w /\ no_delete es /\ dated (play es w) /\ served 0 es
  /\ completed 0 (play es w) [(Transactions, "t1")] /\ ~ finds (play es w) Transactions "t1".
Proof.
  exists (setup 0 ++ times 20 (st 0)), (begun 2 (world_of rejected)). split; [exists 2%Z; reflexivity|].
  split; [apply aloneb_alone; vm_compute; reflexivity|]. split; [never|]. split; [apart|].
  split; [serving|].
  split; [eexists; split; [vm_compute; reflexivity|]; split; reflexivity|]. intros (d & E). vm_compute in E. discriminate E.
Qed.

(** ** Tasks *)

(** A balance and a transaction on it, noted with what they refer to; the server is out of memory
    for a while. *)
Definition first_note : list (coll * string) := [(Ledgers, general_id); (Ledgers, "l1"); (Identities, "p1"); (Balances, "b1"); (Balances, "b2"); (Balances, "b1"); (Transactions, "t1")].
Definition patient : list event := times 4 (EWork 0 Full Ledgers) ++ serve 0 2 ++ [EWork 0 Full Ledgers] ++ serve 0 6.
Example patient_hypotheses : no_run (world_of shop) /\ starts_none patient /\ taken patient /\ in_order (world_of shop) first_note
  /\ w_tasks (play (ENote first_note :: patient) (world_of shop)) = [].
Proof.
  split; [intros [|i] u E; discriminate E|]. split; [split; [intros n I|intros I]; cbn in I; decompose [or] I; try discriminate; contradiction|].
  split; [intros k o p I ->; cbn in I; decompose [or] I; try discriminate; contradiction|]. split; [|vm_compute; reflexivity].
  intros l1 c id l2 r E R c' id' I. right.
  do 7 (destruct l1 as [|x l1]; [injection E as <- <- <-; vm_compute in R; injection R as <-; cbn in I; decompose [or] I; try contradiction;
    match goal with H : _ = (c', id') |- _ => injection H as <- <- end; (split; [cbn; tauto|vm_compute; discriminate])|injection E as <- E]).
  destruct l1; discriminate E.
Qed.
(** A task is given up in the end: after it, and with nothing left to do, the record is not found. *)
Fixpoint tries (n : nat) : list event := match n with 0 => [] | S m => map (fun c => EWork 0 Fine c) every ++ times 3 (EWork 0 Fine Ledgers) ++ tries m end.
Theorem given_up_refuted : exists l es w, no_run w /\ starts_none es /\ taken es /\ quiet (play (ENote l :: es) w)
  /\ exists r, In r (w_tab (play (ENote l :: es) w) Transactions) /\ In (Transactions, r_id r) l /\ ~ finds (play (ENote l :: es) w) Transactions (r_id r).
Proof.
  exists [(Transactions, "t1")], (tries 26), (world_of rejected). split; [intros [|i] u E; discriminate E|].
  assert (A : forall e, In e (tries 26) -> exists c, e = EWork 0 Fine c).
  { generalize 26. induction n as [|n IH]; intros e I; [destruct I|]. cbn in I. decompose [or] I; try (eexists; symmetry; eassumption). apply IH. assumption. }
  split; [split; [intros n I|intros I]; apply A in I as (c & E); discriminate E|]. split; [intros k o p I ->; apply A in I as (c & E); discriminate E|].
  split; [apply quietb_quiet; vm_compute; reflexivity|]. eexists. split; [vm_compute; left; reflexivity|]. split; [left; reflexivity|].
  intros (d & E). vm_compute in E. discriminate E.
Qed.

Lemma under_way : let w := play [EBegin 10%Z; EStep 0 Fine Ledgers (fun _ => 0)] (world_of small) in
  w_last w = Some 0 /\ exists u, nth_error (w_runs w) 0 = Some u /\ u_stage u <> SStart /\ u_stage u <> SEnd.
Proof. split; [reflexivity|]. eexists. split; [reflexivity|]. split; discriminate. Qed.
