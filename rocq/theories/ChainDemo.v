(** Concrete chain histories: examples for C22-C24 and the attacks C23 misses. *)
From Coq Require Import ZArith List String Ascii Bool Lia.
From Verif Require Import Base ChainModel ChainSpec ChainProof ChainThms ChainTamper.
Import ListNotations.
Local Open Scope string_scope.
Open Scope Z_scope.

Definition fact (id src dst amount ref : string) (t : Z) : facts :=
  {| f_txid := id; f_src := Some src; f_dst := Some dst; f_desc := None; f_ref := Some ref; f_amount := Some amount;
     f_precise := Some amount; f_precision := Some "1"; f_cur := Some "USD"; f_status := Some "APPLIED"; f_hash := Some "h";
     f_created := t; f_sched := None |}.
Definition no_extra : extra := {| x_parent := ""; x_effective := None; x_meta := "{}" |}.
Definition noted : extra := {| x_parent := ""; x_effective := None; x_meta := "{note}" |}.
Definition f1 := fact "txn_1" "bln_a" "bln_b" "100" "r1" 10.
Definition f2 := fact "txn_2" "bln_b" "bln_c" "40" "r2" 20.
Definition f3 := fact "txn_3" "bln_c" "bln_a" "15" "r3" 30.

Fixpoint cplay (hash : string -> string) (es : list cevent) (y : csys) : option csys :=
  match es with [] => Some y | e :: r => match cstep hash y e with Some y' => cplay hash r y' | None => None end end.
Lemma cplay_runs hash es : forall y y', cplay hash es y = Some y' -> cruns hash y y'.
Proof.
  induction es as [|e es IH]; intros y y' H; simpl in H; [injection H as <-; constructor|].
  destruct (cstep hash y e) as [y1|] eqn:E; [|discriminate]. eapply cruns_step; eauto.
Qed.

(** Row 2 is visible before row 1; a worker dies after writing one link; the metadata of
    a sealed row is edited; a third row arrives between two rounds. *)
Definition demo_events : list cevent :=
  [EInsert 2 f2 no_extra; EInsert 1 f1 no_extra;
   ELock; EScan 25 10; EWrite; EAbort;
   ELock; EScan 15 10; EWrite; EInsert 3 f3 no_extra; ECommit;
   EUpdate 1 f1 noted;
   ELock; EScan 100 1; EWrite; ECommit; ELock; EScan 100 10; EWrite; ECommit].
Definition demo_end (hash : string -> string) : csys :=
  match cplay hash demo_events chain_init with Some y => y | None => chain_init end.

Lemma demo_chain hash : creach hash (demo_end hash) /\ d_last (c_db (demo_end hash)) = 3
  /\ map (fun r => (k_pk r, seq_of r, x_meta (k_extra r))) (d_rows (c_db (demo_end hash))) = [(3, 3, "{}"); (1, 1, "{note}"); (2, 2, "{}")].
Proof. split; [apply (cplay_runs hash demo_events); reflexivity|]. split; reflexivity. Qed.

(** ** Attacks *)
Definition two_events : list cevent :=
  [EInsert 1 f1 no_extra; EInsert 2 f2 no_extra; ELock; EScan 100 10; EWrite; EWrite; ECommit].
Definition two (hash : string -> string) : csys :=
  match cplay hash two_events chain_init with Some y => y | None => chain_init end.
Definition with_rows (d : db) (rows : list crow) : db :=
  {| d_rows := rows; d_last := d_last d; d_head := d_head d; d_genesis := d_genesis d |}.
(** Removing the newest sealed row. *)
Definition truncated (hash : string -> string) : db :=
  with_rows (c_db (two hash)) (filter (fun r => seq_of r =? 1) (d_rows (c_db (two hash)))).

Lemma truncation_missed hash page : (1 <= page)%nat -> creach hash (two hash) /\ d_last (c_db (two hash)) = 2
  /\ d_head (truncated hash) = d_head (c_db (two hash)) /\ d_last (truncated hash) = 2 /\ List.length (d_rows (truncated hash)) = 1%nat
  /\ exists h, verify hash page (fun _ => truncated hash) 3 = Some (Verified 1 h).
Proof.
  intros Hp. split; [apply (cplay_runs hash two_events); reflexivity|]. do 4 (split; [reflexivity|]).
  destruct page as [|[|page]]; [lia| |]; eexists; unfold verify; cbn -[String.eqb canonical]; rewrite !String.eqb_refl; reflexivity.
Qed.

(** A client-chosen '|' makes two different transactions hash alike. *)
Definition fx := fact "txn_1" "a|b" "c" "100" "r1" 10.
Definition fy := fact "txn_1" "a" "b|c" "100" "r1" 10.
Definition bar_events : list cevent := [EInsert 1 fx no_extra; ELock; EScan 100 10; EWrite; ECommit].
Definition bar (hash : string -> string) : csys := match cplay hash bar_events chain_init with Some y => y | None => chain_init end.
Definition swapped (hash : string -> string) : db :=
  with_rows (c_db (bar hash)) (map (fun r => {| k_pk := k_pk r; k_facts := fy; k_extra := k_extra r; k_seal := k_seal r |}) (d_rows (c_db (bar hash)))).
Lemma separator_missed hash page : (1 <= page)%nat -> creach hash (bar hash)
  /\ (exists r, In r (d_rows (c_db (bar hash))) /\ k_facts r = fx) /\ sealed_columns fx <> sealed_columns fy
  /\ (exists r, In r (d_rows (swapped hash)) /\ k_facts r = fy)
  /\ verify hash page (fun _ => swapped hash) 3 = Some (Verified (d_last (c_db (bar hash))) (d_head (c_db (bar hash)))).
Proof.
  intros Hp. split; [apply (cplay_runs hash bar_events); reflexivity|].
  split; [eexists; split; [left; reflexivity|reflexivity]|]. split; [discriminate|].
  split; [eexists; split; [left; reflexivity|reflexivity]|].
  destruct page as [|[|page]]; [lia| |]; unfold verify; cbn -[String.eqb chain_hash genesis]; rewrite !String.eqb_refl; cbn -[String.eqb chain_hash genesis];
    change (chain_hash hash genesis fy) with (chain_hash hash genesis fx); rewrite ?String.eqb_refl; cbn -[String.eqb chain_hash genesis]; rewrite ?String.eqb_refl; reflexivity.
Qed.

(** The hypotheses of the tamper theorems are met: a hash that keeps its input apart
    and writes it without '|' (each '|' becomes "/1", each '/' becomes "/0"). *)
Fixpoint escape (s : string) : string :=
  match s with
  | EmptyString => EmptyString
  | String c r => if Ascii.eqb c "|" then String "/"%char (String "1"%char (escape r))
                  else if Ascii.eqb c "/" then String "/"%char (String "0"%char (escape r)) else String c (escape r)
  end.
Lemma escape_no_bar s : no_bar (escape s).
Proof.
  induction s as [|c s IH]; simpl; [exact Logic.I|]. destruct (Ascii.eqb c "|"%char) eqn:E; [simpl; repeat split; try discriminate; exact IH|].
  destruct (Ascii.eqb c "/"%char) eqn:E2; simpl; repeat split; try discriminate; auto. intros ->. rewrite Ascii.eqb_refl in E. discriminate.
Qed.
Lemma escape_inj s : forall s', escape s = escape s' -> s = s'.
Proof.
  induction s as [|c s IH]; intros [|c' s'] H; simpl in H; auto.
  - destruct (Ascii.eqb c' "|"%char), (Ascii.eqb c' "/"%char); discriminate.
  - destruct (Ascii.eqb c "|"%char), (Ascii.eqb c "/"%char); discriminate.
  - destruct (Ascii.eqb c "|"%char) eqn:E1, (Ascii.eqb c' "|"%char) eqn:E2;
      [apply Ascii.eqb_eq in E1, E2; injection H as H; f_equal; [congruence|auto]
      |destruct (Ascii.eqb c' "/"%char) eqn:E3; [discriminate|injection H as H1 H2; subst c'; discriminate]
      |destruct (Ascii.eqb c "/"%char) eqn:E3; [discriminate|injection H as H1 H2; subst c; discriminate]|].
    destruct (Ascii.eqb c "/"%char) eqn:E3, (Ascii.eqb c' "/"%char) eqn:E4.
    + apply Ascii.eqb_eq in E3, E4. injection H as H. f_equal; [congruence|auto].
    + injection H as H1 H2. subst c'. discriminate.
    + injection H as H1 H2. subst c. discriminate.
    + injection H as H1 H2. f_equal; auto.
Qed.
Lemma demo_facts hash : map k_facts (d_rows (c_db (demo_end hash))) = [f3; f1; f2].
Proof. reflexivity. Qed.
Lemma plain_demo hash : all_plain (c_db (demo_end hash)).
Proof.
  intros r Hr. apply (in_map k_facts) in Hr. rewrite demo_facts in Hr. destruct Hr as [<-|[<-|[<-|[]]]]; unfold plain; cbn;
    repeat match goal with |- _ /\ _ => split end; try discriminate; exact Logic.I.
Qed.
Lemma demo_seqs hash : map seq_of (filter is_sealed (d_rows (c_db (demo_end hash)))) = [3; 1; 2].
Proof. reflexivity. Qed.
Lemma tamper_case : hex_like escape /\ creach escape (demo_end escape) /\ all_plain (c_db (demo_end escape))
  /\ unique_seq (c_db (demo_end escape)) /\ no_collision escape (c_db (demo_end escape)) (c_db (demo_end escape))
  /\ verify escape 2 (fun _ => c_db (demo_end escape)) 5 = Some (Verified 3 (d_head (c_db (demo_end escape)))).
Proof.
  split; [exact escape_no_bar|]. split; [apply demo_chain|]. split; [apply plain_demo|].
  split. { unfold unique_seq. rewrite demo_seqs. repeat (constructor; [simpl; intuition discriminate|]). constructor. }
  split; [intros r1 r2 p1 p2 _ _ H; apply escape_inj; exact H|]. vm_compute. reflexivity.
Qed.
