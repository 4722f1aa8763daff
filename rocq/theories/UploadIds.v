(** No two external transactions have one id, and a file that uses an id twice is refused. *)
From Coq Require Import QArith ZArith List String Bool Arith Lia Permutation.
From Verif Require Import QueueModel UploadModel UploadSpec UploadProof UploadTaken.
Import ListNotations.
Local Open Scope string_scope.
Local Open Scope nat_scope.
Local Open Scope list_scope.

Definition ids (t : table) : list string := map (fun r => x_id (snd r)) t.

Lemma not_taken : forall i t, id_taken i t = false -> ~ In i (ids t).
Proof.
  intros i t N I. apply in_map_iff in I as (r & E & I). subst i.
  assert (K : id_taken (x_id (snd r)) t = true) by (apply existsb_exists; exists r; split; [exact I|apply String.eqb_refl]).
  rewrite N in K. discriminate K.
Qed.

Lemma store_ids : forall c f x s t, store c f x s = Some t -> NoDup (ids (u_table s)) -> NoDup (ids t).
Proof.
  intros c f x s t E N. unfold store in E. destruct (f && negb (u_off s)); [|discriminate E]. cbn [andb] in E.
  destruct (id_taken (x_id x) (u_table s)) eqn:K; [discriminate E|]. injection E as <-. cbn. constructor; [|exact N].
  apply not_taken, K.
Qed.

Lemma ids_step : forall c e s s', ustep c e s = Some s' -> NoDup (ids (u_table s)) -> NoDup (ids (u_table s')).
Proof.
  intros c e s s' E N. unfold ustep in E. destruct (u_crashed s); [discriminate E|]. destruct e as [| |i f| | |u x].
  - unfold reader_step in E. destruct (u_reader s).
    + destruct (u_lines s) as [|l r]; [injection E as <-; exact N|]. destruct (read_line (p_header c) l); injection E as <-; exact N.
    + destruct (u_shut s); [injection E as <-; exact N|]. destruct (u_errs s <? p_workers c); [injection E as <-; exact N|discriminate E].
    + destruct (List.length (u_rows s) <? p_room c); [injection E as <-; exact N|discriminate E].
    + discriminate E.
  - unfold reader_quit in E. destruct (u_reader s); try discriminate E. destruct (u_off s); [injection E as <-; exact N|discriminate E].
  - unfold worker_step in E. destruct (nth_error (u_workers s) i) as [w|]; [|discriminate E]. destruct w.
    + destruct (u_rows s); [destruct (u_open s); [discriminate E|]|]; injection E as <-; exact N.
    + destruct (u_off s); [injection E as <-; exact N|]. destruct (parse c _) as [x|]; [|injection E as <-; exact N].
      cbn zeta in E. destruct (p_batch c <=? _); injection E as <-; exact N.
    + destruct (u_errs s <? p_workers c); [injection E as <-; exact N|discriminate E].
    + destruct (u_errs s <? p_workers c); [injection E as <-; exact N|discriminate E].
    + match type of E with match ?r with _ => _ end = _ => destruct r as [|x r'] end; [injection E as <-; exact N|].
      destruct (store c f x s) as [t|] eqn:S; injection E as <-; [|exact N]. cbn. eapply store_ids; eauto.
    + match type of E with match ?r with _ => _ end = _ => destruct r as [|x r'] end; [injection E as <-; exact N|].
      destruct (store c f x s) as [t|] eqn:S; injection E as <-; [|exact N]. cbn. eapply store_ids; eauto.
    + destruct (u_errs s <? p_workers c); [injection E as <-; exact N|discriminate E].
    + discriminate E.
  - unfold main_step in E. destruct (u_answer s); [discriminate E|]. destruct (forallb is_done (u_workers s)); [injection E as <-; exact N|discriminate E].
  - injection E as <-. exact N.
  - destruct (String.eqb u (p_id c)); [discriminate E|]. cbn [orb] in E. destruct (id_taken (x_id x) (u_table s)) eqn:K; [discriminate E|].
    injection E as <-. cbn. constructor; [|exact N]. apply not_taken, K.
Qed.

Theorem ids_apart : forall c es s s', uruns c es s = Some s' -> NoDup (ids (u_table s)) -> NoDup (ids (u_table s')).
Proof.
  intros c es. induction es as [|e es IH]; intros s s' E N; cbn in E; [injection E as <-; exact N|].
  destruct (ustep c e s) as [s1|] eqn:S; [|discriminate E]. eapply IH; [exact E|]. eapply ids_step; eauto.
Qed.

Lemma stored_ids : forall id t, NoDup (ids t) -> NoDup (map x_id (stored id t)).
Proof.
  intros id t. induction t as [|r t IH]; cbn; [constructor|]. intros N. inversion N as [|a l H K]; subst.
  destruct (String.eqb (fst r) id); [|auto]. cbn. constructor; [|auto]. intros I. apply H.
  apply in_map_iff in I as (x & E & I). rewrite <- E. apply in_map_iff in I as (r' & <- & I). apply filter_In in I.
  apply in_map_iff. exists r'. tauto.
Qed.

(** Two lines that give one id. *)
Theorem twice_refused : forall c t0 L0,
  (forall r, In r t0 -> fst r <> p_id c) -> 1 <= p_workers c -> NoDup (ids t0) ->
  forall es n s, uncut es -> answered c t0 L0 es n s ->
  forall i j l m v, i <> j -> nth_error L0 i = Some (Fields l) -> nth_error L0 j = Some (Fields m) ->
    says (p_header c) l "id" v -> says (p_header c) m "id" v -> n = None.
Proof.
  intros c t0 L0 Own W N es n s U A i j l m v D Li Lj Sl Sm. destruct n as [n|]; [exfalso|reflexivity].
  destruct (upload_complete c t0 L0 Own W es n s U A) as (recs & xs & -> & _ & P & F & _).
  rewrite nth_error_map in Li, Lj.
  destruct (nth_error recs i) as [li|] eqn:Ri; [|discriminate Li]. injection Li as ->.
  destruct (nth_error recs j) as [lj|] eqn:Rj; [|discriminate Lj]. injection Lj as ->.
  assert (At : forall k r, nth_error recs k = Some r -> exists x, nth_error xs k = Some x /\ stands_for c r x).
  { clear -F. induction F as [|r x recs xs R F IH]; intros [|k] r0 E; try discriminate E; cbn in *.
    - injection E as <-. eauto.
    - apply IH, E. }
  destruct (At i l Ri) as (x & Xi & Hx). destruct (At j m Rj) as (y & Xj & Hy).
  assert (One : forall rec x, says (p_header c) rec "id" v -> stands_for c rec x -> x_id x = v).
  { intros rec z (_ & k & h & f & A1 & A2 & A3 & A4 & A5) ((_ & k' & h' & f' & B1 & B2 & B3 & B4 & B5) & _).
    assert (k' = k) by (apply A3 with h'; assumption). subst k'. rewrite A4 in B4. injection B4 as <-. congruence. }
  assert (K : NoDup (map x_id xs)).
  { destruct A as (_ & R & _). apply (Permutation_NoDup (l := map x_id (stored (p_id c) (u_table s)))).
    - apply Permutation_map, P.
    - apply stored_ids. apply (ids_apart c es (ustart c t0 (map Fields recs))); [exact R|exact N]. }
  apply D. apply (proj1 (NoDup_nth_error (map x_id xs)) K).
  - rewrite map_length. apply nth_error_Some. congruence.
  - rewrite !nth_error_map, Xi, Xj. cbn. rewrite (One l x Sl Hx), (One m y Sm Hy). reflexivity.
Qed.
