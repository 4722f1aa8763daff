(** Uploads: one that goes well, and the ones that do not. *)
From Coq Require Import QArith ZArith List String Ascii Bool Arith Lia Permutation.
From Verif Require Import ReconModel QueueModel UploadModel UploadSpec UploadProof UploadTaken.
Import ListNotations.
Local Open Scope string_scope.
Local Open Scope nat_scope.
Local Open Scope list_scope.

(** Readers for the examples: whole numbers, and one date. *)
Fixpoint digits (acc : Z) (s : string) : option Z :=
  match s with
  | EmptyString => Some acc
  | String ch r => let n := nat_of_ascii ch in if (48 <=? n) && (n <=? 57) then digits (acc * 10 + Z.of_nat (n - 48))%Z r else None
  end.
Definition demo_readers : readers :=
  {| read_number := fun s => match s with EmptyString => None | _ => option_map inject_Z (digits 0%Z s) end;
     read_time := fun s => if String.eqb s "2024-05-01T00:00:00Z" then Some 1714521600000000000%Z else None |}.
(** The pool as the code has it, on four processors. *)
Definition std (hs : list string) : pool :=
  {| p_workers := 4; p_room := 1000; p_batch := 500; p_check := 100; p_readers := demo_readers; p_header := hs; p_source := "bank"; p_id := "upload_1" |}.
Definition hdr : list string := ["Id"; " amount"; "DATE"; "currency"; "reference"; "description"].
Definition row (i a : string) : line := Fields [i; a; "2024-05-01T00:00:00Z"; "USD"; (" ref" ++ i)%string; "coffee"].
Definition day : Z := 1714521600000000000%Z.
Definition made (i : string) (a : Q) (d : Z) : ext := {| x_id := i; x_amount := a; x_cur := "USD"; x_ref := ("ref" ++ i)%string; x_desc := "coffee"; x_date := d; x_source := "bank" |}.
Definition other : table := [("upload_0", made "e0" 7 day)].

Fixpoint times {A} (n : nat) (x : A) : list A := match n with 0 => [] | S k => x :: times k x end.

Definition outcome (c : pool) (t : table) (ls : list line) (es : list uevent) : option (option (option nat) * list ext * bool) :=
  match uruns c es (ustart c t ls) with Some s => Some (u_answer s, stored (p_id c) (u_table s), u_crashed s) | None => None end.
Lemma outcome_ok c t ls es n xs b : header_ok (p_header c) = true -> outcome c t ls es = Some (Some n, xs, b) ->
  exists s, answered c t ls es n s /\ stored (p_id c) (u_table s) = xs /\ u_crashed s = b.
Proof.
  unfold outcome, answered. intros H E. destruct (uruns c es (ustart c t ls)) as [s|] eqn:R; [|discriminate]. exists s.
  injection E as E1 E2 E3. auto.
Qed.

(** Three rows, spread over two workers; another upload goes on meanwhile. *)
Definition good_file : list line := [row "e1" "12"; row "e2" "5"; row "e3" "80"].
Definition good_run : list uevent :=
  times 7 Reader ++ [Worker 0 true; Worker 1 true; Worker 0 true; Worker 0 true; Other "upload_9" (made "x" 1 day); Worker 1 true; Worker 0 true]
  ++ times 3 (Worker 1 true) ++ times 4 (Worker 0 true) ++ [Worker 2 true; Worker 3 true; Main].
Lemma good_upload : exists s, uncut good_run /\ answered (std hdr) other good_file good_run (Some 3) s
  /\ stored "upload_1" (u_table s) = [made "e3" 80 day; made "e1" 12 day; made "e2" 5 day].
Proof.
  destruct (outcome_ok (std hdr) other good_file good_run (Some 3) [made "e3" 80 day; made "e1" 12 day; made "e2" 5 day] false) as (s & A & B & _);
    [vm_compute; reflexivity|vm_compute; reflexivity|].
  exists s. split; [|split; [exact A|exact B]]. intros I. vm_compute in I. repeat (destruct I as [I|I]; [discriminate I|]). exact I.
Qed.
Lemma good_fresh : forall r, In r other -> fst r <> "upload_1".
Proof. intros r [<-|[]]; discriminate. Qed.

(** One bad row of two: refused, although the good one is stored. *)
Definition mixed_file : list line := [row "e1" "12"; Fields ["e2"; "5"]].
Definition mixed_run : list uevent := times 5 Reader ++ times 5 (Worker 0 true) ++ [Worker 1 true; Worker 2 true; Worker 3 true; Main].
Lemma mixed_upload : exists s, uncut mixed_run /\ answered (std hdr) other mixed_file mixed_run None s
  /\ stored "upload_1" (u_table s) = [made "e1" 12 day].
Proof.
  destruct (outcome_ok (std hdr) other mixed_file mixed_run None [made "e1" 12 day] false) as (s & A & B & _);
    [vm_compute; reflexivity|vm_compute; reflexivity|].
  exists s. split; [|split; [exact A|exact B]]. intros I. vm_compute in I. repeat (destruct I as [I|I]; [discriminate I|]). exact I.
Qed.

(** An amount that is not a number is stored as 0, a date that is not one as the year 1. *)
Definition odd_file : list line := [Fields ["e1"; "12,50"; "01/05/2024"; "USD"; "refe1"; "coffee"]].
Definition odd_run : list uevent := times 3 Reader ++ times 5 (Worker 0 true) ++ [Worker 1 true; Worker 2 true; Worker 3 true; Main].
Lemma odd_upload : exists s, uncut odd_run /\ answered (std hdr) other odd_file odd_run (Some 1) s
  /\ stored "upload_1" (u_table s) = [made "e1" 0 zero_time]
  /\ read_number demo_readers "12,50" = None /\ read_time demo_readers "01/05/2024" = None.
Proof.
  destruct (outcome_ok (std hdr) other odd_file odd_run (Some 1) [made "e1" 0 zero_time] false) as (s & A & B & _);
    [vm_compute; reflexivity|vm_compute; reflexivity|].
  exists s. split; [|split; [exact A|split; [exact B|split; reflexivity]]]. intros I. vm_compute in I. repeat (destruct I as [I|I]; [discriminate I|]). exact I.
Qed.

(** The time of an upload runs out while its rows wait in a worker's batch: it is answered with
    success, and nothing has been stored. *)
Definition cut_run : list uevent :=
  times 7 Reader ++ [Worker 0 true; Worker 0 true; CutOff; Worker 0 true; Worker 0 true; Worker 1 true; Worker 1 true; Worker 2 true; Worker 3 true; Main].
Lemma cut_upload : exists s, answered (std hdr) other good_file cut_run (Some 0) s /\ stored "upload_1" (u_table s) = [] /\ faults (std hdr) good_file = 0.
Proof.
  destruct (outcome_ok (std hdr) other good_file cut_run (Some 0) [] false) as (s & A & B & _);
    [vm_compute; reflexivity|vm_compute; reflexivity|]. exists s. split; [exact A|]. split; [exact B|vm_compute; reflexivity].
Qed.

(** It runs out while the file is still being read: the next broken line brings the server
    down. *)
Definition crash_file : list line := [row "e1" "1"; row "e2" "2"; row "e3" "3"; row "e4" "4"; Broken].
Definition crash_run : list uevent :=
  times 9 Reader ++ [CutOff] ++ flat_map (fun i => [Worker i true; Worker i true]) [0; 1; 2; 3] ++ [Main; Reader].
Lemma crash_upload : exists s, answered (std hdr) other crash_file crash_run (Some 0) s /\ u_crashed s = true.
Proof.
  destruct (outcome_ok (std hdr) other crash_file crash_run (Some 0) [] true) as (s & A & _ & B);
    [vm_compute; reflexivity|vm_compute; reflexivity|]. exists s. auto.
Qed.

(** Five rows without a currency. *)
Definition bad_row (i : string) : line := Fields [i; "1"; "2024-05-01T00:00:00Z"; ""; "r"; "d"].
Definition bad_file : list line := map bad_row ["e1"; "e2"; "e3"; "e4"; "e5"].
Definition bad_run : list uevent :=
  times 11 Reader ++ flat_map (fun i => times 3 (Worker i true)) [0; 1; 2; 3] ++ [Worker 0 true; Worker 0 true; Worker 1 true; Worker 2 true; Worker 3 true].
Definition stuckb (c : pool) (s : upl) : bool :=
  forallb (fun e => match ustep c e s with None => true | Some _ => false end)
    ([Reader; Quit; Main] ++ flat_map (fun i => [Worker i true; Worker i false]) (seq 0 (List.length (u_workers s)))).
Lemma stuckb_ok c s : stuckb c s = true -> forall e, own e = true -> ustep c e s = None.
Proof.
  unfold stuckb. rewrite forallb_forall. intros H e O.
  assert (forall e, In e ([Reader; Quit; Main] ++ flat_map (fun i => [Worker i true; Worker i false]) (seq 0 (List.length (u_workers s)))) -> ustep c e s = None) as Q.
  { intros e0 I. specialize (H e0 I). destruct (ustep c e0 s); [discriminate|reflexivity]. }
  destruct e as [| |i fine| | |u x]; try discriminate; try (apply Q; simpl; tauto).
  destruct (Nat.ltb_spec i (List.length (u_workers s))) as [L|L].
  - apply Q. apply in_or_app. right. apply in_flat_map. exists i. split; [apply in_seq; lia|]. destruct fine; simpl; auto.
  - unfold ustep. destruct (u_crashed s); [reflexivity|]. unfold worker_step. apply nth_error_None in L. rewrite L. reflexivity.
Qed.
Lemma hung_upload : faults (std hdr) bad_file = 5
  /\ exists s, uncut bad_run /\ uruns (std hdr) bad_run (ustart (std hdr) other bad_file) = Some s /\ u_answer s = None
     /\ forall e, own e = true -> ustep (std hdr) e s = None.
Proof.
  split; [vm_compute; reflexivity|].
  assert (H : match uruns (std hdr) bad_run (ustart (std hdr) other bad_file) with Some s => stuckb (std hdr) s && match u_answer s with None => true | _ => false end | None => false end = true)
    by (vm_compute; reflexivity).
  destruct (uruns (std hdr) bad_run (ustart (std hdr) other bad_file)) as [s|] eqn:E; [|discriminate]. apply andb_true_iff in H as [H1 H2]. exists s.
  split; [intros I; vm_compute in I; repeat (destruct I as [I|I]; [discriminate I|]); exact I|]. split; [reflexivity|].
  split; [destruct (u_answer s); [discriminate|reflexivity]|]. apply stuckb_ok, H1.
Qed.

(** JSON. *)
Definition json_file (e : ending) : jfile := {| j_array := true; j_items := [Some (made "e1" 12 day); Some (made "e2" 5 day)]; j_end := e |}.
Definition never (n : nat) : bool := false.
Definition always (n : nat) : bool := true.
Lemma json_cut : json_upload "upload_1" "bank" 100 never always (json_file CutShort) other
  = (Some 2, [("upload_1", made "e2" 5 day); ("upload_1", made "e1" 12 day)] ++ other).
Proof. reflexivity. Qed.

(** The good file meets what it takes to be taken. *)
Lemma good_taken : (forall j f, In (Worker j f) good_run -> f = true)
  /\ NoDup (file_ids (std hdr) good_file ++ map (fun r => x_id (snd r)) other ++ other_ids good_run)
  /\ Forall (sound_line (std hdr)) good_file.
Proof.
  split; [|split].
  - intros j f I. vm_compute in I. repeat (destruct I as [I|I]; [congruence|]). destruct I.
  - vm_compute. repeat constructor; simpl; intuition discriminate.
  - repeat apply Forall_cons; try apply Forall_nil; apply faulty_means; reflexivity.
Qed.
