(** C43: uploads of external transactions. *)
From Coq Require Import QArith ZArith List String Bool Arith Permutation.
From Verif Require Import UploadModel UploadSpec UploadProof UploadTaken UploadIds UploadDemo.
Import ListNotations.
Local Open Scope string_scope.
Local Open Scope nat_scope.

(** However the goroutines of a CSV upload take turns, whatever the database refuses and other
    uploads store meanwhile: when it is answered with success, and has not been cut off, every
    line of the file was a row, the rows are stored under its id, each once and as it says, the
    number reported is the number of rows, and what was stored before is still there. *)
Theorem C43_complete : forall c t0 L0,
  (forall r, In r t0 -> fst r <> p_id c) -> 1 <= p_workers c ->
  forall es n s, uncut es -> answered c t0 L0 es (Some n) s ->
  exists recs xs, L0 = map Fields recs /\ n = List.length recs
    /\ Permutation (stored (p_id c) (u_table s)) xs /\ Forall2 (stands_for c) recs xs
    /\ forall r, In r t0 -> In r (u_table s).
Proof. exact upload_complete. Qed.
Print Assumptions C43_complete.

Example C43_complete_example : exists s, uncut good_run /\ answered (std hdr) other good_file good_run (Some 3) s
  /\ stored "upload_1" (u_table s) = [made "e3" 80 day; made "e1" 12 day; made "e2" 5 day].
Proof. exact good_upload. Qed.
Example C43_complete_fresh : forall r, In r other -> fst r <> p_id (std hdr).
Proof. exact good_fresh. Qed.

(** It is refused exactly when a line is faulty or the database has refused a row. *)
Theorem C43_refused : forall c t0 L0,
  (forall r, In r t0 -> fst r <> p_id c) -> 1 <= p_workers c ->
  forall es n s, uncut es -> answered c t0 L0 es n s -> n = None <-> faults c L0 + u_missed s <> 0.
Proof. exact upload_refused. Qed.
Print Assumptions C43_refused.

Example C43_refused_example : exists s, uncut mixed_run /\ answered (std hdr) other mixed_file mixed_run None s
  /\ stored "upload_1" (u_table s) = [made "e1" 12 day].
Proof. exact mixed_upload. Qed.

(** The faulty lines are those without a value for each of six columns, with another number of
    fields than the header, or under a header with a name twice. *)
Theorem C43_faulty : forall c l, faulty c l = false <-> sound_line c l.
Proof. exact faulty_means. Qed.
Print Assumptions C43_faulty.

(** A database that answers refuses no row whose id is used once only, in the file, before and
    meanwhile. *)
Theorem C43_missed : forall c t0 L0 es s, uncut es -> (forall j f, In (Worker j f) es -> f = true) ->
  NoDup (file_ids c L0 ++ map (fun r => x_id (snd r)) t0 ++ other_ids es)%list ->
  uruns c es (ustart c t0 L0) = Some s -> u_missed s = 0.
Proof. exact upload_apart. Qed.
Print Assumptions C43_missed.

(** So a file of sound lines with such ids is only ever answered with success, and the number
    of its lines. *)
Theorem C43_taken : forall c t0 L0 es n s,
  (forall r, In r t0 -> fst r <> p_id c) -> 1 <= p_workers c -> uncut es -> (forall j f, In (Worker j f) es -> f = true) ->
  NoDup (file_ids c L0 ++ map (fun r => x_id (snd r)) t0 ++ other_ids es)%list -> Forall (sound_line c) L0 ->
  answered c t0 L0 es n s -> n = Some (List.length L0).
Proof. exact upload_taken. Qed.
Print Assumptions C43_taken.
Example C43_taken_example : (forall j f, In (Worker j f) good_run -> f = true)
  /\ NoDup (file_ids (std hdr) good_file ++ map (fun r => x_id (snd r)) other ++ other_ids good_run)%list
  /\ Forall (sound_line (std hdr)) good_file.
Proof. exact good_taken. Qed.

(** With no more faulty lines and refused rows than there are workers, it is never stuck
    before its answer; and the steps it can take are bounded, so that it is answered. *)
Theorem C43_moves : forall c t0 L0,
  (forall r, In r t0 -> fst r <> p_id c) -> 1 <= p_workers c -> 1 <= p_room c ->
  forall es s, uncut es -> uruns c es (ustart c t0 L0) = Some s -> u_answer s = None ->
  faults c L0 + u_missed s <= p_workers c ->
  exists e s', own e = true /\ ustep c e s = Some s'.
Proof. exact upload_moves. Qed.
Print Assumptions C43_moves.
Theorem C43_ends : forall c t0 L0 es s, uruns c es (ustart c t0 L0) = Some s ->
  List.length (filter own es) <= 12 * List.length L0 + p_workers c + 3.
Proof. exact upload_bounded. Qed.
Print Assumptions C43_ends.

(** With more faulty lines than workers, no schedule leads to an answer. *)
Theorem C43_never_answered : forall c t0 L0,
  (forall r, In r t0 -> fst r <> p_id c) -> 1 <= p_workers c ->
  forall es s, uncut es -> p_workers c < faults c L0 -> uruns c es (ustart c t0 L0) = Some s -> u_answer s = None.
Proof. exact upload_too_many. Qed.
Print Assumptions C43_never_answered.

(** So not every upload is answered: five rows without a currency, four workers. *)
Theorem C43_answered_refuted : faults (std hdr) bad_file = 5
  /\ exists s, uncut bad_run /\ uruns (std hdr) bad_run (ustart (std hdr) other bad_file) = Some s /\ u_answer s = None
     /\ forall e, own e = true -> ustep (std hdr) e s = None.
Proof. exact hung_upload. Qed.
Print Assumptions C43_answered_refuted.

(** An upload that is not cut off does not bring the server down. *)
Theorem C43_no_crash : forall c t0 L0,
  (forall r, In r t0 -> fst r <> p_id c) -> 1 <= p_workers c ->
  forall es s, uncut es -> uruns c es (ustart c t0 L0) = Some s -> u_crashed s = false.
Proof. exact upload_no_crash. Qed.
Print Assumptions C43_no_crash.

(** Cut off, a file without faults is answered with success, and none of its rows is there. *)
Theorem C43_cut_refuted : exists s, answered (std hdr) other good_file cut_run (Some 0) s
  /\ stored "upload_1" (u_table s) = [] /\ faults (std hdr) good_file = 0.
Proof. exact cut_upload. Qed.
Print Assumptions C43_cut_refuted.

(** Cut off, it can bring the server down. *)
Theorem C43_crash_refuted : exists s, answered (std hdr) other crash_file crash_run (Some 0) s /\ u_crashed s = true.
Proof. exact crash_upload. Qed.
Print Assumptions C43_crash_refuted.

(** An amount that cannot be read is stored as 0, such a date as the first of January of the
    year 1; the upload is answered with success. *)
Theorem C43_amount_refuted : exists s, uncut odd_run /\ answered (std hdr) other odd_file odd_run (Some 1) s
  /\ stored "upload_1" (u_table s) = [made "e1" 0 zero_time]
  /\ read_number demo_readers "12,50" = None /\ read_time demo_readers "01/05/2024" = None.
Proof. exact odd_upload. Qed.
Print Assumptions C43_amount_refuted.

(** A JSON upload answered with success: every element could be read and is stored, in
    order, and counted. *)
Theorem C43_json : forall id source k off fine f t n t',
  json_upload id source k off fine f t = (Some n, t') ->
  exists xs, j_items f = map Some xs /\ n = List.length xs
    /\ t' = (map (fun x => (id, as_from source x)) (rev xs) ++ t)%list.
Proof. exact json_complete. Qed.
Print Assumptions C43_json.

Example C43_json_example : json_upload "upload_1" "bank" 100 never always (json_file Closed) other
  = (Some 2, ([("upload_1", made "e2" 5 day); ("upload_1", made "e1" 12 day)] ++ other)%list).
Proof. reflexivity. Qed.

(** One with new and different ids, all of whose elements can be read, is taken. *)
Theorem C43_json_taken : forall id source k off xs e t, e <> Garbage -> (forall n, off n = false) ->
  NoDup (map x_id xs ++ map (fun r => x_id (snd r)) t)%list ->
  json_upload id source k off (fun _ => true) {| j_array := true; j_items := map Some xs; j_end := e |} t
  = (Some (List.length xs), (map (fun x => (id, as_from source x)) (rev xs) ++ t)%list).
Proof. exact json_taken. Qed.
Print Assumptions C43_json_taken.

(** A JSON file cut off after an element passes for a whole one. *)
Theorem C43_json_whole_refuted : json_upload "upload_1" "bank" 100 never always (json_file CutShort) other
  = (Some 2, ([("upload_1", made "e2" 5 day); ("upload_1", made "e1" 12 day)] ++ other)%list).
Proof. exact json_cut. Qed.
Print Assumptions C43_json_whole_refuted.

(** Whatever happens, cut off or not, no two external transactions get one id. *)
Theorem C43_ids : forall c es s s', uruns c es s = Some s' ->
  NoDup (map (fun r => x_id (snd r)) (u_table s)) -> NoDup (map (fun r => x_id (snd r)) (u_table s')).
Proof. exact ids_apart. Qed.
Print Assumptions C43_ids.

(** So a file in which two lines give one id is never answered with success. *)
Theorem C43_twice : forall c t0 L0,
  (forall r, In r t0 -> fst r <> p_id c) -> 1 <= p_workers c -> NoDup (map (fun r => x_id (snd r)) t0) ->
  forall es n s, uncut es -> answered c t0 L0 es n s ->
  forall i j l m v, i <> j -> nth_error L0 i = Some (Fields l) -> nth_error L0 j = Some (Fields m) ->
    says (p_header c) l "id" v -> says (p_header c) m "id" v -> n = None.
Proof. exact twice_refused. Qed.
Print Assumptions C43_twice.
Example C43_twice_example : exists s, answered (std hdr) other [row "e1" "1"; row " e1" "2"]
    (times 5 Reader ++ times 6 (Worker 0 true) ++ [Worker 0 true; Worker 0 true; Worker 1 true; Worker 2 true; Worker 3 true; Main])%list None s
  /\ map x_id (stored "upload_1" (u_table s)) = ["e1"]%list.
Proof. eexists. split; [split; [|split]|]; vm_compute; reflexivity. Qed.
