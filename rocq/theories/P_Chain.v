(** Property theorems about the hash chain and immutability: C22, C23, C24 (statements
    only). [hash] stands for SHA-256 in hexadecimal; nothing is assumed about it unless
    a hypothesis says so. *)
From Coq Require Import ZArith List String Bool Sorted.
From Verif Require Import Base ConcModel LedgerModel LedgerThms ChainModel ChainSpec ChainProof ChainThms ChainTamper ChainDemo Sched LedgerSpec LedgerSafe Demo.
Import ListNotations.
Local Open Scope string_scope.
Open Scope Z_scope.

(** ** C22 *)
(** Whatever workers, inserts, updates and crashes do, the sealed rows form one
    gap-free chain 1..n, each hash covers its predecessor, and chain_state records n and
    the last hash. *)
Theorem C22_one_chain hash y : creach hash y -> exists l, sealed_chain hash (c_db y) l.
Proof. exact (chain_exists hash y). Qed.
Print Assumptions C22_one_chain.

(** A row is sealed at most once: its number and hashes never change again. *)
Theorem C22_sealed_once hash y y' r s : creach hash y -> cruns hash y y' ->
  In r (d_rows (c_db y)) -> k_seal r = Some s ->
  exists r', In r' (d_rows (c_db y')) /\ k_pk r' = k_pk r /\ k_facts r' = k_facts r /\ k_seal r' = Some s.
Proof. exact (sealed_stays hash y y' r s). Qed.
Print Assumptions C22_sealed_once.

(** One undisturbed round of a worker appends the oldest eligible rows, in id order:
    an eligible row is left out only if the batch is full of older ones. *)
Theorem C22_round_seals_oldest hash y cutoff limit : creach hash y -> c_work y = None ->
  exists y' l l2, cruns hash y y' /\ c_work y' = None /\ sealed_chain hash (c_db y) l
    /\ sealed_chain hash (c_db y') (l ++ l2)
    /\ (forall r, In r l2 -> exists r0, In r0 (d_rows (c_db y)) /\ eligible cutoff r0 /\ k_pk r0 = k_pk r)
    /\ StronglySorted (fun a b => k_pk a < k_pk b) l2
    /\ (forall r, In r (d_rows (c_db y)) -> eligible cutoff r ->
          In (k_pk r) (map k_pk l2) \/ (List.length l2 = limit /\ forall r2, In r2 l2 -> k_pk r2 < k_pk r)).
Proof. exact (round hash y cutoff limit). Qed.
Print Assumptions C22_round_seals_oldest.

(** Verification of an untampered database succeeds and reports the recorded length and
    head, also while workers keep sealing between its queries. *)
Theorem C22_honest_chain_verifies hash page y : (1 <= page)%nat -> creach hash y ->
  exists fuel0, forall fuel, (fuel0 <= fuel)%nat ->
    verify hash page (fun _ => c_db y) fuel = Some (Verified (d_last (c_db y)) (d_head (c_db y))).
Proof. exact (still_verifies hash page y). Qed.
Print Assumptions C22_honest_chain_verifies.
Theorem C22_verifies_while_sealing hash page ys : (1 <= page)%nat -> creach hash (ys O) ->
  (forall k, cruns hash (ys k) (ys (S k))) -> forall fuel v,
  verify hash page (fun k => c_db (ys k)) fuel = Some v ->
  exists k, v = Verified (d_last (c_db (ys k))) (d_head (c_db (ys k))).
Proof. exact (honest_verifies hash page ys). Qed.
Print Assumptions C22_verifies_while_sealing.

Example C22_case hash : creach hash (demo_end hash) /\ d_last (c_db (demo_end hash)) = 3
  /\ map (fun r => (k_pk r, seq_of r, x_meta (k_extra r))) (d_rows (c_db (demo_end hash))) = [(3, 3, "{}"); (1, 1, "{note}"); (2, 2, "{}")].
Proof. exact (demo_chain hash). Qed.

(** ** C23 *)
(** [d'] is any table with the same chain_state. If verification succeeds and reports
    the recorded length, then the sealed rows are exactly those that were sealed:
    nothing was altered, removed, inserted or reordered. *)
Theorem C23_tampering_is_detected hash : hex_like hash -> forall page y d' fuel h, (1 <= page)%nat -> creach hash y ->
  d_last d' = d_last (c_db y) -> d_head d' = d_head (c_db y) -> d_genesis d' = d_genesis (c_db y) -> unique_seq d' ->
  all_plain (c_db y) -> all_plain d' -> no_collision hash (c_db y) d' ->
  verify hash page (fun _ => d') fuel = Some (Verified (d_last d') h) ->
  (forall r s, In r (d_rows (c_db y)) -> k_seal r = Some s ->
     exists r', In r' (d_rows d') /\ k_seal r' = Some s /\ sealed_columns (k_facts r') = sealed_columns (k_facts r))
  /\ (forall r' s, In r' (d_rows d') -> k_seal r' = Some s -> 0 < sl_seq s ->
     exists r, In r (d_rows (c_db y)) /\ k_seal r = Some s /\ sealed_columns (k_facts r) = sealed_columns (k_facts r')).
Proof. exact (tamper_detected hash). Qed.
Print Assumptions C23_tampering_is_detected.

(** A row that kept its chain columns but whose sealed facts were altered is noticed
    whatever else happened to the table or to chain_state. *)
Theorem C23_altered_row_is_detected hash : hex_like hash -> forall page y d' fuel n h r r' s,
  (1 <= page)%nat -> creach hash y -> unique_seq d' -> all_plain (c_db y) -> all_plain d' -> no_collision hash (c_db y) d' ->
  In r (d_rows (c_db y)) -> k_seal r = Some s -> In r' (d_rows d') -> k_seal r' = Some s ->
  verify hash page (fun _ => d') fuel = Some (Verified n h) -> sealed_columns (k_facts r') = sealed_columns (k_facts r).
Proof. exact (altered_detected hash). Qed.
Print Assumptions C23_altered_row_is_detected.

(** So is a missing number below the largest one. *)
Theorem C23_gap_is_detected hash page d' fuel n h r s k : (1 <= page)%nat -> unique_seq d' ->
  In r (d_rows d') -> k_seal r = Some s -> 0 < k < sl_seq s ->
  verify hash page (fun _ => d') fuel = Some (Verified n h) ->
  exists r' s', In r' (d_rows d') /\ k_seal r' = Some s' /\ sl_seq s' = k.
Proof. exact (gap_detected hash page d' fuel n h r s k). Qed.
Print Assumptions C23_gap_is_detected.

(** Removing the newest rows is not reported (only the length betrays it), whatever the hash. *)
Theorem C23_truncation_is_detected_refuted hash page : (1 <= page)%nat -> creach hash (two hash) /\ d_last (c_db (two hash)) = 2
  /\ d_head (truncated hash) = d_head (c_db (two hash)) /\ d_last (truncated hash) = 2 /\ List.length (d_rows (truncated hash)) = 1%nat
  /\ exists h, verify hash page (fun _ => truncated hash) 3 = Some (Verified 1 h).
Proof. exact (truncation_missed hash page). Qed.
Print Assumptions C23_truncation_is_detected_refuted.
(** Nor is an alteration that moves a '|' from one field to the next. *)
Theorem C23_separator_refuted hash page : (1 <= page)%nat -> creach hash (bar hash)
  /\ (exists r, In r (d_rows (c_db (bar hash))) /\ k_facts r = fx) /\ sealed_columns fx <> sealed_columns fy
  /\ (exists r, In r (d_rows (swapped hash)) /\ k_facts r = fy)
  /\ verify hash page (fun _ => swapped hash) 3 = Some (Verified (d_last (c_db (bar hash))) (d_head (c_db (bar hash)))).
Proof. exact (separator_missed hash page). Qed.
Print Assumptions C23_separator_refuted.

Example C23_case : hex_like escape /\ creach escape (demo_end escape) /\ all_plain (c_db (demo_end escape))
  /\ unique_seq (c_db (demo_end escape)) /\ no_collision escape (c_db (demo_end escape)) (c_db (demo_end escape))
  /\ verify escape 2 (fun _ => c_db (demo_end escape)) 5 = Some (Verified 3 (d_head (c_db (demo_end escape)))).
Proof. exact tamper_case. Qed.

(** ** C24 *)
(** An update that the trigger lets through leaves all protected columns as they were. *)
Theorem C24_update_keeps_facts old new : update_allowed old new = true -> new = old.
Proof. exact (allowed_same old new). Qed.
Print Assumptions C24_update_keeps_facts.
(** So no sequence of updates, inserts and seals changes or removes the facts of a row. *)
Theorem C24_facts_are_immutable hash y y' : cruns hash y y' -> forall r, In r (d_rows (c_db y)) ->
  exists r', In r' (d_rows (c_db y')) /\ k_pk r' = k_pk r /\ k_facts r' = k_facts r.
Proof. exact (runs_facts hash y y'). Qed.
Print Assumptions C24_facts_are_immutable.
(** No request of the ledger, under any schedule, changes or removes a recorded transaction. *)
Theorem C24_rows_stay cfg ok y y' : steps cfg ok y y' -> forall r, In r (s_txns (y_st y)) -> In r (s_txns (y_st y')).
Proof. exact (rows_stay cfg ok y y'). Qed.
Print Assumptions C24_rows_stay.

Example C24_case hash : creach hash (demo_end hash) /\ d_last (c_db (demo_end hash)) = 3
  /\ map (fun r => (k_pk r, seq_of r, x_meta (k_extra r))) (d_rows (c_db (demo_end hash))) = [(3, 3, "{}"); (1, 1, "{note}"); (2, 2, "{}")].
Proof. exact (demo_chain hash). Qed.
Example C24_case_ledger : exists y, steps cfg0 no_recon_flag (init_sys uuids) y
    /\ journal_view (y_st y) = demo_journal /\ balance_view (y_st y) = demo_balances.
Proof. exact demo_reached. Qed.
