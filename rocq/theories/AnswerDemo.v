(** Cases of error answers, and where the rules fail. *)
From Coq Require Import List String Ascii Bool ZArith Lia.
From Verif Require Import Base PoolModel AnswerModel AnswerSpec AnswerProof.
Import ListNotations.
Local Open Scope string_scope.
Local Open Scope Z_scope.
Local Open Scope list_scope.

Definition with_ref (n : run) (f : ref_fault) : run :=
  {| n_reference := n_reference n; n_split := None; n_resolve := None; n_lock := None; n_hook := None; n_ref := Some f; n_balance := None; n_apply := None;
     n_store := None; n_expiry := None; n_release := None |}.
Definition with_resolve (n : run) (b : bool) (e : err) : run :=
  {| n_reference := n_reference n; n_split := None; n_resolve := Some (b, e); n_lock := None; n_hook := None; n_ref := None; n_balance := None; n_apply := None;
     n_store := None; n_expiry := None; n_release := None |}.
Definition with_lock (n : run) (f : lock_fault) : run :=
  {| n_reference := n_reference n; n_split := None; n_resolve := None; n_lock := Some f; n_hook := None; n_ref := None; n_balance := None; n_apply := None;
     n_store := None; n_expiry := None; n_release := None |}.
Definition with_store (n : run) (f : store_fault) : run :=
  {| n_reference := n_reference n; n_split := None; n_resolve := None; n_lock := None; n_hook := None; n_ref := None; n_balance := None; n_apply := None;
     n_store := Some f; n_expiry := None; n_release := None |}.
Definition with_expiry (n : run) (m : string) : run :=
  {| n_reference := n_reference n; n_split := None; n_resolve := None; n_lock := None; n_hook := None; n_ref := None; n_balance := None; n_apply := None;
     n_store := None; n_expiry := Some m; n_release := None |}.
Definition with_both (n : run) : run :=
  {| n_reference := n_reference n; n_split := None; n_resolve := None; n_lock := None; n_hook := None; n_ref := Some RUsed; n_balance := None; n_apply := Some AShort;
     n_store := None; n_expiry := None; n_release := None |}.
Definition refused : string := "dial tcp 127.0.0.1:6379: connect: connection refused".

Lemma unspaced_of s : forallb (fun c => negb (Ascii.eqb c " ")) (list_ascii_of_string s) = true -> unspaced s.
Proof. intros H K. rewrite forallb_forall in H. specialize (H _ K). discriminate H. Qed.

(** A used reference meets the hypotheses of [codes]. *)
Example codes_ex : let n := with_ref (calm "ref_001") RUsed in
  first n = Some (FRef RUsed) /\ documented (FRef RUsed) = Some (409, "TXN_DUPLICATE_REFERENCE") /\ unspaced (n_reference n)
  /\ option_map a_message (snd (post n)) = Some "transaction validation failed: reference ref_001 has already been used".
Proof. split; [|split; [|split]]; try reflexivity. apply unspaced_of. reflexivity. Qed.
Example sound_ex : sound_upgrades post_options /\ sound_upgrades settle_options.
Proof. split; intros k v [[= <- <-]|[]]; (split; [vm_compute; intuition discriminate|reflexivity]). Qed.
Example hidden_ex : let o := {| o_default := None; o_fallback := None; o_upgrades := [] |} in
  sound_upgrades o /\ as_api (Wrap "failed to read" (Plain refused)) = None /\ a_status (respond o (Wrap "failed to read" (Plain refused))) = 500.
Proof. split; [intros k v []|split; reflexivity]. Qed.
Example recorded_ex : let n := with_store (calm "ref_001") (SCommit "driver: bad connection" true) in
  fst (post n) = true /\ option_map a_status (snd (post n)) = Some 500.
Proof. split; reflexivity. Qed.
Example definite_ex : let n := with_store (calm "ref_001") (SMoved "bln_1") in
  option_map a_code (snd (post n)) = Some "GEN_CONFLICT" /\ fst (post n) = false.
Proof. split; reflexivity. Qed.
Example preview_ex : let p := {| p_apply := None; p_same := None; p_used := true |} in
  foresees p (with_ref (calm "ref_001") RUsed) /\ preview_error "ref_001" p <> None.
Proof. split; [repeat split|discriminate]. Qed.
Example settle_ex : let f := TMore false "USD" "100.00" "200.00" in
  settle_documented f = Some (400, "TXN_COMMIT_AMOUNT_EXCEEDED") /\ (forall w, In w (settle_words f) -> unspaced w)
  /\ a_message (settle [f]) = "error occurred during processing: [cannot commit more than the remaining amount. Available: USD100.00, Requested: USD200.00]".
Proof. split; [reflexivity|split; [|reflexivity]]. intros w [<-|[<-|[<-|[]]]]; apply unspaced_of; reflexivity. Qed.

(** A reference that says so makes a duplicate a transaction that is not there. *)
Lemma phrase_refuted : exists n, first n = Some (FRef RUsed) /\
  option_map (fun a => (a_status a, a_code a)) (snd (post n)) = Some (404, "TXN_NOT_FOUND").
Proof. exists (with_ref (calm "parcel not found 7") RUsed). split; reflexivity. Qed.

(** A hold is there, and its holder is told that the request was not valid. *)
Lemma recorded_refuted : exists n, fst (post n) = true /\
  option_map (fun a => (a_status a, a_code a)) (snd (post n)) = Some (400, "TXN_VALIDATION_ERROR").
Proof. exists (with_expiry (calm "ref_001") refused). split; reflexivity. Qed.

(** The reference was taken after it was looked for: not the answer of a used reference. *)
Lemma raced_refuted : exists n, first n = Some (FStore (SInsert "pq: duplicate key value violates unique constraint")) /\ unspaced (n_reference n) /\
  option_map (fun a => (a_status a, a_code a)) (snd (post n)) = Some (500, "GEN_INTERNAL").
Proof. exists (with_store (calm "ref_001") (SInsert "pq: duplicate key value violates unique constraint")). split; [reflexivity|split; [apply unspaced_of|]; reflexivity]. Qed.

(** What the driver says is sent on, behind a 500 and behind a 400. *)
Lemma leak_refuted d : exists n, option_map (fun a => (a_status a, a_details a)) (snd (post n)) = Some (500, Some d).
Proof. exists (with_store (calm "ref_001") (SInsert d)). reflexivity. Qed.
Lemma raw_refuted : exists n m, first n = Some (FResolve true (Plain m)) /\
  option_map (fun a => (a_status a, a_message a)) (snd (post n))
    = Some (400, ("failed to resolve balance IDs: failed to resolve source balance indicator: " ++ m)%string).
Proof. exists (with_resolve (calm "ref_001") true (Plain "pq: relation balances of host db-1 is gone")), "pq: relation balances of host db-1 is gone". split; reflexivity. Qed.

(** Redis is away, and the balance is said to be locked. *)
Lemma away_refuted : exists n, first n = Some (FLock (LDown "bln_1" refused)) /\
  option_map (fun a => (a_status a, a_code a)) (snd (post n)) = Some (423, "GEN_RESOURCE_LOCKED").
Proof. exists (with_lock (calm "ref_001") (LDown "bln_1" refused)). split; reflexivity. Qed.

(** A failure of the database that is a 500 of a post is a 400 of a commit, and a conflict likewise. *)
Lemma flat_refuted : exists d,
  a_status (respond settle_options (settle_error (TInternal "Failed to update balance" d))) = 500
  /\ (a_status (settle [TInternal "Failed to update balance" d]), a_code (settle [TInternal "Failed to update balance" d])) = (400, "GEN_BAD_REQUEST")
  /\ (a_status (settle [TMoved "bln_1"]), a_code (settle [TMoved "bln_1"])) = (400, "GEN_BAD_REQUEST").
Proof. exists refused. repeat split. Qed.

(** The preview of a transfer of a balance to itself, and of a used reference over too little money. *)
Lemma preview_same_refuted : exists n p e, foresees p n /\ preview_error (n_reference n) p = Some e /\ preview_code e = "TXN_VALIDATION_ERROR"
  /\ option_map a_code (snd (post n)) = Some "GEN_CONFLICT" /\ option_map a_message (snd (post n)) = Some (text e).
Proof.
  exists (with_store (calm "ref_001") (SMoved "bln_1")), {| p_apply := None; p_same := Some "bln_1"; p_used := false |}.
  eexists. split; [repeat split|]. split; [reflexivity|]. repeat split.
Qed.
Lemma preview_both_refuted : exists n p e, foresees p n /\ preview_error (n_reference n) p = Some e /\ preview_code e = "TXN_INSUFFICIENT_FUNDS"
  /\ option_map a_code (snd (post n)) = Some "TXN_DUPLICATE_REFERENCE".
Proof.
  exists (with_both (calm "ref_001")), {| p_apply := Some AShort; p_same := None; p_used := true |}.
  eexists. split; [repeat split|]. split; [reflexivity|]. repeat split.
Qed.
