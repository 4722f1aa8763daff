(** Property C47: the error answers of the API. *)
From Coq Require Import List String Bool ZArith.
From Verif Require Import Base PoolModel AnswerModel AnswerSpec AnswerProof AnswerDemo.
Import ListNotations.
Local Open Scope string_scope.
Local Open Scope Z_scope.
Local Open Scope list_scope.

(** C47. On whatever endpoint and for whatever error, the status follows from the code, *)
Theorem C47_status : forall o1 o2 e1 e2, a_code (respond o1 e1) = a_code (respond o2 e2) -> a_status (respond o1 e1) = a_status (respond o2 e2).
Proof. exact same_status. Qed.
Example C47_status_met : a_code (respond post_options (Api "CONFLICT" "a" None)) = a_code (respond settle_options (Plain "x has already been refunded")).
Proof. reflexivity. Qed.
Print Assumptions C47_status.

(** it is that of an error, *)
Theorem C47_error : forall o e, 400 <= a_status (respond o e) < 600.
Proof. exact an_error. Qed.
Print Assumptions C47_error.

(** and the code is none of the retired ones. *)
Theorem C47_retired : forall o e, sound_upgrades o -> ~ In (a_code (respond o e)) legacy.
Proof. exact not_legacy. Qed.
Example C47_retired_met : sound_upgrades post_options /\ sound_upgrades settle_options.
Proof. exact sound_ex. Qed.
Print Assumptions C47_retired.

(** Where an endpoint sets no code of its own, the text of an error nobody foresaw is not sent. *)
Theorem C47_hidden : forall o e, sound_upgrades o -> o_default o = None -> as_api e = None -> a_status (respond o e) = 500 ->
  a_message (respond o e) = "internal server error" /\ a_details (respond o e) = None.
Proof. exact hidden. Qed.
Example C47_hidden_met : let o := {| o_default := None; o_fallback := None; o_upgrades := [] |} in
  sound_upgrades o /\ as_api (Wrap "failed to read" (Plain refused)) = None /\ a_status (respond o (Wrap "failed to read" (Plain refused))) = 500.
Proof. exact hidden_ex. Qed.
Print Assumptions C47_hidden.

(** Errors with a type of their own send what the driver said, *)
Theorem C47_leak_refuted : forall d, exists n, option_map (fun a => (a_status a, a_details a)) (snd (post n)) = Some (500, Some d).
Proof. exact leak_refuted. Qed.
Print Assumptions C47_leak_refuted.
(** and so do endpoints that set a code. *)
Theorem C47_raw_refuted : exists n m, first n = Some (FResolve true (Plain m)) /\
  option_map (fun a => (a_status a, a_message a)) (snd (post n))
    = Some (400, ("failed to resolve balance IDs: failed to resolve source balance indicator: " ++ m)%string).
Proof. exact raw_refuted. Qed.
Print Assumptions C47_raw_refuted.

(** What a transaction posted without the queue is refused for can be told from the status and the code. *)
Theorem C47_codes : forall n f s c, first n = Some f -> documented f = Some (s, c) -> unspaced (n_reference n) ->
  exists a, snd (post n) = Some a /\ a_status a = s /\ a_code a = c.
Proof. exact codes. Qed.
Example C47_codes_met : let n := with_ref (calm "ref_001") RUsed in
  first n = Some (FRef RUsed) /\ documented (FRef RUsed) = Some (409, "TXN_DUPLICATE_REFERENCE") /\ unspaced (n_reference n)
  /\ option_map a_message (snd (post n)) = Some "transaction validation failed: reference ref_001 has already been used".
Proof. exact codes_ex. Qed.
Print Assumptions C47_codes.
(** Not so if the reference contains one of the phrases looked for, *)
Theorem C47_phrase_refuted : exists n, first n = Some (FRef RUsed) /\
  option_map (fun a => (a_status a, a_code a)) (snd (post n)) = Some (404, "TXN_NOT_FOUND").
Proof. exact phrase_refuted. Qed.
Print Assumptions C47_phrase_refuted.
(** if the reference was taken after it was looked for, *)
Theorem C47_raced_refuted : exists n, first n = Some (FStore (SInsert "pq: duplicate key value violates unique constraint")) /\ unspaced (n_reference n) /\
  option_map (fun a => (a_status a, a_code a)) (snd (post n)) = Some (500, "GEN_INTERNAL").
Proof. exact raced_refuted. Qed.
Print Assumptions C47_raced_refuted.
(** or if the lock service is away. *)
Theorem C47_away_refuted : exists n, first n = Some (FLock (LDown "bln_1" refused)) /\
  option_map (fun a => (a_status a, a_code a)) (snd (post n)) = Some (423, "GEN_RESOURCE_LOCKED").
Proof. exact away_refuted. Qed.
Print Assumptions C47_away_refuted.

(** The answer is 201 just if nothing went wrong, and then the transaction is recorded. *)
Theorem C47_created : forall n, snd (post n) = None <-> first n = None.
Proof. exact created. Qed.
Print Assumptions C47_created.
Theorem C47_created_recorded : forall n, snd (post n) = None -> fst (post n) = true.
Proof. exact created_recorded. Qed.
Example C47_created_met : snd (post (calm "ref_001")) = None.
Proof. reflexivity. Qed.
Print Assumptions C47_created_recorded.

(** An error answer leaves nothing recorded, unless the end of the database transaction was not heard of or
    a task of the hold could not be queued. *)
Theorem C47_recorded : forall n a, fst (post n) = true -> snd (post n) = Some a ->
  (exists d, n_store n = Some (SCommit d true)) \/ n_expiry n <> None \/ n_release n <> None.
Proof. exact recorded. Qed.
Example C47_recorded_met : let n := with_store (calm "ref_001") (SCommit "driver: bad connection" true) in
  fst (post n) = true /\ option_map a_status (snd (post n)) = Some 500.
Proof. exact recorded_ex. Qed.
Print Assumptions C47_recorded.
(** So an answer with any code but two is definite. *)
Theorem C47_definite : forall n a,
  (forall m, n_expiry n = Some m -> classify_message ("failed to queue inflight expiry: " ++ m) = None) ->
  (forall m, n_release n = Some m -> classify_message ("failed to queue inflight commit: " ++ m) = None) ->
  snd (post n) = Some a -> a_code a <> "GEN_INTERNAL" -> a_code a <> "TXN_VALIDATION_ERROR" -> fst (post n) = false.
Proof. exact definite. Qed.
Example C47_definite_met : let n := with_store (calm "ref_001") (SMoved "bln_1") in
  option_map a_code (snd (post n)) = Some "GEN_CONFLICT" /\ fst (post n) = false.
Proof. exact definite_ex. Qed.
Print Assumptions C47_definite.
(** A 400 is not: the hold may be there. *)
Theorem C47_recorded_refuted : exists n, fst (post n) = true /\
  option_map (fun a => (a_status a, a_code a)) (snd (post n)) = Some (400, "TXN_VALIDATION_ERROR").
Proof. exact recorded_refuted. Qed.
Print Assumptions C47_recorded_refuted.

(** A preview tells the code and the text of the refusal to come, or that there is none. *)
Theorem C47_preview : forall n p, foresees p n -> unspaced (n_reference n) -> p_same p = None -> p_apply p = None \/ p_used p = false ->
  match preview_error (n_reference n) p with
  | None => snd (post n) = None
  | Some e => exists a, snd (post n) = Some a /\ fst (post n) = false /\ a_code a = preview_code e /\ a_message a = text e
  end.
Proof. exact preview_same. Qed.
Example C47_preview_met : let p := {| p_apply := None; p_same := None; p_used := true |} in
  foresees p (with_ref (calm "ref_001") RUsed) /\ preview_error "ref_001" p <> None.
Proof. exact preview_ex. Qed.
Print Assumptions C47_preview.
(** Of a transfer of a balance to itself it tells another code, *)
Theorem C47_preview_same_refuted : exists n p e, foresees p n /\ preview_error (n_reference n) p = Some e /\ preview_code e = "TXN_VALIDATION_ERROR"
  /\ option_map a_code (snd (post n)) = Some "GEN_CONFLICT" /\ option_map a_message (snd (post n)) = Some (text e).
Proof. exact preview_same_refuted. Qed.
Print Assumptions C47_preview_same_refuted.
(** and of a used reference over too little money another reason. *)
Theorem C47_preview_both_refuted : exists n p e, foresees p n /\ preview_error (n_reference n) p = Some e /\ preview_code e = "TXN_INSUFFICIENT_FUNDS"
  /\ option_map a_code (snd (post n)) = Some "TXN_DUPLICATE_REFERENCE".
Proof. exact preview_both_refuted. Qed.
Print Assumptions C47_preview_both_refuted.

(** What the commit or the void of a hold is refused for can be told as well. *)
Theorem C47_settle : forall f s c, settle_documented f = Some (s, c) -> (forall w, In w (settle_words f) -> unspaced w) ->
  a_status (settle [f]) = s /\ a_code (settle [f]) = c.
Proof. exact settle_codes. Qed.
Example C47_settle_met : let f := TMore false "USD" "100.00" "200.00" in
  settle_documented f = Some (400, "TXN_COMMIT_AMOUNT_EXCEEDED") /\ (forall w, In w (settle_words f) -> unspaced w)
  /\ a_message (settle [f]) = "error occurred during processing: [cannot commit more than the remaining amount. Available: USD100.00, Requested: USD200.00]".
Proof. exact settle_ex. Qed.
Print Assumptions C47_settle.
(** But a failure of the database there is said to be the caller's. *)
Theorem C47_flat_refuted : exists d,
  a_status (respond settle_options (settle_error (TInternal "Failed to update balance" d))) = 500
  /\ (a_status (settle [TInternal "Failed to update balance" d]), a_code (settle [TInternal "Failed to update balance" d])) = (400, "GEN_BAD_REQUEST")
  /\ (a_status (settle [TMoved "bln_1"]), a_code (settle [TMoved "bln_1"])) = (400, "GEN_BAD_REQUEST").
Proof. exact flat_refuted. Qed.
Print Assumptions C47_flat_refuted.
