(** Property C46: the webhooks a receiver gets. *)
From Coq Require Import List String Bool Arith ZArith.
From Verif Require Import Base BodyModel BodySpec NoticeModel NoticeSpec NoticeThms NoticeDemo.
Import ListNotations.
Local Open Scope string_scope.
Local Open Scope nat_scope.
Local Open Scope list_scope.

(** C46. If no process dies between recording something and queueing its notice, then, once nothing is under
    way, all that happened is announced, except what the receiver failed to take 26 times. *)
Theorem C46_announced : forall v es n f, Forall steady es -> quiet (play v es blank) -> nth_error (w_facts (play v es blank)) n = Some f -> f_what f <> Waits ->
  (exists y q, In y (w_log (play v es blank)) /\ y_fact y = n /\ y_request y = Some q /\ took (y_reply y) = true) \/
  (exists k, count (fun y => Nat.eqb (y_task y) k && Nat.eqb (y_fact y) n && negb (y_done y)) (w_log (play v es blank)) = 26).
Proof. exact announced. Qed.
Example C46_announced_met : Forall steady usual /\ quiet (play toy usual blank) /\ w_facts (play toy usual blank) = [held; taken] /\
  map (fun y => (y_fact y, y_reply y, option_map q_text (y_request y))) (w_log (play toy usual blank)) =
  [(0, Status 503, Some "transaction.inflight"); (0, Status 200, Some "transaction.inflight"); (1, Status 204, Some "transaction.applied")].
Proof. exact (conj (proj1 usual_steady) usual_quiet). Qed.
Print Assumptions C46_announced.

(** Until then it can still be delivered: if the receiver takes it, it is. *)
Theorem C46_deliverable : forall v es n f, Forall steady es -> nth_error (w_facts (play v es blank)) n = Some f -> f_what f <> Waits -> remarshal (f_doc f) <> None ->
  count (settled n) (w_log (play v es blank)) = 0 -> count (given_up n) (w_gone (play v es blank)) = 0 ->
  exists es', Forall steady es' /\ exists y q, In y (w_log (play v (es ++ es') blank)) /\ y_fact y = n /\ y_request y = Some q /\ took (y_reply y) = true.
Proof. exact still. Qed.
Example C46_deliverable_met : let es := [EFact held; ESend 0 "u" true; ETry 0 cf 0%Z (Status 503%Z) true] in
  Forall steady es /\ nth_error (w_facts (play toy es blank)) 0 = Some held /\ remarshal (f_doc held) <> None /\
  count (settled 0) (w_log (play toy es blank)) = 0 /\ count (given_up 0) (w_gone (play toy es blank)) = 0.
Proof. exact partway. Qed.
Print Assumptions C46_deliverable.

(** A transaction that was accepted and waits is not announced. *)
Theorem C46_waiting : forall v es n f, nth_error (w_facts (play v es blank)) n = Some f -> f_what f = Waits -> forall y, In y (w_log (play v es blank)) -> y_fact y <> n.
Proof. exact held_out. Qed.
Print Assumptions C46_waiting.

(** Each request tells of something that happened, by its proper name, with its record as it was: numbers to the
    precision of a float, and exactly up to 2^53. *)
Theorem C46_truthful : forall v es y q, In y (w_log (play v es blank)) -> y_request y = Some q ->
  exists f d, nth_error (w_facts (play v es blank)) (y_fact y) = Some f /\ f_what f <> Waits /\
    q_text q = v_text v (q_json q) /\
    (proper (f_what f) -> q_json q = JObj [("event", JText (told (f_what f))); ("data", d)]) /\
    (tidy (f_doc f) -> alike as_float (f_doc f) d) /\ (tidy (f_doc f) -> small (f_doc f) -> alike exactly (f_doc f) d).
Proof. exact says. Qed.
Example C46_truthful_met : tidy (f_doc held) /\ small (f_doc held) /\ proper (f_what held) /\ proper (f_what taken).
Proof. exact good. Qed.
Theorem C46_amount_refuted : exists es y q l, Forall steady es /\ Forall acked es /\ w_facts (play toy es blank) = [large_fact] /\ In y (w_log (play toy es blank)) /\ y_fact y = 0 /\ y_request y = Some q /\
  q_json q = JObj [("event", JText "transaction.applied"); ("data", JObj l)] /\ int_field "precise_amount" l = Some (2 ^ 53)%Z /\ f_doc large_fact = doc "txn_4" (2 ^ 53 + 1).
Proof. exact amount_refuted. Qed.
Print Assumptions C46_truthful.
Print Assumptions C46_amount_refuted.

(** Once a request is answered well and the queue knows it, there is no further attempt about the same
    happening, rejections by a worker aside; and never are more attempts counted as successful than there are
    senders. *)
Theorem C46_once : forall v es a x b q f, Forall acked es -> w_log (play v es blank) = a ++ x :: b -> y_request x = Some q -> took (y_reply x) = true ->
  nth_error (w_facts (play v es blank)) (y_fact x) = Some f -> f_what f <> RejectedByWorker -> forall y, In y b -> y_fact y <> y_fact x.
Proof. exact once. Qed.
Example C46_once_met : Forall acked usual /\ exists a x b q, w_log (play toy usual blank) = a ++ x :: b /\ y_request x = Some q /\ took (y_reply x) = true /\
  nth_error (w_facts (play toy usual blank)) (y_fact x) = Some held /\ f_what held <> RejectedByWorker /\ b <> [].
Proof. exact once_case. Qed.
Theorem C46_at_most : forall v es n f, nth_error (w_facts (play v es blank)) n = Some f ->
  count (settled n) (w_log (play v es blank)) <= match f_what f with Waits => 0 | RejectedByWorker => 2 | _ => 1 end.
Proof. exact at_most. Qed.
Theorem C46_twice_refuted : exists es y y', Forall steady es /\ Forall acked es /\ w_log (play toy es blank) = [y; y'] /\ w_facts (play toy es blank) = [rejected] /\
  y_fact y = 0 /\ y_fact y' = 0 /\ took (y_reply y) = true /\ took (y_reply y') = true /\ y_request y <> None /\ y_request y = y_request y'.
Proof. exact twice_refuted. Qed.
Theorem C46_unacked_refuted : exists es y y', Forall steady es /\ w_log (play toy es blank) = [y; y'] /\ w_facts (play toy es blank) = [taken] /\ y_fact y = 0 /\ y_fact y' = 0 /\
  took (y_reply y) = true /\ y_request y <> None /\ y_request y' = y_request y.
Proof. exact unacked_refuted. Qed.
Print Assumptions C46_once.
Print Assumptions C46_at_most.
Print Assumptions C46_twice_refuted.
Print Assumptions C46_unacked_refuted.

(** A receiver can tell repeated requests from new ones: those about one happening have the same body, and those
    about records that differ in some text, their id for one, have different ones. *)
Theorem C46_same_text : forall v es y y' q q', In y (w_log (play v es blank)) -> In y' (w_log (play v es blank)) -> y_fact y = y_fact y' -> y_request y = Some q -> y_request y' = Some q' ->
  q_text q = q_text q' /\ q_json q = q_json q'.
Proof. exact same_text. Qed.
Theorem C46_apart : forall v es y y' q q' f f' l l' k s s', In y (w_log (play v es blank)) -> In y' (w_log (play v es blank)) -> y_request y = Some q -> y_request y' = Some q' ->
  nth_error (w_facts (play v es blank)) (y_fact y) = Some f -> nth_error (w_facts (play v es blank)) (y_fact y') = Some f' ->
  f_doc f = JObj l -> f_doc f' = JObj l' -> tidy (f_doc f) -> tidy (f_doc f') -> field k l = Some (JText s) -> field k l' = Some (JText s') -> s <> s' -> q_json q <> q_json q'.
Proof. exact apart. Qed.
Example C46_apart_met : exists y y' q q', In y (w_log (play toy usual blank)) /\ In y' (w_log (play toy usual blank)) /\ y_request y = Some q /\ y_request y' = Some q' /\
  nth_error (w_facts (play toy usual blank)) (y_fact y) = Some held /\ nth_error (w_facts (play toy usual blank)) (y_fact y') = Some taken /\ tidy (f_doc held) /\ tidy (f_doc taken).
Proof. exact apart_case. Qed.
Print Assumptions C46_same_text.
Print Assumptions C46_apart.

(** With a secret set every request carries a signature of its time and body, if no configured header is called
    like one of the signature; without one none does. *)
Theorem C46_signed : forall v es s, s <> "" -> Forall (with_secret s) es -> forall y q, In y (w_log (play v es blank)) -> y_request y = Some q ->
  exists stamp, header "X-Blnk-Timestamp" (q_headers q) = Some stamp /\ header "X-Blnk-Signature" (q_headers q) = Some (v_mac v s (stamp ++ "." ++ q_text q)%string).
Proof. exact signed. Qed.
Example C46_signed_met : Forall (with_secret "s3cret") usual.
Proof. exact (proj2 (proj2 usual_steady)). Qed.
Theorem C46_unsigned : forall v es, Forall (with_secret "") es -> forall y q, In y (w_log (play v es blank)) -> y_request y = Some q -> header "X-Blnk-Signature" (q_headers q) = None.
Proof. exact unsigned. Qed.
Theorem C46_header_refuted : exists c now b, c_secret c <> "" /\
  header "X-Blnk-Signature" (q_headers (request_of toy c now b)) <> Some (v_mac toy (c_secret c) (v_digits toy now ++ "." ++ q_text (request_of toy c now b))%string).
Proof. exact header_refuted. Qed.
Print Assumptions C46_signed.
Print Assumptions C46_unsigned.
Print Assumptions C46_header_refuted.

(** What is not promised: notices may come out of order, be lost with a process, or be given up. *)
Theorem C46_order_refuted : exists es a b c y y', Forall steady es /\ Forall acked es /\ w_log (play toy es blank) = a ++ y :: b ++ y' :: c /\
  took (y_reply y) = true /\ took (y_reply y') = true /\ y_fact y' < y_fact y /\ (forall z, In z (a ++ b ++ c) -> took (y_reply z) = false).
Proof. exact order_refuted. Qed.
Theorem C46_lost_refuted : exists es, ~ Forall steady es /\ quiet (play toy es blank) /\ w_facts (play toy es blank) = [taken] /\ w_log (play toy es blank) = [] /\ w_gone (play toy es blank) = [].
Proof. exact lost_refuted. Qed.
Theorem C46_given_up_refuted : exists es, Forall steady es /\ Forall acked es /\ quiet (play toy es blank) /\ w_facts (play toy es blank) = [taken] /\ forall q, ~ arrived (play toy es blank) 0 q.
Proof. exact given_up_refuted. Qed.
Print Assumptions C46_order_refuted.
Print Assumptions C46_lost_refuted.
Print Assumptions C46_given_up_refuted.
