(** Webhooks at work, and where they mislead. *)
From Coq Require Import List String Bool Arith ZArith Lia.
From Verif Require Import Base BodyModel BodySpec BodyProof BodyThms NoticeModel NoticeSpec NoticeProof NoticeThms.
Import ListNotations.
Local Open Scope string_scope.
Local Open Scope nat_scope.
Local Open Scope list_scope.

Definition toy : env := {| v_mac := fun s t => ("mac of " ++ t ++ " by " ++ s)%string; v_text := fun j => match j with JObj (("event", JText e) :: _) => e | _ => "?" end; v_digits := fun _ => "1700000000" |}.
Definition cf : conf := {| c_url := "https://example.com/hook"; c_secret := "s3cret"; c_headers := [("X-Tenant", "acme")] |}.
Definition doc (id : string) (amount : Z) : json := JObj [("transaction_id", JText id); ("precise_amount", JNum true amount); ("meta_data", JObj [("note", JText "rent")])].
Definition held : fact := {| f_what := Posted "QUEUED" true; f_doc := doc "txn_1" 500 |}.
Definition taken : fact := {| f_what := Posted "COMMIT" false; f_doc := doc "txn_2" 500 |}.

(** A hold and its commit are announced; the receiver fails once. *)
Definition usual : list event :=
  [EFact held; ESend 0 "u" true; ETry 0 cf 0 (Status 503) true; EFact taken; ESend 0 "u" true; ETry 0 cf 0 (Status 200) true; ETry 0 cf 0 (Status 204) true].
Lemma usual_steady : Forall steady usual /\ Forall acked usual /\ Forall (with_secret "s3cret") usual.
Proof.
  split; [|split].
  - repeat constructor; discriminate.
  - repeat constructor.
  - unfold usual. repeat (constructor; [cbn; try exact Logic.I; try (split; [reflexivity|]; intros k v [X|[]]; injection X as <- <-; split; discriminate)|]). constructor.
Qed.
Lemma usual_quiet : quiet (play toy usual blank) /\ w_facts (play toy usual blank) = [held; taken] /\
  map (fun y => (y_fact y, y_reply y, option_map q_text (y_request y))) (w_log (play toy usual blank)) =
  [(0, Status 503, Some "transaction.inflight"); (0, Status 200, Some "transaction.inflight"); (1, Status 204, Some "transaction.applied")].
Proof. vm_compute. repeat split. Qed.
Lemma doc_tidy id a : tidy (doc id a).
Proof. cbn. repeat split; repeat constructor; cbn; intuition discriminate. Qed.
Lemma doc_small id a : (Z.abs a <= 2 ^ 53)%Z -> small (doc id a).
Proof. intros H. cbn -[Z.pow]. repeat split; auto. Qed.

(** The commit is announced before the hold. *)
Definition crossed : list event :=
  [EFact held; ESend 0 "u" true; ETry 0 cf 0 (Status 503) true; EFact taken; ESend 0 "u" true; ETry 1 cf 0 (Status 200) true; ETry 0 cf 0 (Status 200) true].
Lemma order_refuted : exists es a b c y y', Forall steady es /\ Forall acked es /\ w_log (play toy es blank) = a ++ y :: b ++ y' :: c /\
  welcome (y_reply y) = true /\ welcome (y_reply y') = true /\ y_fact y' < y_fact y /\ (forall z, In z (a ++ b ++ c) -> welcome (y_reply z) = false).
Proof.
  exists crossed. remember (w_log (play toy crossed blank)) as l eqn:E. vm_compute in E.
  destruct l as [|x1 [|x2 [|x3 [|]]]]; try discriminate E. exists [x1], [], [], x2, x3. injection E as -> -> ->. split; [repeat constructor; discriminate|]. split; [repeat constructor|]. split; [reflexivity|]. split; [reflexivity|]. split; [reflexivity|]. split; [cbn; lia|].
  intros z [<-|[]]. reflexivity.
Qed.
(** A worker's rejection is announced twice. *)
Definition rejected : fact := {| f_what := RejectedByWorker; f_doc := doc "txn_3" 500 |}.
Definition doubled : list event := [EFact rejected; ESend 0 "u" true; ESend 0 "u" true; ETry 0 cf 0 (Status 200) true; ETry 0 cf 0 (Status 200) true].
Lemma twice_refuted : exists es y y', Forall steady es /\ Forall acked es /\ w_log (play toy es blank) = [y; y'] /\ w_facts (play toy es blank) = [rejected] /\
  y_fact y = 0 /\ y_fact y' = 0 /\ welcome (y_reply y) = true /\ welcome (y_reply y') = true /\ y_request y <> None /\ y_request y = y_request y'.
Proof.
  exists doubled. remember (w_log (play toy doubled blank)) as l eqn:E. vm_compute in E. destruct l as [|x1 [|x2 [|]]]; try discriminate E. exists x1, x2. injection E as -> ->.
  split; [repeat constructor; discriminate|]. split; [repeat constructor|]. repeat split. discriminate.
Qed.
(** The process dies after a transaction is recorded: nobody is told. *)
Lemma lost_refuted : exists es, ~ Forall steady es /\ quiet (play toy es blank) /\ w_facts (play toy es blank) = [taken] /\ w_log (play toy es blank) = [] /\ w_gone (play toy es blank) = [].
Proof. exists [EFact taken; EDie 0]. split; [|repeat split]. intros F. inversion F as [|x l _ F2]; subst. inversion F2 as [|x l X _]; subst. destruct X. Qed.
(** The queue does not learn of the success: the notice is sent again. *)
Definition unsure : list event := [EFact taken; ESend 0 "u" true; ETry 0 cf 0 (Status 200) false; ETry 0 cf 0 (Status 200) true].
Lemma unacked_refuted : exists es y y', Forall steady es /\ w_log (play toy es blank) = [y; y'] /\ w_facts (play toy es blank) = [taken] /\ y_fact y = 0 /\ y_fact y' = 0 /\
  welcome (y_reply y) = true /\ y_request y <> None /\ y_request y' = y_request y.
Proof.
  exists unsure. remember (w_log (play toy unsure blank)) as l eqn:E. vm_compute in E. destruct l as [|x1 [|x2 [|]]]; try discriminate E. exists x1, x2. injection E as -> ->.
  split; [repeat constructor; discriminate|]. repeat split. discriminate.
Qed.
(** A receiver that is away for all 26 attempts. *)
Definition away : list event := [EFact taken; ESend 0 "u" true] ++ repeat (ETry 0 cf 0 Unreached true) 26.
Lemma given_up_refuted : exists es, Forall steady es /\ Forall acked es /\ quiet (play toy es blank) /\ w_facts (play toy es blank) = [taken] /\ forall q, ~ arrived (play toy es blank) 0 q.
Proof.
  exists away. split; [unfold away; cbn [app]; repeat constructor; discriminate|]. split; [unfold away; cbn [app repeat]; repeat constructor|]. split; [vm_compute; split; reflexivity|]. split; [reflexivity|].
  intros q (y & I & _ & _ & N). apply N. assert (F : forallb (fun y => match y_reply y with Unreached => true | _ => false end) (w_log (play toy away blank)) = true) by (vm_compute; reflexivity).
  rewrite forallb_forall in F. specialize (F y I). destruct (y_reply y); [reflexivity|discriminate F|discriminate F].
Qed.
(** An amount above 2^53. *)
Definition large_fact : fact := {| f_what := Posted "QUEUED" false; f_doc := doc "txn_4" (2 ^ 53 + 1) |}.
Definition telling : list event := [EFact large_fact; ESend 0 "u" true; ETry 0 cf 0 (Status 200) true].
Lemma amount_refuted : exists es y q l, Forall steady es /\ Forall acked es /\ w_facts (play toy es blank) = [large_fact] /\ In y (w_log (play toy es blank)) /\ y_fact y = 0 /\ y_request y = Some q /\
  q_json q = JObj [("event", JText "transaction.applied"); ("data", JObj l)] /\ int_field "precise_amount" l = Some (2 ^ 53)%Z /\ f_doc large_fact = doc "txn_4" (2 ^ 53 + 1).
Proof.
  exists telling. remember (w_log (play toy telling blank)) as g eqn:E. vm_compute in E. destruct g as [|x1 [|]]; try discriminate E. injection E as E. exists x1. rewrite E. eexists _, _.
  split; [repeat constructor; discriminate|]. split; [repeat constructor|]. split; [reflexivity|]. split; [left; reflexivity|]. split; [reflexivity|]. split; [reflexivity|]. split; [reflexivity|]. split; [vm_compute; reflexivity|reflexivity].
Qed.
(** A configured header can take the place of the signature. *)
Definition odd_conf : conf := {| c_url := "u"; c_secret := "s3cret"; c_headers := [("x-blnk-signature", "none")] |}.
Lemma header_refuted : exists c now b, c_secret c <> "" /\
  header "X-Blnk-Signature" (q_headers (request_of toy c now b)) <> Some (v_mac toy (c_secret c) (v_digits toy now ++ "." ++ q_text (request_of toy c now b))%string).
Proof. exists odd_conf, 0%Z, JNull. split; [discriminate|]. vm_compute. discriminate. Qed.

Lemma partway : let es := [EFact held; ESend 0 "u" true; ETry 0 cf 0%Z (Status 503%Z) true] in
  Forall steady es /\ nth_error (w_facts (play toy es blank)) 0 = Some held /\ remarshal (f_doc held) <> None /\
  count (settled 0) (w_log (play toy es blank)) = 0 /\ count (given_up 0) (w_gone (play toy es blank)) = 0.
Proof. split; [repeat constructor; discriminate|]. split; [reflexivity|]. split; [vm_compute; discriminate|]. split; reflexivity. Qed.
Lemma good : tidy (f_doc held) /\ small (f_doc held) /\ proper (f_what held) /\ proper (f_what taken).
Proof. split; [apply doc_tidy|]. split; [apply doc_small; vm_compute; discriminate|]. split; cbn; auto 10. Qed.
Lemma once_case : Forall acked usual /\ exists a x b q, w_log (play toy usual blank) = a ++ x :: b /\ y_request x = Some q /\ welcome (y_reply x) = true /\
  nth_error (w_facts (play toy usual blank)) (y_fact x) = Some held /\ f_what held <> RejectedByWorker /\ b <> [].
Proof.
  split; [exact (proj1 (proj2 usual_steady))|]. remember (w_log (play toy usual blank)) as g eqn:E. vm_compute in E. destruct g as [|x1 [|x2 [|x3 [|]]]]; try discriminate E. injection E as E1 E2 E3.
  exists [x1], x2, [x3]. rewrite E2. eexists. split; [reflexivity|]. split; [reflexivity|]. split; [reflexivity|]. split; [reflexivity|]. split; discriminate.
Qed.
Lemma apart_case : exists y y' q q', In y (w_log (play toy usual blank)) /\ In y' (w_log (play toy usual blank)) /\ y_request y = Some q /\ y_request y' = Some q' /\
  nth_error (w_facts (play toy usual blank)) (y_fact y) = Some held /\ nth_error (w_facts (play toy usual blank)) (y_fact y') = Some taken /\ tidy (f_doc held) /\ tidy (f_doc taken).
Proof.
  remember (w_log (play toy usual blank)) as g eqn:E. vm_compute in E. destruct g as [|x1 [|x2 [|x3 [|]]]]; try discriminate E. injection E as E1 E2 E3.
  exists x2, x3. rewrite E2, E3. eexists _, _. split; [right; left; reflexivity|]. split; [right; right; left; reflexivity|]. split; [reflexivity|]. split; [reflexivity|]. split; [reflexivity|]. split; [reflexivity|]. split; apply doc_tidy.
Qed.
