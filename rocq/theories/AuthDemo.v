(** Concrete histories of requests with API keys. *)
From Coq Require Import ZArith List String Ascii Bool Lia.
From Verif Require Import Base AuthModel AuthSpec AuthProof AuthInv AuthThms AuthAdmit.
Import ListNotations.
Local Open Scope string_scope.
Local Open Scope list_scope.
Open Scope Z_scope.

Definition shop : aconfig := {| c_secure := true; c_secret := "master-secret"; c_extra := 0 |}.
Definition fine : chance := {| x_ok := true; x_extra := 0; x_id := ""; x_secret := "" |}.
Definition newborn (id secret : string) : chance := {| x_ok := true; x_extra := 0; x_id := id; x_secret := secret |}.
Definition ask_for (on : nat) (key method path : string) : request :=
  {| q_on := on; q_key := key; q_method := method; q_path := path; q_owner := ""; q_body_owner := ""; q_scopes := []; q_expires := 0 |}.
Definition ask_key (on : nat) (key owner : string) (scopes : list string) (expires : Z) : request :=
  {| q_on := on; q_key := key; q_method := "POST"; q_path := "/api-keys"; q_owner := ""; q_body_owner := owner; q_scopes := scopes; q_expires := expires |}.
Definition ask_revoke (on : nat) (key owner id : string) : request :=
  {| q_on := on; q_key := key; q_method := "DELETE"; q_path := ("/api-keys/" ++ id)%string; q_owner := owner; q_body_owner := "";
     q_scopes := []; q_expires := 0 |}.
Definition steps (n i : nat) : list event := repeat (EStep i fine) n.

Definition secret1 := "secret-of-key-number-1".
Definition secret2 := "Another-secret-number-2".

(** The master key makes a key for ann. *)
Definition made : list event :=
  [ERequest (ask_key 0 "master-secret" "ann" ["transactions:*"; "api-keys:write"] 1000); EStep 0 (newborn "key1" secret1)].
Definition key1 : akey :=
  {| k_id := "key1"; k_secret := secret1; k_owner := "ann"; k_scopes := ["transactions:*"; "api-keys:write"]; k_expires := 1000;
     k_revoked := false; k_by := None |}.
(** Request 1: ann's key is used at process 1. *)
Definition used : list event := made ++ ERequest (ask_for 1 secret1 "GET" "/transactions") :: steps 7 1.
(** Request 2: the key is revoked at process 0, and that is confirmed. *)
Definition struck : list event := used ++ ERequest (ask_revoke 0 "master-secret" "ann" "key1") :: steps 3 2.
(** Request 3: it is used again, 59 seconds later. *)
Definition again : list event := ETick 59 :: ERequest (ask_for 1 secret1 "POST" "/transactions") :: steps 2 3.

(** Request 1 is being checked at process 0 when the key is revoked, there. *)
Definition raced : list event :=
  made ++ ERequest (ask_for 0 secret1 "GET" "/transactions") :: steps 3 1
  ++ ERequest (ask_revoke 0 "master-secret" "ann" "key1") :: steps 3 2.
(** It goes on; the key is used 299 and 358 seconds later. *)
Definition lingering : list event :=
  steps 4 1 ++ ETick 299 :: ERequest (ask_for 0 secret1 "POST" "/transactions") :: steps 4 3
  ++ ETick 59 :: ERequest (ask_for 0 secret1 "POST" "/transactions") :: steps 2 4.

(** ann's key makes another one; it is revoked and the new one is used long afterwards. *)
Definition heir : list event :=
  made ++ ERequest (ask_key 0 secret1 "ann" ["transactions:write"] 100000000) :: steps 6 1 ++ [EStep 1 (newborn "key2" secret2)]
  ++ ERequest (ask_revoke 0 "master-secret" "ann" "key1") :: steps 3 2
  ++ ETick 50000000 :: ERequest (ask_for 0 secret2 "POST" "/transactions") :: steps 6 3.

(** ** What happens *)

Definition last_log (y : system) : option (string * Z) :=
  match rev (y_log y) with
  | g :: _ => match g_who g with Holder c => Some (k_id c, g_at g) | _ => None end
  | [] => None
  end.
Definition outcome_of (y : system) (i : nat) : option outcome :=
  match nth_error (y_jobs y) i with Some {| j_phase := PEnd o |} => Some o | _ => None end.

Lemma last_entry y id t : last_log y = Some (id, t) -> exists l g c, y_log y = l ++ [g] /\ g_who g = Holder c /\ k_id c = id /\ g_at g = t.
Proof.
  unfold last_log. destruct (rev (y_log y)) as [|g l] eqn:E; [discriminate|]. destruct (g_who g) as [| |c] eqn:W; try discriminate.
  intros H. injection H as <- <-. exists (rev l), g, c. split; [|auto]. rewrite <- (rev_involutive (y_log y)), E. reflexivity.
Qed.

(** The checks of a history are never older than [d]. *)
Definition promptb (d : Z) (y : system) : bool :=
  forallb (fun j => match j_phase j with
                    | PLocal | PShared | PQuery | PKeepLocal _ | PKeepShared _ | PJudge _ => y_now y <=? j_start j + d
                    | _ => true
                    end) (y_jobs y).
Fixpoint alongb (d : Z) (cfg : aconfig) (es : list event) (y : system) : bool :=
  promptb d y && match es with [] => true | e :: r => alongb d cfg r (happen cfg e y) end.
Lemma promptb_ok d y : promptb d y = true -> prompt d y.
Proof.
  unfold promptb. rewrite forallb_forall. intros H j Hj C. specialize (H j Hj). destruct (j_phase j); try contradiction; apply Z.leb_le; exact H.
Qed.
Lemma alongb_ok d cfg es : forall y, alongb d cfg es y = true -> all_along (prompt d) cfg es y.
Proof.
  induction es as [|e es IH]; intros y H; simpl in H; apply andb_true_iff in H; destruct H as [A B].
  - split; [apply promptb_ok; exact A|exact I].
  - split; [apply promptb_ok; exact A|apply IH; exact B].
Qed.

Lemma made_key : y_keys (play shop made nothing) = [key1].
Proof. vm_compute. reflexivity. Qed.
Lemma used_log : last_log (play shop used nothing) = Some ("key1", 0).
Proof. vm_compute. reflexivity. Qed.
Lemma struck_confirmed : outcome_of (play shop struck nothing) 2 = Some Served /\ y_keys (play shop struck nothing) = [revoke_key key1].
Proof. split; vm_compute; reflexivity. Qed.
Lemma struck_job : nth_error (y_jobs (play shop struck nothing)) 2
  = Some {| j_req := ask_revoke 0 "master-secret" "ann" "key1"; j_start := 0; j_phase := PEnd Served |}.
Proof. vm_compute. reflexivity. Qed.
Lemma struck_idle : forallb (fun j => match j_phase j with PEnd _ => true | _ => false end) (y_jobs (play shop struck nothing)) = true.
Proof. vm_compute. reflexivity. Qed.
Lemma struck_lengths : List.length (y_log (play shop struck nothing)) = 3%nat
  /\ List.length (y_log (play shop again (play shop struck nothing))) = 4%nat.
Proof. split; vm_compute; reflexivity. Qed.
Lemma again_let_in : last_log (play shop again (play shop struck nothing)) = Some ("key1", 59).
Proof. vm_compute. reflexivity. Qed.
Lemma raced_confirmed : outcome_of (play shop raced nothing) 2 = Some Served /\ y_keys (play shop raced nothing) = [revoke_key key1].
Proof. split; vm_compute; reflexivity. Qed.
Lemma raced_now : y_now (play shop raced nothing) = 0.
Proof. vm_compute. reflexivity. Qed.
Lemma lingering_let_in : last_log (play shop lingering (play shop raced nothing)) = Some ("key1", 358).
Proof. vm_compute. reflexivity. Qed.
Lemma lingering_prompt : alongb 0 shop lingering (play shop raced nothing) = true.
Proof. vm_compute. reflexivity. Qed.
Definition key2 : akey :=
  {| k_id := "key2"; k_secret := secret2; k_owner := "ann"; k_scopes := ["transactions:write"]; k_expires := 100000000;
     k_revoked := false; k_by := Some "key1" |}.
Lemma heir_keys : y_keys (play shop heir nothing) = [revoke_key key1; key2].
Proof. vm_compute. reflexivity. Qed.
Lemma heir_let_in : last_log (play shop heir nothing) = Some ("key2", 50000000).
Proof. vm_compute. reflexivity. Qed.

(** A key revoked at one process is accepted by another a minute later. *)
Lemma revoked_elsewhere : ~ (forall cfg es es' k i j g c,
  let y := play cfg es nothing in
  In k (y_keys y) -> k_revoked k = true -> nth_error (y_jobs y) i = Some j -> j_phase j = PEnd Served ->
  j_req j = ask_revoke 0 (c_secret cfg) (k_owner k) (k_id k) ->
  (forall j', In j' (y_jobs y) -> ~ checking (j_phase j')) ->
  In g (skipn (List.length (y_log y)) (y_log (play cfg es' y))) -> g_who g = Holder c -> k_id c <> k_id k).
Proof.
  intros H. destruct (last_entry _ _ _ again_let_in) as (l & g & c & L & W & Id & _).
  specialize (H shop struck again (revoke_key key1) 2%nat
    {| j_req := ask_revoke 0 "master-secret" "ann" "key1"; j_start := 0; j_phase := PEnd Served |} g c). cbv zeta in H.
  pose proof (proj2 struck_confirmed) as F1. pose proof struck_job as F2. pose proof struck_idle as F3. pose proof struck_lengths as F4.
  remember (play shop struck nothing) as y eqn:Y. clear Y. remember (play shop again y) as y' eqn:Y. clear Y.
  apply H; clear H; auto.
  - rewrite F1. left. reflexivity.
  - rewrite forallb_forall in F3. intros j' Hj'. specialize (F3 j' Hj'). destruct (j_phase j'); try discriminate. intros [].
  - destruct F4 as [E1 E2]. rewrite L in E2 |- *. rewrite app_length in E2. simpl in E2.
    assert (List.length l = 3%nat) as E3 by lia. rewrite E1, skipn_app, <- E3, skipn_all, Nat.sub_diag. left. reflexivity.
Qed.

(** Six minutes are not too many: a check that overlaps with the revocation. *)
Lemma revoked_slowly : ~ (forall cfg es1 es2 k g c,
  let y1 := play cfg es1 nothing in let y2 := play cfg es2 y1 in
  In k (y_keys y1) -> k_revoked k = true -> all_along (prompt 0) cfg es2 y1 -> In g (y_log y2) -> g_who g = Holder c -> k_id c = k_id k ->
  g_at g < y_now y1 + 358).
Proof.
  intros H. destruct (last_entry _ _ _ lingering_let_in) as (l & g & c & L & W & Id & T).
  specialize (H shop raced lingering (revoke_key key1) g c). cbv zeta in H.
  pose proof raced_now as N. pose proof (proj2 raced_confirmed) as K. pose proof (alongb_ok _ _ _ _ lingering_prompt) as A.
  remember (play shop raced nothing) as y eqn:Y. clear Y. remember (play shop lingering y) as y' eqn:Y. clear Y.
  assert (g_at g < y_now y + 358); [|lia]. apply H.
  - rewrite K. left. reflexivity.
  - reflexivity.
  - exact A.
  - rewrite L. apply in_app_iff. right. left. reflexivity.
  - exact W.
  - exact Id.
Qed.

(** A key outlives the key it was made with. *)
Lemma child_outlives : ~ (forall cfg es k p, let y := play cfg es nothing in
  In k (y_keys y) -> In p (y_keys y) -> k_by k = Some (k_id p) -> k_expires k <= k_expires p).
Proof.
  intros H. specialize (H shop heir key2 (revoke_key key1)). cbv zeta in H. rewrite heir_keys in H.
  clear - H.
  assert (100000000 <= 1000); [|lia]. apply H; [right; left; reflexivity|left; reflexivity|reflexivity].
Qed.
Lemma child_of_revoked : ~ (forall cfg es k p g c, let y := play cfg es nothing in
  In k (y_keys y) -> In p (y_keys y) -> k_by k = Some (k_id p) -> k_revoked p = true ->
  In g (y_log y) -> g_who g = Holder c -> k_id c = k_id k -> g_at g < k_expires p).
Proof.
  intros H. destruct (last_entry _ _ _ heir_let_in) as (l & g & c & L & W & Id & T).
  specialize (H shop heir key2 (revoke_key key1) g c). cbv zeta in H. rewrite heir_keys, T in H.
  remember (play shop heir nothing) as y eqn:Y. clear Y.
  assert (50000000 < 1000); [|lia]. apply H.
  - right. left. reflexivity.
  - left. reflexivity.
  - reflexivity.
  - reflexivity.
  - rewrite L. apply in_app_iff. right. left. reflexivity.
  - exact W.
  - exact Id.
Qed.

(** Endpoints that no key can reach. *)
Definition beyond : list string := ["/balances-snapshots"; "/backup-s3"].
Lemma out_of_reach cfg es g c : In g (y_log (play cfg es nothing)) -> g_who g = Holder c ->
  ~ In (q_path (g_req g)) beyond /\ forall id, In (substring 0 4 id) ["ldg_"; "bln_"; "txn_"; "idt_"] ->
     q_path (g_req g) <> ("/" ++ id ++ "/metadata")%string.
Proof.
  intros Hg W. pose proof (let_in_entitled cfg es g Hg) as E. unfold entitled in E. rewrite W in E.
  destruct E as (k & _ & _ & _ & (res & act & B & _) & _). destruct (belongs_resource _ _ B) as (_ & N & R). split.
  - intros I. apply N. rewrite <- R. destruct I as [<-|[<-|[]]]; reflexivity.
  - intros id I E. apply N. rewrite <- R, E.
    destruct id as [|c1 [|c2 [|c3 [|c4 id]]]]; simpl in I; repeat (destruct I as [I|I]; [try discriminate|]); try contradiction.
    all: injection I as <- <- <- <-; unfold resource_of, first_part; cbn [append].
    all: match goal with |- context [cut "/" (String ?a (String ?b (String ?c (String ?d ?t))))] =>
      destruct (cut "/" (String a (String b (String c (String d t))))) as [|p l] eqn:C; [reflexivity|];
      assert (exists p', p = String a (String b (String c (String d p')))) as [p' ->] end.
    all: try (simpl in C; destruct (cut "/" (id ++ "/metadata")) as [|z l']; [discriminate|]; injection C as <- <-; eexists; reflexivity).
    all: reflexivity.
Qed.

(** A key that may only write is let through to an endpoint that only reads. *)
Definition peek : list event :=
  [ERequest (ask_key 0 "master-secret" "ann" ["identities:write"] 1000); EStep 0 (newborn "key1" secret1);
   ERequest (ask_for 0 secret1 "POST" "/identities/idt_1/detokenize")] ++ steps 7 1.
Definition last_use (y : system) : option (string * list string) :=
  match rev (y_log y) with
  | g :: _ => match g_who g with Holder c => Some (q_path (g_req g), k_scopes c) | _ => None end
  | [] => None
  end.
Lemma peeked : last_use (play shop peek nothing) = Some ("/identities/idt_1/detokenize", ["identities:write"])
  /\ outcome_of (play shop peek nothing) 1 = Some Served.
Proof. split; vm_compute; reflexivity. Qed.
Lemma write_reads : ~ (forall cfg es g c, In g (y_log (play cfg es nothing)) -> g_who g = Holder c ->
  q_path (g_req g) = "/identities/idt_1/detokenize" -> grants (k_scopes c) "identities" "read").
Proof.
  intros H. pose proof (proj1 peeked) as P. unfold last_use in P. specialize (H shop peek). remember (play shop peek nothing) as y eqn:Y. clear Y.
  destruct (rev (y_log y)) as [|g l] eqn:E; [discriminate|]. destruct (g_who g) as [| |c] eqn:W; try discriminate. injection P as P1 P2.
  assert (I : In g (y_log y)) by (apply in_rev; rewrite E; left; reflexivity).
  specialize (H g c I W P1). rewrite P2 in H. apply (grants_perm _ _ "GET") in H; [discriminate|discriminate|reflexivity].
Qed.
