(** Proofs about error answers. *)
From Coq Require Import List String Ascii Bool ZArith Lia.
From Verif Require PoolSpec PoolProof.
From Verif Require Import Base PoolModel AnswerModel AnswerSpec.
Import ListNotations.
Local Open Scope string_scope.
Local Open Scope Z_scope.
Local Open Scope list_scope.

Lemma spaceless_of s : unspaced s -> PoolSpec.spaceless s = true.
Proof.
  unfold unspaced. induction s as [|c s IH]; simpl; intros H; [reflexivity|].
  rewrite IH by tauto. destruct (Ascii.eqb_spec c " "); [exfalso; apply H; left; assumption|reflexivity].
Qed.

(** ** The table of phrases *)
Fixpoint cut (p : string) : string * option string :=
  match p with
  | EmptyString => ("", None)
  | String c r => if Ascii.eqb c " " then ("", Some r) else let (w, q) := cut r in (String c w, q)
  end.
Definition clean (ws : list string) (p : string) : bool :=
  match cut p with (w, Some q) => PoolProof.free w q ws | _ => false end.

Lemma cut_spec p : forall w q, cut p = (w, Some q) -> p = (w ++ String " " q)%string /\ PoolSpec.spaceless w = true.
Proof.
  induction p as [|c p IH]; intros w q; simpl; [discriminate|].
  destruct (Ascii.eqb_spec c " ") as [->|Hc].
  - intros [= <- <-]. auto.
  - destruct (cut p) as [w' q'] eqn:E. intros [= <- ->]. destruct (IH w' q eq_refl) as [-> Hw]. split; [reflexivity|].
    simpl. rewrite Hw. destruct (Ascii.eqb_spec c " "); [contradiction|reflexivity].
Qed.

Lemma clean_spec ws p : forallb PoolSpec.spaceless ws = true -> clean ws p = true -> contains p (PoolProof.join ws) = false.
Proof.
  unfold clean. intros Hs H. destruct (cut p) as [w [q|]] eqn:E; [|discriminate]. apply cut_spec in E. destruct E as [-> Hw].
  apply PoolProof.contains_words; assumption.
Qed.

Lemma skip ws l1 l2 : forallb PoolSpec.spaceless ws = true ->
  forallb (fun x => existsb (clean ws) (fst x)) l1 = true ->
  find_pattern (PoolProof.join ws) (l1 ++ l2) = find_pattern (PoolProof.join ws) l2.
Proof.
  intros Hs. induction l1 as [|[ps c] l1 IH]; intros H; [reflexivity|].
  cbn [forallb fst] in H. apply andb_true_iff in H. destruct H as [H1 H2]. cbn [app find_pattern].
  replace (forallb (fun p => contains p (PoolProof.join ws)) ps) with false; [apply IH; exact H2|].
  symmetry. apply existsb_exists in H1. destruct H1 as (p & Hp & Hc). apply not_true_is_false. intros K.
  rewrite forallb_forall in K. specialize (K p Hp). rewrite (clean_spec ws p Hs Hc) in K. discriminate K.
Qed.

Lemma find_hit m p c l : contains p m = true -> find_pattern m (([p], c) :: l) = Some c.
Proof. intros H. cbn. rewrite H. reflexivity. Qed.

Ltac tidy := cbn; repeat (rewrite ?andb_false_r, ?orb_false_r; cbn); reflexivity.

Lemma used_text r : unspaced r -> classify_message ("transaction validation failed: reference " ++ r ++ " has already been used") = Some "TXN_DUPLICATE_REFERENCE".
Proof.
  intros Hr. apply spaceless_of in Hr. unfold classify_message.
  change (find_pattern (PoolProof.join ["transaction"; "validation"; "failed:"; "reference"; r; "has"; "already"; "been"; "used"]) (firstn 5 patterns ++ skipn 5 patterns) = Some "TXN_DUPLICATE_REFERENCE").
  rewrite skip.
  - apply find_hit. change (contains "has already been used" ("transaction validation failed: reference " ++ r ++ " has already been used") = true).
    apply PoolProof.contains_app, PoolProof.contains_app. reflexivity.
  - cbn. rewrite Hr. reflexivity.
  - tidy.
Qed.

Lemma more_text (o : bool) cur a r : unspaced cur -> unspaced a -> unspaced r ->
  classify_message ("error occurred during processing: [" ++ ((if o then "cannot commit more than the original transaction amount. Original: " else "cannot commit more than the remaining amount. Available: ")
     ++ cur ++ a ++ ", Requested: " ++ cur ++ r) ++ "]") = Some "TXN_COMMIT_AMOUNT_EXCEEDED".
Proof.
  intros Hc Ha Hr. apply spaceless_of in Hc, Ha, Hr. unfold classify_message.
  assert (H1 : PoolSpec.spaceless (cur ++ a ++ ",") = true) by (repeat apply PoolProof.spaceless_app; auto).
  assert (H2 : PoolSpec.spaceless (cur ++ r ++ "]") = true) by (repeat apply PoolProof.spaceless_app; auto).
  assert (App : forall x y z, ((x ++ y) ++ z = x ++ (y ++ z))%string) by (intros x y z; induction x; simpl; congruence).
  set (w1 := (cur ++ a ++ ",")%string) in *. set (w2 := (cur ++ r ++ "]")%string) in *.
  assert (E : (cur ++ a ++ ", Requested: " ++ cur ++ r ++ "]" = w1 ++ " Requested: " ++ w2)%string) by (unfold w1, w2; rewrite !App; reflexivity).
  rewrite !App, E. clearbody w1 w2.
  destruct o.
  - change (find_pattern (PoolProof.join ["error"; "occurred"; "during"; "processing:"; "[cannot"; "commit"; "more"; "than"; "the"; "original"; "transaction"; "amount."; "Original:"; w1; "Requested:"; w2])
      (firstn 6 patterns ++ skipn 6 patterns) = Some "TXN_COMMIT_AMOUNT_EXCEEDED").
    rewrite skip; [reflexivity|cbn; rewrite H1, H2; reflexivity|tidy].
  - change (find_pattern (PoolProof.join ["error"; "occurred"; "during"; "processing:"; "[cannot"; "commit"; "more"; "than"; "the"; "remaining"; "amount."; "Available:"; w1; "Requested:"; w2])
      (firstn 6 patterns ++ skipn 6 patterns) = Some "TXN_COMMIT_AMOUNT_EXCEEDED").
    rewrite skip; [reflexivity|cbn; rewrite H1, H2; reflexivity|tidy].
Qed.

Lemma held_text (v : bool) id : unspaced id ->
  classify_message ("error occurred during processing: [" ++ ((if v then "failed to acquire lock for inflight void" else "failed to acquire lock for inflight commit") ++ ": " ++
     ("lock for key inflight-commit:" ++ id ++ " is already held")) ++ "]") = Some "GEN_RESOURCE_LOCKED".
Proof.
  intros Hi. apply spaceless_of in Hi. unfold classify_message.
  assert (App : forall x y z, ((x ++ y) ++ z = x ++ (y ++ z))%string) by (intros x y z; induction x; simpl; congruence).
  rewrite !App.
  destruct v.
  - change (find_pattern (PoolProof.join ["error"; "occurred"; "during"; "processing:"; "[failed"; "to"; "acquire"; "lock"; "for"; "inflight"; "void:"; "lock"; "for"; "key"; ("inflight-commit:" ++ id)%string; "is"; "already"; "held]"])
      (firstn 29 patterns ++ skipn 29 patterns) = Some "GEN_RESOURCE_LOCKED").
    rewrite skip; [reflexivity|cbn; rewrite Hi; reflexivity|tidy].
  - change (find_pattern (PoolProof.join ["error"; "occurred"; "during"; "processing:"; "[failed"; "to"; "acquire"; "lock"; "for"; "inflight"; "commit:"; "lock"; "for"; "key"; ("inflight-commit:" ++ id)%string; "is"; "already"; "held]"])
      (firstn 29 patterns ++ skipn 29 patterns) = Some "GEN_RESOURCE_LOCKED").
    rewrite skip; [reflexivity|cbn; rewrite Hi; reflexivity|tidy].
Qed.

(** ** Answers in general *)
Lemma lookup_in {A} k (l : list (string * A)) v : lookup k l = Some v -> In (k, v) l.
Proof.
  induction l as [|[k' v'] l IH]; simpl; [discriminate|]. destruct (String.eqb_spec k k') as [->|]; intros H; [left; congruence|auto].
Qed.

Lemma write_status o c m d : a_status (write o c m d) = status_for (a_code (write o c m d)).
Proof. reflexivity. Qed.

Lemma respond_write o e : exists c m d, respond o e = write o c m d.
Proof.
  unfold respond. destruct (as_api e) as [[[c m] d]|]; [eauto|]. destruct (as_known e); [eauto|]. destruct (classify_message (text e)); [eauto|].
  destruct (o_default o); eauto.
Qed.

Theorem same_status o1 o2 e1 e2 : a_code (respond o1 e1) = a_code (respond o2 e2) -> a_status (respond o1 e1) = a_status (respond o2 e2).
Proof.
  destruct (respond_write o1 e1) as (c1 & m1 & d1 & ->), (respond_write o2 e2) as (c2 & m2 & d2 & ->). rewrite !write_status. intros ->. reflexivity.
Qed.

Lemma status_error c : 400 <= status_for c < 600.
Proof.
  unfold status_for. destruct (lookup c statuses) as [s|] eqn:E; [|lia]. apply lookup_in in E.
  assert (H : forallb (fun x => (400 <=? snd x) && (snd x <? 600)) statuses = true) by reflexivity.
  rewrite forallb_forall in H. specialize (H _ E). simpl in H. lia.
Qed.

Theorem an_error o e : 400 <= a_status (respond o e) < 600.
Proof. destruct (respond_write o e) as (c & m & d & ->). rewrite write_status. apply status_error. Qed.

Lemma normalize_not_legacy c : ~ In (normalize c) legacy.
Proof.
  unfold normalize. destruct (lookup c canonical) as [c'|] eqn:E.
  - apply lookup_in in E. simpl in E. intuition (match goal with H : (_, _) = (_, _) |- _ => injection H as <- <- end; vm_compute in *; intuition discriminate).
  - intros H. simpl in H. intuition (subst c; discriminate E).
Qed.

Theorem not_legacy o e : sound_upgrades o -> ~ In (a_code (respond o e)) legacy.
Proof.
  intros Hu. destruct (respond_write o e) as (c & m & d & ->). cbn [write a_code].
  destruct (lookup (normalize c) (o_upgrades o)) as [c'|] eqn:E; [|apply normalize_not_legacy].
  apply lookup_in in E. apply (Hu _ _ E).
Qed.

Lemma write_below o c m d : sound_upgrades o -> status_for (normalize c) <> 500 -> a_status (write o c m d) <> 500.
Proof.
  intros Hu Hc. cbn [write a_status]. destruct (lookup (normalize c) (o_upgrades o)) as [c'|] eqn:E; [|exact Hc].
  apply lookup_in in E. destruct (Hu _ _ E). lia.
Qed.

Lemma find_in m l c : find_pattern m l = Some c -> In c (map snd l).
Proof. induction l as [|[ps c'] l IH]; simpl; [discriminate|]. destruct (forallb _ ps); intros H; [left; congruence|auto]. Qed.

Theorem hidden o e : sound_upgrades o -> o_default o = None -> as_api e = None -> a_status (respond o e) = 500 ->
  a_message (respond o e) = "internal server error" /\ a_details (respond o e) = None.
Proof.
  intros Hu Hd Ha. unfold respond. rewrite Ha, Hd. destruct (as_known e) as [s|].
  - intros H. exfalso. revert H. apply write_below; [exact Hu|]. destruct s; discriminate.
  - destruct (classify_message (text e)) as [c|] eqn:E; [|split; reflexivity].
    intros H. exfalso. revert H. apply write_below; [exact Hu|]. apply find_in in E.
    assert (K : forallb (fun c => negb (status_for (normalize c) =? 500)) (map snd patterns) = true) by reflexivity.
    rewrite forallb_forall in K. specialize (K _ E). apply negb_true_iff, Z.eqb_neq in K. exact K.
Qed.

(** ** Posts *)
Definition failure (r : string) (f : fault) : err :=
  match f with
  | FSplit m => Wrap "failed to split transaction" (Plain m)
  | FResolve s e => Wrap "failed to resolve balance IDs" (Wrap (if s then "failed to resolve source balance indicator" else "failed to resolve destination balance indicator") e)
  | FLock f => Wrap "failed to acquire lock" (lock_error f)
  | FHook m => Plain m
  | FRef f => Wrap "transaction validation failed" (ref_error r f)
  | FBalance f => Wrap "failed to get source and destination balances" (balance_error f)
  | FApply f => Wrap "failed to apply transaction to balances" (apply_error f)
  | FStore f => Wrap "failed to persist transaction with balances" (store_error f)
  | FExpiry m => Wrap "failed to queue inflight expiry" (Plain m)
  | FRelease m => Wrap "failed to queue inflight commit" (Plain m)
  end.
Definition kept (f : fault) : bool :=
  match f with FStore (SCommit _ lost) => lost | FExpiry _ | FRelease _ => true | _ => false end.

Lemma post_first n : post n = match first n with None => (true, None) | Some f => (kept f, Some (respond post_options (failure (n_reference n) f))) end.
Proof.
  unfold post, queue_direct, first. destruct n as [r sp rs lk hk rf bl ap st ex rl]; cbn [n_split n_resolve n_lock n_hook n_ref n_balance n_apply n_store n_expiry n_release n_reference].
  destruct sp; [reflexivity|]. destruct rs as [[? ?]|]; [reflexivity|]. destruct lk; [reflexivity|]. destruct hk; [reflexivity|].
  destruct rf; [reflexivity|]. destruct bl; [reflexivity|]. destruct ap; [reflexivity|]. destruct st as [[]|]; [reflexivity..|].
  destruct ex; [reflexivity|]. destruct rl; reflexivity.
Qed.

Theorem codes n f s c : first n = Some f -> documented f = Some (s, c) -> unspaced (n_reference n) ->
  exists a, snd (post n) = Some a /\ a_status a = s /\ a_code a = c.
Proof.
  intros Hf Hd Hr. rewrite post_first, Hf. cbn [snd]. eexists. split; [reflexivity|].
  destruct f as [m|b e|[]|m|[]|[]|[]|[]|m|m]; cbn in Hd; try discriminate Hd; injection Hd as <- <-; try (split; reflexivity).
  unfold respond, failure, ref_error. cbn [as_api as_known]. cbn [text].
  change (("transaction validation failed" ++ ": " ++ "reference " ++ n_reference n ++ " has already been used")%string)
    with (("transaction validation failed: reference " ++ n_reference n ++ " has already been used")%string).
  rewrite used_text by exact Hr. split; reflexivity.
Qed.

Theorem created n : snd (post n) = None <-> first n = None.
Proof. rewrite post_first. destruct (first n); simpl; split; intros; try reflexivity; discriminate. Qed.

Theorem created_recorded n : snd (post n) = None -> fst (post n) = true.
Proof. rewrite post_first. destruct (first n); simpl; [discriminate|reflexivity]. Qed.

Lemma first_of n f : first n = Some f -> match f with
  | FStore x => n_store n = Some x | FExpiry m => n_expiry n = Some m | FRelease m => n_release n = Some m | _ => True end.
Proof.
  destruct n as [r sp rs lk hk rf bl ap st ex rl]; unfold first; cbn [n_split n_resolve n_lock n_hook n_ref n_balance n_apply n_store n_expiry n_release].
  destruct sp, rs as [[? ?]|], lk, hk, rf, bl, ap, st, ex, rl; cbn; intros H; try discriminate H; injection H as <-; auto.
Qed.

Theorem recorded n a : fst (post n) = true -> snd (post n) = Some a ->
  (exists d, n_store n = Some (SCommit d true)) \/ n_expiry n <> None \/ n_release n <> None.
Proof.
  rewrite post_first. destruct (first n) as [f|] eqn:E; [|discriminate]. cbn [fst snd]. intros H _. apply first_of in E.
  destruct f as [m|b e|[]|m|[]|[]|[]|[]|m|m]; cbn in H; try discriminate H.
  - subst. left. eauto.
  - right. left. congruence.
  - right. right. congruence.
Qed.

Theorem definite n a :
  (forall m, n_expiry n = Some m -> classify_message ("failed to queue inflight expiry: " ++ m) = None) ->
  (forall m, n_release n = Some m -> classify_message ("failed to queue inflight commit: " ++ m) = None) ->
  snd (post n) = Some a -> a_code a <> "GEN_INTERNAL" -> a_code a <> "TXN_VALIDATION_ERROR" -> fst (post n) = false.
Proof.
  intros H1 H2. rewrite post_first. destruct (first n) as [f|] eqn:E; [|discriminate]. cbn [fst snd]. intros Ha Hi Hv. apply first_of in E.
  injection Ha as <-. destruct f as [m|b e|[]|m|[]|[]|[]|[]|m|m]; try reflexivity.
  - exfalso. apply Hi. reflexivity.
  - exfalso. apply Hv. specialize (H1 m E). unfold respond. cbn [failure as_api as_known]. cbn [text].
    change (("failed to queue inflight expiry" ++ ": " ++ m)%string) with (("failed to queue inflight expiry: " ++ m)%string). rewrite H1. reflexivity.
  - exfalso. apply Hv. specialize (H2 m E). unfold respond. cbn [failure as_api as_known]. cbn [text].
    change (("failed to queue inflight commit" ++ ": " ++ m)%string) with (("failed to queue inflight commit: " ++ m)%string). rewrite H2. reflexivity.
Qed.

Theorem preview_same n p : foresees p n -> unspaced (n_reference n) -> p_same p = None -> p_apply p = None \/ p_used p = false ->
  match preview_error (n_reference n) p with
  | None => snd (post n) = None
  | Some e => exists a, snd (post n) = Some a /\ fst (post n) = false /\ a_code a = preview_code e /\ a_message a = text e
  end.
Proof.
  intros (E1 & E2 & E3 & E4 & E5 & E6 & E7 & E8 & E9 & E10) Hr Hs Ho. rewrite post_first. unfold first.
  rewrite E1, E2, E3, E4, E5, E6, E7, E8, E9, E10, Hs. unfold preview_error. rewrite Hs. destruct (p_apply p) as [f|].
  - destruct Ho as [Ho|Ho]; [discriminate|]. rewrite Ho. cbn. eexists. split; [reflexivity|]. destruct f; split; [reflexivity|split; reflexivity|reflexivity|split; reflexivity|reflexivity|split; reflexivity|reflexivity|split; reflexivity].
  - destruct (p_used p); [|reflexivity]. cbn [option_map fold_right orelse fst snd kept]. eexists. split; [reflexivity|]. split; [reflexivity|].
    unfold respond, failure, ref_error. cbn [as_api as_known]. cbn [text].
    change (("transaction validation failed" ++ ": " ++ "reference " ++ n_reference n ++ " has already been used")%string)
      with (("transaction validation failed: reference " ++ n_reference n ++ " has already been used")%string).
    unfold preview_code. cbn [text]. rewrite used_text by exact Hr. split; reflexivity.
Qed.

Theorem settle_codes f s c : settle_documented f = Some (s, c) -> (forall w, In w (settle_words f) -> unspaced w) ->
  a_status (settle [f]) = s /\ a_code (settle [f]) = c.
Proof.
  intros Hd Hw. destruct f as [v id| | |v|o cur a r|m d|id]; cbn in Hd; try discriminate Hd; injection Hd as <- <-.
  - unfold settle, respond. cbn [map as_api as_known]. 
    replace (text (Flat "error occurred during processing: " [settle_error (THeld v id)])) with
      (("error occurred during processing: [" ++ ((if v then "failed to acquire lock for inflight void" else "failed to acquire lock for inflight commit") ++ ": " ++
     ("lock for key inflight-commit:" ++ id ++ " is already held")) ++ "]")%string) by (destruct v; reflexivity).
    rewrite held_text by (apply Hw; left; reflexivity). split; reflexivity.
  - split; reflexivity.
  - split; reflexivity.
  - destruct v; split; reflexivity.
  - unfold settle, respond. cbn [map as_api as_known].
    replace (text (Flat "error occurred during processing: " [settle_error (TMore o cur a r)])) with
      (("error occurred during processing: [" ++ ((if o then "cannot commit more than the original transaction amount. Original: " else "cannot commit more than the remaining amount. Available: ")
     ++ cur ++ a ++ ", Requested: " ++ cur ++ r) ++ "]")%string) by (destruct o; reflexivity).
    rewrite more_text by (apply Hw; simpl; tauto). split; reflexivity.
Qed.

(** ** Where it fails *)
Definition calm (r : string) : run :=
  {| n_reference := r; n_split := None; n_resolve := None; n_lock := None; n_hook := None; n_ref := None; n_balance := None; n_apply := None;
     n_store := None; n_expiry := None; n_release := None |}.
