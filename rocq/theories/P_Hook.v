(** C42: hooks before and after transactions. *)
From Coq Require Import List String Bool Arith ZArith.
From Verif Require Import HookModel HookSpec HookInv HookCount HookStage HookGone HookOrder HookDemo HookKept.
Import ListNotations.
Local Open Scope string_scope.
Local Open Scope nat_scope.
Local Open Scope list_scope.

(** Every request sent goes to a URL that was registered or set for its hook with the hook on, and tells of a
    transaction for which its stage was run, with what the stage was given. *)
Theorem C42_as_submitted : forall es t, In t (w_sent (play es blank)) ->
  (exists q b, In (EStart q) es /\ changes q (h_id (t_hook t)) b /\ h_active b = true /\ h_url b = h_url (t_hook t))
  /\ (exists q ts, In (EStart q) es /\ stages q (n_stage (t_notice t)) ts /\ In (n_txn (t_notice t), n_data (t_notice t)) ts).
Proof. exact as_submitted. Qed.
Print Assumptions C42_as_submitted.

(** A hook gets at most one request, and as many more as the most retries ever asked for it, for each time a
    stage was run for a transaction. *)
Theorem C42_calls_bounded : forall st txn id R es,
  (forall q r, In (EStart q) es -> asks_retries q id r -> r <= R) ->
  requests st txn id (play es blank) <= all_rounds st txn es * S R.
Proof. exact calls_bounded. Qed.
Print Assumptions C42_calls_bounded.

(** So at most eleven, if it was never updated. *)
Theorem C42_calls_eleven : forall st txn id es, (forall b, ~ In (EStart (RUpdate id b)) es) ->
  requests st txn id (play es blank) <= all_rounds st txn es * 11.
Proof. exact calls_eleven. Qed.
Print Assumptions C42_calls_eleven.

(** A call once accepted is never made again. *)
Theorem C42_accepted_once : forall es i t m es', nth_error (w_runs (play es blank)) i = Some (JTry t m, Done AOk) ->
  requests_of (t_no t) (play (es ++ es') blank) = requests_of (t_no t) (play es blank).
Proof. exact accepted_once. Qed.
Print Assumptions C42_accepted_once.

(** A hook that stands, on, in the list of a stage all the while the stage runs gets a call for each of its
    transactions, unless the stage's own commands fail or it is broken off. *)
Theorem C42_standing_called : forall es0 es q st ts id,
  stages q st ts ->
  let w0 := play es0 blank in let i := List.length (w_runs w0) in
  let w := play es (happen (EStart q) w0) in
  stands_through id st es (happen (EStart q) w0) -> (forall e, In e es -> unhurt i e) ->
  forall a, nth_error (w_runs w) i = Some (JCall q, Done a) ->
  a = AOk /\ forall txn data, In (txn, data) ts ->
    exists t, In (i, t) (w_made w) /\ h_id (t_hook t) = id
      /\ t_notice t = {| n_txn := txn; n_stage := st; n_data := data |}.
Proof. exact standing_called. Qed.
Print Assumptions C42_standing_called.

(** A stage fails a transaction only where its list could not be read, and then called nobody. *)
Theorem C42_stage_answers : forall es q st ts i a, stages q st ts ->
  nth_error (w_runs (play es blank)) i = Some (JCall q, Done a) ->
  a = AOk \/ (a = AErr /\ (exists o order r, In (EStep i o order r) es /\ o <> Fine)
              /\ forall t, ~ In (i, t) (w_made (play es blank))).
Proof. exact stage_answers. Qed.
Print Assumptions C42_stage_answers.

(** Once a deletion is confirmed, the hook is called for no stage that begins later, and in no list asked for
    later, whatever calls of it still wait, if it always had one type and is not registered or updated meanwhile. *)
Theorem C42_deleted_not_called : forall es1 es2 es3 id ty,
  (forall q b, In (EStart q) (es1 ++ es2 ++ es3) -> changes q id b -> h_type b = ty) ->
  let w1 := play es1 blank in
  (forall i q p b, nth_error (w_runs w1) i = Some (JCall q, p) -> changes q id b -> is_done p) ->
  (forall q b, In (EStart q) (es2 ++ es3) -> ~ changes q id b) ->
  let w2 := play es2 (happen (EStart (RDelete id)) w1) in
  nth_error (w_runs w2) (List.length (w_runs w1)) = Some (JCall (RDelete id), Done AOk) ->
  let w3 := play es3 w2 in
  (forall i t, In (i, t) (w_made w3) -> List.length (w_runs w2) <= i -> h_id (t_hook t) <> id)
  /\ (forall i t l h, nth_error (w_runs w3) i = Some (JCall (RList t), Done (AList l)) ->
        List.length (w_runs w2) <= i -> In h l -> h_id h <> id).
Proof. exact deleted_not_called. Qed.
Print Assumptions C42_deleted_not_called.

(** One thing after the other: what is shown and listed is what was set. *)
Theorem C42_orderly_seen : forall ms w g, orderly everything ms w g ->
  (forall id, shown id w = g id)
  /\ (forall t order, t = pre_type \/ t = post_type ->
        NoDup (map h_id (listed t order w))
        /\ forall id c, (exists h, In h (listed t order w) /\ h_id h = id /\ card_of h = c) <-> (g id = Some c /\ c_type c = t))
  /\ (forall order, NoDup (map h_id (listed "" order w))
        /\ forall id c, (exists h, In h (listed "" order w) /\ h_id h = id /\ card_of h = c)
             <-> (g id = Some c /\ (c_type c = pre_type \/ c_type c = post_type))).
Proof. exact orderly_seen. Qed.
Print Assumptions C42_orderly_seen.

(** One thing after the other: what the calls answer; a refused one changes nothing. *)
Theorem C42_orderly_answers : forall ms w g, orderly everything ms w g ->
  (forall gen now b order, let id := if String.eqb (h_id b) "" then gen else h_id b in
     match accepted b with
     | Some c => exists h, snd (call (RRegister gen now b) order w) = AShow h /\ h_id h = id /\ card_of h = c
     | None => snd (call (RRegister gen now b) order w) = AErr /\ fst (call (RRegister gen now b) order w) = w
     end)
  /\ (forall id b order, match g id with
     | Some _ => exists h, snd (call (RUpdate id b) order w) = AShow h /\ h_id h = id /\ card_of h = card_of b
     | None => snd (call (RUpdate id b) order w) = AErr /\ fst (call (RUpdate id b) order w) = w
     end)
  /\ (forall id order, match g id with
     | Some _ => snd (call (RDelete id) order w) = AOk
     | None => snd (call (RDelete id) order w) = AErr /\ fst (call (RDelete id) order w) = w
     end).
Proof. exact orderly_answers. Qed.
Print Assumptions C42_orderly_answers.

(** One thing after the other: a stage makes just one call for each of its transactions and each hook of its type
    that is on, to the hook as last set, and none else. *)
Theorem C42_orderly_queued : forall ms w g q st ts order, orderly everything ms w g -> stages q st ts ->
  snd (call q order w) = AOk
  /\ (forall id n, times (tells id n) (new_calls q order w)
       = (if match g id with Some c => String.eqb (c_type c) st && c_active c | None => false end && String.eqb (n_stage n) st
          then times (fun x => String.eqb (fst x) (n_txn n) && String.eqb (snd x) (n_data n)) ts else 0))
  /\ (forall t, In t (new_calls q order w) -> g (h_id (t_hook t)) = Some (card_of (t_hook t))).
Proof. exact orderly_queued. Qed.
Print Assumptions C42_orderly_queued.

(** An attempt at a waiting call sends it (given time to), and leaves it waiting just if it was not accepted
    and there are attempts left; it notes when and how it went. *)
Theorem C42_tried : forall i now r w t more, nth_error (w_queue w) i = Some (t, S more) ->
  let w' := move_on (MTry i now r) w in
  let sends := (0 <? h_timeout (t_hook t))%Z in
  w_sent w' = w_sent w ++ (if sends then [t] else [])
  /\ w_queue w' = drop_nth i (w_queue w)
       ++ (if (sends && passed r) || Nat.eqb more 0 then [] else [(t, more)])
  /\ (exists h, w_hooks w' (h_id (t_hook t)) = Some h /\ card_of h = card_of (t_hook t)
        /\ h_last h = now /\ h_good h = (sends && passed r))
  /\ (forall x, x <> h_id (t_hook t) -> w_hooks w' x = w_hooks w x) /\ w_sets w' = w_sets w.
Proof. exact tried. Qed.
Print Assumptions C42_tried.

(** Which answers count as accepting a call. *)
Theorem C42_judged : forall r, passed r = true <-> accepts r.
Proof. exact judged. Qed.
Print Assumptions C42_judged.

(** An update leaves when the hook was registered, when it was last called and how that went. *)
Theorem C42_update_keeps : forall ms w g, orderly everything ms w g -> forall id b order h0,
  snd (call (RGet id) [] w) = AShow h0 ->
  exists h, snd (call (RUpdate id b) order w) = AShow h /\ history h = history h0
    /\ snd (call (RGet id) [] (fst (call (RUpdate id b) order w))) = AShow h.
Proof. exact update_keeps. Qed.
Print Assumptions C42_update_keeps.

(** These calls one after the other are the interleaved ones, stepped through with nothing failing. *)
Theorem C42_alone_plays : forall p i j order r w, nth_error (w_runs w) i = Some (j, p) ->
  exists n, play (repeat (EStep i Fine order r) n) w
    = with_runs (fst (alone i j order r p w)) (set_nth i (j, Done (snd (alone i j order r p w))) (w_runs w)).
Proof. exact alone_plays. Qed.
Print Assumptions C42_alone_plays.

(** Without [Unhurried]: a hook switched off while a call to it waits is on again once that call was tried. *)
Theorem C42_undone_refuted : exists ms w g id c, orderly (all_but Unhurried) ms w g
  /\ g id = Some c /\ c_active c = false
  /\ (exists c', shown id w = Some c' /\ c_active c' = true)
  /\ exists t, In t (new_calls (RBefore [("t2", "{}")]) [] w) /\ h_id (t_hook t) = id.
Proof. exact undone_refuted. Qed.
Print Assumptions C42_undone_refuted.

(** ... and a deleted one is shown again. *)
Theorem C42_back_refuted : exists ms w g id, orderly (all_but Unhurried) ms w g /\ g id = None /\ shown id w <> None.
Proof. exact back_refuted. Qed.
Print Assumptions C42_back_refuted.

(** Without [Same_type]: a hook registered again with the other type is called at both stages. *)
Theorem C42_both_refuted : exists ms w g id c, orderly (all_but Same_type) ms w g
  /\ g id = Some c /\ c_type c = post_type
  /\ (exists t, In t (new_calls (RBefore [("t1", "{}")]) [] w) /\ h_id (t_hook t) = id)
  /\ (exists t, In t (new_calls (RAfter [("t1", "{}")]) [] w) /\ h_id (t_hook t) = id).
Proof. exact both_refuted. Qed.
Print Assumptions C42_both_refuted.

(** A deleted hook whose type had been changed while calls to it waited is called for later transactions. *)
Theorem C42_deleted_refuted : exists es1 es2 es3 id,
  let w1 := play es1 blank in
  (forall i q p b, nth_error (w_runs w1) i = Some (JCall q, p) -> changes q id b -> is_done p)
  /\ (forall q b, In (EStart q) (es2 ++ es3) -> ~ changes q id b)
  /\ let w2 := play es2 (happen (EStart (RDelete id)) w1) in
     nth_error (w_runs w2) (List.length (w_runs w1)) = Some (JCall (RDelete id), Done AOk)
     /\ exists i t, In (i, t) (w_made (play es3 w2)) /\ List.length (w_runs w2) <= i /\ h_id (t_hook t) = id.
Proof. exact deleted_refuted. Qed.
Print Assumptions C42_deleted_refuted.

(** An update is not checked: with no time allowed and fifty retries, a hook that is on is called for a
    transaction, tried fifty-one times and never reached. *)
Theorem C42_silent_refuted : exists ms w g id c, orderly everything ms w g /\ g id = Some c /\ c_active c = true /\ c_retry c = 50%Z
  /\ (exists t, w_queue w = [(t, 51)] /\ h_id (t_hook t) = id)
  /\ forall rs, List.length rs = 51 ->
       let w' := fold_left (fun w r => move_on (MTry 0 7 r) w) rs w in w_queue w' = [] /\ w_sent w' = [].
Proof. exact silent_refuted. Qed.
Print Assumptions C42_silent_refuted.

(** A call made waits for an attempt, is under way, was accepted, or has had its last attempt. *)
Theorem C42_never_dropped : forall es i t, In (i, t) (w_made (play es blank)) ->
  (exists m, In (t, S m) (w_queue (play es blank)))
  \/ (exists j m p, nth_error (w_runs (play es blank)) j = Some (JTry t m, p))
  \/ (exists es1 es2 j m p, (es = es1 ++ es2)%list /\ nth_error (w_runs (play es1 blank)) j = Some (JTry t m, p)
        /\ (m = 0 \/ p = Done AOk)).
Proof. exact never_dropped. Qed.
Print Assumptions C42_never_dropped.
