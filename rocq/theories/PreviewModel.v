(** Dry runs: projections of posts, bulks, refunds, commits and voids. *)
From Coq Require Import ZArith QArith List String Bool.
From Verif Require Import Base MoneyModel SplitModel BalanceModel LedgerModel LedgerProgs.
Import ListNotations.
Local Open Scope string_scope.
Open Scope Z_scope.
Open Scope prog_scope.

(** previewBalance, transaction_dryrun.go:405-412, and the balance entry of an answer
    (balanceProjection, 640-668): the balance before and after. The role and the
    "available" figure, which is a function of the counters, are left out. *)
Record projection := { pj_virtual : bool; pj_before : balance; pj_after : balance }.

(** TransactionPreview (model/transaction.go): the rejection, None for would_apply:
    every path sets the one exactly when it clears the other. Amounts, legs, notes and
    echoed fields are left out. *)
Record preview := { pv_rejection : option err; pv_balances : list projection }.
Definition would_apply (p : preview) : bool := match pv_rejection p with None => true | Some _ => false end.

(** The stand-in for an indicator without a balance, transaction_dryrun.go:447-455. *)
Definition stand_in (ind cur : string) : balance := fresh_balance ind ind cur false false.

(** resolveBalanceForPreview and fetchBalanceForPreview, transaction_dryrun.go:433-487.
    Simplified: a database error of the indicator lookup, which also yields a stand-in,
    is left out. *)
Definition preview_end (cfg : config) (x cur : string) : prog (res (balance * bool)) :=
  if String.eqb x "" then Ret (Err EBalanceNotFound)
  else if starts_with_at x then
    b <- act (OGetInd x cur) ;;
    match b with Some b => Ret (Ok (b, false)) | None => Ret (Ok (stand_in x cur, true)) end
  else b <-? get_balance cfg x ;; Ret (Ok (b, false)).

(** normalizePreviewStatus, transaction_dryrun.go:217-232. *)
Definition normalize (t : txn) : txn :=
  match t_status t with
  | SCommit | SVoid => t
  | _ => with_status t (if t_inflight t then SInflight else SApplied)
  end.

(** sameBalanceErr, transaction_dryrun.go:571-592. *)
Definition same_balance (a b : balance) : option err :=
  if String.eqb (b_id a) (b_id b) then Some EConflict else None.

(** processBalances on the copies: both are updated, or the error (the partial updates
    an error leaves behind are not reported, transaction_dryrun.go:271-281). When both
    ends are the same balance the copies are separate objects. *)
Definition project (t : txn) (src dst : balance) : option err * balance * balance :=
  match apply_to_balances t src dst with
  | Err e => (Some e, src, dst)
  | Ok (_, src', dst') => (None, src', dst')
  end.

(** previewSingleTransaction with notePreviewCaveats, transaction_dryrun.go:235-299,
    594-633: the balances are read before the locks are taken, and the locks of
    stand-ins are their indicators. A later reason replaces an earlier one. *)
Definition preview_single (cfg : config) (t : txn) : prog (res preview) :=
  src <-? preview_end cfg (t_src t) (t_cur t) ;;
  dst <-? preview_end cfg (t_dst t) (t_cur t) ;;
  let ks := lock_set [b_id (fst src); b_id (fst dst)] in
  ok <- wait_lock (c_lock_attempts cfg) ks ;;
  if ok then
    used <- (if String.eqb (t_ref t) "" then Ret false else act (ORefExists (t_ref t))) ;;
    unlock_keys (rev ks) ;;;
    let '(why, src', dst') := project t (fst src) (fst dst) in
    let why := match why with
               | Some e => Some e
               | None => if used then Some EDupReference else same_balance (fst src) (fst dst)
               end in
    let after (b b' : balance) := match why with None => b' | Some _ => b end in
    Ret (Ok {| pv_rejection := why;
               pv_balances := [{| pj_virtual := snd src; pj_before := fst src; pj_after := after (fst src) src' |};
                               {| pj_virtual := snd dst; pj_before := fst dst; pj_after := after (fst dst) dst' |}] |})
  else Ret (Err ELockHeld).

(** previewBalanceSet, transaction_dryrun.go:489-553: one working copy per identifier,
    in the order of first use; the currency is not part of the key. *)
Definition balance_set := list (string * projection).
Fixpoint set_get (x : string) (w : balance_set) : option projection :=
  match w with
  | [] => None
  | (k, p) :: r => if String.eqb k x then Some p else set_get x r
  end.
Fixpoint set_put (x : string) (b : balance) (w : balance_set) : balance_set :=
  match w with
  | [] => []
  | (k, p) :: r => if String.eqb k x then (k, {| pj_virtual := pj_virtual p; pj_before := pj_before p; pj_after := b |}) :: r
                   else (k, p) :: set_put x b r
  end.
Definition set_resolve (cfg : config) (w : balance_set) (x cur : string) : prog (res (balance_set * balance)) :=
  match set_get x w with
  | Some p => Ret (Ok (w, pj_after p))
  | None =>
    r <-? preview_end cfg x cur ;;
    Ret (Ok ((w ++ [(x, {| pj_virtual := snd r; pj_before := fst r; pj_after := fst r |})])%list, fst r))
  end.
Definition projections (w : balance_set) : list projection := map snd w.

(** One leg against the working copies (the loop bodies at transaction_dryrun.go:352-376
    and transaction_dryrun_bulk.go:198-218). Simplified: the copies stay as they were
    when the leg fails. *)
Definition project_leg (cfg : config) (w : balance_set) (t : txn) : prog (res (balance_set * option err)) :=
  s <-? set_resolve cfg w (t_src t) (t_cur t) ;;
  d <-? set_resolve cfg (fst s) (t_dst t) (t_cur t) ;;
  match same_balance (snd s) (snd d) with
  | Some e => Ret (Ok (fst d, Some e))
  | None =>
    let '(why, s', d') := project t (snd s) (snd d) in
    Ret (Ok (match why with None => set_put (t_dst t) d' (set_put (t_src t) s' (fst d)) | Some _ => fst d end, why))
  end.

(** The legs as they would be applied: ApplyPrecision after normalizePreviewStatus. *)
Definition ready_leg (t : txn) : txn := apply_precision_txn (normalize t).

(** The loop over the legs of a split recorded synchronously, which stops at the first
    failure (transaction_dryrun.go:343-397, transaction_dryrun_bulk.go:191-241). *)
Fixpoint project_legs (cfg : config) (w : balance_set) (legs : list txn) : prog (res (balance_set * option err)) :=
  match legs with
  | [] => Ret (Ok (w, None))
  | l :: r =>
    x <-? project_leg cfg w (ready_leg l) ;;
    match snd x with
    | Some e => Ret (Ok (fst x, Some e))
    | None => project_legs cfg (fst x) r
    end
  end.

(** The loop over the legs of a queued split: each on its own (same lines). *)
Fixpoint project_apart (cfg : config) (legs : list txn) : prog (res preview) :=
  match legs with
  | [] => Ret (Ok {| pv_rejection := None; pv_balances := [] |})
  | l :: r =>
    x <-? project_leg cfg [] (ready_leg l) ;;
    p <-? project_apart cfg r ;;
    Ret (Ok {| pv_rejection := match snd x with Some e => Some e | None => pv_rejection p end;
               pv_balances := (projections (fst x) ++ pv_balances p)%list |})
  end.

(** previewSplitTransaction, transaction_dryrun.go:317-402. *)
Definition preview_split (cfg : config) (e : split_env) (t : txn) : prog (res preview) :=
  legs <-? split_txn e t ;;
  if t_skipq t then
    x <-? project_legs cfg [] legs ;;
    Ret (Ok {| pv_rejection := snd x; pv_balances := projections (fst x) |})
  else project_apart cfg legs.

(** PreviewTransaction, transaction_dryrun.go:43-72. *)
Definition preview_transaction (cfg : config) (e : split_env) (t : txn) : prog (res preview) :=
  let t := apply_precision_txn (normalize t) in
  match t_sources t, t_dests t with
  | [], [] => preview_single cfg t
  | _, _ => preview_split cfg e t
  end.

(** ** Bulks *)

(** bulkItemDuplicateReference, transaction_dryrun_bulk.go:122-153. *)
Definition duplicate_ref (ref : string) (seen : list string) : prog bool :=
  if String.eqb ref "" then Ret false
  else if existsb (String.eqb ref) seen then Ret true
  else act (ORefExists ref).

(** previewBulkItem, transaction_dryrun_bulk.go:160-246, in cumulative mode. *)
Definition cumulative_item (cfg : config) (e : split_env) (w : balance_set) (t : txn) : prog (res (balance_set * option err)) :=
  let t := ready_leg t in
  match t_sources t, t_dests t with
  | [], [] => project_legs cfg w [t]
  | _, _ => legs <-? split_txn e t ;; project_legs cfg w legs
  end.

(** The loop of PreviewBulkTransactions, transaction_dryrun_bulk.go:70-99: every item is
    projected, also after one has failed. The batch would apply if all items would; the
    first rejection stands for the batch. *)
Fixpoint bulk_items (cfg : config) (e : split_env) (infl skipq : bool) (w : balance_set) (seen : list string)
    (ts : list txn) : prog (res (balance_set * option err)) :=
  match ts with
  | [] => Ret (Ok (w, None))
  | t :: r =>
    let t := with_flags t infl (t_allow t) skipq (t_atomic t) (t_meta t) in
    dup <- duplicate_ref (t_ref t) seen ;;
    if dup then
      x <-? bulk_items cfg e infl skipq w seen r ;;
      Ret (Ok (fst x, Some EDupReference))
    else
      let seen := if String.eqb (t_ref t) "" then seen else t_ref t :: seen in
      y <-? (if skipq then cumulative_item cfg e w t
             else p <-? preview_transaction cfg e t ;; Ret (Ok (w, pv_rejection p))) ;;
      x <-? bulk_items cfg e infl skipq (fst y) seen r ;;
      Ret (Ok (fst x, match snd y with Some er => Some er | None => snd x end))
  end.

(** PreviewBulkTransactions, transaction_dryrun_bulk.go:43-114 (balances are listed in
    cumulative mode only). *)
Definition preview_bulk (cfg : config) (e : split_env) (ts : list txn) (infl skipq : bool) : prog (res preview) :=
  x <-? bulk_items cfg e infl skipq [] [] ts ;;
  Ret (Ok {| pv_rejection := snd x; pv_balances := if skipq then projections (fst x) else [] |}).

(** ** Commits and voids *)

(** buildInflightSettlementForPreview, transaction_dryrun_inflight.go:205-238. *)
Definition settlement (t : txn) (is_void : bool) (amount c : Z) : res txn :=
  let left := t_precise t - c in
  if is_void then
    if left =? 0 then Err EAlreadyCommitted
    else Ok (with_status (with_money t left (q_of_ratio left (t_prec t)) (t_prec t)) SVoid)
  else match commit_amount t amount left with
       | Err e => Err e
       | Ok (p, a) => Ok (with_status (with_money t p a (t_prec t)) SCommit)
       end.

(** The loop of PreviewInflightAction, transaction_dryrun_inflight.go:98-142. The first
    error stands for the collected ones. *)
Fixpoint action_legs (cfg : config) (is_void : bool) (amount : Z) (w : balance_set) (legs : list txn)
    : prog (res (balance_set * option err)) :=
  match legs with
  | [] => Ret (Ok (w, None))
  | l :: r =>
    c <- act (OCommitted (t_id l)) ;;
    y <-? match settlement l is_void amount c with
          | Err e => Ret (Ok (w, Some e))
          | Ok t => project_leg cfg w t
          end ;;
    x <-? action_legs cfg is_void amount (fst y) r ;;
    Ret (Ok (fst x, match snd y with Some e => Some e | None => snd x end))
  end.

(** PreviewInflightAction with inflightLegsForPreview, transaction_dryrun_inflight.go:38-202:
    an id that is no hold is expanded to the holds under it. *)
Definition preview_action (cfg : config) (id : string) (is_void : bool) (amount : Z) : prog (res preview) :=
  let rejected e := Ret (Ok {| pv_rejection := Some e; pv_balances := [] |}) in
  let legs_of legs := x <-? action_legs cfg is_void amount [] legs ;;
                      Ret (Ok {| pv_rejection := snd x; pv_balances := projections (fst x) |}) in
  t <- fetch_inflight id ;;
  match t with
  | Ok t => legs_of [t]
  | Err EAlreadyVoided => rejected EAlreadyVoided
  | Err e =>
    legs <- act (OInflightBy id) ;;
    match legs, e with
    | [], ENotInflight => rejected ENotInflight
    | [], e => Ret (Err e)
    | legs, _ => legs_of legs
    end
  end.

(** ** Refunds *)

(** validateTransactionForRefund on a listed transaction (transaction_refunds.go:157-190)
    and the loop of PreviewRefund, transaction_dryrun.go:117-175. *)
Fixpoint refund_legs (cfg : config) (w : balance_set) (legs : list txn) : prog (res (balance_set * option err)) :=
  match legs with
  | [] => Ret (Ok (w, None))
  | l :: r =>
    done <- act (ORefunded (t_id l) (t_src l) (t_dst l)) ;;
    y <-? (if done then Ret (Ok (w, Some EAlreadyRefunded))
           else project_leg cfg w (ready_leg (prepare_refund l "" true (fun m => m)))) ;;
    x <-? refund_legs cfg (fst y) r ;;
    Ret (Ok (fst x, match snd y with Some e => Some e | None => snd x end))
  end.

(** PreviewRefund, transaction_dryrun.go:88-196. *)
Definition preview_refund (cfg : config) (id : string) : prog (res preview) :=
  legs <- act (ORefundable id) ;;
  match legs with
  | [] => Ret (Err ETxnNotFound)
  | _ => x <-? refund_legs cfg [] legs ;;
         Ret (Ok {| pv_rejection := snd x; pv_balances := projections (fst x) |})
  end.
