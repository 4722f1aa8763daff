(** Fund lineage: allocation of debits to providers, the outbox and its worker.
    lineage_allocation.go, lineage_credit.go, lineage_debit.go, lineage_processing.go,
    lineage_worker.go, database/lineage.go. *)
From Coq Require Import ZArith List String Bool.
From Verif Require Import Base ChainModel.
Import ListNotations.
Local Open Scope string_scope.
Open Scope Z_scope.

(** ** Allocation *)

(** LineageSource and Allocation, lineage.go:45-60. *)
Record source := { so_id : string; so_bal : Z; so_at : Z }.
Record alloc := { al_id : string; al_amt : Z }.

(** sequentialAllocation, lineage_allocation.go:107-146. *)
Fixpoint sequential (l : list source) (remaining : Z) : list alloc :=
  match l with
  | [] => []
  | s :: r =>
    if remaining <=? 0 then [] else
    let a := if remaining <=? so_bal s then remaining else so_bal s in
    if a <=? 0 then sequential r remaining
    else {| al_id := so_id s; al_amt := a |} :: sequential r (remaining - a)
  end.
Definition sequential_allocation (l : list source) (amount : Z) : list alloc :=
  if amount <=? 0 then [] else sequential l amount.

(** The loop of proportionalAllocation, lineage_allocation.go:184-212. *)
Fixpoint proportional (l : list source) (eff total remaining : Z) : list alloc :=
  match l with
  | [] => []
  | s :: r =>
    let a0 := match r with [] => remaining | _ => (eff * so_bal s) / total end in
    let a := if so_bal s <? a0 then so_bal s else a0 in
    if a <=? 0 then proportional r eff total remaining
    else {| al_id := so_id s; al_amt := a |} :: proportional r eff total (remaining - a)
  end.
Definition total_of (l : list source) : Z := sumz so_bal l.
(** proportionalAllocation, lineage_allocation.go:158-215. *)
Definition proportional_allocation (l : list source) (amount : Z) : list alloc :=
  if amount <=? 0 then [] else
  let total := total_of l in
  if total =? 0 then [] else
  let eff := if total <? amount then total else amount in
  proportional l eff total eff.

(** calculateAllocation, lineage_allocation.go:77-97. sort.Slice leaves sources of the
    same instant in any order; here they stay as they are. *)
Definition calculate_allocation (l : list source) (amount : Z) (strategy : string) : list alloc :=
  match l with
  | [] => []
  | _ => if String.eqb strategy "LIFO" then sequential_allocation (sort_by (fun s => - so_at s) l) amount
         else if String.eqb strategy "PROPORTIONAL" then proportional_allocation l amount
         else sequential_allocation (sort_by so_at l) amount
  end.

(** ** The outbox worker *)

(** A row of blnk.transactions that matters here. Shadow credits and receives move money
    from the shadow balance to the aggregate, releases move it back.
    [w_entry], [w_att]: the outbox entry and the attempt it was posted for (not stored; for the theorems). *)
Inductive wkind := WCredit | WReceive | WRelease | WOther.
Record wrow := { w_ref : string; w_kind : wkind; w_prov : string; w_shadow : string; w_amt : Z; w_inflight : bool; w_entry : nat; w_att : nat }.

(** blnk.lineage_mappings; (balance_id, provider) is unique. *)
Record mapping := { mp_bal : string; mp_prov : string; mp_shadow : string; mp_at : Z }.

(** blnk.lineage_outbox with what it refers to in blnk.transactions. *)
Inductive estatus := EPending | EProcessing | ECompleted | EFailed.
Record entry := { en_ref : string; en_amt : Z; en_src : string; en_dst : string; en_prov : string; en_inflight : bool;
                  en_status : estatus; en_attempts : nat; en_max : nat; en_until : option Z }.

(** What is known of the balances: whether they track lineage (and have an identity), the
    identifier of the identity (lineage_allocation_metadata.go:81-100), the strategy. *)
Record lcfg := { k_track : string -> bool; k_ident : string -> string; k_strat : string -> string; k_lock : Z }.

(** The indicators of the shadow and aggregate balances, lineage_credit.go:92-93. Balances of
    one currency are considered. *)
Definition shadow_of (k : lcfg) (b p : string) : string := "@" ++ p ++ "_" ++ k_ident k b ++ "_lineage".
Definition aggregate_of (k : lcfg) (b : string) : string := "@" ++ k_ident k b ++ "_lineage".
(** lineage_debit.go:115-121, lineage_credit.go:156 *)
Definition release_ref (parent p : string) : string := parent ++ "_release_" ++ p.
Definition receive_ref (parent p : string) : string := parent ++ "_receive_" ++ p.
Definition credit_ref (parent p : string) : string := parent ++ "_shadow_" ++ p.

(** What an attempt still has to do. *)
Inductive act :=
| XBegin
| XLock (keys : list string)
| XUnlock
| XCredit (p : string)
| XCreditMap (p : string)
| XMaps
| XAlloc (ms : list mapping) (dest : bool)
| XCheck (p sh : string) (amt : Z) (dest : bool)
| XRelease (p sh : string) (amt : Z)
| XReceive (p : string) (amt : Z)
| XMapDest (p : string).

Record attempt := { at_id : nat; at_entry : nat; at_until : Z; at_todo : list act }.

Record lst := { l_now : Z; l_rows : list wrow; l_maps : list mapping; l_entries : list entry;
                l_locks : list (string * nat); l_atts : list attempt; l_next : nat }.

(** DebitBalance and CreditBalance of a shadow balance: settled rows only. *)
Definition shadow_in (rows : list wrow) (sh : string) : Z :=
  sumz (fun w => match w_kind w with
                 | WCredit | WReceive => if String.eqb (w_shadow w) sh && negb (w_inflight w) then w_amt w else 0
                 | _ => 0 end) rows.
Definition shadow_out (rows : list wrow) (sh : string) : Z :=
  sumz (fun w => match w_kind w with
                 | WRelease => if String.eqb (w_shadow w) sh && negb (w_inflight w) then w_amt w else 0
                 | _ => 0 end) rows.
Definition available (rows : list wrow) (sh : string) : Z := shadow_in rows sh - shadow_out rows sh.

(** getLineageSources, lineage_allocation.go:29-66. *)
Definition sources (rows : list wrow) (ms : list mapping) : list source :=
  flat_map (fun m => if (0 <? shadow_in rows (mp_shadow m)) && (0 <? available rows (mp_shadow m))
                     then [{| so_id := mp_shadow m; so_bal := available rows (mp_shadow m); so_at := mp_at m |}] else []) ms.

Definition row_by_ref (rows : list wrow) (ref : string) : option wrow := find (fun w => String.eqb (w_ref w) ref) rows.
Definition ref_used (rows : list wrow) (ref : string) : bool := match row_by_ref rows ref with Some _ => true | None => false end.

(** remainingDebitAmount, lineage_debit.go:125-143. *)
Definition prior_released (rows : list wrow) (parent : string) (ms : list mapping) : Z :=
  sumz (fun m => match row_by_ref rows (release_ref parent (mp_prov m)) with Some w => w_amt w | None => 0 end) ms.

(** GetLineageMappings: ORDER BY created_at. *)
Definition maps_of (l : list mapping) (b : string) : list mapping :=
  sort_by mp_at (filter (fun m => String.eqb (mp_bal m) b) l).
(** UpsertLineageMapping, database/lineage.go:33-55. *)
Definition has_map (l : list mapping) (b p : string) : bool := existsb (fun m => String.eqb (mp_bal m) b && String.eqb (mp_prov m) p) l.
Definition upsert_map (k : lcfg) (now : Z) (b p : string) (l : list mapping) : list mapping :=
  if has_map l b p then l
  else l ++ [{| mp_bal := b; mp_prov := p; mp_shadow := shadow_of k b p; mp_at := now |}].

(** findMappingByShadowID, lineage_allocation.go:224-231. *)
Definition prov_of (ms : list mapping) (sh : string) : string :=
  match find (fun m => String.eqb (mp_shadow m) sh) ms with Some m => mp_prov m | None => "" end.

(** HasPendingCreditOutbox, database/lineage.go:437-449. *)
Definition pending_credit (k : lcfg) (es : list entry) (b : string) : bool :=
  existsb (fun e => String.eqb (en_dst e) b && negb (String.eqb (en_prov e) "") && k_track k (en_dst e) &&
                    match en_status e with EPending | EProcessing => true | _ => false end) es.

(** The result of one database or redis call. [OLost]: done, but reported as an error;
    [OPrep]: the destination's lineage balances could not be prepared. *)
Inductive outcome := OOk | OFail | OLost | OPrep.

Definition set_entry (k : nat) (f : entry -> entry) (l : list entry) : list entry :=
  match nth_error l k with
  | Some e => firstn k l ++ f e :: skipn (S k) l
  | None => l
  end.
Definition with_status (s : estatus) (u : option Z) (n : nat) (e : entry) : entry :=
  {| en_ref := en_ref e; en_amt := en_amt e; en_src := en_src e; en_dst := en_dst e; en_prov := en_prov e; en_inflight := en_inflight e;
     en_status := s; en_attempts := n; en_max := en_max e; en_until := u |}.
(** MarkOutboxFailed, database/lineage.go:370-384; MarkOutboxCompleted, 356-366. *)
Definition mark_failed (e : entry) : entry :=
  with_status (if Nat.leb (en_max e) (S (en_attempts e)) then EFailed else EPending) None (S (en_attempts e)) e.
Definition mark_completed (e : entry) : entry := with_status ECompleted None (en_attempts e) e.

Definition drop_att (id : nat) (l : list attempt) : list attempt := filter (fun a => negb (Nat.eqb (at_id a) id)) l.
Definition set_todo (id : nat) (todo : list act) (l : list attempt) : list attempt :=
  map (fun a => if Nat.eqb (at_id a) id then {| at_id := at_id a; at_entry := at_entry a; at_until := at_until a; at_todo := todo |} else a) l.
Definition unlock (id : nat) (l : list (string * nat)) : list (string * nat) := filter (fun x => negb (Nat.eqb (snd x) id)) l.
Definition locked (l : list (string * nat)) (key : string) : bool := existsb (fun x => String.eqb (fst x) key) l.

Definition fail_att (s : lst) (a : attempt) (rows : list wrow) (maps : list mapping) : lst :=
  {| l_now := l_now s; l_rows := rows; l_maps := maps; l_entries := set_entry (at_entry a) mark_failed (l_entries s);
     l_locks := unlock (at_id a) (l_locks s); l_atts := drop_att (at_id a) (l_atts s); l_next := l_next s |}.
Definition cont (s : lst) (a : attempt) (rows : list wrow) (maps : list mapping) (locks : list (string * nat)) (todo : list act) : lst :=
  {| l_now := l_now s; l_rows := rows; l_maps := maps; l_entries := l_entries s;
     l_locks := locks; l_atts := set_todo (at_id a) todo (l_atts s); l_next := l_next s |}.

(** Posting a shadow transaction (QueueTransaction with skip_queue): one database
    transaction, refused if the reference is used. *)
Definition post (s : lst) (a : attempt) (w : wrow) (o : outcome) (rest : list act) : lst :=
  if ref_used (l_rows s) (w_ref w) then fail_att s a (l_rows s) (l_maps s)
  else match o with
       | OFail => fail_att s a (l_rows s) (l_maps s)
       | OLost => fail_att s a (l_rows s ++ [w]) (l_maps s)
       | _ => cont s a (l_rows s ++ [w]) (l_maps s) (l_locks s) rest
       end.

(** validateLineageProvider, lineage_processing.go:104-129. *)
Definition provider_valid (k : lcfg) (s : lst) (e : entry) : bool :=
  negb (String.eqb (en_prov e) "") && (negb (k_track k (en_src e)) || has_map (l_maps s) (en_src e) (en_prov e)).

Definition run_act (k : lcfg) (s : lst) (a : attempt) (e : entry) (x : act) (rest : list act) (o : outcome) : lst :=
  let rows := l_rows s in let maps := l_maps s in let locks := l_locks s in
  match x with
  | XBegin => (* processLineage, lineage_processing.go:33-74 *)
    match o with
    | OFail => fail_att s a rows maps
    | _ => cont s a rows maps locks
             ((if provider_valid k s e && k_track k (en_dst e)
               then [XLock [shadow_of k (en_dst e) (en_prov e); aggregate_of k (en_dst e)]; XCredit (en_prov e); XCreditMap (en_prov e); XUnlock] else [])
              ++ (if k_track k (en_src e) then [XMaps] else []))
    end
  | XLock keys => (* acquireLineageLocks, lineage_debit.go:187-204; the lease is longer than the attempt *)
    match o with
    | OFail => fail_att s a rows maps
    | _ => if existsb (locked locks) keys then fail_att s a rows maps
           else cont s a rows maps (map (fun key => (key, at_id a)) keys ++ locks)%list rest
    end
  | XUnlock => cont s a rows maps (unlock (at_id a) locks) rest
  | XCredit p => (* queueShadowCreditTransaction, lineage_credit.go:145-174 *)
    post s a {| w_ref := credit_ref (en_ref e) p; w_kind := WCredit; w_prov := p; w_shadow := shadow_of k (en_dst e) p; w_amt := en_amt e;
                w_inflight := en_inflight e; w_entry := at_entry a; w_att := at_id a |} o rest
  | XCreditMap p => (* lineage_credit.go:55-59: an error is only logged *)
    match o with
    | OFail => cont s a rows maps locks rest
    | _ => cont s a rows (upsert_map k (l_now s) (en_dst e) p maps) locks rest
    end
  | XMaps => (* processLineageDebit, lineage_debit.go:36-76 *)
    match o with
    | OFail => fail_att s a rows maps
    | _ =>
      let ms := maps_of maps (en_src e) in
      match ms with
      | [] => if pending_credit k (l_entries s) (en_src e) then fail_att s a rows maps else cont s a rows maps locks rest
      | _ =>
        let dest := k_track k (en_dst e) && match o with OPrep => false | _ => true end in
        cont s a rows maps locks
          (XLock (nodup string_dec (map mp_shadow ms ++ [aggregate_of k (en_src e)] ++
                  (if dest then flat_map (fun m => [shadow_of k (en_dst e) (mp_prov m); aggregate_of k (en_dst e)]) ms else [])))
           :: XAlloc ms dest :: rest)%list
      end
    end
  | XAlloc ms dest => (* lineage_debit.go:84-104; the two reads are one step: the locks are held *)
    match o with
    | OFail => fail_att s a rows maps
    | _ =>
      let remaining := en_amt e - prior_released rows (en_ref e) ms in
      if remaining <=? 0 then cont s a rows maps locks rest
      else cont s a rows maps locks
             (map (fun al => XCheck (prov_of ms (al_id al)) (al_id al) (al_amt al) dest)
                  (calculate_allocation (sources rows ms) remaining (k_strat k (en_src e))) ++ rest)%list
    end
  | XCheck p sh amt dest => (* processAllocations, lineage_debit.go:243-268 *)
    match o with
    | OFail => fail_att s a rows maps
    | _ => if ref_used rows (release_ref (en_ref e) p) then cont s a rows maps locks rest
           else cont s a rows maps locks (XRelease p sh amt :: (if dest then [XReceive p amt; XMapDest p] else []) ++ rest)%list
    end
  | XRelease p sh amt => (* queueReleaseTransaction, lineage_debit.go:284-309 *)
    post s a {| w_ref := release_ref (en_ref e) p; w_kind := WRelease; w_prov := p; w_shadow := sh; w_amt := amt;
                w_inflight := en_inflight e; w_entry := at_entry a; w_att := at_id a |} o rest
  | XReceive p amt => (* queueReceiveTransaction, lineage_debit.go:397-424 *)
    post s a {| w_ref := receive_ref (en_ref e) p; w_kind := WReceive; w_prov := p; w_shadow := shadow_of k (en_dst e) p; w_amt := amt;
                w_inflight := en_inflight e; w_entry := at_entry a; w_att := at_id a |} o rest
  | XMapDest p => (* lineage_debit.go:345-355 *)
    match o with
    | OFail => fail_att s a rows maps
    | _ => cont s a rows (upsert_map k (l_now s) (en_dst e) p maps) locks rest
    end
  end.

Inductive levent :=
| LTick (d : Z)
| LAccept (e : entry)                        (* recorded with its transaction; RecordTransactionWithBalancesAndOutbox *)
| LClaim (i : nat)                           (* ClaimPendingOutboxEntries; any order, any number of workers *)
| LStep (id : nat) (o : outcome)
| LFinish (id : nat)                         (* MarkOutboxCompleted *)
| LCrash (id : nat)                          (* the process dies, or marking fails *)
| LExpire (key : string)                     (* the lease of a crashed attempt ends *)
| LSettle (ref : string)                     (* an inflight shadow is committed, lineage_shadow.go:31-66 *)
| LOther (ref : string) (amt : Z).           (* somebody's transaction with some reference *)

Definition find_att (l : list attempt) (id : nat) : option attempt := find (fun a => Nat.eqb (at_id a) id) l.

(** ClaimPendingOutboxEntries, database/lineage.go:284-303. *)
Definition claimable (now : Z) (e : entry) : bool :=
  match en_status e with EPending | EProcessing => true | _ => false end &&
  match en_until e with None => true | Some u => u <? now end && Nat.ltb (en_attempts e) (en_max e).

Definition lstep (k : lcfg) (s : lst) (ev : levent) : option lst :=
  match ev with
  | LTick d => if d <=? 0 then None else
      Some {| l_now := l_now s + d; l_rows := l_rows s; l_maps := l_maps s; l_entries := l_entries s; l_locks := l_locks s; l_atts := l_atts s; l_next := l_next s |}
  | LAccept e =>
      match en_status e, en_until e, en_attempts e with
      | EPending, None, O => if (0 <? en_amt e) then
          Some {| l_now := l_now s; l_rows := l_rows s; l_maps := l_maps s; l_entries := l_entries s ++ [e]; l_locks := l_locks s; l_atts := l_atts s; l_next := l_next s |}
          else None
      | _, _, _ => None
      end
  | LClaim i =>
      match nth_error (l_entries s) i with
      | Some e => if claimable (l_now s) e then
          Some {| l_now := l_now s; l_rows := l_rows s; l_maps := l_maps s;
                  l_entries := set_entry i (with_status EProcessing (Some (l_now s + k_lock k)) (en_attempts e)) (l_entries s);
                  l_locks := l_locks s;
                  l_atts := {| at_id := l_next s; at_entry := i; at_until := l_now s + k_lock k; at_todo := [XBegin] |} :: l_atts s;
                  l_next := S (l_next s) |}
          else None
      | None => None
      end
  | LStep id o =>
      match find_att (l_atts s) id with
      | Some a => match at_todo a, nth_error (l_entries s) (at_entry a) with
                  | x :: rest, Some e => Some (run_act k s a e x rest o)
                  | _, _ => None
                  end
      | None => None
      end
  | LFinish id =>
      match find_att (l_atts s) id with
      | Some a => match at_todo a with
                  | [] => Some {| l_now := l_now s; l_rows := l_rows s; l_maps := l_maps s; l_entries := set_entry (at_entry a) mark_completed (l_entries s);
                                  l_locks := unlock id (l_locks s); l_atts := drop_att id (l_atts s); l_next := l_next s |}
                  | _ => None
                  end
      | None => None
      end
  | LCrash id =>
      match find_att (l_atts s) id with
      | Some a => Some {| l_now := l_now s; l_rows := l_rows s; l_maps := l_maps s; l_entries := l_entries s; l_locks := l_locks s;
                          l_atts := drop_att id (l_atts s); l_next := l_next s |}
      | None => None
      end
  | LExpire key =>
      if existsb (fun x => String.eqb (fst x) key && existsb (fun a => Nat.eqb (at_id a) (snd x)) (l_atts s)) (l_locks s) then None
      else Some {| l_now := l_now s; l_rows := l_rows s; l_maps := l_maps s; l_entries := l_entries s;
                   l_locks := filter (fun x => negb (String.eqb (fst x) key)) (l_locks s); l_atts := l_atts s; l_next := l_next s |}
  | LSettle ref =>
      Some {| l_now := l_now s;
              l_rows := map (fun w => if String.eqb (w_ref w) ref
                                      then {| w_ref := w_ref w; w_kind := w_kind w; w_prov := w_prov w; w_shadow := w_shadow w; w_amt := w_amt w;
                                              w_inflight := false; w_entry := w_entry w; w_att := w_att w |} else w) (l_rows s);
              l_maps := l_maps s; l_entries := l_entries s; l_locks := l_locks s; l_atts := l_atts s; l_next := l_next s |}
  | LOther ref amt =>
      if (amt <=? 0) || ref_used (l_rows s) ref then None else
      Some {| l_now := l_now s;
              l_rows := l_rows s ++ [{| w_ref := ref; w_kind := WOther; w_prov := ""; w_shadow := ""; w_amt := amt; w_inflight := false; w_entry := O; w_att := O |}];
              l_maps := l_maps s; l_entries := l_entries s; l_locks := l_locks s; l_atts := l_atts s; l_next := l_next s |}
  end.

Definition linit : lst := {| l_now := 0; l_rows := []; l_maps := []; l_entries := []; l_locks := []; l_atts := []; l_next := O |}.
