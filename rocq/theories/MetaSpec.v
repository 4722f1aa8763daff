(** What those who send metadata rely on. *)
From Coq Require Import List String Bool.
From Verif Require Import BodyModel MetaModel.
Import ListNotations.
Local Open Scope string_scope.

(** An entry of metadata as it is stored. *)
Definition entry (m : json) (key : string) : option json := match m with JObj l => get key l | _ => None end.

Inductive entity := One (k : kind) (id : string) | Txn (id : string).
(** The metadata of an entity, if there is such an entity. *)
Definition meta_of (y : system) (x : entity) : option json :=
  match x with
  | One k id => b_one (y_tables y) k id
  | Txn id => option_map t_meta (find (fun t => String.eqb (t_id t) id) (b_txns (y_tables y)))
  end.
Definition parent_of (y : system) (id : string) : option string :=
  option_map t_parent (find (fun t => String.eqb (t_id t) id) (b_txns (y_tables y))).

(** The entities an update of [id] is meant for: the one with that id and, for a transaction or
    a bulk, those recorded as its parts. *)
Definition meant (y : system) (id : string) (x : entity) : Prop :=
  match x with
  | One KLedger i => i = id /\ prefix "ldg_" id = true
  | One KBalance i => i = id /\ prefix "bln_" id = true
  | One KIdentity i => i = id /\ prefix "idt_" id = true
  | Txn i => (prefix "txn_" id = true \/ prefix "bulk_" id = true) /\ (i = id \/ parent_of y i = Some id)
  end.
Definition is_txn (id : string) : bool := prefix "txn_" id || prefix "bulk_" id.

Definition is_done (p : prog) : Prop := exists a, p = Done a.

(** The event is a step of an update of [id] with [m]. *)
Definition by_update (y : system) (e : event) (id : string) (m : fields) : Prop :=
  exists i o j, e = EStep i o /\ nth_error (y_jobs y) i = Some j /\ j_id j = id /\ j_sent j = m.

(** Updates and other changes of a ledger, balance or identity come one after the other. *)
Definition alone (e : event) (y : system) : Prop :=
  match e with
  | EStart id _ | EWrite (WReplace id _) | EWrite (WRemove id) =>
    is_txn id = true \/ forall j, In j (y_jobs y) -> j_id j = id -> is_done (j_prog j)
  | _ => True
  end.
(** An object has each name once. *)
Definition fits (e : event) : Prop := match e with EStart _ m => NoDup (map fst m) | _ => True end.

Inductive history (P : event -> system -> Prop) : list event -> system -> Prop :=
| h_nil : history P [] nothing
| h_snoc es e y : history P es y -> fits e -> P e y -> history P (es ++ [e]) (happen e y).
Definition anything : event -> system -> Prop := fun _ _ => True.
