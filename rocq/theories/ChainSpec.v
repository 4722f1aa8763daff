(** What the hash chain promises, independently of how rows are sealed or verified. *)
From Coq Require Import ZArith List String Ascii Bool Permutation.
From Verif Require Import Base ChainModel.
Import ListNotations.
Open Scope Z_scope.

(** The sealed columns of a transaction. *)
Definition sealed_columns (f : facts) : string * string * string * string * string * string * string * string * Z :=
  (f_txid f, text (f_src f), text (f_dst f), text (f_amount f), text (f_precise f), text (f_cur f),
   text (f_status f), text (f_ref f), f_created f).

(** [rows] carry the numbers n, n+1, ... and each one's hash covers its facts and
    its predecessor's hash. *)
Fixpoint chained (hash : string -> string) (prev : string) (n : Z) (rows : list crow) : Prop :=
  match rows with
  | [] => True
  | r :: rest => exists h, k_seal r = Some {| sl_seq := n; sl_prev := prev; sl_hash := h |}
                 /\ h = hash (canonical prev (k_facts r)) /\ chained hash h (n + 1) rest
  end.
Definition last_hash (prev : string) (rows : list crow) : string :=
  fold_left (fun h r => match k_seal r with Some s => sl_hash s | None => h end) rows prev.

(** The sealed rows of [d] form one gap-free chain [rows] from the genesis hash, and
    chain_state records its length and its head. *)
Definition sealed_chain (hash : string -> string) (d : db) (rows : list crow) : Prop :=
  Permutation rows (filter is_sealed (d_rows d)) /\ chained hash (d_genesis d) 1 rows
  /\ d_last d = Z.of_nat (List.length rows) /\ d_head d = last_hash (d_genesis d) rows.

(** Any number of workers, inserts and updates, from the empty database. *)
Inductive cruns (hash : string -> string) : csys -> csys -> Prop :=
| cruns_refl y : cruns hash y y
| cruns_step y e y1 y2 : cstep hash y e = Some y1 -> cruns hash y1 y2 -> cruns hash y y2.
Definition creach (hash : string -> string) (y : csys) : Prop := cruns hash chain_init y.

(** Is there a '|' in the string? *)
Fixpoint no_bar (s : string) : Prop :=
  match s with EmptyString => True | String c r => c <> "|"%char /\ no_bar r end.
Definition plain (f : facts) : Prop :=
  no_bar (f_txid f) /\ no_bar (text (f_src f)) /\ no_bar (text (f_dst f)) /\ no_bar (text (f_amount f))
  /\ no_bar (text (f_precise f)) /\ no_bar (text (f_cur f)) /\ no_bar (text (f_status f)) /\ no_bar (text (f_ref f)).
Definition all_plain (d : db) : Prop := forall r, In r (d_rows d) -> plain (k_facts r).

(** The hash tells apart what is hashed in [d1] and [d2] (no collision among those strings). *)
Definition no_collision (hash : string -> string) (d1 d2 : db) : Prop :=
  forall r1 r2 p1 p2, In r1 (d_rows d1) -> In r2 (d_rows d2) ->
  hash (canonical p1 (k_facts r1)) = hash (canonical p2 (k_facts r2)) ->
  canonical p1 (k_facts r1) = canonical p2 (k_facts r2).
(** Hashes are written in hexadecimal: no '|' in them. *)
Definition hex_like (hash : string -> string) : Prop := forall s, no_bar (hash s).

(** The unique index on chain_seq (sql/1781162328.sql:43-44). *)
Definition unique_seq (d : db) : Prop := NoDup (map seq_of (filter is_sealed (d_rows d))).

(** Not sealed yet and old enough. *)
Definition eligible (cutoff : Z) (r : crow) : Prop := k_seal r = None /\ f_created (k_facts r) < cutoff.
