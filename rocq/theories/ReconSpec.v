(** What a reconciliation promises. *)
From Coq Require Import ZArith QArith Qabs List String Ascii Bool Permutation.
From Verif Require Import Base ReconModel.
Import ListNotations.
Local Open Scope string_scope.
Open Scope Z_scope.

(** ** The meaning of rules. [split_bar], [lower], [has_part] and [distance] are library
    functions of the language (strings.Split, ToLower, Contains, the edit distance). *)

(** Two texts agree, up to case, the internal one being several texts joined by " | ". *)
Inductive texts_agree (ext int : string) : string -> Q -> Prop :=
| ta_equals d p : In p (split_bar "" int) -> lower ext = lower p -> texts_agree ext int "equals" d
| ta_within d p : In p (split_bar "" int) -> has_part (lower p) (lower ext) = true \/ has_part (lower ext) (lower p) = true ->
    texts_agree ext int "contains" d
| ta_near d p : In p (split_bar "" int) ->
    distance (lower ext) (lower p)
      <= trunc_q (inject_Z (Z.max (Z.of_nat (String.length (lower ext))) (Z.of_nat (String.length (lower p)))) * (d / (100 # 1)))%Q ->
    texts_agree ext int "contains" d.

(** Transaction [e] meets a criterion against [t]. *)
Inductive meets (e t : entry) : criterion -> Prop :=
| amount_equals d : (Qabs (n_amount e - n_amount t) <= Qabs (n_amount t) * d)%Q ->
    meets e t {| k_field := "amount"; k_op := "equals"; k_drift := d |}
| amount_greater d : (n_amount t < n_amount e)%Q -> meets e t {| k_field := "amount"; k_op := "greater_than"; k_drift := d |}
| amount_less d : (n_amount e < n_amount t)%Q -> meets e t {| k_field := "amount"; k_op := "less_than"; k_drift := d |}
| date_equals d : (inject_Z (Z.abs (n_date e - n_date t)) <= d * inject_Z second)%Q ->
    meets e t {| k_field := "date"; k_op := "equals"; k_drift := d |}
| date_after d o : o = "after" \/ o = "greater_than" -> n_date t < n_date e -> meets e t {| k_field := "date"; k_op := o; k_drift := d |}
| date_before d o : o = "before" \/ o = "less_than" -> n_date e < n_date t -> meets e t {| k_field := "date"; k_op := o; k_drift := d |}
| desc_agrees o d : texts_agree (n_desc e) (n_desc t) o d -> meets e t {| k_field := "description"; k_op := o; k_drift := d |}
| ref_agrees o d : texts_agree (n_ref e) (n_ref t) o d -> meets e t {| k_field := "reference"; k_op := o; k_drift := d |}
| cur_mixed o d : n_cur t = "MIXED" -> meets e t {| k_field := "currency"; k_op := o; k_drift := d |}
| cur_agrees o d : texts_agree (n_cur e) (n_cur t) o d -> meets e t {| k_field := "currency"; k_op := o; k_drift := d |}.

(** Some rule has all its criteria met. *)
Definition fulfils (rules : list rule) (e t : entry) : Prop := exists r, In r rules /\ Forall (meets e t) r.

(** A criterion "equals" on a field. *)
Definition equals_on (f : string) (c : criterion) : Prop := k_field c = f /\ k_op c = "equals".

(** What is enough for a transaction that meets rule [r] to be looked at: no rule of the
    list compares amounts by "equals", or [r] does and [t] is not the larger amount; no
    rule compares dates by "equals", or [r] does, with whole seconds; one currency. *)
Definition within_reach (rules : list rule) (r : rule) (e t : entry) : Prop :=
  ((forall r' c, In r' rules -> In c r' -> ~ equals_on "amount" c)
   \/ ((exists c, In c r /\ equals_on "amount" c /\ (0 <= k_drift c)%Q) /\ (Qabs (n_amount t) <= Qabs (n_amount e))%Q))
  /\ ((forall r' c, In r' rules -> In c r' -> ~ equals_on "date" c)
      \/ exists c n, In c r /\ equals_on "date" c /\ k_drift c = inject_Z n)
  /\ (n_cur e = "" \/ n_cur t = n_cur e).

(** ** What is stored *)

Definition run_is (y : system) (i : nat) (j : job) : Prop := exists r, nth_error (y_runs y) i = Some r /\ r_job r = j.
Definition completed (y : system) (i m u : nat) : Prop := nth_error (d_recon (y_store y)) i = Some (RCompleted m u).
Definition uploaded (y : system) (u : string) (e : entry) : Prop := In (u, e) (d_ext (y_store y)).
Definition posted (y : system) (t : entry) : Prop := In t (d_int (y_store y)).

(** The rows of reconciliation [i]. *)
Definition matches_of (y : system) (i : nat) : list match_row := filter (fun m => Nat.eqb (m_recon m) i) (d_match (y_store y)).
Definition unmatched_of (y : system) (i : nat) : list string :=
  map snd (filter (fun x => Nat.eqb (fst x) i) (d_unm (y_store y))).
Definition marked_by (y : system) (i : nat) : list string :=
  map snd (filter (fun x => Nat.eqb (fst x) i) (d_marks (y_store y))).

(** The internal ids an uploaded transaction was matched to, and how often it was reported
    as unmatched. *)
Definition matched_to (y : system) (i : nat) (x : string) : list string :=
  map m_int (filter (fun m => String.eqb (m_ext m) x) (matches_of y i)).
Definition times_unmatched (y : system) (i : nat) (x : string) : nat := count_occ string_dec (unmatched_of y i) x.

(** A group: transactions with one value in the grouping column. *)
Definition a_group (crit : string) (l : list entry) : Prop :=
  l <> [] /\ exists k, k <> "" /\ forall t, In t l -> column crit t = k.

(** The transaction a group is compared as: its total, its earliest date, its texts joined,
    its currency, or "MIXED" when there are several. *)
Record stands_for (l : list entry) (v : entry) : Prop := {
  sf_amount : (n_amount v == fold_right (fun e q => n_amount e + q) 0 l)%Q;
  sf_date : (exists t, In t l /\ n_date v = n_date t) /\ forall t, In t l -> n_date v <= n_date t;
  sf_desc : n_desc v = concat " | " (map n_desc l);
  sf_ref : n_ref v = concat " | " (map n_ref l);
  sf_cur : (forall t, In t l -> n_cur t = n_cur v)
           \/ (n_cur v = "MIXED" /\ exists t t', In t l /\ In t' l /\ n_cur t <> n_cur t') }.

(** A match of uploaded transaction [x] and internal transaction [z] that the rules of a
    reconciliation justify; [u] is the upload of [x]. *)
Inductive justified (s : store) (j : job) (u x z : string) : Prop :=
| by_pair e t : j_strategy j = "one_to_one" -> In (u, e) (d_ext s) -> In t (d_int s) -> n_id e = x -> n_id t = z ->
    fulfils (j_rules j) e t -> justified s j u x z
| by_internal_group e t l v : j_strategy j = "one_to_many" -> In (u, e) (d_ext s) ->
    (forall g, In g l -> In g (d_int s)) -> a_group (j_group j) l -> In t l -> n_id e = x -> n_id t = z ->
    stands_for l v -> fulfils (j_rules j) e v -> justified s j u x z
| by_external_group e t l v : j_strategy j = "many_to_one" -> In t (d_int s) ->
    (forall g, In g l -> In (u, g) (d_ext s)) -> a_group (j_group j) l -> In e l -> n_id e = x -> n_id t = z ->
    stands_for l v -> fulfils (j_rules j) t v -> justified s j u x z.

(** The internal transactions stored when reconciliation [i] started. *)
Definition posted_before (y : system) (i : nat) (t : entry) : Prop :=
  exists r, nth_error (y_runs y) i = Some r /\ In t (firstn (r_base r) (d_int (y_store y))).

(** The ledger as it was at a moment since reconciliation [i] started, and its transactions
    with value [k] in column [crit]. *)
Definition ledger_since (y : system) (i : nat) (l : list entry) : Prop :=
  exists r c, nth_error (y_runs y) i = Some r /\ (r_base r <= c)%nat /\ l = firstn c (d_int (y_store y)).
Definition whole_group (crit k : string) (ledger l : list entry) : Prop :=
  Permutation l (filter (fun t => String.eqb (column crit t) k) ledger).

(** ** Histories *)

Inductive proviso :=
| NoFault      (* no read or write of a run fails *)
| OwnPages     (* no run starts while another one reads its transactions or pages of an upload are cached *)
| Settled      (* nothing is added to an upload once it is being reconciled *)
| OnePage      (* the ledger holds no more transactions than a page *)
| FreshGroups. (* no run starts while pages of grouped transactions are cached *)

Definition faultless (m : move) : Prop :=
  match m with
  | MFetch ok | MMatches _ ok | MUnmatched _ ok | MMain _ ok | MInner _ (SFetch ok) | MInner _ (GRead ok) => ok = true
  | _ => True
  end.

Definition keeps (cfg : rconfig) (x : proviso) (e : event) (y : system) : Prop :=
  match x, e with
  | NoFault, ERun _ m => faultless m
  | OwnPages, EStart _ _ =>
      (forall off, d_cache (y_store y) (KExt off) = None)
      /\ forall r, In r (y_runs y) -> r_dead r = true \/ r_fetch r = FGone
  | Settled, EUpload u _ => forall r, In r (y_runs y) -> j_upload (r_job r) <> u
  | OnePage, EPost _ => (List.length (d_int (y_store y)) < c_batch cfg)%nat
  | FreshGroups, EStart _ _ => forall c off, d_cache (y_store y) (KGroupInt c off) = None
  | _, _ => True
  end.

Inductive history (cfg : rconfig) (P : proviso -> Prop) : list event -> system -> Prop :=
| h_nil : history cfg P [] nothing
| h_snoc es y e : history cfg P es y -> (forall x, P x -> keeps cfg x e y) -> history cfg P (es ++ [e]) (happen cfg e y).

Definition whatever (x : proviso) : Prop := False.
Definition the_three (x : proviso) : Prop := x = NoFault \/ x = OwnPages \/ x = Settled.
Definition everything (x : proviso) : Prop := True.
Definition all_but (a x : proviso) : Prop := x <> a.

(** At least one worker; pages are not empty. *)
Definition sensible (cfg : rconfig) : Prop := (0 < c_workers cfg)%nat /\ (0 < c_batch cfg)%nat.
