(** Proofs about accounts. *)
From Coq Require Import List String Bool Arith Lia.
From Verif Require Import AcctModel AcctSpec.
Import ListNotations.
Local Open Scope string_scope.
Local Open Scope list_scope.

Record wf (s : store) : Prop := {
  wf_ledgers : forall l, In l (ledgers s) -> l <> "";
  wf_idn : forall i, In i (identities s) -> i_id i <> "";
  wf_bal : forall b, In b (balances s) -> b_id b <> "" /\ b_currency b <> "" /\ In (b_ledger b) (ledgers s);
  wf_bal_ids : NoDup (map b_id (balances s));
  wf_acc : forall a, In a (accounts s) -> (exists b, In b (balances s) /\ stands_for a b) /\ exists i, In i (identities s) /\ i_id i = a_identity a;
  wf_numbers : NoDup (map a_number (accounts s));
  wf_acc_ids : NoDup (map a_id (accounts s)) }.

Lemma blank_iff t : blank t = true <-> t = "".
Proof. apply String.eqb_eq. Qed.
Lemma blank_no t : blank t = false <-> t <> "".
Proof. apply String.eqb_neq. Qed.

Lemma find_key_some {A} (key : A -> string) l id x : find (fun y => String.eqb (key y) id) l = Some x -> In x l /\ key x = id.
Proof. intros E. apply find_some in E. destruct E as [I E]. apply String.eqb_eq in E. now split. Qed.
Lemma find_key_none {A} (key : A -> string) l id : find (fun y => String.eqb (key y) id) l = None <-> ~ In id (map key l).
Proof.
  split.
  - intros E I. apply in_map_iff in I. destruct I as (x & K & I). pose proof (find_none _ _ E x I) as F. cbn in F. apply String.eqb_neq in F. contradiction.
  - intros N. destruct (find _ l) as [x|] eqn:E; [|reflexivity]. apply find_key_some in E. destruct E as [I K]. destruct N. apply in_map_iff. now exists x.
Qed.
Lemma find_key_in {A} (key : A -> string) l x : NoDup (map key l) -> In x l -> find (fun y => String.eqb (key y) (key x)) l = Some x.
Proof.
  induction l as [|y l IH]; intros N I; [destruct I|]. cbn [find]. cbn [map] in N. apply NoDup_cons_iff in N. destruct N as [Ny N].
  destruct I as [-> |I]; [now rewrite String.eqb_refl|].
  destruct (String.eqb_spec (key y) (key x)) as [K|_]; [|now apply IH]. destruct Ny. rewrite K. now apply in_map.
Qed.
Lemma find_key_present {A} (key : A -> string) l id : present (find (fun y => String.eqb (key y) id) l) = true <-> In id (map key l).
Proof.
  destruct (find _ l) as [x|] eqn:E.
  - split; [|reflexivity]. intros _. apply find_key_some in E. destruct E as [I <-]. now apply in_map.
  - split; [discriminate|]. intros I. apply find_key_none in E. contradiction.
Qed.

Lemma NoDup_snoc {A} (l : list A) x : NoDup l -> ~ In x l -> NoDup (l ++ [x]).
Proof.
  intros N I. induction N as [|y l Y N IH]; cbn; [constructor; [intros []|constructor]|].
  constructor; [|apply IH; intros K; apply I; now right]. intros K. apply in_app_or in K. destruct K as [K|[K|[]]]; [contradiction|]. subst y. apply I. now left.
Qed.

Lemma existsb_in l id : existsb (String.eqb id) l = true <-> In id l.
Proof. rewrite existsb_exists. split; [intros (x & I & E); apply String.eqb_eq in E; now subst|intros I; exists id; split; [exact I|apply String.eqb_refl]]. Qed.
Lemma existsb_number l n : existsb (fun x => String.eqb (a_number x) n) l = true <-> In n (map a_number l).
Proof.
  rewrite existsb_exists, in_map_iff. split; intros (x & I & E); exists x.
  - apply String.eqb_eq in E. now split.
  - split; [exact E|]. now apply String.eqb_eq.
Qed.

(** ** One request *)
Definition final_id (b : balance) (q : request) : string := or_else (b_identity b) (q_identity q).
Lemma final_owner b q id : owner b q id <-> id = final_id b q.
Proof.
  unfold owner, final_id, or_else. destruct (blank (b_identity b)) eqn:E; [apply blank_iff in E|apply blank_no in E]; split; [intros [(K & _)|(_ & K)]; [contradiction|exact K]|intros ->; now right|intros [(_ & K)|(K & _)]; [exact K|contradiction]|intros ->; now left].
Qed.
Lemma name_named i n : named_after n i <-> n = name_of i.
Proof.
  unfold named_after, name_of. destruct (String.eqb_spec (i_type i) "organization") as [E|E].
  - split; [intros [(_ & K)|(K & _)]; [exact K|contradiction]|intros ->; now left].
  - split; [intros [(K & _)|(_ & K)]; [contradiction|exact K]|intros ->; now right].
Qed.

(** The row made for a request. *)
Definition row (id : string) (i : identity) (b : balance) (q : request) (n k : string) : account :=
  {| a_id := id; a_name := name_of i; a_number := n; a_bank := k; a_currency := or_else (b_currency b) (q_currency q);
     a_ledger := or_else (b_ledger b) (q_ledger q); a_identity := final_id b q; a_balance := q_balance q |}.

Lemma numbered_row sv id i b q : match numbered sv (set_name (name_of i) (override b (to_account q))) with
  | None => sv = Broken
  | Some a => exists n k, handed_out sv q n k /\ set_id id a = row id i b q n k
  end.
Proof.
  destruct sv as [| |n k]; cbn [numbered].
  - exists (q_number q), (q_bank q). split; [now split|reflexivity].
  - reflexivity.
  - destruct (blank n) eqn:N; [|destruct (blank k) eqn:K]; cbn [negb andb].
    + apply blank_iff in N. exists (q_number q), (q_bank q). split; [right; split; [now left|now split]|reflexivity].
    + apply blank_iff in K. exists (q_number q), (q_bank q). split; [right; split; [now right|now split]|reflexivity].
    + apply blank_no in N, K. exists n, k. split; [left; repeat split; assumption|reflexivity].
Qed.

Lemma handed_unique sv q n k n' k' : handed_out sv q n k -> handed_out sv q n' k' -> n = n' /\ k = k'.
Proof.
  destruct sv as [| |x y]; cbn.
  - intros (-> & ->) (-> & ->). now split.
  - intros [].
  - intros [(A & B & -> & ->)|(A & -> & ->)] [(C & D & -> & ->)|(C & -> & ->)]; try (now split); tauto.
Qed.

Lemma create_cases s sv id q :
  (fst (create s sv id q) = s /\ forall a, snd (create s sv id q) <> Created a) \/
  exists b i n k, find_balance s (q_balance q) = Some b /\ find_identity s (final_id b q) = Some i /\ valid q = true /\
    handed_out sv q n k /\ accepted s (row id i b q n k) = true /\
    create s sv id q = (insert s (row id i b q n k), Created (row id i b q n k)).
Proof.
  unfold create. destruct (valid q) eqn:V; cbn [negb]; [|left; split; [reflexivity|discriminate]].
  destruct (find_balance s (q_balance q)) as [b|] eqn:B; [|left; split; [reflexivity|discriminate]].
  change (a_identity (override b (to_account q))) with (final_id b q).
  destruct (find_identity s (final_id b q)) as [i|] eqn:I; [|left; split; [reflexivity|discriminate]].
  pose proof (numbered_row sv id i b q) as R. destruct (numbered sv _) as [a|]; [|left; split; [reflexivity|discriminate]].
  destruct R as (n & k & H & R). rewrite R. destruct (accepted s (row id i b q n k)) eqn:A; [|left; split; [reflexivity|discriminate]].
  right. exists b, i, n, k. now repeat split.
Qed.

Lemma accepted_iff s a : accepted s a = true <->
  ~ In (a_id a) (map a_id (accounts s)) /\ ~ In (a_number a) (map a_number (accounts s)) /\ In (a_ledger a) (ledgers s) /\
  In (a_identity a) (map i_id (identities s)) /\ In (a_balance a) (map b_id (balances s)).
Proof.
  unfold accepted. rewrite !andb_true_iff, !negb_true_iff. unfold find_account, find_identity, find_balance.
  rewrite !find_key_present, existsb_in. rewrite <- (not_true_iff_false (present _)), <- (not_true_iff_false (existsb _ _)).
  rewrite find_key_present, existsb_number. tauto.
Qed.

(** ** The invariant *)
Lemma wf_empty : wf empty.
Proof. constructor; cbn; try (intros ? []); constructor. Qed.

Lemma wf_create s sv id q : wf s -> wf (fst (create s sv id q)).
Proof.
  intros W. destruct (create_cases s sv id q) as [(E & _)|(b & i & n & k & B & I & V & H & A & E)]; [rewrite E; exact W|].
  rewrite E. cbn [fst]. set (a := row id i b q n k) in *. apply accepted_iff in A. destruct A as (A1 & A2 & A3 & A4 & A5).
  apply find_key_some in B. destruct B as [B Bq]. apply find_key_some in I. destruct I as [I Iq].
  destruct (wf_bal s W b B) as (Bi & Bc & Bl). constructor; cbn [insert ledgers identities balances accounts].
  - apply (wf_ledgers s W).
  - apply (wf_idn s W).
  - apply (wf_bal s W).
  - apply (wf_bal_ids s W).
  - intros x X. apply in_app_or in X. destruct X as [X|[<-|[]]]; [now apply (wf_acc s W)|]. split.
    + exists b. split; [exact B|]. split; [exact (eq_sym Bq)|]. unfold a. cbn. unfold or_else.
      apply blank_no in Bc. rewrite Bc. pose proof (wf_ledgers s W _ Bl) as L. apply blank_no in L. rewrite L. now split.
    + exists i. split; [exact I|exact Iq].
  - rewrite map_app. now apply NoDup_snoc; [apply (wf_numbers s W)|].
  - rewrite map_app. now apply NoDup_snoc; [apply (wf_acc_ids s W)|].
Qed.

Lemma map_relabel bal idn l : map b_id (map (relabel bal idn) l) = map b_id l.
Proof. rewrite map_map. apply map_ext. intros b. unfold relabel. destruct (String.eqb (b_id b) bal); reflexivity. Qed.
Lemma relabel_keeps bal idn b : b_id (relabel bal idn b) = b_id b /\ b_ledger (relabel bal idn b) = b_ledger b /\ b_currency (relabel bal idn b) = b_currency b.
Proof. unfold relabel. destruct (String.eqb (b_id b) bal); repeat split; reflexivity. Qed.
Lemma renamed_id i j : i_id (renamed i j) = i_id j.
Proof. unfold renamed. destruct (String.eqb_spec (i_id j) (i_id i)); [now symmetry|reflexivity]. Qed.

Lemma wf_step s e : wf s -> wf (step s e).
Proof.
  intros W. destruct e as [id|i|b|bal idn|i|id|sv id q]; cbn [step].
  - destruct (blank id || existsb (String.eqb id) (ledgers s)) eqn:C; [exact W|]. apply orb_false_iff in C. destruct C as [C _]. apply blank_no in C.
    destruct W as [W1 W2 W3 W4 W5 W6 W7]. constructor; cbn [ledgers identities balances accounts]; try assumption.
    + intros l X. apply in_app_or in X. destruct X as [X|[<-|[]]]; [now apply W1|exact C].
    + intros b X. destruct (W3 b X) as (P & Q & R). split; [exact P|]. split; [exact Q|]. apply in_or_app. now left.
  - destruct (blank (i_id i) || present (find_identity s (i_id i))) eqn:C; [exact W|]. apply orb_false_iff in C. destruct C as [C _]. apply blank_no in C.
    destruct W as [W1 W2 W3 W4 W5 W6 W7]. constructor; cbn [ledgers identities balances accounts]; try assumption.
    + intros j X. apply in_app_or in X. destruct X as [X|[<-|[]]]; [now apply W2|exact C].
    + intros a X. destruct (W5 a X) as (P & j & Q & R). split; [exact P|]. exists j. split; [apply in_or_app; now left|exact R].
  - destruct (blank (b_id b) || present (find_balance s (b_id b)) || blank (b_currency b) || negb (existsb (String.eqb (b_ledger b)) (ledgers s))
      || (negb (blank (b_identity b)) && negb (present (find_identity s (b_identity b))))) eqn:C; [exact W|].
    apply orb_false_iff in C. destruct C as [C _]. apply orb_false_iff in C. destruct C as [C C4]. apply orb_false_iff in C. destruct C as [C C3].
    apply orb_false_iff in C. destruct C as [C1 C2]. apply blank_no in C1, C3. apply negb_false_iff in C4. apply existsb_in in C4.
    destruct W as [W1 W2 W3 W4 W5 W6 W7]. constructor; cbn [ledgers identities balances accounts]; try assumption.
    + intros x X. apply in_app_or in X. destruct X as [X|[<-|[]]]; [now apply W3|now repeat split].
    + rewrite map_app. apply NoDup_snoc; [exact W4|]. intros K. unfold find_balance in C2. apply (find_key_present b_id) in K. congruence.
    + intros a X. destruct (W5 a X) as ((x & P & Q) & R). split; [|exact R]. exists x. split; [apply in_or_app; now left|exact Q].
  - destruct (blank idn || negb (present (find_identity s idn)) || negb (present (find_balance s bal))); [exact W|].
    destruct W as [W1 W2 W3 W4 W5 W6 W7]. constructor; cbn [ledgers identities balances accounts]; try assumption.
    + intros b X. apply in_map_iff in X. destruct X as (y & <- & X). destruct (relabel_keeps bal idn y) as (-> & -> & ->). now apply W3.
    + now rewrite map_relabel.
    + intros a X. destruct (W5 a X) as ((x & P & Q) & R). split; [|exact R]. exists (relabel bal idn x). split; [now apply in_map|].
      unfold stands_for. destruct (relabel_keeps bal idn x) as (-> & -> & ->). exact Q.
  - destruct W as [W1 W2 W3 W4 W5 W6 W7]. constructor; cbn [ledgers identities balances accounts]; try assumption.
    + intros j X. apply in_map_iff in X. destruct X as (y & <- & X). rewrite renamed_id. now apply W2.
    + intros a X. destruct (W5 a X) as (P & j & Q & R). split; [exact P|]. exists (renamed i j). split; [now apply in_map|]. now rewrite renamed_id.
  - destruct (referenced s id) eqn:C; [exact W|]. apply orb_false_iff in C. destruct C as [_ C].
    destruct W as [W1 W2 W3 W4 W5 W6 W7]. constructor; cbn [ledgers identities balances accounts]; try assumption.
    + intros j X. apply filter_In in X. now apply W2.
    + intros a X. destruct (W5 a X) as (P & j & Q & R). split; [exact P|]. exists j. split; [|exact R]. apply filter_In. split; [exact Q|].
      apply negb_true_iff. apply String.eqb_neq. intros K. apply not_true_iff_false in C. apply C. apply existsb_exists. exists a. split; [exact X|].
      apply String.eqb_eq. congruence.
  - now apply wf_create.
Qed.

Lemma reached_wf s : reached s -> wf s.
Proof.
  intros (es & ->). assert (G : forall es s, wf s -> wf (fold_left step es s)).
  { clear es. induction es as [|e es IH]; intros s W; [exact W|]. cbn [fold_left]. apply IH. now apply wf_step. }
  apply G. exact wf_empty.
Qed.

(** ** Theorems *)
Theorem accounts_true s a : reached s -> In a (accounts s) ->
  (exists b, In b (balances s) /\ stands_for a b) /\ (exists i, In i (identities s) /\ i_id i = a_identity a).
Proof. intros R. exact (wf_acc s (reached_wf s R) a). Qed.

Lemma NoDup_key {A} (key : A -> string) l x y : NoDup (map key l) -> In x l -> In y l -> key x = key y -> x = y.
Proof.
  intros N X Y K. pose proof (find_key_in key l x N X) as E. pose proof (find_key_in key l y N Y) as F. rewrite K in E. congruence.
Qed.
Theorem numbers_differ s a a' : reached s -> In a (accounts s) -> In a' (accounts s) -> a_number a = a_number a' \/ a_id a = a_id a' -> a = a'.
Proof.
  intros R X Y [K|K]; [exact (NoDup_key a_number _ _ _ (wf_numbers s (reached_wf s R)) X Y K)|exact (NoDup_key a_id _ _ _ (wf_acc_ids s (reached_wf s R)) X Y K)].
Qed.

Theorem created s sv id q s' a : reached s -> create s sv id q = (s', Created a) ->
  ledgers s' = ledgers s /\ identities s' = identities s /\ balances s' = balances s /\ accounts s' = accounts s ++ [a] /\ a_id a = id /\
  exists b i, In b (balances s) /\ b_id b = q_balance q /\ stands_for a b /\ owner b q (a_identity a) /\
    In i (identities s) /\ i_id i = a_identity a /\ named_after (a_name a) i /\ handed_out sv q (a_number a) (a_bank a).
Proof.
  intros R E. pose proof (reached_wf s R) as W. destruct (create_cases s sv id q) as [(_ & N)|(b & i & n & k & B & I & V & H & A & C)]; [rewrite E in N; now destruct (N a)|].
  rewrite C in E. injection E as <- <-. cbn [insert ledgers identities balances accounts]. repeat (split; [reflexivity|]).
  apply find_key_some in B. destruct B as [B Bq]. apply find_key_some in I. destruct I as [I Iq]. destruct (wf_bal s W b B) as (Bi & Bc & Bl).
  exists b, i. split; [exact B|]. split; [exact Bq|]. split.
  - split; [exact (eq_sym Bq)|]. cbn. unfold or_else. apply blank_no in Bc. rewrite Bc. pose proof (wf_ledgers s W _ Bl) as L. apply blank_no in L. rewrite L. now split.
  - split; [now apply final_owner|]. split; [exact I|]. split; [exact Iq|]. split; [now apply name_named|exact H].
Qed.

Theorem refused_unchanged s sv id q : (forall a, snd (create s sv id q) <> Created a) -> fst (create s sv id q) = s.
Proof. intros N. destruct (create_cases s sv id q) as [(E & _)|(b & i & n & k & _ & _ & _ & _ & _ & C)]; [exact E|]. rewrite C in N. now destruct (N (row id i b q n k)). Qed.

Theorem when_created s sv id q : reached s ->
  (exists a, snd (create s sv id q) = Created a) <->
  q_ledger q = "" /\ q_currency q = "" /\ ~ In id (map a_id (accounts s)) /\
  (exists b i, In b (balances s) /\ b_id b = q_balance q /\ In (i_id i) (map i_id (identities s)) /\ owner b q (i_id i)) /\
  (exists number bank, handed_out sv q number bank /\ ~ In number (map a_number (accounts s))).
Proof.
  intros R. pose proof (reached_wf s R) as W. split.
  - intros (a & E). destruct (create_cases s sv id q) as [(_ & N)|(b & i & n & k & B & I & V & H & A & C)]; [now destruct (N a)|].
    apply accepted_iff in A. destruct A as (A1 & A2 & _). apply find_key_some in B. destruct B as [B Bq]. apply find_key_some in I. destruct I as [I Iq].
    destruct (wf_bal s W b B) as (Bi & _). unfold valid in V. rewrite <- Bq in V. apply blank_no in Bi. rewrite Bi in V. apply andb_true_iff in V.
    destruct V as [V1 V2]. apply blank_iff in V1, V2. split; [exact V1|]. split; [exact V2|]. split; [exact A1|]. split.
    + exists b, i. split; [exact B|]. split; [exact Bq|]. split; [now apply in_map|]. now apply final_owner.
    + exists n, k. now split.
  - intros (Q1 & Q2 & F & (b & i & B & Bq & I & O) & n & k & H & N). apply final_owner in O.
    destruct (wf_bal s W b B) as (Bi & Bc & Bl).
    assert (V : valid q = true). { unfold valid. rewrite <- Bq. apply blank_no in Bi. rewrite Bi, Q1, Q2. reflexivity. }
    assert (FB : find_balance s (q_balance q) = Some b). { rewrite <- Bq. exact (find_key_in b_id _ b (wf_bal_ids s W) B). }
    unfold create. rewrite V, FB. cbn [negb]. change (a_identity (override b (to_account q))) with (final_id b q). rewrite <- O.
    apply (find_key_present i_id) in I. fold (find_identity s (i_id i)) in I. destruct (find_identity s (i_id i)) as [j|] eqn:J; [|discriminate I].
    pose proof (numbered_row sv id j b q) as NR. destruct (numbered sv _) as [a|]; [|subst sv; destruct H].
    destruct NR as (n' & k' & H' & NR). destruct (handed_unique _ _ _ _ _ _ H H') as [<- <-]. rewrite NR.
    assert (A : accepted s (row id j b q n k) = true).
    { apply accepted_iff. cbn [row a_id a_number a_ledger a_identity a_balance]. split; [exact F|]. split; [exact N|]. split.
      - unfold or_else. pose proof (wf_ledgers s W _ Bl) as L. apply blank_no in L. rewrite L. exact Bl.
      - split; [|rewrite <- Bq; now apply in_map]. rewrite <- O. apply (find_key_present i_id). fold (find_identity s (i_id i)). now rewrite J. }
    rewrite A. eexists. reflexivity.
Qed.

Theorem got s a : reached s -> In a (accounts s) ->
  exists b i, get s (a_id a) = Some (a, Some b, Some i) /\ In b (balances s) /\ stands_for a b /\ In i (identities s) /\ i_id i = a_identity a.
Proof.
  intros R I. pose proof (reached_wf s R) as W. destruct (wf_acc s W a I) as ((b & B & S) & j & J & K).
  unfold get. unfold find_account. rewrite (find_key_in a_id _ a (wf_acc_ids s W) I).
  assert (E : find_balance s (a_balance a) = Some b). { destruct S as (-> & _). exact (find_key_in b_id _ b (wf_bal_ids s W) B). }
  rewrite E. assert (P : present (find_identity s (a_identity a)) = true).
  { apply (find_key_present i_id). rewrite <- K. now apply in_map. }
  destruct (find_identity s (a_identity a)) as [i|] eqn:F; [|discriminate P]. apply find_key_some in F. destruct F as [F G].
  exists b, i. split; [reflexivity|]. split; [exact B|]. split; [exact S|]. now split.
Qed.

(** ** What goes wrong *)
Theorem without_balance s sv id q : reached s -> q_balance q = "" -> fst (create s sv id q) = s /\ forall a, snd (create s sv id q) <> Created a.
Proof.
  intros R E. assert (N : forall a, snd (create s sv id q) <> Created a).
  { intros a K. assert (X : exists a, snd (create s sv id q) = Created a) by now exists a. apply (when_created s sv id q R) in X.
    destruct X as (_ & _ & _ & (b & i & B & Bq & _) & _). destruct (wf_bal s (reached_wf s R) b B) as (Bi & _). congruence. }
  split; [now apply refused_unchanged|exact N].
Qed.

Theorem second_unnumbered s id q : reached s -> In "" (map a_number (accounts s)) -> q_number q = "" -> forall a, snd (create s Off id q) <> Created a.
Proof.
  intros R I E a K. assert (X : exists a, snd (create s Off id q) = Created a) by now exists a. apply (when_created s Off id q R) in X.
  destruct X as (_ & _ & _ & _ & n & k & (H & _) & N). congruence.
Qed.

Theorem listing_ignores limit offset limit' offset' s : list_accounts limit offset s = list_accounts limit' offset' s /\
  List.length (list_accounts limit offset s) = List.length (accounts s) /\
  forall a, In a (list_accounts limit offset s) -> a_balance a = "" /\ a_ledger a = "" /\ a_identity a = "".
Proof.
  split; [reflexivity|]. split; [unfold list_accounts; now rewrite map_length, rev_length|].
  intros a I. apply in_map_iff in I. destruct I as (x & <- & _). now repeat split.
Qed.
