(** Proofs about the monitoring DSN. *)
From Coq Require Import List String Ascii Bool.
From Verif Require QueueModel.
From Verif Require Import RedisModel RedisSpec RedisProof DsnModel DsnSpec.
Import ListNotations.
Local Open Scope string_scope.
Local Open Scope list_scope.

Lemma all_nil p : all p "". Proof. constructor. Qed.
Lemma all_cons p a t : all p (String a t) <-> p a = true /\ all p t.
Proof. unfold all. cbn. split; [intros H; inversion H; auto|intros (A & B); constructor; auto]. Qed.

Lemma left_all p u w : all p u -> strip_left p (u ++ w)%string = strip_left p w.
Proof. induction u as [|a u IH]; intros H; [reflexivity|]. apply all_cons in H as (A & B). cbn. rewrite A. auto. Qed.
Lemma right_all p v : all p v -> strip_right p v = "".
Proof. induction v as [|a v IH]; intros H; [reflexivity|]. apply all_cons in H as (A & B). cbn. now rewrite (IH B), A. Qed.
Lemma right_app p w v : all p v -> strip_right p (w ++ v)%string = strip_right p w.
Proof. intros H. induction w as [|a w IH]; [exact (right_all p v H)|]. cbn. now rewrite IH. Qed.
Lemma right_same p w : ~ ends p w -> strip_right p w = w.
Proof.
  induction w as [|a w IH]; intros H; [reflexivity|]. cbn. destruct w as [|b w].
  - cbn. destruct (p a) eqn:E; [|reflexivity]. exfalso. apply H. exists "", a. auto.
  - rewrite IH; [reflexivity|]. intros (r & x & E & X). apply H. exists (String a r), x. rewrite E. auto.
Qed.
Lemma strip_is p t c : stripped p t c -> strip p t = c.
Proof.
  intros (u & v & -> & U & V & S & E). unfold strip. rewrite left_all by assumption. destruct c as [|a c].
  - cbn. enough (strip_left p v = "") as -> by reflexivity. clear -V. induction v as [|b v IH]; [reflexivity|].
    apply all_cons in V as (A & B). cbn. rewrite A. auto.
  - cbn. destruct (p a) eqn:A; [exfalso; apply S; now exists a, c|].
    change (String a (c ++ v)) with (String a c ++ v)%string. rewrite right_app by assumption. now apply right_same.
Qed.
Lemma left_spec p t : exists u, t = (u ++ strip_left p t)%string /\ all p u /\ ~ starts p (strip_left p t).
Proof.
  induction t as [|a t (u & E & U & S)].
  - exists "". split; [reflexivity|]. split; [apply all_nil|]. intros (a & r & E & _). discriminate E.
  - cbn. destruct (p a) eqn:A.
    + exists (String a u). cbn. split; [now rewrite <- E|]. split; [apply all_cons; auto|exact S].
    + exists "". split; [reflexivity|]. split; [apply all_nil|]. intros (b & r & F & B). injection F as -> ->. congruence.
Qed.
Lemma ends_cons p a t : t <> "" -> ends p (String a t) -> ends p t.
Proof.
  intros N (r & x & E & X). destruct r as [|b r]; cbn in E.
  - injection E as -> ->. congruence.
  - injection E as -> E. exists r, x. auto.
Qed.
Lemma right_spec p t : exists v, t = (strip_right p t ++ v)%string /\ all p v /\ ~ ends p (strip_right p t).
Proof.
  induction t as [|a t (v & E & V & N)].
  - exists "". split; [reflexivity|]. split; [apply all_nil|]. intros (r & a & E & _). destruct r; discriminate E.
  - cbn. destruct (strip_right p t) as [|b r] eqn:R.
    + cbn in E. subst v. destruct (p a) eqn:A.
      * exists (String a t). split; [reflexivity|]. split; [apply all_cons; auto|exact N].
      * exists t. split; [reflexivity|]. split; [exact V|]. intros (r & x & E & X). destruct r as [|y r]; cbn in E; [injection E as ->; congruence|].
        injection E as _ E. destruct r; discriminate E.
    + exists v. split; [rewrite E at 1; reflexivity|]. split; [exact V|]. intros F. apply N. eapply ends_cons; [|exact F]. discriminate.
Qed.
Lemma strip_spec p t : stripped p t (strip p t).
Proof.
  destruct (left_spec p t) as (u & E & U & S). destruct (right_spec p (strip_left p t)) as (v & F & V & N).
  exists u, v. unfold strip. split; [now rewrite <- F|]. do 2 (split; [assumption|]). split; [|exact N].
  intros (a & r & G & A). apply S. rewrite F, G. now exists a, (r ++ v)%string.
Qed.
Lemma stripped_iff p t c : stripped p t c <-> strip p t = c.
Proof. split; [apply strip_is|intros <-; apply strip_spec]. Qed.
Lemma app_nil_s t : (t ++ "")%string = t.
Proof. induction t as [|a t IH]; [reflexivity|]. cbn. now rewrite IH. Qed.
Lemma strip_twice p t : strip p (strip p t) = strip p t.
Proof.
  apply strip_is. destruct (strip_spec p t) as (u & v & _ & _ & _ & S & N). exists "", "". cbn. rewrite app_nil_s.
  split; [reflexivity|]. do 2 (split; [apply all_nil|]). auto.
Qed.

Lemma empty_spec t : reflect (t = "") (empty t).
Proof. unfold empty. apply String.eqb_spec. Qed.

Lemma no_slash t : contains "/" t = false <-> ~ In "/"%char (list_ascii_of_string t).
Proof.
  rewrite <- not_true_iff_false, contains_spec. split; intros H K; apply H; clear H.
  - induction t as [|a t IH]; [destruct K|]. destruct K as [-> |K].
    + exists "", t. reflexivity.
    + destruct (IH K) as (u & v & ->). exists (String a u), v. reflexivity.
  - destruct K as (u & v & ->). induction u as [|a u IH]; [left; reflexivity|right; exact IH].
Qed.

Definition made (shown : string -> string) (raw h k project : string) : config :=
  {| c_dsn := raw; c_key := k; c_project := project; c_endpoint := ("https://" ++ shown h)%string |}.

Lemma parsed parse shown dsn c : parse_dsn parse shown dsn = Some c <->
  exists h k project, proper parse dsn h k project /\ c = made shown (strip QueueModel.space dsn) h k project.
Proof.
  unfold parse_dsn. split.
  - destruct (empty_spec (strip QueueModel.space dsn)) as [|R]; [discriminate|].
    destruct (parse (strip QueueModel.space dsn)) as [u|] eqn:P; [|discriminate].
    destruct (String.eqb_spec (scheme u) "https") as [S|]; cbn [negb]; [|discriminate].
    destruct (empty_spec (host u)) as [|H]; [discriminate|]. destruct (userinfo u) as [[k pw]|] eqn:U; [|discriminate].
    destruct (empty_spec k) as [|K]; [discriminate|].
    destruct (empty_spec (strip slash (strip QueueModel.space (path u)))) as [|J]; [discriminate|].
    destruct (contains "/" _) eqn:C; [discriminate|]. intros E. injection E as <-.
    exists (host u), k, (strip slash (strip QueueModel.space (path u))). split; [|unfold made; now rewrite S].
    exists (strip QueueModel.space dsn), u, pw. split; [apply strip_spec|]. do 3 (split; [assumption|]). split; [reflexivity|]. do 3 (split; [assumption|]).
    exists (strip QueueModel.space (path u)). split; [apply strip_spec|]. split; [apply strip_spec|]. split; [exact J|]. now apply no_slash.
  - intros (h & k & project & (raw & u & pw & D & R & P & S & <- & H & U & K & q & Q & J & N & C) & ->).
    apply stripped_iff in D, Q, J. rewrite D. destruct (empty_spec raw); [congruence|]. rewrite P, S, String.eqb_refl. cbn [negb].
    destruct (empty_spec (host u)); [congruence|]. rewrite U. destruct (empty_spec k); [congruence|]. rewrite Q, J.
    destruct (empty_spec project); [congruence|]. apply no_slash in C. now rewrite C.
Qed.

Lemma proper_strip parse dsn h k project : proper parse (strip QueueModel.space dsn) h k project <-> proper parse dsn h k project.
Proof.
  unfold proper. split; intros (raw & u & pw & D & R); exists raw, u, pw; (split; [|exact R]); apply stripped_iff; apply stripped_iff in D.
  - now rewrite strip_twice in D.
  - now rewrite strip_twice.
Qed.

Lemma configured parse shown dsn c : from_dsn parse shown (remote_dsn dsn) = Some c <->
  exists h k project, proper parse dsn h k project /\ c = made shown (strip QueueModel.space dsn) h k project.
Proof.
  unfold from_dsn, remote_dsn. destruct (empty_spec (strip QueueModel.space dsn)) as [E|N]; cbn [negb].
  - cbn. split; [discriminate|]. intros (h & k & project & (raw & u & pw & D & R & _) & _). apply strip_is in D. congruence.
  - destruct (empty_spec (strip QueueModel.space dsn)); [congruence|]. rewrite parsed, strip_twice.
    split; intros (h & k & project & P & ->); exists h, k, project; (split; [now apply proper_strip|reflexivity]).
Qed.

Lemma proper_unique parse dsn h k project h' k' project' : proper parse dsn h k project -> proper parse dsn h' k' project' -> h = h' /\ k = k' /\ project = project'.
Proof.
  intros (raw & u & pw & D & _ & P & _ & H & _ & U & _ & q & Q & J & _) (raw' & u' & pw' & D' & _ & P' & _ & H' & _ & U' & _ & q' & Q' & J' & _).
  apply strip_is in D, D', Q, Q', J, J'. rewrite D in D'. subst raw'. rewrite P in P'. injection P' as <-. rewrite U in U'. injection U' as <- <-.
  repeat split; congruence.
Qed.

Lemma ends_app p t w : w <> "" -> ends p (t ++ w)%string -> ends p w.
Proof.
  intros N. induction t as [|a t IH]; [auto|]. cbn. intros E. apply IH. eapply ends_cons; [|exact E]. destruct t; [exact N|discriminate].
Qed.

(** ** Theorems *)
Theorem sent_when parse shown obs dsn s : (exists r, sent parse shown obs dsn s = Some r) <-> obs = true /\ exists h k project, proper parse dsn h k project.
Proof.
  unfold sent. destruct obs; [|split; [intros (r & E); discriminate E|intros (E & _); discriminate E]]. split.
  - intros (r & E). split; [reflexivity|]. destruct (from_dsn _ _ _) as [c|] eqn:F; [|discriminate]. apply configured in F as (h & k & project & P & _). eauto.
  - intros (_ & h & k & project & P). assert (F : from_dsn parse shown (remote_dsn dsn) = Some (made shown (strip QueueModel.space dsn) h k project)).
    { apply configured. exists h, k, project. auto. }
    rewrite F. eauto.
Qed.

Theorem sent_where parse shown obs dsn s r : writes_hosts parse shown -> sent parse shown obs dsn s = Some r ->
  exists h k project, proper parse dsn h k project /\ address r = ("https://" ++ shown h ++ place s)%string /\ authorization r = Some ("Bearer " ++ k)%string.
Proof.
  intros W. unfold sent. destruct obs; [|discriminate]. destruct (from_dsn _ _ _) as [c|] eqn:F; [|discriminate]. intros E. injection E as <-.
  apply configured in F as (h & k & project & P & ->). exists h, k, project. split; [exact P|].
  destruct P as (raw & u & pw & _ & _ & A & _ & <- & H & _ & K & _). destruct (W _ _ A H) as (B & C).
  assert (R : strip_right slash ("https://" ++ shown (host u))%string = ("https://" ++ shown (host u))%string).
  { apply right_same. intros E. apply C. exact (ends_app _ _ _ B E). }
  split.
  - destruct s; unfold request_for, otlp_signal_url, signal_url, made, address, c_endpoint; rewrite R, app_assoc_s; reflexivity.
  - unfold request_for, headers, made, empty. cbn. destruct (String.eqb_spec k ""); [congruence|reflexivity].
Qed.

Theorem project_untold parse shown obs dsn dsn' h k project project' s : proper parse dsn h k project -> proper parse dsn' h k project' ->
  sent parse shown obs dsn s = sent parse shown obs dsn' s.
Proof.
  intros P P'. unfold sent. destruct obs; [|reflexivity].
  rewrite (proj2 (configured parse shown dsn (made shown (strip QueueModel.space dsn) h k project))) by (exists h, k, project; auto).
  rewrite (proj2 (configured parse shown dsn' (made shown (strip QueueModel.space dsn') h k project'))) by (exists h, k, project'; auto).
  destruct s; reflexivity.
Qed.
