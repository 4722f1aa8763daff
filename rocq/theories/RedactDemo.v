(** Cases that meet the hypotheses, and cases in which more leaves than one would think. *)
From Coq Require Import List String Ascii Bool Arith Lia.
From Verif Require Import RedactModel RedactSpec RedactProof.
Import ListNotations.
Local Open Scope string_scope.
Local Open Scope nat_scope.
Local Open Scope list_scope.

(** Checkers. *)
Lemma without_check p s : has p s = false -> without p s.
Proof. intros H x y E. assert (K : has p s = true) by (apply has_app; eauto). congruence. Qed.
Lemma all_check f s : (match s with [] => false | _ => true end) && forallb f s = true -> all f s.
Proof. intros H. apply andb_true_iff in H. destruct H as [H1 H2]. split; [destruct s; [discriminate|discriminate]|]. apply Forall_forall. rewrite forallb_forall in H2. exact H2. Qed.

Definition nobody : bytes -> bytes := fun _ => b "[REDACTED]".

Theorem tokens_ex : same_but_tokens true (b "call with bEARER  abc.1, then with Bearer def!") (b "call with bEARER  x, then with Bearer yz/=!").
Proof.
  apply (sbt_token true (b "call with ") (b "bEARER") (b "  ") (b "abc.1") (b "x") (b ", then with Bearer def!") (b ", then with Bearer yz/=!"));
    try (apply all_check; reflexivity); try reflexivity; try (left; reflexivity).
  - apply without_check. reflexivity.
  - right. exists (b "call with"), " "%char. split; reflexivity.
  - apply (sbt_token false (b ", then with ") (b "Bearer") (b " ") (b "def") (b "yz/=") (b "!") (b "!"));
      try (apply all_check; reflexivity); try reflexivity.
    + apply without_check. reflexivity.
    + right. exists (b ", then with"), " "%char. split; reflexivity.
    + right. reflexivity.
    + apply sbt_rest. right. reflexivity.
Qed.

Theorem values_ex : same_but_values (b "GET /a?x=1&y=two HTTP") (b "GET /a?x=345&y=z HTTP").
Proof.
  apply (sbv_value (b "GET /a") "?"%char (b "x") (b "1") (b "345") (b "&y=two HTTP") (b "&y=z HTTP")); try (apply all_check; reflexivity); try reflexivity.
  - left. reflexivity.
  - apply (sbv_value [] "&"%char (b "y") (b "two") (b "z") (b " HTTP") (b " HTTP")); try (apply all_check; reflexivity); try reflexivity.
    + right. left. reflexivity.
    + apply sbv_rest.
Qed.

Theorem urls_ex : same_but_urls nobody (b "dial https://u:p@h/?k=1 failed") (b "dial http://v:q@i/ failed").
Proof.
  apply (sbu_url nobody (b "dial ") (b "https://") (b "http://") (b "u:p@h/?k=1") (b "v:q@i/") (b " failed") (b " failed"));
    try (apply all_check; reflexivity); try reflexivity.
  - apply without_check. reflexivity.
  - right. left. reflexivity.
  - left. reflexivity.
  - apply sbu_rest.
Qed.

Theorem text_ex : same_text nobody (b "GET /a?x=1&y=two HTTP") (b "GET /a?x=345&y=z HTTP")
  /\ same_text nobody (b "dial https://u:p@h/?k=1 failed") (b "dial http://v:q@i/ failed")
  /\ same_text nobody (b "call with bEARER  abc.1, then with Bearer def!") (b "call with bEARER  x, then with Bearer yz/=!").
Proof.
  split; [|split].
  - right. right. right. split; [exact values_ex|]. repeat split; apply without_check; reflexivity.
  - right. right. left. split; [exact urls_ex|]. split; apply without_check; reflexivity.
  - right. left. exact tokens_ex.
Qed.

Theorem key_ex : confidential (b " X-Api-Key ") /\ ~ confidential (b "amount").
Proof. split; [apply keys; reflexivity|intros H; apply keys in H; discriminate H]. Qed.

Theorem entries_ex : alike_entries nobody
  [(b "amount", VOther (b "5")); (b "ctx", VMap [(b "Dsn", VText (b "a")); (b "list", VList [VText (b "GET /a?x=1&y=two HTTP"); VNil])])]
  [(b "amount", VOther (b "5")); (b "ctx", VMap [(b "Dsn", VList []); (b "list", VList [VText (b "GET /a?x=345&y=z HTTP"); VNil])])].
Proof.
  apply ae_shown; [apply al_other|]. apply ae_shown; [|apply ae_nil]. apply al_map. apply ae_hidden; [apply keys; reflexivity|].
  apply ae_shown; [|apply ae_nil]. apply al_list. apply aa_cons; [apply al_text; apply text_ex|]. apply aa_cons; [apply al_nil|apply aa_nil].
Qed.

Theorem harmless_ex : harmless (b "applied 3 transactions of the forbearer Bearer, see https:// and /a?b=&c").
Proof. apply calm_sound. vm_compute. reflexivity. Qed.

Definition plain (s : string) : entry := {| e_message := b s; e_fields := [] |}.
Definition day : list event := [ECall (plain "one"); ECall (plain "two"); EPut 1; ETake; EPut 0; EClose; EShut; ECall (plain "three"); ETake].

Theorem day_ex : apart nobody day /\ w_dead (play nobody day start) = false
  /\ w_sent (play nobody day start) = [plain "two"; plain "one"] /\ w_late (play nobody day start) = [plain "three"].
Proof.
  split; [|vm_compute; auto]. intros x y E _.
  do 9 (destruct x as [|? x]; [first [discriminate E|vm_compute; reflexivity]|cbn [app] in E; injection E as <- E]). destruct x; discriminate E.
Qed.

Theorem history_ex : Forall2 (alike_event nobody)
  [ECall {| e_message := b "GET /a?x=1&y=two HTTP"; e_fields := [(b "token", VText (b "a"))] |}; EPut 0; ETake]
  [ECall {| e_message := b "GET /a?x=345&y=z HTTP"; e_fields := [(b "token", VNil)] |}; EPut 0; ETake].
Proof.
  constructor; [apply av_call; split; [apply text_ex|apply ae_hidden; [apply keys; reflexivity|apply ae_nil]]|].
  constructor; [apply av_put|]. constructor; [apply av_take|constructor].
Qed.

(** ** What leaves all the same *)
Theorem second_refuted : forall u, redact_string u (b "Bearer Bearer abc") = b "Bearer [REDACTED] abc".
Proof. reflexivity. Qed.

Theorem plain_refuted : forall u s, In s ["login with password=abc"; "Authorization: Basic dXNlcjphYmM="; "dial postgres://user:abc@db/blnk"; "X-Blnk-Key abc"] ->
  redact_string u (b s) = b s.
Proof. intros u s H. cbn [In] in H. repeat (destruct H as [<-|H]; [reflexivity|]). contradiction. Qed.

Theorem fragment_refuted : forall u, u (b "https://app/#access_token=abc") = b "https://app/#access_token=abc" ->
  redact_string u (b "see https://app/#access_token=abc now") = b "see https://app/#access_token=abc now".
Proof.
  intros u H. assert (K : replace url_len u 0 false (b "see https://app/#access_token=abc now") = b "see " ++ u (b "https://app/#access_token=abc") ++ b " now") by reflexivity.
  unfold redact_string. rewrite (no_bearer _ (b "see https://app/#access_token=abc now")) by (apply without_check; reflexivity). rewrite K, H. reflexivity.
Qed.

Theorem struct_refuted : forall u k w, ~ confidential k -> redact_fields u [(k, VOther w)] = [(k, VOther w)].
Proof. intros u k w H. unfold redact_fields. cbn [map fst snd redact_value]. destruct (sensitive k) eqn:E; [apply keys in E; contradiction|reflexivity]. Qed.

Theorem equals_refuted : forall u, redact_string u (b "GET /a?x=1") = b "GET /a?x[REDACTED]".
Proof. reflexivity. Qed.

Theorem closed_refuted : exists es, w_dead (play nobody es start) = true /\ w_queue (play nobody es start) = [plain "one"] /\
  forall more, w_sent (play nobody (es ++ more) start) = [].
Proof.
  exists [ECall (plain "one"); ECall (plain "two"); EPut 0; EClose; EShut; EPut 0]. split; [reflexivity|]. split; [reflexivity|].
  intros more. rewrite play_app, dead_stays; reflexivity.
Qed.

Theorem full_refuted : exists es, w_closed (play nobody es start) = false /\ w_dropped (play nobody es start) = [plain "last"].
Proof.
  exists (flat_map (fun _ => [ECall (plain "x"); EPut 0]) (seq 0 1024) ++ [ECall (plain "last"); EPut 0]). vm_compute. auto.
Qed.
