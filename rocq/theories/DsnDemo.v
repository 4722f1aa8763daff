(** A DSN with blanks around it, one with a second project and one that is not secure. *)
From Coq Require Import List String Ascii Bool.
From Verif Require QueueModel.
From Verif Require Import DsnModel DsnSpec DsnProof.
Import ListNotations.
Local Open Scope string_scope.
Local Open Scope list_scope.

Definition a_url (s p : string) : url := {| scheme := s; host := "mon.example.com:8443"; userinfo := Some ("wk_1", "pw"); path := p |}.
Definition demo_parse (t : string) : option url :=
  if String.eqb t "https://wk_1:pw@mon.example.com:8443/acme/" then Some (a_url "https" "/acme/")
  else if String.eqb t "https://wk_1:pw@mon.example.com:8443/other" then Some (a_url "https" "/other")
  else if String.eqb t "https://wk_1:pw@mon.example.com:8443/a/b" then Some (a_url "https" "/a/b")
  else if String.eqb t "http://wk_1:pw@mon.example.com:8443/acme" then Some (a_url "http" "/acme")
  else None.
Definition as_is (h : string) : string := h.

Lemma demo_hosts : writes_hosts demo_parse as_is.
Proof.
  intros raw u P _. assert (H : host u = "mon.example.com:8443").
  { unfold demo_parse in P. repeat destruct (String.eqb raw _) in P; (discriminate P || (injection P as <-; reflexivity)). }
  unfold as_is. rewrite H. split; [discriminate|]. intros (r & a & E & A).
  assert (K : strip_right slash "mon.example.com:8443" = strip_right slash r).
  { rewrite E. apply right_app. constructor; [exact A|constructor]. }
  rewrite right_same in K.
  - apply (f_equal String.length) in K. assert (L : forall t, String.length (strip_right slash t) <= String.length t).
    { clear. induction t as [|a t IH]; [reflexivity|]. cbn. destruct (strip_right slash t); [destruct (slash a); cbn; auto with arith|].
      cbn in *. auto with arith. }
    specialize (L r). rewrite <- K in L. apply (f_equal String.length) in E. rewrite E in L.
    assert (Q : String.length (r ++ String a "") = S (String.length r)) by (clear; induction r as [|b r IH]; cbn; [reflexivity|now rewrite IH]).
    rewrite Q in L. exact (PeanoNat.Nat.nle_succ_diag_l _ L).
  - clear. intros (r & a & E & A). do 21 (destruct r as [|? r]; [discriminate E || (injection E as <-; discriminate A)|try discriminate E; injection E as _ E]).
Qed.

Lemma demo_proper : proper demo_parse " https://wk_1:pw@mon.example.com:8443/acme/ " "mon.example.com:8443" "wk_1" "acme".
Proof.
  exists "https://wk_1:pw@mon.example.com:8443/acme/", (a_url "https" "/acme/"), "pw".
  split; [apply stripped_iff; reflexivity|]. split; [discriminate|]. do 3 (split; [reflexivity|]). split; [discriminate|]. split; [reflexivity|]. split; [discriminate|].
  exists "/acme/". split; [apply stripped_iff; reflexivity|]. split; [apply stripped_iff; reflexivity|]. split; [discriminate|]. apply no_slash. reflexivity.
Qed.
Lemma demo_other : proper demo_parse "https://wk_1:pw@mon.example.com:8443/other" "mon.example.com:8443" "wk_1" "other".
Proof.
  exists "https://wk_1:pw@mon.example.com:8443/other", (a_url "https" "/other"), "pw".
  split; [apply stripped_iff; reflexivity|]. split; [discriminate|]. do 3 (split; [reflexivity|]). split; [discriminate|]. split; [reflexivity|]. split; [discriminate|].
  exists "/other". split; [apply stripped_iff; reflexivity|]. split; [apply stripped_iff; reflexivity|]. split; [discriminate|]. apply no_slash. reflexivity.
Qed.

Theorem dsn_example :
  writes_hosts demo_parse as_is /\
  proper demo_parse " https://wk_1:pw@mon.example.com:8443/acme/ " "mon.example.com:8443" "wk_1" "acme" /\
  proper demo_parse "https://wk_1:pw@mon.example.com:8443/other" "mon.example.com:8443" "wk_1" "other" /\
  sent demo_parse as_is true " https://wk_1:pw@mon.example.com:8443/acme/ " Logs =
    Some {| address := "https://mon.example.com:8443/monitoring/ingest/v1/logs"; authorization := Some "Bearer wk_1" |} /\
  sent demo_parse as_is true "https://wk_1:pw@mon.example.com:8443/a/b" Logs = None /\
  sent demo_parse as_is true "http://wk_1:pw@mon.example.com:8443/acme" Logs = None.
Proof. split; [exact demo_hosts|]. split; [exact demo_proper|]. split; [exact demo_other|]. repeat split; reflexivity. Qed.
