(** C52. An upload by URL fetches from the hosts of the whitelist and from no others. *)
From Coq Require Import ZArith List String Ascii Bool.
From Verif Require Import FetchModel FetchSpec FetchProof FetchDemo.
Import ListNotations.
Local Open Scope string_scope.
Local Open Scope Z_scope.
Local Open Scope list_scope.

(** Whatever the URL and wherever the answers point, every request goes by http or https to a
    host named by the whitelist. *)
Theorem C52_requests : forall n w mb r u, tidy_hosts n -> In u (fst (upload n w mb r)) -> web_url u /\ named n w (lower (u_host u)).
Proof. exact requests_safe. Qed.
Print Assumptions C52_requests.

(** The first request is to the URL asked for, each other one to where the last answer pointed. *)
Theorem C52_led : forall n w mb r, led n 0 (fst (upload n w mb r)) /\
  forall u l, fst (upload n w mb r) = u :: l -> r_file r = None /\ parse n (r_url r) = Some u.
Proof. exact requests_led. Qed.
Print Assumptions C52_led.

(** What is handed on is the beginning of the last answer, a success, all of it unless it is
    larger than the limit. *)
Theorem C52_handed : forall n w mb r f, snd (upload n w mb r) = FromUrl (Handed f) ->
  exists l u st loc body rest, fst (upload n w mb r) = l ++ [u] /\ web n (List.length l) u = Reply st loc body /\
    200 <= st < 300 /\ body = (f ++ rest)%string /\
    (rest = "" \/ Z.of_nat (String.length f) = file_limit mb + 1).
Proof. exact handed_fetched. Qed.
Print Assumptions C52_handed.

(** Which URLs are refused, and that nothing is fetched for them. *)
Theorem C52_refused : forall n w mb r, r_file r = None -> r_large r = false -> r_url r <> "" ->
  let good := exists u, parse n (r_url r) = Some u /\ (lower (u_scheme u) = "http" \/ lower (u_scheme u) = "https") /\ trim (u_host u) <> "" in
  let listed := exists u, parse n (r_url r) = Some u /\ named n w (lower (trim (u_host u))) in
  (snd (upload n w mb r) = FromUrl UrlInvalid <-> ~ good) /\
  (snd (upload n w mb r) = FromUrl HostNotAllowed <-> good /\ ~ listed) /\
  (~ good \/ ~ listed -> fst (upload n w mb r) = []).
Proof. exact url_refused. Qed.
Print Assumptions C52_refused.

(** A URL of a named host is fetched, and its file handed on if the answer is a success. *)
Theorem C52_answered : forall n w mb r u st loc body, r_file r = None -> r_large r = false -> r_url r <> "" ->
  parse n (r_url r) = Some u -> web_url u -> named n w (lower (trim (u_host u))) -> (0 < patience n)%nat ->
  web n 0 u = Reply st loc body -> ~ In st [301; 302; 303; 307; 308] ->
  exists f, upload n w mb r = ([u], FromUrl (if (200 <=? st) && (st <? 300) then Handed f else Failed)) /\
    exists rest, body = (f ++ rest)%string /\
      (rest = "" /\ Z.of_nat (String.length body) <= file_limit mb + 1 \/ Z.of_nat (String.length f) = file_limit mb + 1).
Proof. exact answered. Qed.
Print Assumptions C52_answered.

(** An answer that points to a host not named ends the upload. *)
Theorem C52_astray : forall n w mb r u st loc body v, r_file r = None -> r_large r = false -> r_url r <> "" ->
  parse n (r_url r) = Some u -> web_url u -> named n w (lower (trim (u_host u))) -> (0 < patience n)%nat ->
  web n 0 u = Reply st loc body -> In st [301; 302; 303; 307; 308] -> loc <> "" -> resolve n u loc = Some v ->
  ~ named n w (lower (trim (u_host v))) ->
  upload n w mb r = ([u], FromUrl Failed).
Proof. exact led_astray. Qed.
Print Assumptions C52_astray.

(** With a blank whitelist nothing is fetched. *)
Theorem C52_blank : forall n w mb r, trim w = "" -> fst (upload n w mb r) = [] /\ forall f, snd (upload n w mb r) <> FromUrl (Handed f).
Proof. exact blank_whitelist. Qed.
Print Assumptions C52_blank.

(** A file sent along wins over a URL: nothing is fetched. *)
Theorem C52_file_wins : forall n w mb r f, r_file r = Some f -> upload n w mb r = ([], FromFile f).
Proof. exact file_wins. Qed.
Print Assumptions C52_file_wins.

(** Nor when the body is too large or names no URL. *)
Theorem C52_no_source : forall n w mb r, r_file r = None -> (r_large r = true -> upload n w mb r = ([], TooLarge)) /\
  (r_large r = false -> r_url r = "" -> upload n w mb r = ([], NoFile)).
Proof. exact no_source. Qed.
Print Assumptions C52_no_source.

Theorem C52_example :
  tidy_hosts (world "http://cdn.example.com/a.csv") /\
  upload (world "http://cdn.example.com/a.csv") list_ 1 (asked "https://Files.example.com/a.csv") =
    ([at_ "https" "Files.example.com" ""; at_ "http" "cdn.example.com" ""], FromUrl (Handed "id,amount")) /\
  upload (world "http://169.254.169.254/a.csv") list_ 1 (asked "https://Files.example.com/a.csv") =
    ([at_ "https" "Files.example.com" ""], FromUrl Failed) /\
  upload (world "") list_ 1 (asked "http://169.254.169.254/a.csv") = ([], FromUrl HostNotAllowed) /\
  upload (world "") list_ 1 (asked "file:///etc/passwd") = ([], FromUrl UrlInvalid) /\
  named (world "") list_ "files.example.com" /\ named (world "") list_ "cdn.example.com" /\ ~ named (world "") list_ "169.254.169.254".
Proof. exact fetch_example. Qed.
Print Assumptions C52_example.

(** Refuted: that scheme and port of an entry are heeded. *)
Theorem C52_port_refuted : exists n w mb r u, tidy_hosts n /\ w = "https://files.example.com:8443" /\
  (exists e, parse n w = Some e /\ u_scheme e = "https" /\ u_port e = "8443") /\
  In u (fst (upload n w mb r)) /\ u_scheme u = "http" /\ u_port u = "6379".
Proof. exact port_wrong. Qed.
Print Assumptions C52_port_refuted.

(** Refuted: that a file asked for by https comes by https. *)
Theorem C52_downgrade_refuted : exists n w mb r f u v, tidy_hosts n /\ parse n (r_url r) = Some u /\ u_scheme u = "https" /\
  upload n w mb r = ([u; v], FromUrl (Handed f)) /\ u_scheme v = "http".
Proof. exact downgrade_wrong. Qed.
Print Assumptions C52_downgrade_refuted.

(** Refuted: that the number of requests of an upload has a bound other than its deadline. *)
Theorem C52_redirects_refuted : forall k, exists n w mb r, tidy_hosts n /\ patience n = k /\ List.length (fst (upload n w mb r)) = k.
Proof. exact redirects_wrong. Qed.
Print Assumptions C52_redirects_refuted.

(** Refuted: that a file larger than the limit is refused. It is cut, and what is left handed on. *)
Theorem C52_oversize_refuted : forall n w mb r u loc body, r_file r = None -> r_large r = false -> r_url r <> "" ->
  parse n (r_url r) = Some u -> web_url u -> named n w (lower (trim (u_host u))) -> (0 < patience n)%nat ->
  web n 0 u = Reply 200 loc body -> file_limit mb + 1 < Z.of_nat (String.length body) ->
  exists f, upload n w mb r = ([u], FromUrl (Handed f)) /\ Z.of_nat (String.length f) = file_limit mb + 1 /\ f <> body.
Proof. exact oversize_wrong. Qed.
Print Assumptions C52_oversize_refuted.

Theorem C52_oversize_example : forall mb, exists n w r u body, r_file r = None /\ r_large r = false /\ r_url r <> "" /\
  parse n (r_url r) = Some u /\ web_url u /\ named n w (lower (trim (u_host u))) /\ (0 < patience n)%nat /\
  web n 0 u = Reply 200 "" body /\ file_limit mb + 1 < Z.of_nat (String.length body).
Proof. exact oversize_example. Qed.
Print Assumptions C52_oversize_example.
