(** Uploads by URL: examples, and what the whitelist does not do. *)
From Coq Require Import ZArith List String Ascii Bool Lia.
From Verif Require DoorModel DoorProof.
From Verif Require Import FetchModel FetchSpec FetchProof.
Import ListNotations.
Local Open Scope string_scope.
Local Open Scope Z_scope.
Local Open Scope list_scope.

Definition at_ (s h p : string) : url := {| u_scheme := s; u_host := h; u_port := p; u_path := "/a.csv" |}.
(** A little of url.Parse. *)
Definition little (t : string) : option url :=
  if String.eqb t "https://Files.example.com/a.csv" then Some (at_ "https" "Files.example.com" "")
  else if String.eqb t "https://files.example.com:8443" then Some (at_ "https" "files.example.com" "8443")
  else if String.eqb t "http://files.example.com:6379/a.csv" then Some (at_ "http" "files.example.com" "6379")
  else if String.eqb t "http://cdn.example.com/a.csv" then Some (at_ "http" "cdn.example.com" "")
  else if String.eqb t "http://169.254.169.254/a.csv" then Some (at_ "http" "169.254.169.254" "")
  else if String.eqb t "file:///etc/passwd" then Some (at_ "file" "" "")
  else None.
(** The first answer is a redirect, the second the file. *)
Definition moved (loc : string) (i : nat) (_ : url) : reply :=
  match i with O => Reply 302 loc "moved" | _ => Reply 200 "" "id,amount" end.
Definition world (loc : string) : net := {| parse := little; resolve := fun _ l => little l; web := moved loc; patience := 30 |}.
Definition asked (t : string) : request := {| r_file := None; r_large := false; r_url := t |}.
Definition list_ : string := " CDN.example.com ,,https://files.example.com:8443, files.example.com".

Lemma little_tidy loc : tidy_hosts (world loc).
Proof.
  assert (A : forall t u, little t = Some u -> trim (u_host u) = u_host u).
  { intros t u. unfold little.
    repeat match goal with |- context [String.eqb t ?x] => destruct (String.eqb t x); [intros E; injection E as <-; reflexivity|] end. discriminate. }
  split; [exact A|]. intros t v u E. exact (A v u E).
Qed.

Lemma named_by n w h : host_allowed h (whitelist_hosts n w) = true -> named n w h.
Proof. apply allowed_named. Qed.
Lemma not_named_by n w h : host_allowed h (whitelist_hosts n w) = false -> ~ named n w h.
Proof. intros E K. apply allowed_named in K. congruence. Qed.

Theorem fetch_example :
  tidy_hosts (world "http://cdn.example.com/a.csv") /\
  upload (world "http://cdn.example.com/a.csv") list_ 1 (asked "https://Files.example.com/a.csv") =
    ([at_ "https" "Files.example.com" ""; at_ "http" "cdn.example.com" ""], FromUrl (Handed "id,amount")) /\
  upload (world "http://169.254.169.254/a.csv") list_ 1 (asked "https://Files.example.com/a.csv") =
    ([at_ "https" "Files.example.com" ""], FromUrl Failed) /\
  upload (world "") list_ 1 (asked "http://169.254.169.254/a.csv") = ([], FromUrl HostNotAllowed) /\
  upload (world "") list_ 1 (asked "file:///etc/passwd") = ([], FromUrl UrlInvalid) /\
  named (world "") list_ "files.example.com" /\ named (world "") list_ "cdn.example.com" /\ ~ named (world "") list_ "169.254.169.254".
Proof.
  split; [apply little_tidy|]. split; [vm_compute; reflexivity|]. split; [vm_compute; reflexivity|]. split; [vm_compute; reflexivity|].
  split; [vm_compute; reflexivity|]. split; [apply named_by; vm_compute; reflexivity|]. split; [apply named_by; vm_compute; reflexivity|].
  apply not_named_by. vm_compute. reflexivity.
Qed.

(** An entry with a scheme and a port lets every scheme and port of the host through. *)
Theorem port_wrong : exists n w mb r u, tidy_hosts n /\ w = "https://files.example.com:8443" /\
  (exists e, parse n w = Some e /\ u_scheme e = "https" /\ u_port e = "8443") /\
  In u (fst (upload n w mb r)) /\ u_scheme u = "http" /\ u_port u = "6379".
Proof.
  exists (world ""), "https://files.example.com:8443", 1, (asked "http://files.example.com:6379/a.csv"), (at_ "http" "files.example.com" "6379").
  split; [apply little_tidy|]. split; [reflexivity|]. split; [exists (at_ "https" "files.example.com" "8443"); repeat split|].
  split; [vm_compute; now left|]. split; reflexivity.
Qed.

(** A file asked for by https may come by http. *)
Theorem downgrade_wrong : exists n w mb r f u v, tidy_hosts n /\ parse n (r_url r) = Some u /\ u_scheme u = "https" /\
  upload n w mb r = ([u; v], FromUrl (Handed f)) /\ u_scheme v = "http".
Proof.
  exists (world "http://cdn.example.com/a.csv"), list_, 1, (asked "https://Files.example.com/a.csv"), "id,amount",
    (at_ "https" "Files.example.com" ""), (at_ "http" "cdn.example.com" "").
  split; [apply little_tidy|]. split; [reflexivity|]. split; [reflexivity|]. split; [vm_compute; reflexivity|reflexivity].
Qed.

(** A host that sends the server round and round. *)
Definition round (k : nat) : net :=
  {| parse := little; resolve := fun _ l => little l; web := fun _ _ => Reply 302 "http://cdn.example.com/a.csv" ""; patience := k |}.
Lemma round_follow k : forall fuel i, List.length (fst (follow (round k) ["cdn.example.com"] fuel i (at_ "http" "cdn.example.com" ""))) = fuel.
Proof.
  induction fuel as [|fuel IH]; intros i; [reflexivity|]. specialize (IH (S i)).
  change (S (List.length (fst (follow (round k) ["cdn.example.com"] fuel (S i) (at_ "http" "cdn.example.com" "")))) = S fuel). now rewrite IH.
Qed.
Theorem redirects_wrong : forall k, exists n w mb r, tidy_hosts n /\ patience n = k /\ List.length (fst (upload n w mb r)) = k.
Proof.
  intros k. exists (round k), "cdn.example.com", 1, (asked "http://cdn.example.com/a.csv").
  split; [destruct (little_tidy "") as [A B]; split; [exact A|exact B]|]. split; [reflexivity|].
  change (List.length (fst (follow (round k) ["cdn.example.com"] k 0 (at_ "http" "cdn.example.com" ""))) = k). apply round_follow.
Qed.

(** A file larger than the limit is not refused: what is over is cut off, and the rest handed
    on. *)
Theorem oversize_wrong n w mb r u loc body : r_file r = None -> r_large r = false -> r_url r <> "" ->
  parse n (r_url r) = Some u -> web_url u -> named n w (lower (trim (u_host u))) -> (0 < patience n)%nat ->
  web n 0 u = Reply 200 loc body -> file_limit mb + 1 < Z.of_nat (String.length body) ->
  exists f, upload n w mb r = ([u], FromUrl (Handed f)) /\ Z.of_nat (String.length f) = file_limit mb + 1 /\ f <> body.
Proof.
  intros F L U P S N Pt W B. destruct (answered n w mb r u 200 loc body F L U P S N Pt W) as (f & E & rest & X & D).
  { cbn. lia. }
  exists f. split; [exact E|]. destruct D as [(_ & D)|D]; [lia|]. split; [exact D|]. intros ->. lia.
Qed.

(** The case exists for every limit. *)
Fixpoint long (k : nat) : string := match k with O => "" | S k => String "x" (long k) end.
Lemma long_length k : String.length (long k) = k.
Proof. induction k as [|k IH]; cbn; [reflexivity|now rewrite IH]. Qed.
Theorem oversize_example mb : exists n w r u body, r_file r = None /\ r_large r = false /\ r_url r <> "" /\
  parse n (r_url r) = Some u /\ web_url u /\ named n w (lower (trim (u_host u))) /\ (0 < patience n)%nat /\
  web n 0 u = Reply 200 "" body /\ file_limit mb + 1 < Z.of_nat (String.length body).
Proof.
  pose (body := long (Z.to_nat (file_limit mb + 2))).
  exists {| parse := little; resolve := fun _ l => little l; web := fun _ _ => Reply 200 "" body; patience := 1 |}, list_,
    (asked "http://cdn.example.com/a.csv"), (at_ "http" "cdn.example.com" ""), body.
  split; [reflexivity|]. split; [reflexivity|]. split; [discriminate|]. split; [reflexivity|]. split; [now left|].
  split; [apply named_by; vm_compute; reflexivity|]. split; [cbn; lia|]. split; [reflexivity|].
  unfold body. rewrite long_length. pose proof (limit_pos mb). lia.
Qed.
