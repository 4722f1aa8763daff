(** What an upload by URL may fetch. *)
From Coq Require Import ZArith List String Ascii Bool.
From Verif Require Import FetchModel.
Import ListNotations.
Local Open Scope string_scope.

(** [e] is written in [w] between two commas, or between a comma and an end. *)
Definition written (w e : string) : Prop :=
  ~ In ","%char (list_ascii_of_string e) /\
  exists a b, w = (a ++ e ++ b)%string /\ (a = "" \/ exists a', a = (a' ++ ",")%string) /\ (b = "" \/ exists b', b = ("," ++ b')%string).

(** The whitelist [w] names host [h]: by name, or by a URL with that host; blanks around and
    case do not matter. *)
Definition named (n : net) (w h : string) : Prop :=
  h <> "" /\ exists e, written w e /\
    (contains "://" (trim e) = false /\ lower (trim e) = h
     \/ contains "://" (trim e) = true /\ exists u, parse n (trim e) = Some u /\ lower (trim (u_host u)) = h).

(** No blank surrounds the host of a URL (url.Parse refuses blanks there). *)
Definition tidy_hosts (n : net) : Prop :=
  (forall t u, parse n t = Some u -> trim (u_host u) = u_host u) /\ (forall t v u, resolve n t v = Some u -> trim (u_host u) = u_host u).

Definition web_url (u : url) : Prop := u_scheme u = "http" \/ u_scheme u = "https".

(** Each request after the first goes where the answer to the one before it pointed; [i] is the
    number of the first. *)
Fixpoint led (n : net) (i : nat) (l : list url) : Prop :=
  match l with
  | u :: ((v :: _) as r) => (exists st loc body, web n i u = Reply st loc body /\ resolve n u loc = Some v) /\ led n (S i) r
  | _ => True
  end.

(** The file limit in bytes, of the setting in megabytes; unset, it is 256. *)
Definition file_limit (mb : Z) : Z := if (mb <=? 0)%Z then (256 * 2 ^ 20)%Z else (mb * 2 ^ 20)%Z.
