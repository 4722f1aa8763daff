(** Uploads of external transactions by URL: what the server fetches, and from where.
    api/reconciliation_api.go:99-230, config/config.go:554-587. *)
From Coq Require Import ZArith List String Ascii Bool.
From Verif Require QueueModel BodyModel FilterUrl PoolModel DoorModel.
Import ListNotations.
Local Open Scope string_scope.
Local Open Scope Z_scope.

(** strings.TrimSpace and strings.ToLower, on ASCII; strings.Contains; io.LimitReader. *)
Definition trim : string -> string := QueueModel.trim.
Definition lower : string -> string := BodyModel.lower.
Definition contains : string -> string -> bool := PoolModel.contains.
Definition first : Z -> string -> string := DoorModel.upto.

(** A parsed URL; [u_host] is Hostname(), without port, brackets and user. Simplified: query
    and user are part of [u_path]. *)
Record url := { u_scheme : string; u_host : string; u_port : string; u_path : string }.

(** What the [i]th request of an upload gets: nothing, or status, Location header and body. *)
Inductive reply := NoReply | Reply (status : Z) (location : string) (body : string).

(** The world: url.Parse, the resolution of a Location against the URL it came from, the
    answers of the web, and the number of requests that can be made before the deadline
    (upload_url_timeout_sec). *)
Record net := { parse : string -> option url; resolve : url -> string -> option url; web : nat -> url -> reply; patience : nat }.

(** UploadDomainWhitelistHosts, config/config.go:554-587. *)
Definition entry_host (n : net) (e : string) : string :=
  lower (trim (if contains "://" e then match parse n e with Some u => u_host u | None => "" end else e)).
Fixpoint hosts_from (n : net) (seen : list string) (es : list string) : list string :=
  match es with
  | [] => []
  | e :: r =>
    let e := trim e in
    let h := entry_host n e in
    if String.eqb e "" || String.eqb h "" || existsb (String.eqb h) seen then hosts_from n seen r
    else h :: hosts_from n (h :: seen) r
  end.
Definition whitelist_hosts (n : net) (w : string) : list string :=
  let raw := trim w in if String.eqb raw "" then [] else hosts_from n [] (FilterUrl.split_on "," raw).

(** hostAllowed, api/reconciliation_api.go:222-230. *)
Definition host_allowed (h : string) (allowed : list string) : bool := existsb (fun a => String.eqb a h) allowed.

(** The statuses net/http follows for a GET. *)
Definition redirects (st : Z) : bool := existsb (Z.eqb st) [301; 302; 303; 307; 308].
(** net/http's transport takes these schemes only, and no URL without a host. *)
Definition sendable (u : url) : bool := (String.eqb (u_scheme u) "http" || String.eqb (u_scheme u) "https") && negb (String.eqb (u_host u) "").
Definition plain_host (u : url) : string := lower (trim (u_host u)).

(** client.Do with the CheckRedirect of api/reconciliation_api.go:176-188: the URLs requested,
    and status and body of the last answer. A refused redirect ends with the answer that asked
    for it. A custom CheckRedirect replaces net/http's own, and with it the limit of ten. *)
Fixpoint follow (n : net) (allowed : list string) (fuel i : nat) (u : url) : list url * option (Z * string) :=
  match fuel with
  | O => ([], None)
  | S fuel =>
    if negb (sendable u) then ([], None) else
    match web n i u with
    | NoReply => ([u], None)
    | Reply st loc body =>
      if redirects st && negb (String.eqb loc "") then
        match resolve n u loc with
        | None => ([u], None)
        | Some v =>
          if String.eqb (plain_host v) "" || negb (host_allowed (plain_host v) allowed) then ([u], Some (st, body))
          else let r := follow n allowed fuel (S i) v in (u :: fst r, snd r)
        end
      else ([u], Some (st, body))
    end
  end.

(** What the server makes of the request: refused for the URL or for the host, failed, or a
    file handed to the upload proper (C43). Simplified: the name of the file is left out, a body
    that breaks off is no reply, and max_upload_size_mb is taken not to overflow int64. *)
Inductive outcome := UrlInvalid | HostNotAllowed | Failed | Handed (file : string).

(** downloadAndUpload, api/reconciliation_api.go:124-220; [mb] is max_upload_size_mb. *)
Definition limit (mb : Z) : Z := (if mb >? 0 then mb else 256) * 1024 * 1024.
Definition download (n : net) (w : string) (mb : Z) (raw : string) : list url * outcome :=
  match parse n raw with
  | None => ([], UrlInvalid)
  | Some u =>
    let scheme := lower (u_scheme u) in
    if negb (String.eqb scheme "http") && negb (String.eqb scheme "https") then ([], UrlInvalid)
    else if String.eqb (plain_host u) "" then ([], UrlInvalid)
    else
      let allowed := whitelist_hosts n w in
      if negb (host_allowed (plain_host u) allowed) then ([], HostNotAllowed)
      else
        let r := follow n allowed (patience n) 0 u in
        (fst r, match snd r with
                | None => Failed
                | Some (st, body) => if (st <? 200) || (300 <=? st) then Failed else Handed (first (limit mb + 1) body)
                end)
  end.

(** UploadExternalData, api/reconciliation_api.go:47-98, and resolveUploadURL, lines 104-117:
    the request as the handler sees it, the multipart file if there is one, whether the body is
    larger than allowed, and the [url] of form or JSON body, empty if there is none. *)
Record request := { r_file : option string; r_large : bool; r_url : string }.
Inductive answer := TooLarge | NoFile | FromFile (file : string) | FromUrl (o : outcome).
Definition upload (n : net) (w : string) (mb : Z) (r : request) : list url * answer :=
  match r_file r with
  | Some f => ([], FromFile f)
  | None =>
    if r_large r then ([], TooLarge)
    else if String.eqb (r_url r) "" then ([], NoFile)
    else let d := download n w mb (r_url r) in (fst d, FromUrl (snd d))
  end.
