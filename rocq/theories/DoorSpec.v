(** What a client may count on before its request gets to a handler. *)
From Coq Require Import ZArith List String Ascii Bool.
From Verif Require Import Base AuthModel BodyModel DoorModel.
Import ListNotations.
Local Open Scope string_scope.
Local Open Scope Z_scope.
Local Open Scope list_scope.

(** Who may read metrics: everybody on an open server without a token, else whoever sends
    the token, exactly. *)
Definition may_scrape (secure : bool) (token header : string) : Prop :=
  (secure = false /\ token = "") \/ (token <> "" /\ header = "Bearer " ++ token)%string.

(** The headers every answer is to have. *)
Definition always : list (string * string) :=
  [("X-Content-Type-Options", "nosniff"); ("X-Frame-Options", "DENY");
   ("Referrer-Policy", "strict-origin-when-cross-origin");
   ("Content-Security-Policy", "default-src 'none'; frame-ancestors 'none'"); ("Cache-Control", "no-store")].
Definition over_tls : string * string := ("Strict-Transport-Security", "max-age=31536000; includeSubDomains").

(** The limit set, in bytes: five megabytes if none is set. *)
Definition allowed (mb : Z) : Z := if mb <=? 0 then 5 * 2 ^ 20 else mb * 2 ^ 20.
(** A limit that fits in 64 bits. *)
Definition sane (mb : Z) : Prop := mb < 2 ^ 43.

(** The body says that it is a form with files. *)
Definition labelled (w : wire) : Prop := exists rest, (w_type w = "multipart/form-data" ++ rest)%string.

(** The same request with another body. *)
Definition with_body (b : string) (w : wire) : wire :=
  {| w_req := w_req w; w_bearer := w_bearer w; w_type := w_type w; w_proto := w_proto w; w_tls := w_tls w; w_body := b |}.

(** What comes of a visit, to be seen from outside: of a handler, whom it serves and what
    it decodes. *)
Inductive seen := SEnd (e : finish) | SHandler (p : principal) (b : bound).
Definition comes_of (read : reader) (v : visit) : seen :=
  match v_end v with Handler p s => SHandler p (bind read s) | e => SEnd e end.

(** The request was sent by the holder of a key and is a POST, and so will be rewritten. *)
Definition posted_by (k : akey) (w : wire) (p : principal) : Prop := p = Holder k /\ q_method (w_req w) = "POST".

(** An object, before or after. *)
Definition names (id : string) (b : bound) : Prop :=
  exists l, b = Value (JObj l) /\ forall meta, map_field "meta_data" l [] = Some meta -> get "BLNK_GENERATED_BY" meta = Some (JText id).

(** A body within the limit. *)
Definition whole (cfg : settings) (w : wire) : Prop := labelled w \/ (sane (d_mb cfg) /\ size (w_body w) <= allowed (d_mb cfg)).
