(** Requests at the door: what the theorems speak of, and what is not so. *)
From Coq Require Import ZArith List String Ascii Bool Lia.
From Verif Require Import DoorProof.
From Verif Require Import Base AuthModel AuthSpec BodyModel BodySpec DoorModel DoorSpec.
Import ListNotations.
Local Open Scope string_scope.
Local Open Scope Z_scope.
Local Open Scope list_scope.

(** ** A reader of JSON, for whole numbers and texts without escapes *)

Definition is_space (c : ascii) : bool := existsb (Ascii.eqb c) [" "%char; "009"%char; "010"%char; "013"%char].
Fixpoint skip (s : string) : string :=
  match s with String c r => if is_space c then skip r else s | EmptyString => "" end.
Fixpoint quoted (s : string) : option (string * string) :=
  match s with
  | EmptyString => None
  | String c r => if Ascii.eqb c """"%char then Some ("", r)
                  else match quoted r with Some (t, rest) => Some (String c t, rest) | None => None end
  end.
Fixpoint digits (s : string) (n : Z) : Z * string :=
  match s with
  | String c r => let d := Z.of_nat (nat_of_ascii c) - 48 in if (0 <=? d) && (d <=? 9) then digits r (10 * n + d) else (n, s)
  | EmptyString => (n, "")
  end.
Fixpoint value (fuel : nat) (s : string) : option (json * string) :=
  match fuel with
  | O => None
  | S f =>
    match skip s with
    | EmptyString => None
    | String c r =>
      if Ascii.eqb c """"%char then match quoted r with Some (t, rest) => Some (JText t, rest) | None => None end
      else if Ascii.eqb c "{"%char then
        match skip r with
        | String "}" r' => Some (JObj [], r')
        | r1 => match members f r1 with Some (l, r') => Some (JObj l, r') | None => None end
        end
      else if Ascii.eqb c "n"%char then (if String.prefix "ull" r then Some (JNull, after 3 r) else None)
      else let d := Z.of_nat (nat_of_ascii c) - 48 in
           if (0 <=? d) && (d <=? 9) then let '(n, r') := digits r d in Some (JNum true n, r') else None
    end
  end
with members (fuel : nat) (s : string) : option (list (string * json) * string) :=
  match fuel with
  | O => None
  | S f =>
    match skip s with
    | String c r =>
      if Ascii.eqb c """"%char then
        match quoted r with
        | Some (k, r1) =>
          match skip r1 with
          | String ":" r2 =>
            match value f r2 with
            | Some (v, r3) =>
              match skip r3 with
              | String "," r4 => match members f r4 with Some (l, r5) => Some ((k, v) :: l, r5) | None => None end
              | String "}" r4 => Some ([(k, v)], r4)
              | _ => None
              end
            | None => None
            end
          | _ => None
          end
        | None => None
        end
      else None
    | EmptyString => None
    end
  end.
Definition json_reader : reader := value 100.

(** ** A server, a key and a payment *)

Definition server := {| d_auth := {| c_secure := true; c_secret := "master"; c_extra := 0 |}; d_token := "scrape"; d_mb := 1 |}.
Definition key1 := {| k_id := "key1"; k_secret := "s1"; k_owner := "shop"; k_scopes := ["transactions:write"]; k_expires := 1000;
                      k_revoked := false; k_by := None |}.
Definition calm_day := {| o_limited := None; o_key := Some key1; o_now := 5; o_routed := true |}.
Definition ask_for (key method path : string) : request :=
  {| q_on := 0; q_key := key; q_method := method; q_path := path; q_owner := ""; q_body_owner := ""; q_scopes := []; q_expires := 0 |}.
Definition post (key type body : string) : wire :=
  {| w_req := ask_for key "POST" "/transactions"; w_bearer := ""; w_type := type; w_proto := "HTTPS"; w_tls := false; w_body := body |}.
Definition q (s : string) : string := (String """"%char s ++ String """"%char "")%string.
Definition paying : string :=
  ("{" ++ q "reference" ++ ": " ++ q "r1" ++ ", " ++ q "precise_amount" ++ ": 500, " ++ q "meta_data" ++ ": {" ++ q "BLNK_GENERATED_BY" ++ ": "
   ++ q "somebody else" ++ "}}")%string.
Definition payment_of_shop : list (string * json) :=
  [("reference", JText "r1"); ("precise_amount", JNum true 500); ("meta_data", JObj [("BLNK_GENERATED_BY", JText "somebody else")])].

Lemma paying_reads : json_reader (paying ++ "  ")%string = Some (JObj payment_of_shop, "  ").
Proof. reflexivity. Qed.
Lemma paying_tidy : tidy (JObj payment_of_shop) /\ small (JObj payment_of_shop).
Proof.
  split; cbn; repeat split; try lia; repeat constructor; cbn; intuition discriminate.
Qed.

Lemma paid : exists s, v_end (pass server json_reader calm_day (post "s1" "application/json" (paying ++ "  ")%string)) = Handler (Holder key1) s
  /\ bind json_reader s = Value (JObj [("meta_data", JObj [("BLNK_GENERATED_BY", JText "key1")]); ("precise_amount", JNum true 500); ("reference", JText "r1")]).
Proof.
  exists (Made (JObj [("meta_data", JObj [("BLNK_GENERATED_BY", JText "key1")]); ("precise_amount", JNum true 500); ("reference", JText "r1")])).
  split; [vm_compute; reflexivity|reflexivity].
Qed.

Lemma sane_server : sane (d_mb server).
Proof. reflexivity. Qed.
Lemma json_unlabelled key body : ~ labelled (post key "application/json" body).
Proof. intros (r & E). discriminate E. Qed.
Lemma paid_whole : whole server (post "s1" "application/json" (paying ++ "  ")%string).
Proof. right. split; [exact sane_server|vm_compute; discriminate]. Qed.

(** Something behind the object, and its sender is who they say they are. *)
Lemma trailing_spoof : ~ (forall cfg read o w k s l meta, v_end (pass cfg read o w) = Handler (Holder k) s -> q_method (w_req w) = "POST" ->
  bind read s = Value (JObj l) -> map_field "meta_data" l [] = Some meta -> get "BLNK_GENERATED_BY" meta = Some (JText (k_id k))).
Proof.
  intros H. specialize (H server json_reader calm_day (post "s1" "application/json" (paying ++ " .")%string) key1 (Raw (paying ++ " .")%string None)
    payment_of_shop [("BLNK_GENERATED_BY", JText "somebody else")]).
  assert (E : get "BLNK_GENERATED_BY" [("BLNK_GENERATED_BY", JText "somebody else")] = Some (JText (k_id key1))).
  { apply H; vm_compute; reflexivity. }
  discriminate E.
Qed.

(** ** Long bodies *)

Fixpoint pad (n : nat) : string := match n with O => "" | S n => String "." (pad n) end.
Lemma pad_size n : size (pad n) = Z.of_nat n.
Proof. unfold size. f_equal. induction n as [|n IH]; [reflexivity|]. cbn. rewrite IH. reflexivity. Qed.
Lemma upto_pad n : forall m, Z.of_nat n <= Z.of_nat m -> upto (Z.of_nat n) (pad m) = pad n.
Proof.
  induction n as [|n IH]; intros m H; [destruct m; reflexivity|]. destruct m as [|m]; [lia|]. cbn [pad upto].
  destruct (Z.leb_spec (Z.of_nat (S n)) 0); [lia|]. replace (Z.of_nat (S n) - 1) with (Z.of_nat n) by lia. rewrite IH by lia. reflexivity.
Qed.

Lemma million : exists n, Z.of_nat n = 2 ^ 20.
Proof. exists (Z.to_nat (2 ^ 20)). apply Z2Nat.id. lia. Qed.

(** A request that says it brings files is kept in memory whole, whatever its size. *)
Lemma held_large : ~ (forall cfg read o w, sane (d_mb cfg) -> v_held (pass cfg read o w) <= allowed (d_mb cfg)).
Proof.
  intros H. destruct million as (n & En). set (b := pad (n + 1)). specialize (H server (fun _ => None) calm_day (post "s1" "multipart/form-data; boundary=x" b) sane_server).
  rewrite (labelled_held server (fun _ => None) calm_day _ key1 (Raw b None)) in H.
  - cbn [w_body post] in H. unfold b in H. rewrite pad_size in H. change (allowed (d_mb server)) with (2 ^ 20) in H. lia.
  - reflexivity.
  - reflexivity.
  - exists "; boundary=x". reflexivity.
Qed.
(** And its handler, which decodes JSON without looking at what the body says it is, reads
    beyond the limit. *)
Definition number_read (x : seen) : Z := match x with SHandler _ (Value (JNum _ n)) => n | _ => 0 end.
Lemma read_large : ~ (forall cfg read o w b b', sane (d_mb cfg) -> allowed (d_mb cfg) < size b -> allowed (d_mb cfg) < size b' ->
  upto (allowed (d_mb cfg)) b = upto (allowed (d_mb cfg)) b' ->
  comes_of read (pass cfg read o (with_body b w)) = comes_of read (pass cfg read o (with_body b' w))).
Proof.
  intros H. destruct million as (n & En).
  pose (rd := fun t : string => Some (JNum true (size t), "")).
  specialize (H server rd calm_day (post "master" "multipart/form-data" "") (pad (n + 1)) (pad (n + 2)) sane_server).
  change (allowed (d_mb server)) with (2 ^ 20) in H. rewrite !pad_size, <- En, !upto_pad in H by lia.
  specialize (H ltac:(lia) ltac:(lia) eq_refl).
  assert (E : forall b, comes_of rd (pass server rd calm_day (with_body b (post "master" "multipart/form-data" ""))) = SHandler Master (Value (JNum true (size b)))) by reflexivity.
  rewrite !E in H. apply (f_equal number_read) in H. cbn [number_read] in H. rewrite !pad_size in H. lia.
Qed.
(** A body over the limit is served all the same if its first value is within it. *)
Definition braces : reader := fun t => if String.prefix "{}" t then Some (JObj [], after 2 t) else None.
Lemma large_served : ~ (forall cfg read o w p s, sane (d_mb cfg) -> ~ labelled w -> allowed (d_mb cfg) < size (w_body w) ->
  v_end (pass cfg read o w) = Handler p s -> bind read s = Bad).
Proof.
  intros H. destruct million as (m & Em). set (b := ("{}" ++ pad m)%string).
  assert (Sb : size b = 2 ^ 20 + 2).
  { unfold b. change (size ("{}" ++ pad m)%string) with (Z.of_nat (2 + String.length (pad m))).
    pose proof (pad_size m) as P. unfold size in P. rewrite Nat2Z.inj_add, P. lia. }
  specialize (H server braces calm_day (post "master" "application/json" b) Master (Raw b (Some (2 ^ 20))) sane_server (json_unlabelled _ _)).
  cbn [w_body post] in H. change (allowed (d_mb server)) with (2 ^ 20) in H. rewrite Sb in H. specialize (H ltac:(lia) eq_refl).
  unfold bind in H. rewrite Sb in H. destruct (Z.leb_spec (2 ^ 20 + 2) (2 ^ 20)); [lia|].
  unfold b in H. set (t := pad m) in H.
  assert (U : upto (2 ^ 20) ("{}" ++ t)%string = ("{}" ++ upto (2 ^ 20 - 1 - 1) t)%string) by reflexivity.
  rewrite U in H. set (u := upto (2 ^ 20 - 1 - 1) t) in H.
  assert (D : decode braces ("{}" ++ u)%string true = Value (JObj [])) by (unfold decode, braces; cbn; destruct u; reflexivity).
  rewrite D in H. discriminate H.
Qed.

(** Answers of the rate limiter go without the headers. *)
Lemma bare_answer : ~ (forall cfg read o w h, In h always -> In h (v_headers (pass cfg read o w))).
Proof.
  intros H. specialize (H server json_reader {| o_limited := Some 429; o_key := None; o_now := 0; o_routed := true |} (post "" "" "") ("X-Frame-Options", "DENY")).
  destruct H. cbn. auto.
Qed.

(** A body that says null: the server panics. *)
Lemma null_crashes : v_end (pass server json_reader calm_day (post "s1" "application/json" "null")) = Crashed.
Proof. reflexivity. Qed.

(** Somebody reads the metrics. *)
Definition scrape (bearer : string) : wire :=
  {| w_req := ask_for "" "GET" "/metrics"; w_bearer := bearer; w_type := ""; w_proto := ""; w_tls := true; w_body := "" |}.
Lemma scraped_well : v_end (pass server json_reader calm_day (scrape "Bearer scrape")) = Metrics
  /\ v_end (pass server json_reader calm_day (scrape "Bearer scrap")) = Code "AUTH_INVALID_BEARER_TOKEN"
  /\ v_end (pass server json_reader calm_day (scrape "bearer scrape")) = Code "AUTH_METRICS_TOKEN_REQUIRED"
  /\ v_end (pass server json_reader calm_day (post "" "" "")) = Code "AUTH_MISSING_API_KEY".
Proof. repeat split. Qed.
