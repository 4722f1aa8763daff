(** Proofs about the way to a handler. *)
From Coq Require Import ZArith List String Ascii Bool Lia.
From Verif Require Import AuthInv AuthThms BodyThms BodyDemo.
From Verif Require Import Base AuthModel AuthSpec BodyModel BodySpec DoorModel DoorSpec.
Import ListNotations.
Local Open Scope string_scope.
Local Open Scope Z_scope.
Local Open Scope list_scope.

(** ** Texts *)

Lemma after_app p s : after (String.length p) (p ++ s) = s.
Proof. induction p as [|c p IH]; [reflexivity|exact IH]. Qed.
Lemma prefix_split p : forall s, String.prefix p s = true <-> exists r, s = (p ++ r)%string.
Proof.
  induction p as [|c p IH]; intros s; [split; [intros _; exists s; reflexivity|destruct s; reflexivity]|].
  destruct s as [|d s]; [split; [discriminate|intros (r & E); discriminate E]|]. cbn [String.prefix append]. split.
  - destruct (ascii_dec c d) as [->|]; [|discriminate]. intros H. apply IH in H. destruct H as (r & ->). exists r. reflexivity.
  - intros (r & E). injection E as -> ->. destruct (ascii_dec c c) as [_|N]; [|contradiction]. apply IH. exists r. reflexivity.
Qed.
Lemma upto_size n s : size (upto n s) <= Z.max 0 n.
Proof.
  revert n. induction s as [|c s IH]; intros n; cbn [upto]; [unfold size; cbn; lia|].
  destruct (Z.leb_spec n 0); [unfold size; cbn; lia|]. specialize (IH (n - 1)). unfold size in *. cbn [String.length]. lia.
Qed.

(** ** Metrics *)

Lemma metrics_iff cfg w : metrics_auth cfg w = None <-> may_scrape (c_secure (d_auth cfg)) (d_token cfg) (w_bearer w).
Proof.
  unfold metrics_auth, may_scrape. destruct (String.eqb_spec (d_token cfg) "") as [T|T].
  - rewrite T. destruct (c_secure (d_auth cfg)); cbn; split; try discriminate; auto.
    + intros [[A _]|[A _]]; [discriminate A|contradiction A; reflexivity].
  - rewrite andb_false_r. split.
    + destruct (String.eqb_spec (w_bearer w) ""); [discriminate|].
      destruct (String.prefix "Bearer " (w_bearer w)) eqn:P; [|discriminate]. apply prefix_split in P. destruct P as (r & E). rewrite E.
      change 7%nat with (String.length "Bearer "). rewrite after_app. cbn [negb].
      destruct (String.eqb_spec r (d_token cfg)) as [->|]; [|discriminate]. intros _. right. auto.
    + intros [[_ A]|[_ E]]; [contradiction|]. rewrite E. change 7%nat with (String.length "Bearer "). rewrite after_app, String.eqb_refl.
      replace (String.prefix "Bearer " ("Bearer " ++ d_token cfg)) with true by (symmetry; apply prefix_split; eauto). reflexivity.
Qed.

Lemma handlers_agree cfg w : metrics_auth_handler cfg w = metrics_auth cfg w.
Proof.
  unfold metrics_auth_handler, metrics_auth. destruct (c_secure _), (String.eqb (d_token cfg) "");
    cbn [andb]; try reflexivity; destruct (String.eqb (w_bearer w) ""); try reflexivity;
    destruct (String.prefix _ _); try reflexivity; cbn [negb]; destruct (String.eqb (after 7 _) _); reflexivity.
Qed.

(** ** The chain *)

Lemma auth_shape cfg o q : (exists c, authenticate cfg o q = PEnd (Denied c)) \/ (exists p, authenticate cfg o q = PServe p).
Proof.
  unfold authenticate, arrival. destruct (existsb _ _); [eauto|]. destruct (c_secure _); cbn [negb]; [|eauto].
  destruct (String.eqb (q_key q) ""); [eauto|]. destruct (_ && _); [eauto|]. destruct (o_key o) as [k|]; [|eauto].
  unfold judge. destruct (negb (is_valid _ _)); [eauto|]. destruct (String.eqb _ ""); [eauto|]. destruct (negb _); eauto.
Qed.

(** What follows once the caller is known. *)
Notation is_get path w := (String.eqb (q_path (w_req w)) path && String.eqb (q_method (w_req w)) "GET").
Ltac no := first [let X := fresh in intros X; cbn [v_end] in X; discriminate X | match goal with H : _ = _ |- _ => discriminate H end].
Definition served (cfg : settings) (read : reader) (o : outside) (w : wire) (p : principal) : option stream * Z :=
  match p with
  | Holder k => if String.eqb (q_method (w_req w)) "POST" then (rewrite read (k_id k) (size_limit cfg w), snd (read_all (size_limit cfg w)))
                else (Some (size_limit cfg w), 0)
  | _ => (Some (size_limit cfg w), 0)
  end.

Lemma open_path cfg o q : In (q_path q) ["/"; "/health"; "/metrics"] -> authenticate cfg o q = PServe Anyone.
Proof.
  intros I. unfold authenticate, arrival. replace (existsb (String.eqb (q_path q)) ["/"; "/health"; "/metrics"]) with true; [reflexivity|].
  symmetry. apply existsb_exists. exists (q_path q). split; [exact I|apply String.eqb_refl].
Qed.

Lemma scraped cfg read o w : v_end (pass cfg read o w) = Metrics <->
  o_limited o = None /\ q_method (w_req w) = "GET" /\ q_path (w_req w) = "/metrics" /\ o_routed o = true
  /\ may_scrape (c_secure (d_auth cfg)) (d_token cfg) (w_bearer w).
Proof.
  unfold pass. destruct (o_limited o) as [n|]; [split; [intros X; discriminate X|intros (A & _); discriminate A]|]. split.
  - destruct (is_get "/" w) eqn:R; [no|]. destruct (auth_shape cfg o (w_req w)) as [(c & ->)|(p & ->)]; [no|].
    fold (served cfg read o w p). destruct (served cfg read o w p) as [[s|] h]; [|no].
    destruct (o_routed o); [|no]. cbn [negb]. destruct (is_get "/health" w) eqn:H1; [no|].
    destruct (is_get "/metrics" w) eqn:H2; [|no]. apply andb_true_iff in H2. destruct H2 as [P M]. apply String.eqb_eq in P, M.
    destruct (metrics_auth cfg w) eqn:A; [no|]. apply metrics_iff in A. auto.
  - intros (_ & M & P & R & S0). apply metrics_iff in S0. rewrite open_path by (rewrite P; cbn; auto). rewrite P, M, R, S0. reflexivity.
Qed.

Lemma worker_scraped cfg w : worker_pass cfg w = None <->
  q_path (w_req w) = "/health" \/ may_scrape (c_secure (d_auth cfg)) (d_token cfg) (w_bearer w).
Proof.
  unfold worker_pass. rewrite handlers_agree. destruct (String.eqb_spec (q_path (w_req w)) "/health") as [E|N]; [split; auto|].
  rewrite metrics_iff. split; auto. intros [E|H]; [contradiction|exact H].
Qed.

(** Both servers refuse with the same code. *)
Lemma same_refusal cfg read o w : o_limited o = None -> o_routed o = true -> q_method (w_req w) = "GET" -> q_path (w_req w) = "/metrics" ->
  v_end (pass cfg read o w) = match worker_pass cfg w with Some c => Code c | None => Metrics end.
Proof.
  intros L R M P. unfold pass, worker_pass. rewrite L, open_path by (rewrite P; cbn; auto). rewrite P, M, R, handlers_agree. cbn.
  destruct (metrics_auth cfg w); reflexivity.
Qed.

(** ** Headers *)

Lemma lower_https s : lower s = "https" <-> lower s = lower "HTTPS".
Proof. reflexivity. Qed.

Lemma headers_of cfg read o w : o_limited o = None -> v_headers (pass cfg read o w) = security_headers w.
Proof.
  intros L. unfold pass. rewrite L. destruct (is_get "/" w); [reflexivity|]. destruct (auth_shape cfg o (w_req w)) as [(c & ->)|(p & ->)]; [reflexivity|].
  fold (served cfg read o w p). destruct (served cfg read o w p) as [[s|] h]; [|reflexivity].
  destruct (negb _); [reflexivity|]. destruct (is_get "/health" w); [reflexivity|]. destruct (is_get "/metrics" w); [|reflexivity]. destruct (metrics_auth cfg w); reflexivity.
Qed.
Lemma headers_there cfg read o w : o_limited o = None ->
  forall h, In h (v_headers (pass cfg read o w)) <-> In h always \/ (h = over_tls /\ (w_tls w = true \/ lower (w_proto w) = "https")).
Proof.
  intros L h. rewrite headers_of by exact L. unfold security_headers. rewrite in_app_iff. change (_ :: _ :: _ :: _ :: _ :: nil) with always.
  destruct (w_tls w); cbn [orb].
  - split; (intros [H|H]; [auto|]); [destruct H as [<-|[]]; auto|]. right. left. symmetry. apply H.
  - destruct (String.eqb_spec (lower (w_proto w)) "https") as [E|N].
    + split; (intros [H|H]; [auto|]); [destruct H as [<-|[]]; auto|]. right. left. symmetry. apply H.
    + split; (intros [H|H]; [auto|]); [destruct H|]. destruct H as (_ & [A|A]); [discriminate A|contradiction].
Qed.

Lemma limited_stops cfg read o w n : o_limited o = Some n ->
  pass cfg read o w = {| v_end := Status n; v_headers := []; v_held := 0; v_asked := false |}.
Proof. intros L. unfold pass. rewrite L. reflexivity. Qed.

(** ** Sizes *)

Lemma max_allowed cfg : sane (d_mb cfg) -> max_bytes cfg = allowed (d_mb cfg) /\ 0 < allowed (d_mb cfg).
Proof.
  unfold sane, max_bytes, allowed, wrap64. intros S0. change (2 ^ 20) with 1048576. change (2 ^ 63) with 9223372036854775808.
  change (2 ^ 64) with 18446744073709551616. change (2 ^ 43) with 8796093022208 in S0.
  destruct (Z.leb_spec (d_mb cfg) 0); [split; [reflexivity|lia]|]. split; [|lia]. rewrite Z.mod_small; lia.
Qed.

Lemma limit_there cfg w : sane (d_mb cfg) -> ~ labelled w -> size_limit cfg w = Raw (w_body w) (Some (allowed (d_mb cfg))).
Proof.
  intros S0 N. destruct (max_allowed cfg S0) as [E P]. unfold size_limit. rewrite E.
  destruct (Z.leb_spec (allowed (d_mb cfg)) 0); [lia|]. destruct (String.prefix _ _) eqn:F; [|reflexivity].
  apply prefix_split in F. contradiction.
Qed.

Lemma held_small cfg read o w : sane (d_mb cfg) -> ~ labelled w -> v_held (pass cfg read o w) <= allowed (d_mb cfg).
Proof.
  intros S0 N. pose proof (limit_there cfg w S0 N) as E. destruct (max_allowed cfg S0) as [_ P].
  assert (H : snd (read_all (size_limit cfg w)) <= allowed (d_mb cfg)).
  { rewrite E. cbn. destruct (Z.leb_spec (size (w_body w)) (allowed (d_mb cfg))); cbn [snd]; [lia|].
    pose proof (upto_size (allowed (d_mb cfg)) (w_body w)). lia. }
  unfold pass. destruct (o_limited o); cbn; [lia|]. destruct (is_get "/" w); [cbn; lia|].
  destruct (auth_shape cfg o (w_req w)) as [(c & ->)|(p & ->)]; [cbn; lia|]. fold (served cfg read o w p).
  assert (H2 : snd (served cfg read o w p) <= allowed (d_mb cfg)).
  { unfold served. destruct p; cbn [snd]; try lia. destruct (String.eqb _ _); cbn [snd]; lia. }
  destruct (served cfg read o w p) as [[s|] h]; cbn [snd] in H2; [|exact H2].
  destruct (negb _); [exact H2|]. destruct (is_get "/health" w); [exact H2|]. destruct (is_get "/metrics" w); [|exact H2]. destruct (metrics_auth cfg w); exact H2.
Qed.

(** The end of a visit, by the caller. *)
Lemma comes_cases cfg read o w p : o_limited o = None -> authenticate cfg o (w_req w) = PServe p ->
  (String.eqb (q_path (w_req w)) "/" && String.eqb (q_method (w_req w)) "GET" = false) ->
  comes_of read (pass cfg read o w) =
    match fst (served cfg read o w p) with
    | None => SEnd Crashed
    | Some s =>
      if negb (o_routed o) then SEnd (Status 404)
      else if String.eqb (q_path (w_req w)) "/health" && String.eqb (q_method (w_req w)) "GET" then SEnd Health
      else if String.eqb (q_path (w_req w)) "/metrics" && String.eqb (q_method (w_req w)) "GET" then
        match metrics_auth cfg w with Some c => SEnd (Code c) | None => SEnd Metrics end
      else SHandler p (bind read s)
    end.
Proof.
  intros L A R. unfold pass, comes_of. rewrite L, R, A. fold (served cfg read o w p).
  destruct (served cfg read o w p) as [[s|] h]; [|reflexivity]. cbn [fst]. destruct (negb _); [reflexivity|].
  destruct (is_get "/health" w); [reflexivity|]. destruct (is_get "/metrics" w); [|reflexivity]. destruct (metrics_auth cfg w); reflexivity.
Qed.

Lemma tail_unseen cfg read o w b b' : sane (d_mb cfg) -> ~ labelled w ->
  allowed (d_mb cfg) < size b -> allowed (d_mb cfg) < size b' -> upto (allowed (d_mb cfg)) b = upto (allowed (d_mb cfg)) b' ->
  comes_of read (pass cfg read o (with_body b w)) = comes_of read (pass cfg read o (with_body b' w)).
Proof.
  intros S0 N B B' U. assert (N1 : ~ labelled (with_body b w)) by exact N. assert (N2 : ~ labelled (with_body b' w)) by exact N.
  pose proof (limit_there cfg _ S0 N1) as E1. pose proof (limit_there cfg _ S0 N2) as E2. cbn [w_body with_body] in E1, E2.
  destruct (o_limited o) as [n|] eqn:L; [rewrite !(limited_stops _ _ _ _ n) by exact L; reflexivity|].
  destruct (String.eqb (q_path (w_req w)) "/" && String.eqb (q_method (w_req w)) "GET") eqn:R.
  { unfold pass. rewrite L. cbn [w_req with_body]. rewrite R. reflexivity. }
  destruct (auth_shape cfg o (w_req w)) as [(c & A)|(p & A)].
  { unfold pass. rewrite L. cbn [w_req with_body]. rewrite R, A. reflexivity. }
  rewrite !(comes_cases _ _ _ _ p) by assumption. cbn [w_req with_body].
  assert (G : exists s s', fst (served cfg read o (with_body b w) p) = Some s /\ fst (served cfg read o (with_body b' w) p) = Some s' /\ bind read s = bind read s').
  { assert (G0 : bind read (size_limit cfg (with_body b w)) = bind read (size_limit cfg (with_body b' w))).
    { rewrite E1, E2. cbn [bind]. destruct (Z.leb_spec (size b) (allowed (d_mb cfg))); [lia|]. destruct (Z.leb_spec (size b') (allowed (d_mb cfg))); [lia|]. rewrite U. reflexivity. }
    unfold served. destruct p as [| |k]; [exists (size_limit cfg (with_body b w)), (size_limit cfg (with_body b' w)); auto|exists (size_limit cfg (with_body b w)), (size_limit cfg (with_body b' w)); auto|]. cbn [w_req with_body]. destruct (String.eqb (q_method (w_req w)) "POST"); [|exists (size_limit cfg (with_body b w)), (size_limit cfg (with_body b' w)); auto].
    exists Spent, Spent. cbn [fst]. unfold rewrite. rewrite E1, E2. cbn [read_all].
    destruct (Z.leb_spec (size b) (allowed (d_mb cfg))); [lia|]. destruct (Z.leb_spec (size b') (allowed (d_mb cfg))); [lia|]. auto. }
  destruct G as (s & s' & -> & -> & ->). reflexivity.
Qed.

(** From the end back to the stream. *)
Lemma handler_back cfg read o w p s : v_end (pass cfg read o w) = Handler p s ->
  o_limited o = None /\ authenticate cfg o (w_req w) = PServe p /\ fst (served cfg read o w p) = Some s /\ o_routed o = true.
Proof.
  unfold pass. destruct (o_limited o); [no|]. destruct (is_get "/" w); [no|].
  destruct (auth_shape cfg o (w_req w)) as [(c & ->)|(p' & ->)]; [no|]. fold (served cfg read o w p').
  destruct (served cfg read o w p') as [[s'|] h] eqn:G; [|no]. destruct (o_routed o); [|no]. cbn [negb].
  destruct (is_get "/health" w); [no|]. destruct (is_get "/metrics" w); [destruct (metrics_auth cfg w); no|].
  intros E. cbn [v_end] in E. injection E as <- <-. rewrite G. auto.
Qed.

Lemma too_large_key cfg read o w k s : sane (d_mb cfg) -> ~ labelled w -> allowed (d_mb cfg) < size (w_body w) ->
  v_end (pass cfg read o w) = Handler (Holder k) s -> q_method (w_req w) = "POST" -> bind read s = Bad.
Proof.
  intros S0 N B H M. apply handler_back in H. destruct H as (_ & _ & H & _). unfold served in H. rewrite M in H. cbn in H.
  unfold rewrite in H. rewrite (limit_there cfg w S0 N) in H. cbn in H. destruct (Z.leb_spec (size (w_body w)) (allowed (d_mb cfg))); [lia|].
  cbn in H. injection H as <-. reflexivity.
Qed.

Lemma small_whole cfg read o w p s : sane (d_mb cfg) -> ~ labelled w -> size (w_body w) <= allowed (d_mb cfg) ->
  v_end (pass cfg read o w) = Handler p s -> (forall k, ~ posted_by k w p) -> bind read s = bind read (Raw (w_body w) None).
Proof.
  intros S0 N B H M. apply handler_back in H. destruct H as (_ & _ & H & _).
  assert (E : s = size_limit cfg w).
  { unfold served in H. destruct p as [| |k]; try (cbn in H; congruence). destruct (String.eqb_spec (q_method (w_req w)) "POST") as [E|E]; [|cbn in H; congruence].
    exfalso. exact (M k (conj eq_refl E)). }
  subst s. rewrite (limit_there cfg w S0 N). cbn [bind]. destruct (Z.leb_spec (size (w_body w)) (allowed (d_mb cfg))); [reflexivity|lia].
Qed.

Lemma labelled_whole cfg w : labelled w -> size_limit cfg w = Raw (w_body w) None.
Proof. intros N. apply prefix_split in N. unfold size_limit. rewrite N. destruct (_ <=? _); reflexivity. Qed.

(** ** Attribution *)

Lemma whole_read cfg w : whole cfg w -> fst (read_all (size_limit cfg w)) = Some (w_body w).
Proof.
  intros [N|[S0 B]]; [rewrite labelled_whole by exact N; reflexivity|]. unfold size_limit. destruct (max_allowed cfg S0) as [-> P].
  destruct (Z.leb_spec (allowed (d_mb cfg)) 0); [lia|]. destruct (String.prefix _ _); [reflexivity|]. cbn.
  destruct (Z.leb_spec (size (w_body w)) (allowed (d_mb cfg))); [reflexivity|lia].
Qed.

Lemma named cfg read o w k s l rest : v_end (pass cfg read o w) = Handler (Holder k) s -> q_method (w_req w) = "POST" ->
  whole cfg w -> read (w_body w) = Some (JObj l, rest) -> blank rest = true -> small (JObj l) -> names (k_id k) (bind read s).
Proof.
  intros H M W R B Sm. apply handler_back in H. destruct H as (_ & _ & H & _). unfold served in H. rewrite M in H. cbn in H.
  unfold rewrite in H. rewrite (whole_read cfg w W) in H. unfold unmarshal in H. rewrite R, B in H.
  destruct (small_rewritten (k_id k) l Sm) as (l' & E). rewrite E in H. injection H as <-. exists l'. split; [reflexivity|].
  intros meta Me. exact (attributed _ _ _ _ E Me).
Qed.

Lemma trailing cfg read o w k s v rest : v_end (pass cfg read o w) = Handler (Holder k) s -> q_method (w_req w) = "POST" ->
  whole cfg w -> read (w_body w) = Some (v, rest) -> blank rest = false -> bind read s = Value v.
Proof.
  intros H M W R B. apply handler_back in H. destruct H as (_ & _ & H & _). unfold served in H. rewrite M in H. cbn in H.
  unfold rewrite in H. rewrite (whole_read cfg w W) in H. unfold unmarshal in H. rewrite R, B in H. injection H as <-.
  cbn. unfold decode. rewrite R. reflexivity.
Qed.

(** ** Callers *)

Lemma let_in cfg read o w p s keys : v_end (pass cfg read o w) = Handler p s ->
  (forall k, o_key o = Some k -> In k keys /\ k_secret k = q_key (w_req w)) ->
  entitled (d_auth cfg) keys {| g_req := w_req w; g_who := p; g_at := o_now o |}.
Proof.
  intros H K. apply handler_back in H. destruct H as (_ & A & _). unfold authenticate, arrival in A.
  destruct (existsb _ _) eqn:X.
  { injection A as <-. right. apply existsb_exists in X. destruct X as (x & Hx & E). apply String.eqb_eq in E. cbn [g_req]. rewrite E. exact Hx. }
  destruct (c_secure (d_auth cfg)) eqn:Sc; cbn [negb] in A; [|injection A as <-; left; exact Sc].
  destruct (String.eqb (q_key (w_req w)) ""); [no|].
  destruct (String.eqb_spec (c_secret (d_auth cfg)) "") as [Z0|N]; cbn [negb andb] in A.
  - destruct (o_key o) as [k|] eqn:Ok; [|no]. destruct (K k eq_refl) as [Ik Sk].
    refine (proj2 (proj2 (proj2 (judge_serves (d_auth cfg) keys (o_now o) (w_req w) k p _ Sk A)))). exists k. split; [exact Ik|apply same_refl].
  - destruct (String.eqb_spec (c_secret (d_auth cfg)) (q_key (w_req w))) as [E|E].
    + injection A as <-. split; [symmetry; exact E|exact N].
    + destruct (o_key o) as [k|] eqn:Ok; [|no]. destruct (K k eq_refl) as [Ik Sk].
      refine (proj2 (proj2 (proj2 (judge_serves (d_auth cfg) keys (o_now o) (w_req w) k p _ Sk A)))). exists k. split; [exact Ik|apply same_refl].
Qed.

(** A visit ends in a panic only for a key holder whose POST says null. *)
Lemma crash_only cfg read o w : v_end (pass cfg read o w) = Crashed ->
  exists k, authenticate cfg o (w_req w) = PServe (Holder k) /\ q_method (w_req w) = "POST" /\ unmarshal read (w_body w) = Some JNull.
Proof.
  unfold pass. destruct (o_limited o); [no|]. destruct (is_get "/" w); [no|].
  destruct (auth_shape cfg o (w_req w)) as [(c & ->)|(p & ->)]; [no|]. fold (served cfg read o w p).
  destruct (served cfg read o w p) as [[s'|] h] eqn:G.
  { destruct (negb _); [no|]. destruct (is_get "/health" w); [no|]. destruct (is_get "/metrics" w); [|no]. destruct (metrics_auth cfg w); no. }
  intros _. unfold served in G. destruct p as [| |k]; try no. destruct (String.eqb_spec (q_method (w_req w)) "POST") as [M|]; [|no].
  exists k. split; [reflexivity|]. split; [exact M|]. injection G as G _. unfold rewrite in G. destruct (fst (read_all _)) as [t|] eqn:T; [|no].
  assert (Et : t = w_body w).
  { unfold size_limit in T. destruct (_ <=? _); [cbn in T; congruence|]. destruct (String.prefix _ _); [cbn in T; congruence|].
    cbn in T. destruct (_ <=? _); cbn in T; congruence. }
  subst t. destruct (unmarshal read (w_body w)) as [v|]; [|no]. destruct v as [| | | | |l]; try no; [reflexivity|].
  unfold inject in G. destruct (remarshal _) as [[]|]; no.
Qed.

(** The rest of a rewritten body reads as sent. *)
Lemma key_reads cfg read o w k s l rest : v_end (pass cfg read o w) = Handler (Holder k) s -> q_method (w_req w) = "POST" ->
  whole cfg w -> read (w_body w) = Some (JObj l, rest) -> blank rest = true -> tidy (JObj l) -> small (JObj l) ->
  exists l', bind read s = Value (JObj l') /\ forall f, lower f <> "meta_data" -> orel (alike exactly) (field f l) (field f l').
Proof.
  intros H M W R B T Sm. apply handler_back in H. destruct H as (_ & _ & H & _). unfold served in H. rewrite M in H. cbn in H.
  unfold rewrite in H. rewrite (whole_read cfg w W) in H. unfold unmarshal in H. rewrite R, B in H.
  destruct (small_rewritten (k_id k) l Sm) as (l' & E). rewrite E in H. injection H as <-. exists l'. split; [reflexivity|].
  exact (proj1 (same_exactly _ _ _ T Sm E)).
Qed.

Lemma labelled_held cfg read o w k s : v_end (pass cfg read o w) = Handler (Holder k) s -> q_method (w_req w) = "POST" -> labelled w ->
  v_held (pass cfg read o w) = size (w_body w).
Proof.
  intros H M N. unfold pass in *. destruct (o_limited o); [no|]. destruct (is_get "/" w); [no|].
  destruct (auth_shape cfg o (w_req w)) as [(c & A)|(p & A)]; rewrite A in *; [no|]. fold (served cfg read o w p) in *.
  assert (P : p = Holder k).
  { destruct (served cfg read o w p) as [[s'|] h]; [|no]. destruct (negb _); [no|].
    destruct (is_get "/health" w); [no|]. destruct (is_get "/metrics" w); [destruct (metrics_auth cfg w); no|]. cbn in H. congruence. }
  subst p. assert (G : snd (served cfg read o w (Holder k)) = size (w_body w)).
  { unfold served. rewrite M, labelled_whole by exact N. reflexivity. }
  destruct (served cfg read o w (Holder k)) as [[s'|] h]; cbn [snd] in G; [|no]. destruct (negb _); [exact G|].
  destruct (is_get "/health" w); [exact G|]. destruct (is_get "/metrics" w); [|exact G]. destruct (metrics_auth cfg w); exact G.
Qed.
