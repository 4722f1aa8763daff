(** Proofs about uploads by URL. *)
From Coq Require Import ZArith List String Ascii Bool Lia.
From Verif Require QueueModel BodyModel FilterUrl PoolModel DoorModel DoorProof.
From Verif Require Import FetchModel FetchSpec.
Import ListNotations.
Local Open Scope string_scope.
Local Open Scope Z_scope.
Local Open Scope list_scope.

(** ** Splitting and trimming *)
Notation split := (FilterUrl.split_on ","%char).
Notation space := QueueModel.space.
Notation tl := QueueModel.trim_left.
Notation tr := QueueModel.trim_right.

Lemma str_app_assoc (a b c : string) : ((a ++ b) ++ c = a ++ (b ++ c))%string.
Proof. induction a as [|x a IH]; cbn; [reflexivity|]. now rewrite IH. Qed.
Lemma str_app_nil (a : string) : (a ++ "" = a)%string.
Proof. induction a as [|x a IH]; cbn; [reflexivity|]. now rewrite IH. Qed.

Lemma split_cons s : exists x l, split s = x :: l.
Proof.
  induction s as [|c s (x & l & IH)]; cbn [FilterUrl.split_on]; [eauto|]. rewrite IH. destruct (Ascii.eqb c ","); eauto.
Qed.

Definition stops (b : string) : Prop := b = "" \/ exists b', b = ("," ++ b')%string.

Lemma split_sound w : exists x l, split w = x :: l /\ ~ In ","%char (list_ascii_of_string x) /\
  (exists b, w = (x ++ b)%string /\ stops b) /\
  forall e, In e l -> ~ In ","%char (list_ascii_of_string e) /\ exists a b, w = (a ++ "," ++ e ++ b)%string /\ stops b.
Proof.
  induction w as [|c w (x & l & E & Nx & (b & Wx & Sb) & T)]; cbn [FilterUrl.split_on].
  - exists "", []. split; [reflexivity|]. split; [intros []|]. split.
    + exists "". split; [reflexivity|now left].
    + intros e [].
  - rewrite E. destruct (Ascii.eqb_spec c ","); [subst c|].
    + exists "", (x :: l). split; [reflexivity|]. split; [intros []|]. split.
      * exists (String "," w). split; [reflexivity|]. right. now exists w.
      * intros e [<-|I].
        -- split; [exact Nx|]. exists "", b. split; [cbn; now rewrite <- Wx|exact Sb].
        -- destruct (T e I) as (Ne & a & b' & W & Sb'). split; [exact Ne|]. exists (String "," a), b'. split; [cbn; now rewrite W|exact Sb'].
    + exists (String c x), l. split; [reflexivity|]. split; [cbn; intros [K|K]; [congruence|now apply Nx]|]. split.
      * exists b. split; [cbn; now rewrite <- Wx|exact Sb].
      * intros e I. destruct (T e I) as (Ne & a & b' & W & Sb'). split; [exact Ne|]. exists (String c a), b'. split; [cbn; now rewrite W|exact Sb'].
Qed.

Lemma split_join a b : split (a ++ "," ++ b)%string = split a ++ split b.
Proof.
  induction a as [|c a IH].
  - change (split (String "," b) = "" :: split b). cbn [FilterUrl.split_on]. destruct (split_cons b) as (x & l & E). rewrite E. reflexivity.
  - change ((String c a ++ "," ++ b)%string) with (String c (a ++ "," ++ b)). cbn [FilterUrl.split_on]. rewrite IH.
    destruct (split_cons a) as (x & l & E). rewrite E. cbn [app]. destruct (Ascii.eqb c ","); reflexivity.
Qed.

Lemma split_single e : ~ In ","%char (list_ascii_of_string e) -> split e = [e].
Proof.
  induction e as [|c e IH]; intros N; [reflexivity|]. cbn [FilterUrl.split_on]. rewrite IH by (intros K; apply N; now right).
  destruct (Ascii.eqb_spec c ","); [|reflexivity]. subst c. destruct N. now left.
Qed.

Lemma written_split w e : written w e <-> In e (split w).
Proof.
  split.
  - intros (N & a & b & -> & A & B).
    assert (X : In e (split (e ++ b)%string)).
    { destruct B as [->|(b' & ->)]; [rewrite str_app_nil|rewrite split_join]; rewrite (split_single e N); now left. }
    destruct A as [->|(a' & ->)]; [exact X|]. rewrite str_app_assoc, split_join. apply in_or_app. now right.
  - intros I. destruct (split_sound w) as (x & l & E & Nx & (b & W & Sb) & T). rewrite E in I. destruct I as [<-|I].
    + split; [exact Nx|]. exists "", b. split; [exact W|]. split; [now left|exact Sb].
    + destruct (T e I) as (Ne & a & b' & W' & Sb'). split; [exact Ne|]. exists (a ++ ",")%string, b'.
      split; [now rewrite str_app_assoc|]. split; [|exact Sb']. right. now exists a.
Qed.

Lemma tr_cons c r : tr (String c r) = match tr r with EmptyString => if space c then EmptyString else String c EmptyString | r' => String c r' end.
Proof. reflexivity. Qed.

Lemma comma_space : space ","%char = false.
Proof. reflexivity. Qed.

Lemma split_tr w : map tr (split (tr w)) = map tr (split w).
Proof.
  induction w as [|c w IH]; [reflexivity|]. rewrite tr_cons. cbn [FilterUrl.split_on].
  destruct (split_cons w) as (x & l & E). rewrite E in IH |- *.
  destruct (tr w) as [|d r] eqn:T.
  - cbn [map FilterUrl.split_on] in IH. assert (X : tr x = "") by (cbn in IH; congruence). assert (L : map tr l = []) by (cbn in IH; congruence).
    destruct l; [|discriminate L]. destruct (Ascii.eqb_spec c ","); [subst c|].
    + cbn [map]. rewrite X. reflexivity.
    + cbn [map]. rewrite tr_cons, X. destruct (space c) eqn:Sc; [reflexivity|]. cbn [FilterUrl.split_on].
      destruct (Ascii.eqb_spec c ","); [contradiction|]. cbn [map]. rewrite tr_cons. cbn. now rewrite Sc.
  - change (split (String c (String d r))) with (match split (String d r) with x :: l => if Ascii.eqb c "," then "" :: x :: l else String c x :: l | [] => [] end).
    destruct (split_cons (String d r)) as (y & m & F). rewrite F in IH |- *. cbn [map] in IH.
    assert (X : tr y = tr x) by congruence. assert (L : map tr m = map tr l) by congruence.
    destruct (Ascii.eqb c ","); cbn [map]; rewrite ?tr_cons, ?X, L; reflexivity.
Qed.

Lemma split_tl w : map tl (split (tl w)) = map tl (split w).
Proof.
  induction w as [|c w IH]; [reflexivity|]. cbn [QueueModel.trim_left]. destruct (space c) eqn:Sc; [|reflexivity].
  rewrite IH. cbn [FilterUrl.split_on]. destruct (split_cons w) as (x & l & E). rewrite E.
  destruct (Ascii.eqb_spec c ","); [subst c; discriminate Sc|]. cbn [map QueueModel.trim_left]. now rewrite Sc.
Qed.

Lemma tl_tr s : tl (tr s) = tr (tl s).
Proof.
  induction s as [|c s IH]; [reflexivity|]. rewrite tr_cons. cbn [QueueModel.trim_left]. destruct (space c) eqn:Sc.
  - destruct (tr s) as [|d r] eqn:T; [rewrite <- IH; reflexivity|]. cbn [QueueModel.trim_left]. rewrite Sc. exact IH.
  - rewrite tr_cons. destruct (tr s) as [|d r]; cbn [QueueModel.trim_left]; rewrite ?Sc; cbn [QueueModel.trim_left]; rewrite ?Sc; reflexivity.
Qed.
Lemma tl_idem s : tl (tl s) = tl s.
Proof. induction s as [|c s IH]; [reflexivity|]. cbn [QueueModel.trim_left]. destruct (space c) eqn:Sc; [exact IH|]. cbn [QueueModel.trim_left]. now rewrite Sc. Qed.
Lemma tr_idem s : tr (tr s) = tr s.
Proof.
  induction s as [|c s IH]; [reflexivity|]. rewrite tr_cons. destruct (tr s) as [|d r] eqn:T.
  - destruct (space c) eqn:Sc; [reflexivity|]. cbn. now rewrite Sc.
  - rewrite tr_cons, IH. reflexivity.
Qed.
Lemma trim_idem s : trim (trim s) = trim s.
Proof. unfold trim, QueueModel.trim. rewrite (tl_tr (tl s)), tl_idem, tr_idem. reflexivity. Qed.

Lemma split_trim w : map trim (split (trim w)) = map trim (split w).
Proof.
  assert (A : forall l, map trim l = map tl (map tr l)).
  { intros l. rewrite map_map. apply map_ext. intros s. unfold trim, QueueModel.trim. symmetry. apply tl_tr. }
  assert (B : forall l, map trim l = map tr (map tl l)).
  { intros l. rewrite map_map. reflexivity. }
  unfold trim at 2. unfold QueueModel.trim. rewrite A, split_tr, <- A, B, split_tl, <- B. reflexivity.
Qed.

(** ** The whitelist *)
Lemma eqb_in h l : existsb (String.eqb h) l = true <-> In h l.
Proof. rewrite existsb_exists. split; [intros (x & I & E); apply String.eqb_eq in E; now subst|intros I; exists h; split; [exact I|apply String.eqb_refl]]. Qed.

Lemma hosts_in n h : forall es seen, In h (hosts_from n seen es) <->
  ~ In h seen /\ h <> "" /\ exists e, In e (map trim es) /\ e <> "" /\ entry_host n e = h.
Proof.
  induction es as [|e es IH]; intros seen; cbn [hosts_from map].
  - split; [intros []|intros (_ & _ & e & [] & _)].
  - set (h' := entry_host n (trim e)). destruct (String.eqb (trim e) "" || String.eqb h' "" || existsb (String.eqb h') seen) eqn:D.
    + rewrite IH. split.
      * intros (A & B & x & I & X). split; [exact A|]. split; [exact B|]. exists x. split; [now right|exact X].
      * intros (A & B & x & I & X & Y). split; [exact A|]. split; [exact B|]. exists x. destruct I as [<-|I]; [|now split].
        exfalso. fold h' in Y. apply orb_true_iff in D. destruct D as [D|D]; [apply orb_true_iff in D; destruct D as [D|D]|].
        -- apply String.eqb_eq in D. contradiction.
        -- apply String.eqb_eq in D. congruence.
        -- apply eqb_in in D. congruence.
    + apply orb_false_iff in D. destruct D as [D D3]. apply orb_false_iff in D. destruct D as [D1 D2].
      apply String.eqb_neq in D1, D2. assert (D3' : ~ In h' seen) by (rewrite <- eqb_in, D3; discriminate). cbn [In]. rewrite IH. split.
      * intros [<-|(A & B & x & I & X)].
        -- split; [exact D3'|]. split; [exact D2|]. exists (trim e). split; [now left|]. split; [exact D1|reflexivity].
        -- split; [intros K; apply A; now right|]. split; [exact B|]. exists x. split; [now right|exact X].
      * intros (A & B & x & I & X & Y). destruct (string_dec h' h) as [K|K]; [now left|]. right.
        split; [intros [L|L]; contradiction|]. split; [exact B|]. exists x. destruct I as [<-|I]; [|now split]. fold h' in Y. contradiction.
Qed.

Lemma lower_empty : lower "" = "".
Proof. reflexivity. Qed.
Lemma trim_empty : trim "" = "".
Proof. reflexivity. Qed.

Lemma entry_named n h w : h <> "" -> (exists e, In e (map trim (split w)) /\ e <> "" /\ entry_host n e = h) <-> named n w h.
Proof.
  intros H. split.
  - intros (e & I & E & X). apply in_map_iff in I. destruct I as (f & <- & I). split; [exact H|]. exists f.
    split; [now apply written_split|]. unfold entry_host in X. destruct (contains "://" (trim f)) eqn:C.
    + right. split; [reflexivity|]. destruct (parse n (trim f)) as [u|]; [exists u; now split|].
      rewrite trim_empty, lower_empty in X. congruence.
    + left. split; [reflexivity|]. now rewrite trim_idem in X.
  - intros (_ & e & W & X). apply written_split in W. exists (trim e). split; [now apply in_map|].
    assert (E : entry_host n (trim e) = h).
    { unfold entry_host. destruct X as [(C & X)|(C & u & P & X)]; rewrite C; [now rewrite trim_idem|now rewrite P]. }
    split; [|exact E]. intros K. rewrite K in E. cbn in E. congruence.
Qed.

Lemma allowed_named n w h : host_allowed h (whitelist_hosts n w) = true <-> named n w h.
Proof.
  assert (A : host_allowed h (whitelist_hosts n w) = true <-> In h (whitelist_hosts n w)).
  { unfold host_allowed. rewrite existsb_exists. split; [intros (x & I & E); apply String.eqb_eq in E; now subst|].
    intros I. exists h. split; [exact I|apply String.eqb_refl]. }
  rewrite A. clear A. unfold whitelist_hosts. destruct (String.eqb_spec (trim w) "") as [E|E].
  - split; [intros []|]. intros N. pose proof N as [H _]. apply entry_named in N; [|exact H].
    destruct N as (e & I & Ne & _). rewrite <- split_trim, E in I. destruct I as [<-|[]]. destruct Ne. reflexivity.
  - rewrite hosts_in, split_trim. split.
    + intros (_ & H & X). now apply entry_named.
    + intros N. pose proof N as [H _]. split; [intros []|]. split; [exact H|]. now apply entry_named.
Qed.

Lemma host_plain n w h : named n w h -> h <> "".
Proof. intros [H _]. exact H. Qed.

(** ** Following *)
Section Follow.
  Context (n : net) (w : string).
  Let al := whitelist_hosts n w.

  Lemma follow_safe : forall fuel i u v, named n w (plain_host u) -> In v (fst (follow n al fuel i u)) -> web_url v /\ named n w (plain_host v).
  Proof.
    induction fuel as [|fuel IH]; intros i u v N; cbn [follow]; [intros []|].
    destruct (sendable u) eqn:Sd; cbn [negb]; [|intros []].
    assert (U : web_url u /\ named n w (plain_host u)).
    { split; [|exact N]. unfold sendable in Sd. apply andb_true_iff in Sd. destruct Sd as [Sd _]. apply orb_true_iff in Sd.
      destruct Sd as [Sd|Sd]; apply String.eqb_eq in Sd; [now left|now right]. }
    assert (O : In v [u] -> web_url v /\ named n w (plain_host v)) by (intros [<-|[]]; exact U).
    destruct (web n i u) as [|st loc body]; [exact O|]. destruct (redirects st && negb (String.eqb loc "")); [|exact O].
    destruct (resolve n u loc) as [v'|]; [|exact O].
    destruct (String.eqb (plain_host v') "" || negb (host_allowed (plain_host v') al)) eqn:D; [exact O|].
    cbn [fst]. intros [<-|I]; [exact U|]. apply orb_false_iff in D. destruct D as [_ D]. apply negb_false_iff in D.
    apply allowed_named in D. exact (IH _ _ _ D I).
  Qed.

  Lemma follow_led : forall fuel i u, led n i (fst (follow n al fuel i u)) /\ (fst (follow n al fuel i u) = [] \/ exists r, fst (follow n al fuel i u) = u :: r).
  Proof.
    induction fuel as [|fuel IH]; intros i u; cbn [follow]; [split; [exact I|now left]|].
    destruct (negb (sendable u)); [split; [exact I|now left]|].
    destruct (web n i u) as [|st loc body] eqn:W; [split; [exact I|right; now exists []]|].
    destruct (redirects st && negb (String.eqb loc "")); [|split; [exact I|right; now exists []]].
    destruct (resolve n u loc) as [v|] eqn:R; [|split; [exact I|right; now exists []]].
    destruct (String.eqb (plain_host v) "" || negb (host_allowed (plain_host v) al)); [split; [exact I|right; now exists []]|].
    cbn [fst]. destruct (IH (S i) v) as (L & [E|(r & E)]); rewrite E in L |- *; (split; [|right; eexists; reflexivity]).
    - exact Logic.I.
    - split; [now exists st, loc, body|exact L].
  Qed.

  Lemma follow_end : forall fuel i u st body, snd (follow n al fuel i u) = Some (st, body) ->
    exists l v loc, fst (follow n al fuel i u) = l ++ [v] /\ web n (i + List.length l) v = Reply st loc body.
  Proof.
    induction fuel as [|fuel IH]; intros i u st body; cbn [follow]; [discriminate|].
    destruct (negb (sendable u)); [discriminate|].
    destruct (web n i u) as [|st' loc body'] eqn:W; [discriminate|].
    assert (O : Some (st', body') = Some (st, body) -> exists l v loc, [u] = l ++ [v] /\ web n (i + List.length l) v = Reply st loc body).
    { intros E. injection E as -> ->. exists [], u, loc. split; [reflexivity|]. cbn [List.length]. now rewrite Nat.add_0_r. }
    destruct (redirects st' && negb (String.eqb loc "")); [|exact O].
    destruct (resolve n u loc) as [v|]; [|discriminate].
    destruct (String.eqb (plain_host v) "" || negb (host_allowed (plain_host v) al)); [exact O|].
    cbn [fst snd]. intros E. destruct (IH _ _ _ _ E) as (l & v' & loc' & X & Y). exists (u :: l), v', loc'.
    split; [now rewrite X|]. cbn [List.length]. rewrite Nat.add_succ_r. exact Y.
  Qed.
End Follow.

(** ** The first bytes *)
Lemma first_prefix : forall body k, 0 <= k -> exists rest, body = (first k body ++ rest)%string /\
  (rest = "" /\ Z.of_nat (String.length body) <= k \/ Z.of_nat (String.length (first k body)) = k).
Proof.
  unfold first. induction body as [|c body IH]; intros k K; cbn [DoorModel.upto].
  - exists "". split; [reflexivity|]. left. split; [reflexivity|]. cbn. lia.
  - destruct (Z.leb_spec k 0).
    + exists (String c body). split; [reflexivity|]. right. cbn. lia.
    + destruct (IH (k - 1) ltac:(lia)) as (rest & E & D). exists rest. split; [cbn; now rewrite <- E|].
      cbn [String.length]. destruct D as [(-> & L)|L]; [left; split; [reflexivity|lia]|right; lia].
Qed.

Lemma limit_eq mb : limit mb = file_limit mb.
Proof. unfold limit, file_limit. destruct (Z.leb_spec mb 0); rewrite Z.gtb_ltb; [replace (0 <? mb) with false by (symmetry; apply Z.ltb_ge; lia)|replace (0 <? mb) with true by (symmetry; apply Z.ltb_lt; lia)]; lia. Qed.
Lemma limit_pos mb : 0 < file_limit mb.
Proof. unfold file_limit. destruct (Z.leb_spec mb 0); lia. Qed.

(** ** Theorems *)
Theorem requests_safe n w mb r u : tidy_hosts n -> In u (fst (upload n w mb r)) -> web_url u /\ named n w (lower (u_host u)).
Proof.
  intros [T1 T2]. unfold upload. destruct (r_file r); [intros []|]. destruct (r_large r); [intros []|].
  destruct (String.eqb (r_url r) ""); [intros []|]. cbn [fst]. unfold download. destruct (parse n (r_url r)) as [u0|] eqn:P; [|intros []].
  destruct (negb (String.eqb (lower (u_scheme u0)) "http") && negb (String.eqb (lower (u_scheme u0)) "https")); [intros []|].
  destruct (String.eqb (plain_host u0) ""); [intros []|].
  destruct (host_allowed (plain_host u0) (whitelist_hosts n w)) eqn:A; cbn [negb fst]; [|intros []]. intros I.
  apply allowed_named in A. assert (H : trim (u_host u) = u_host u).
  { clear A. revert I. generalize O as i. generalize (patience n) as fuel. pose proof (T1 _ _ P) as H0. clear P.
    intros fuel. revert u0 H0. induction fuel as [|fuel IH]; intros u0 H0 i; cbn [follow]; [intros []|].
    destruct (negb (sendable u0)); [intros []|].
    assert (O : In u [u0] -> trim (u_host u) = u_host u) by (intros [<-|[]]; exact H0).
    destruct (web n i u0); [exact O|]. destruct (redirects status && negb (String.eqb location "")); [|exact O].
    destruct (resolve n u0 location) as [v|] eqn:R; [|exact O].
    destruct (String.eqb (plain_host v) "" || negb (host_allowed (plain_host v) (whitelist_hosts n w))); [exact O|].
    cbn [fst]. intros [<-|I]; [exact H0|]. exact (IH v (T2 _ _ _ R) _ I). }
  destruct (follow_safe n w _ _ _ _ A I) as [X Y]. split; [exact X|]. unfold plain_host in Y. now rewrite H in Y.
Qed.

Theorem requests_led n w mb r : led n 0 (fst (upload n w mb r)) /\
  forall u l, fst (upload n w mb r) = u :: l -> r_file r = None /\ parse n (r_url r) = Some u.
Proof.
  unfold upload. destruct (r_file r); [split; [exact I|discriminate]|]. destruct (r_large r); [split; [exact I|discriminate]|].
  destruct (String.eqb (r_url r) ""); [split; [exact I|discriminate]|]. cbn [fst]. unfold download.
  destruct (parse n (r_url r)) as [u0|]; [|split; [exact I|discriminate]].
  destruct (negb (String.eqb (lower (u_scheme u0)) "http") && negb (String.eqb (lower (u_scheme u0)) "https")); [split; [exact I|discriminate]|].
  destruct (String.eqb (plain_host u0) ""); [split; [exact I|discriminate]|].
  destruct (host_allowed (plain_host u0) (whitelist_hosts n w)); cbn [negb fst]; [|split; [exact I|discriminate]].
  destruct (follow_led n w (patience n) 0 u0) as (L & D). split; [exact L|]. intros u l E. split; [reflexivity|].
  destruct D as [D|(t & D)]; rewrite D in E; [discriminate E|congruence].
Qed.

Theorem handed_fetched n w mb r f : snd (upload n w mb r) = FromUrl (Handed f) ->
  exists l u st loc body rest, fst (upload n w mb r) = l ++ [u] /\ web n (List.length l) u = Reply st loc body /\
    200 <= st < 300 /\ body = (f ++ rest)%string /\
    (rest = "" \/ Z.of_nat (String.length f) = file_limit mb + 1).
Proof.
  unfold upload. destruct (r_file r); [discriminate|]. destruct (r_large r); [discriminate|].
  destruct (String.eqb (r_url r) ""); [discriminate|]. cbn [fst snd]. unfold download.
  destruct (parse n (r_url r)) as [u0|]; [|discriminate].
  destruct (negb (String.eqb (lower (u_scheme u0)) "http") && negb (String.eqb (lower (u_scheme u0)) "https")); [discriminate|].
  destruct (String.eqb (plain_host u0) ""); [discriminate|].
  destruct (host_allowed (plain_host u0) (whitelist_hosts n w)); cbn [negb fst snd]; [|discriminate].
  destruct (snd (follow n (whitelist_hosts n w) (patience n) 0 u0)) as [(st, body)|] eqn:E; [|discriminate].
  destruct (follow_end n w _ _ _ _ _ E) as (l & v & loc & F & W). destruct ((st <? 200) || (300 <=? st)) eqn:D; [discriminate|].
  intros H. injection H as <-. apply orb_false_iff in D. destruct D as [D1 D2]. apply Z.ltb_ge in D1. apply Z.leb_gt in D2.
  pose proof (limit_pos mb). rewrite limit_eq. destruct (first_prefix body (file_limit mb + 1) ltac:(lia)) as (rest & B & D).
  exists l, v, st, loc, body, rest. split; [exact F|]. split; [exact W|]. split; [lia|]. split; [exact B|].
  destruct D as [(-> & _)|D]; [now left|now right].
Qed.

(** What becomes of a URL, without looking at the web. *)
Theorem url_refused n w mb r : r_file r = None -> r_large r = false -> r_url r <> "" ->
  let good := exists u, parse n (r_url r) = Some u /\ (lower (u_scheme u) = "http" \/ lower (u_scheme u) = "https") /\ trim (u_host u) <> "" in
  let listed := exists u, parse n (r_url r) = Some u /\ named n w (lower (trim (u_host u))) in
  (snd (upload n w mb r) = FromUrl UrlInvalid <-> ~ good) /\
  (snd (upload n w mb r) = FromUrl HostNotAllowed <-> good /\ ~ listed) /\
  (~ good \/ ~ listed -> fst (upload n w mb r) = []).
Proof.
  intros F L U good listed. unfold upload. rewrite F, L. destruct (String.eqb_spec (r_url r) "") as [K|_]; [contradiction|]. cbn [fst snd].
  assert (LE : forall s, lower s = "" -> s = "") by (intros [|c s]; [reflexivity|discriminate]).
  unfold download. destruct (parse n (r_url r)) as [u0|] eqn:P.
  2:{ assert (G : ~ good) by (intros (u & K & _); congruence). repeat split; try discriminate; try tauto; intros _; try reflexivity; try exact G. }
  assert (Gd : good <-> (lower (u_scheme u0) = "http" \/ lower (u_scheme u0) = "https") /\ trim (u_host u0) <> "").
  { split; [intros (u & E & X); assert (u = u0) as -> by congruence; exact X|intros X; exists u0; split; [reflexivity|exact X]]. }
  assert (Ld : listed <-> named n w (plain_host u0)).
  { split; [intros (u & E & X); assert (u = u0) as -> by congruence; exact X|intros X; exists u0; split; [reflexivity|exact X]]. }
  destruct (negb (String.eqb (lower (u_scheme u0)) "http") && negb (String.eqb (lower (u_scheme u0)) "https")) eqn:Sc.
  { apply andb_true_iff in Sc. destruct Sc as [S1 S2]. apply negb_true_iff in S1, S2. apply String.eqb_neq in S1, S2.
    assert (G : ~ good) by tauto. cbn [fst snd]. repeat split; try discriminate; try tauto; intros _; try reflexivity; try exact G. }
  assert (S1 : lower (u_scheme u0) = "http" \/ lower (u_scheme u0) = "https").
  { apply andb_false_iff in Sc. destruct Sc as [S1|S1]; apply negb_false_iff in S1; apply String.eqb_eq in S1; tauto. }
  destruct (String.eqb_spec (plain_host u0) "") as [H|H].
  { apply LE in H. assert (G : ~ good) by tauto. cbn [fst snd]. repeat split; try discriminate; try tauto; intros _; try reflexivity; try exact G. }
  assert (G : good). { apply Gd. split; [exact S1|]. intros K. apply H. unfold plain_host. rewrite K. reflexivity. }
  destruct (host_allowed (plain_host u0) (whitelist_hosts n w)) eqn:A; cbn [negb fst snd].
  - apply allowed_named in A. assert (listed) by tauto.
    assert (O : match snd (follow n (whitelist_hosts n w) (patience n) 0 u0) with
      | Some (st, body) => if (st <? 200) || (300 <=? st) then Failed else Handed (first (limit mb + 1) body) | None => Failed end <> UrlInvalid /\
      match snd (follow n (whitelist_hosts n w) (patience n) 0 u0) with
      | Some (st, body) => if (st <? 200) || (300 <=? st) then Failed else Handed (first (limit mb + 1) body) | None => Failed end <> HostNotAllowed).
    { destruct (snd (follow n (whitelist_hosts n w) (patience n) 0 u0)) as [(st, body)|]; [destruct ((st <? 200) || (300 <=? st))|]; split; discriminate. }
    destruct O as [O1 O2]. split; [|split].
    + split; [intros K; injection K as K; contradiction|tauto].
    + split; [intros K; injection K as K; contradiction|tauto].
    + tauto.
  - assert (NL : ~ listed). { intros K. apply Ld in K. apply allowed_named in K. congruence. }
    split; [|split].
    + split; [discriminate|tauto].
    + split; [tauto|reflexivity].
    + reflexivity.
Qed.

Lemma sendable_named u n w : web_url u -> named n w (lower (trim (u_host u))) -> sendable u = true.
Proof.
  intros S [H _]. unfold sendable. apply andb_true_iff. split.
  - destruct S as [-> | ->]; reflexivity.
  - apply negb_true_iff. apply String.eqb_neq. intros K. apply H. rewrite K. reflexivity.
Qed.

Lemma download_follow n w mb u raw : parse n raw = Some u -> web_url u -> named n w (lower (trim (u_host u))) ->
  download n w mb raw = let r := follow n (whitelist_hosts n w) (patience n) 0 u in
    (fst r, match snd r with
            | None => Failed
            | Some (st, body) => if (st <? 200) || (300 <=? st) then Failed else Handed (first (limit mb + 1) body)
            end).
Proof.
  intros P S N. unfold download. rewrite P. assert (Sc : negb (String.eqb (lower (u_scheme u)) "http") && negb (String.eqb (lower (u_scheme u)) "https") = false).
  { destruct S as [-> | ->]; reflexivity. }
  rewrite Sc. pose proof N as [H _]. apply String.eqb_neq in H. change (lower (trim (u_host u))) with (plain_host u) in *. rewrite H.
  apply allowed_named in N. rewrite N. reflexivity.
Qed.

Theorem answered n w mb r u st loc body : r_file r = None -> r_large r = false -> r_url r <> "" ->
  parse n (r_url r) = Some u -> web_url u -> named n w (lower (trim (u_host u))) -> (0 < patience n)%nat ->
  web n 0 u = Reply st loc body -> ~ In st [301; 302; 303; 307; 308] ->
  exists f, upload n w mb r = ([u], FromUrl (if (200 <=? st) && (st <? 300) then Handed f else Failed)) /\
    exists rest, body = (f ++ rest)%string /\
      (rest = "" /\ Z.of_nat (String.length body) <= file_limit mb + 1 \/ Z.of_nat (String.length f) = file_limit mb + 1).
Proof.
  intros F L U P S N Pt W R. exists (first (limit mb + 1) body). split.
  - unfold upload. rewrite F, L. destruct (String.eqb_spec (r_url r) "") as [K|_]; [contradiction|].
    rewrite (download_follow n w mb u _ P S N). destruct (patience n) as [|fuel]; [lia|]. cbn [follow].
    rewrite (sendable_named u n w S N). cbn [negb]. rewrite W.
    assert (X : redirects st = false).
    { unfold redirects. apply not_true_iff_false. rewrite existsb_exists. intros (x & I & E). apply Z.eqb_eq in E. subst x. contradiction. }
    rewrite X. cbn [andb fst snd]. clear. destruct (Z.ltb_spec st 200), (Z.leb_spec 300 st), (Z.leb_spec 200 st), (Z.ltb_spec st 300); try lia; reflexivity.
  - pose proof (limit_pos mb). rewrite limit_eq. destruct (first_prefix body (file_limit mb + 1) ltac:(lia)) as (rest & B & D). now exists rest.
Qed.

Theorem led_astray n w mb r u st loc body v : r_file r = None -> r_large r = false -> r_url r <> "" ->
  parse n (r_url r) = Some u -> web_url u -> named n w (lower (trim (u_host u))) -> (0 < patience n)%nat ->
  web n 0 u = Reply st loc body -> In st [301; 302; 303; 307; 308] -> loc <> "" -> resolve n u loc = Some v ->
  ~ named n w (lower (trim (u_host v))) ->
  upload n w mb r = ([u], FromUrl Failed).
Proof.
  intros F L U P S N Pt W R Lc V A. unfold upload. rewrite F, L. destruct (String.eqb_spec (r_url r) "") as [K|_]; [contradiction|].
  rewrite (download_follow n w mb u _ P S N). destruct (patience n) as [|fuel]; [lia|]. cbn [follow].
  rewrite (sendable_named u n w S N). cbn [negb]. rewrite W.
  assert (X : redirects st = true).
  { unfold redirects. rewrite existsb_exists. exists st. split; [exact R|apply Z.eqb_refl]. }
  apply String.eqb_neq in Lc. rewrite X, Lc, V. cbn [andb negb].
  assert (Y : host_allowed (plain_host v) (whitelist_hosts n w) = false).
  { apply not_true_iff_false. intros K. apply allowed_named in K. contradiction. }
  rewrite Y, orb_true_r. cbn [fst snd]. assert (Z : (st <? 200) || (300 <=? st) = true).
  { apply orb_true_iff. right. apply Z.leb_le. repeat (destruct R as [<-|R]; [lia|]). destruct R. }
  rewrite Z. reflexivity.
Qed.

Theorem blank_whitelist n w mb r : trim w = "" -> fst (upload n w mb r) = [] /\ forall f, snd (upload n w mb r) <> FromUrl (Handed f).
Proof.
  intros B. assert (N : forall h, ~ named n w h).
  { intros h K. apply allowed_named in K. unfold whitelist_hosts in K. rewrite B in K. discriminate K. }
  unfold upload. destruct (r_file r); [split; [reflexivity|discriminate]|]. destruct (r_large r); [split; [reflexivity|discriminate]|].
  destruct (String.eqb (r_url r) ""); [split; [reflexivity|discriminate]|]. cbn [fst snd]. unfold download.
  destruct (parse n (r_url r)) as [u0|]; [|split; [reflexivity|discriminate]].
  destruct (negb (String.eqb (lower (u_scheme u0)) "http") && negb (String.eqb (lower (u_scheme u0)) "https")); [split; [reflexivity|discriminate]|].
  destruct (String.eqb (plain_host u0) ""); [split; [reflexivity|discriminate]|].
  destruct (host_allowed (plain_host u0) (whitelist_hosts n w)) eqn:A; [apply allowed_named in A; destruct (N _ A)|].
  split; [reflexivity|discriminate].
Qed.

Theorem file_wins n w mb r f : r_file r = Some f -> upload n w mb r = ([], FromFile f).
Proof. intros E. unfold upload. now rewrite E. Qed.

Theorem no_source n w mb r : r_file r = None -> (r_large r = true -> upload n w mb r = ([], TooLarge)) /\
  (r_large r = false -> r_url r = "" -> upload n w mb r = ([], NoFile)).
Proof. intros F. unfold upload. rewrite F. split; [now intros ->|]. now intros -> ->. Qed.
