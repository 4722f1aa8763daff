(** Tokens read back. *)
From Coq Require Import List String Ascii Bool Arith Lia PeanoNat ZArith ZifyNat.
From Verif Require Import BodyModel TokenModel TokenSpec.
Import ListNotations.
Local Open Scope string_scope.
Local Open Scope nat_scope.

(** * Base 64 *)

Lemma code_bound c : code c < 256.
Proof. apply nat_ascii_bounded. Qed.
Lemma chr_code c n : n = code c -> chr n = c.
Proof. intros ->. apply ascii_nat_embedding. Qed.

Lemma letters_all : forallb (fun n => match sextet (letter n) with Some m => Nat.eqb n m | None => false end
    && negb (Ascii.eqb (letter n) "=") && negb (Ascii.eqb (letter n) ":")
    && negb (Ascii.eqb (letter n) (chr 10) || Ascii.eqb (letter n) (chr 13))) (seq 0 64) = true.
Proof. vm_compute. reflexivity. Qed.

Lemma letter_ok n : n < 64 -> sextet (letter n) = Some n /\ Ascii.eqb (letter n) "=" = false
  /\ Ascii.eqb (letter n) ":" = false /\ Ascii.eqb (letter n) (chr 10) || Ascii.eqb (letter n) (chr 13) = false.
Proof.
  intros H. pose proof letters_all as A. rewrite forallb_forall in A.
  specialize (A n). rewrite in_seq in A. specialize (A ltac:(lia)).
  rewrite !andb_true_iff, !negb_true_iff in A. destruct A as (((A & B) & C) & D).
  destruct (sextet (letter n)) as [m|]; [|discriminate]. apply Nat.eqb_eq in A. subst m. auto.
Qed.

Ltac arith := Z.div_mod_to_equations; lia.
Ltac num := zify; Z.to_euclidean_division_equations; lia.

Lemma quads_cons a b c d r : quads (String a (String b (String c (String d r)))) =
    match sextet a, sextet b with
    | Some x, Some y =>
      let one := chr (x * 4 + y / 16) in
      if Ascii.eqb c "=" then if Ascii.eqb d "=" && String.eqb r "" then Some (String one "") else None
      else match sextet c with
           | None => None
           | Some z =>
             let two := chr (y mod 16 * 16 + z / 4) in
             if Ascii.eqb d "=" then if String.eqb r "" then Some (String one (String two "")) else None
             else match sextet d with
                  | None => None
                  | Some w => match quads r with
                              | Some t => Some (String one (String two (String (chr (z mod 4 * 64 + w)) t)))
                              | None => None
                              end
                  end
           end
    | _, _ => None
    end.
Proof. reflexivity. Qed.

Lemma encode_cons a b c r : encode (String a (String b (String c r))) =
    String (letter (code a / 4)) (String (letter (code a mod 4 * 16 + code b / 16))
      (String (letter (code b mod 16 * 4 + code c / 64)) (String (letter (code c mod 64)) (encode r)))).
Proof. reflexivity. Qed.

Lemma three (P : string -> Prop) : P "" -> (forall a, P (String a "")) -> (forall a b, P (String a (String b ""))) ->
  (forall a b c r, P r -> P (String a (String b (String c r)))) -> forall s, P s.
Proof.
  intros P0 P1 P2 P3 s. assert (H : P s /\ (forall a, P (String a s)) /\ (forall a b, P (String a (String b s)))); [|apply H].
  induction s as [|x s (A & B & C)]; [auto|]. repeat split; auto.
Qed.

Lemma split3 a b c : code a < 256 -> code b < 256 -> code c < 256 ->
  code a / 4 < 64 /\ code a mod 4 * 16 < 64 /\ code a mod 4 * 16 + code b / 16 < 64
  /\ code b mod 16 * 4 < 64 /\ code b mod 16 * 4 + code c / 64 < 64 /\ code c mod 64 < 64.
Proof. intros. repeat split; num. Qed.

Lemma encode_letters s : forall P : ascii -> Prop, (forall n, n < 64 -> P (letter n)) -> P "="%char ->
  Forall P (list_ascii_of_string (encode s)).
Proof.
  induction s as [|a|a b|a b c r IH] using three; intros P H E.
  - constructor.
  - destruct (split3 a a a (code_bound a) (code_bound a) (code_bound a)) as (A & B & C & D & F & G).
    repeat constructor; auto.
  - destruct (split3 a b a (code_bound a) (code_bound b) (code_bound a)) as (A & B & C & D & F & G).
    repeat constructor; auto.
  - destruct (split3 a b c (code_bound a) (code_bound b) (code_bound c)) as (A & B & C & D & F & G).
    rewrite encode_cons. cbn [list_ascii_of_string]. repeat (constructor; [auto|]). auto.
Qed.

Lemma unbroken_id s : Forall (fun c => Ascii.eqb c (chr 10) || Ascii.eqb c (chr 13) = false) (list_ascii_of_string s) -> unbroken s = s.
Proof.
  induction s as [|c s IH]; [auto|]. cbn [list_ascii_of_string]. intros H. inversion H; subst. cbn [unbroken]. rewrite H2. now rewrite IH.
Qed.

Lemma quads_encode s : quads (encode s) = Some s.
Proof.
  induction s as [|a|a b|a b c r IH] using three.
  - reflexivity.
  - destruct (split3 a a a (code_bound a) (code_bound a) (code_bound a)) as (A & B & C & D & F & G).
    cbn [encode]. rewrite quads_cons. destruct (letter_ok _ A) as (-> & _). destruct (letter_ok _ B) as (-> & _).
    change (Ascii.eqb "=" "=") with true. change (String.eqb "" "") with true. cbn [andb].
    pose proof (code_bound a). f_equal. f_equal. apply chr_code. num.
  - destruct (split3 a b a (code_bound a) (code_bound b) (code_bound a)) as (A & B & C & D & F & G).
    cbn [encode]. rewrite quads_cons. destruct (letter_ok _ A) as (-> & _). destruct (letter_ok _ C) as (-> & _).
    destruct (letter_ok _ D) as (-> & -> & _). cbn zeta. change (Ascii.eqb "=" "=") with true. change (String.eqb "" "") with true.
    cbv iota. pose proof (code_bound a). pose proof (code_bound b). f_equal. f_equal; [apply chr_code; num|]. f_equal. apply chr_code. num.
  - destruct (split3 a b c (code_bound a) (code_bound b) (code_bound c)) as (A & B & C & D & F & G).
    rewrite encode_cons, quads_cons. destruct (letter_ok _ A) as (-> & _). destruct (letter_ok _ C) as (-> & _).
    destruct (letter_ok _ F) as (-> & -> & _). destruct (letter_ok _ G) as (-> & -> & _). rewrite IH. cbn zeta.
    pose proof (code_bound a). pose proof (code_bound b). pose proof (code_bound c).
    f_equal. f_equal; [apply chr_code; num|]. f_equal; [apply chr_code; num|]. f_equal. apply chr_code. num.
Qed.

Lemma decode_encode s : decode (encode s) = Some s.
Proof.
  unfold decode. rewrite unbroken_id; [apply quads_encode|]. apply encode_letters; [|reflexivity].
  intros n H. apply (letter_ok n H).
Qed.

(** * Tokens *)

Lemma colonless_iff s : colonless s <-> Forall (fun c => Ascii.eqb c ":" = false) (list_ascii_of_string s).
Proof.
  unfold colonless. rewrite Forall_forall. split.
  - intros H c I. apply Ascii.eqb_neq. intros ->. auto.
  - intros H I. specialize (H _ I). discriminate H.
Qed.

Lemma past_colon_app a b : colonless a -> past_colon (a ++ String ":" b) = Some b.
Proof.
  rewrite colonless_iff. induction a as [|c a IH]; [reflexivity|]. cbn [list_ascii_of_string]. intros H. inversion H; subst.
  cbn. rewrite H2. auto.
Qed.

Lemma shift_colon base b m : base + b mod (S m) < 256 -> 58 < base \/ base + m < 58 -> Ascii.eqb (chr (base + b mod (S m))) ":" = false.
Proof.
  intros L H. apply Ascii.eqb_neq. intros E. apply (f_equal nat_of_ascii) in E. unfold chr in E. rewrite nat_ascii_embedding in E by exact L.
  change (nat_of_ascii ":") with 58 in E. pose proof (Nat.mod_upper_bound b (S m)). lia.
Qed.

Lemma disguise_colonless sd s : forall n, colonless s -> colonless (disguise sd n s).
Proof.
  intros n H. rewrite colonless_iff in *. revert n H. induction s as [|c s IH]; intros n H; [constructor|]. cbn [list_ascii_of_string disguise] in *. inversion H; subst.
  constructor; [|auto].
  destruct (between "A" "Z" c); [apply (shift_colon 65 _ 25); [pose proof (Nat.mod_upper_bound (sd (n mod 32)) 26); lia|lia]|].
  destruct (between "a" "z" c); [apply (shift_colon 97 _ 25); [pose proof (Nat.mod_upper_bound (sd (n mod 32)) 26); lia|lia]|].
  destruct (between "0" "9" c); [apply (shift_colon 48 _ 9); [pose proof (Nat.mod_upper_bound (sd (n mod 32)) 10); lia|lia]|].
  assumption.
Qed.

Lemma first_of n : forall a b, String.length a = n -> substring 0 n (a ++ b) = a.
Proof.
  induction n as [|n IH]; intros [|c a] b L; cbn in L; try discriminate; cbn.
  - now destruct b.
  - f_equal. apply IH. lia.
Qed.
Lemma drop_of n : forall a b, String.length a = n -> drop n (a ++ b) = b.
Proof. induction n as [|n IH]; intros [|c a] b L; cbn in L; try discriminate; cbn; [reflexivity|]. apply IH. lia. Qed.
Lemma length_app a : forall b, String.length (a ++ b) = String.length a + String.length b.
Proof. induction a as [|c a IH]; intros b; cbn; [reflexivity|]. now rewrite IH. Qed.

Lemma unseal_seal k n v : opens k -> k_len k = 32 -> String.length n = 12 -> unseal k (seal k n v) = Some v.
Proof.
  intros O K L. unfold unseal, seal. rewrite decode_encode, K, length_app, L. cbn [existsb Nat.eqb orb andb].
  assert (12 <=? 12 + String.length (k_seal k n v) = true) as -> by (apply Nat.leb_le; lia).
  rewrite (first_of 12 _ _ L), (drop_of 12 _ _ L). apply O.
Qed.

Lemma prefix_fpt s : prefix "FPT:" ("FPT:" ++ s) = true.
Proof. now destruct s. Qed.

Lemma detokenize_token k n v : opens k -> k_len k = 32 -> String.length n = 12 -> colonless v ->
  detokenize k (token k n v) = Some v.
Proof.
  intros O K L C. unfold detokenize, token. rewrite prefix_fpt.
  change (drop 4 ("FPT:" ++ disguise (k_seed k v) 0 v ++ ":" ++ seal k n v)) with (disguise (k_seed k v) 0 v ++ ":" ++ seal k n v).
  change (":" ++ seal k n v) with (String ":" (seal k n v)).
  rewrite past_colon_app by now apply disguise_colonless. now apply unseal_seal.
Qed.

(** * The look of a token *)

Lemma shift_between a b base m x : code a = base -> code b = base + m -> base + m < 256 -> between a b (chr (base + x mod (S m))) = true.
Proof.
  intros A B L. unfold between. rewrite A, B. unfold code, chr. pose proof (Nat.mod_upper_bound x (S m) ltac:(lia)).
  rewrite nat_ascii_embedding by lia. apply andb_true_iff. split; apply Nat.leb_le; lia.
Qed.

Lemma disguise_look sd s : forall n, Forall2 look (list_ascii_of_string s) (list_ascii_of_string (disguise sd n s)).
Proof.
  induction s as [|c s IH]; intros n; [constructor|]. cbn [list_ascii_of_string disguise]. constructor; [|apply IH].
  unfold look. destruct (between "A" "Z" c); [apply (shift_between "A" "Z" 65 25); [reflexivity|reflexivity|lia]|].
  destruct (between "a" "z" c); [apply (shift_between "a" "z" 97 25); [reflexivity|reflexivity|lia]|].
  destruct (between "0" "9" c); [apply (shift_between "0" "9" 48 9); [reflexivity|reflexivity|lia]|]. reflexivity.
Qed.

Lemma disguise_none sd s : forall n, Forall (fun c => between "A" "Z" c = false /\ between "a" "z" c = false /\ between "0" "9" c = false)
    (list_ascii_of_string s) -> disguise sd n s = s.
Proof.
  induction s as [|c s IH]; intros n H; [reflexivity|]. cbn [list_ascii_of_string disguise] in *. inversion H as [|? ? (A & B & C) R]; subst.
  rewrite A, B, C, (IH _ R). reflexivity.
Qed.

Lemma token_is k n v : opens k -> k_len k = 32 -> String.length n = 12 -> colonless v -> token_of k v (token k n v).
Proof.
  intros O K L C. exists (disguise (k_seed k v) 0 v), (seal k n v). split; [reflexivity|]. split; [apply disguise_look|].
  now apply detokenize_token.
Qed.
