(** Model of the split arithmetic of model/transaction.go:37-467.
    Go maps become association lists in insertion order; the code iterates over
    maps in an unspecified order, so every iteration whose result can depend on
    the order takes the order as an argument (a permutation chosen by the
    environment). Strings of a distribution are parsed by an oracle: a
    distribution is represented by what its strings parse to. *)
From Coq Require Import ZArith QArith List String Bool.
From Verif Require Import Base.
Import ListNotations.
Open Scope Z_scope.

(** Distribution, model/transaction.go:37-42, with Distribution /
    PreciseDistribution already parsed (model/transaction.go:132-139,168-186):
    - DLeft: "left";  DPercent p: "p%";  DFixed a: decimal amount (major units);
    - DPrecise n: integer minor units;   DNothing: both strings empty;
    - DBad: a string that does not parse. *)
Inductive dspec := DLeft | DPercent (p : Q) | DFixed (a : Q) | DPrecise (n : Z) | DNothing | DBad.

Record distribution := { d_id : string; d_spec : dspec }.

Definition amap A := list (string * A).

Fixpoint am_get {A} (k : string) (m : amap A) : option A :=
  match m with
  | [] => None
  | (k', v) :: r => if String.eqb k k' then Some v else am_get k r
  end.

(** map assignment m[k] = v *)
Fixpoint am_set {A} (k : string) (v : A) (m : amap A) : amap A :=
  match m with
  | [] => [(k, v)]
  | (k', v') :: r => if String.eqb k k' then (k', v) :: r else (k', v') :: am_set k v r
  end.

Fixpoint am_sum (m : amap Q) : Q :=
  match m with [] => 0%Q | (_, v) :: r => Qplus v (am_sum r) end.

Fixpoint am_sumz (m : amap Z) : Z :=
  match m with [] => 0 | (_, v) :: r => v + am_sumz r end.

(** distributionState, model/transaction.go:45-54. *)
Record dstate := {
  ds_total : Q; ds_left : Q; ds_prec : Z; ds_pct : Q; ds_fixtot : Q;
  ds_fixed : amap Q; ds_percent : amap Q; ds_result : amap Z }.

(** parseFixedAmount, model/transaction.go:168-186. *)
Definition parse_fixed_amount (d : distribution) (prec : Z) : option Q :=
  match d_spec d with
  | DPrecise n => Some (q_of_Z n)
  | DFixed a => Some (Qmult a (q_of_Z prec))
  | DNothing => Some 0%Q
  | _ => None
  end.

Definition qlt (a b : Q) : bool := negb (Qle_bool b a).

Definition is_left (d : distribution) : bool := match d_spec d with DLeft => true | _ => false end.
Definition is_percent (d : distribution) : bool := match d_spec d with DPercent _ => true | _ => false end.

(** processFixedDistributions, model/transaction.go:142-165. *)
Fixpoint process_fixed (l : list distribution) (s : dstate) : option dstate :=
  match l with
  | [] => Some s
  | d :: r =>
    if is_left d || is_percent d then process_fixed r s
    else match parse_fixed_amount d (ds_prec s) with
         | None => None
         | Some a =>
           if Qeq_bool a 0 then process_fixed r s
           else if qlt (ds_left s) a then None
           else process_fixed r
                  {| ds_total := ds_total s; ds_left := Qminus (ds_left s) a;
                     ds_prec := ds_prec s; ds_pct := ds_pct s;
                     ds_fixtot := Qplus (ds_fixtot s) a;
                     ds_fixed := am_set (d_id d) a (ds_fixed s);
                     ds_percent := ds_percent s; ds_result := ds_result s |}
         end
  end.

(** processPercentageDistributions, model/transaction.go:189-216. The code's
    division by 100 is exact (two decimal places). *)
Fixpoint process_percent (l : list distribution) (s : dstate) : dstate :=
  match l with
  | [] => s
  | d :: r =>
    match d_spec d with
    | DPercent p =>
      let raw := Qdiv (Qmult (ds_total s) p) (100 # 1) in
      let v := if qlt 0 raw && qlt raw (1 # 1) then 0%Q else raw in
      process_percent r
        {| ds_total := ds_total s; ds_left := ds_left s; ds_prec := ds_prec s;
           ds_pct := Qplus (ds_pct s) p; ds_fixtot := ds_fixtot s;
           ds_fixed := ds_fixed s; ds_percent := am_set (d_id d) v (ds_percent s);
           ds_result := ds_result s |}
    | _ => process_percent r s
    end
  end.

(** validateDistributions, model/transaction.go:219-225 (true = accepted). *)
Definition validate_distributions (s : dstate) : bool :=
  negb (qlt (100 # 1) (ds_pct s) || qlt (ds_total s) (ds_fixtot s)).

(** findLargestDecimal, model/transaction.go:253-263: first strictly largest
    positive entry in iteration order [m] ("" if none). *)
Fixpoint find_largest_q (m : amap Q) (best : string * Q) : string * Q :=
  match m with
  | [] => best
  | (k, v) :: r => find_largest_q r (if qlt (snd best) v then (k, v) else best)
  end.

(** adjustPercentageAmounts, model/transaction.go:228-250. [ord] is the order in
    which the runtime iterates over the map. *)
Definition adjust_percent (ord : amap Q -> amap Q) (s : dstate) : dstate :=
  match ds_percent s with
  | [] => s
  | _ =>
    let target := Qdiv (Qmult (ds_total s) (ds_pct s)) (100 # 1) in
    let diff := Qminus target (am_sum (ds_percent s)) in
    if Qeq_bool diff 0 then s
    else let '(k, v) := find_largest_q (ord (ds_percent s)) (EmptyString, 0%Q) in
         if negb (String.eqb k "") && qlt 0 v then
           {| ds_total := ds_total s; ds_left := ds_left s; ds_prec := ds_prec s;
              ds_pct := ds_pct s; ds_fixtot := ds_fixtot s; ds_fixed := ds_fixed s;
              ds_percent := am_set k (Qplus v diff) (ds_percent s);
              ds_result := ds_result s |}
         else s
  end.

Fixpoint combine_fixed (m : amap Q) (r : amap Z) : amap Z :=
  match m with [] => r | (k, v) :: m' => combine_fixed m' (am_set k (trunc_q v) r) end.

Fixpoint combine_percent (m : amap Q) (r : amap Z) (rest : Q) : amap Z * Q :=
  match m with
  | [] => (r, rest)
  | (k, v) :: m' => combine_percent m' (am_set k (trunc_q v) r) (Qminus rest v)
  end.

(** combineDistributions, model/transaction.go:266-275. *)
Definition combine_distributions (s : dstate) : dstate :=
  let r1 := combine_fixed (ds_fixed s) (ds_result s) in
  let '(r2, rest) := combine_percent (ds_percent s) r1 (ds_left s) in
  {| ds_total := ds_total s; ds_left := rest; ds_prec := ds_prec s; ds_pct := ds_pct s;
     ds_fixtot := ds_fixtot s; ds_fixed := ds_fixed s; ds_percent := ds_percent s;
     ds_result := r2 |}.

(** processLeftDistribution, model/transaction.go:278-292. *)
Fixpoint process_left (l : list distribution) (s : dstate) : option dstate :=
  match l with
  | [] => Some s
  | d :: r =>
    if negb (is_left d) then process_left r s
    else match am_get (d_id d) (ds_result s) with
         | Some _ => None
         | None => Some {| ds_total := ds_total s; ds_left := ds_left s; ds_prec := ds_prec s;
                           ds_pct := ds_pct s; ds_fixtot := ds_fixtot s; ds_fixed := ds_fixed s;
                           ds_percent := ds_percent s;
                           ds_result := am_set (d_id d) (trunc_q (ds_left s)) (ds_result s) |}
         end
  end.

Fixpoint find_largest_z (m : amap Z) (best : string * Z) : string * Z :=
  match m with
  | [] => best
  | (k, v) :: r => find_largest_z r (if snd best <? v then (k, v) else best)
  end.

(** balanceDistributions, model/transaction.go:295-318. *)
Definition balance_distributions (ord : amap Z -> amap Z) (total : Z) (m : amap Z) : amap Z :=
  if am_sumz m =? total then m
  else let '(k, v) := find_largest_z (ord m) (EmptyString, 0) in
       if String.eqb k "" then m
       else am_set k (v + (total - am_sumz m)) m.

(** handleZeroAmount 379-385, handleSmallAmount 388-400. *)
Fixpoint zero_amounts (l : list distribution) (m : amap Z) : amap Z :=
  match l with [] => m | d :: r => zero_amounts r (am_set (d_id d) 0 m) end.

(** CalculateDistributionsPrecise, model/transaction.go:321-376. *)
Definition calculate_distributions (ordq : amap Q -> amap Q) (ordz : amap Z -> amap Z)
    (total : Z) (l : list distribution) (prec : Z) : option (amap Z) :=
  if total =? 0 then Some (zero_amounts l [])
  else if (total =? 1) && negb (match l with [] => true | _ => false end) then
    match l with
    | [] => None
    | d :: r => Some (zero_amounts r [(d_id d, total)])
    end
  else
    let s0 := {| ds_total := q_of_Z total; ds_left := q_of_Z total; ds_prec := prec;
                 ds_pct := 0%Q; ds_fixtot := 0%Q; ds_fixed := []; ds_percent := [];
                 ds_result := [] |} in
    match process_fixed l s0 with
    | None => None
    | Some s1 =>
      let s2 := process_percent l s1 in
      if negb (validate_distributions s2) then None
      else match process_left l (combine_distributions (adjust_percent ordq s2)) with
           | None => None
           | Some s3 => Some (balance_distributions ordz total (ds_result s3))
           end
    end.
