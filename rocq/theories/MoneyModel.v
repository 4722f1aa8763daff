(** Model of the amount/precision conversions of model/model.go.
    Simplification: [Amount], [OverdraftLimit] are float64 in the code and exact
    rationals here; [Precision] is a float64 that the API forces to be a
    non-negative integer (api/model/model.go:35-46) and is a [Z] here.
    [PreciseAmount == nil] is represented by 0 (the code treats nil and values
    <= 0 alike when converting, model/model.go:302). *)
From Coq Require Import ZArith QArith.
From Verif Require Import Base.
Open Scope Z_scope.

(** convertDecimalToPrecise, model/model.go:418-439. *)
Definition convert_decimal_to_precise (amount : Q) (prec : Z) : Z :=
  round_half_away (Qmult amount (q_of_Z prec)).

(** convertPreciseToDecimal, model/model.go:397-414 (the division is exact here;
    the code keeps 16 decimal places and then a float64). *)
Definition convert_precise_to_decimal (precise prec : Z) : Q := q_of_ratio precise prec.

(** ApplyPrecision and applyPrecisionLogic, model/model.go:285-308:
    returns (PreciseAmount, Amount, Precision) after the call. *)
Definition apply_precision (precise : Z) (amount : Q) (prec : Z) : Z * Q * Z :=
  let prec := if prec =? 0 then 1 else prec in
  if 0 <? precise
  then (precise, convert_precise_to_decimal precise prec, prec)
  else (convert_decimal_to_precise amount prec, amount, prec).

(** The overdraft limit in minor units, model/model.go:187-189. *)
Definition overdraft_limit_precise (limit : Q) (prec : Z) : Z :=
  wrap64 (round_half_away (Qmult limit (q_of_Z prec))).
