(** Model of /repo/vendor/hadeshash/code/calc_round_numbers.py: the vendored
    reference script for round numbers.

    An [int] is an unbounded integer.  A [float] is a [binary64] number as in
    [Rounds.v]; arithmetic between an [int] and a [float] converts the [int] first,
    comparisons between them are exact.  [math.log(x, b)] of integers divides the
    two natural logarithms of the numbers converted to [float]; this is what CPython
    does below [2^1023].  [exit(1)] is [Panic].

    The tables and results that the script prints (lines 109-202) are in
    [CalcTables.v]. *)
From Coq Require Import ZArith NArith Reals.
From Flocq Require Import Core.
From mathcomp Require Import all_ssreflect.
From Verif Require Import Base Rounds.
Set Implicit Arguments.
Unset Strict Implicit.
Unset Printing Implicit Defensive.
Local Open Scope rust_scope.

Section Script.
Variable lm : libm.

(** [log(x, b)]; the functions of [math] are imported in line 1. *)
Definition py_log (x b : Z) : f64 := fdiv (f64_ln lm (f64_of_int x)) (f64_ln lm (f64_of_int b)).

(** [min(x, y)] of an [int] and a [float], converted by what follows *)
Definition py_min (x : Z) (y : f64) : f64 := if Rle_bool (IZR x) y then f64_of_int x else y.

(** 10: the statistical bound; [C] is [log(alpha-1, 2)]. *)
Definition R_F_1 (p t M : Z) (C : f64) : Z :=
  let bound := fmul (fsub (f64_of_int (Zfloor (py_log p 2))) C) (f64_of_int (t + 1)) in
  if Rle_bool (IZR M) bound then 6%Z else 10%Z.

(** 14 *)
Definition R_F_2 (p t R_P alpha M : Z) : Z :=
  (1 + Zceil (fmul (py_log 2 alpha) (py_min M (py_log p 2))) + Zceil (py_log t alpha) - R_P)%Z.

(** 20 *)
Definition R_F_3 (p R_P alpha M : Z) : f64 :=
  fsub (fadd 1 (fmul (py_log 2 alpha) (fmin (fdiv (f64_of_int M) 3) (fdiv (py_log p 2) 2))))
       (f64_of_int R_P).

(** 21 *)
Definition R_F_4 (p t R_P alpha M : Z) : f64 :=
  fsub (fadd (f64_of_int (t - 1))
             (fmin (fdiv (fmul (py_log 2 alpha) (f64_of_int M)) (f64_of_int (t + 1)))
                   (fdiv (fmul (py_log 2 alpha) (py_log p 2)) 2)))
       (f64_of_int R_P).

(** 32 and 33, which are the same expression *)
Definition R_P_1 (p t R_F M : Z) : Z :=
  (1 + Zceil (fmul (1 / 2)%R (py_min M (py_log p 2))) + Zceil (py_log t 2)
   - Zfloor (fmul (f64_of_int R_F) (py_log t 2)))%Z.

(** 35 *)
Definition R_P_3 (p t R_F M : Z) : Z :=
  (t - 1 + Zceil (py_log t 2)
   + Z.min (Zceil (fdiv (f64_of_int M) (f64_of_int (t + 1)))) (Zceil (fmul (1 / 2)%R (py_log p 2)))
   - Zfloor (fmul (f64_of_int R_F) (py_log t 2)))%Z.

(** 6-41 *)
Definition sat_inequiv_alpha (p t R_F R_P alpha M : Z) : outcome bool :=
  if Z.ltb 0 alpha then
    let R_F_max := Z.max (Z.max (R_F_1 p t M (py_log (alpha - 1) 2)) (R_F_2 p t R_P alpha M))
                         (Z.max (Zceil (R_F_3 p R_P alpha M)) (Zceil (R_F_4 p t R_P alpha M))) in
    Ret (Z.leb R_F_max R_F)
  else if Z.eqb alpha (-1) then
    let R_F_max := if Z.leb M ((Zfloor (py_log p 2) - 2) * (t + 1)) then 6%Z else 10%Z in
    let R_P_max := Z.max (R_P_1 p t R_F M) (R_P_3 p t R_F M) in
    Ret (Z.leb R_F_max R_F && Z.leb R_P_max R_P)
  else Panic.

(** 46-47 *)
Definition get_sbox_cost (R_F R_P N t : Z) : Z := (t * R_F + R_P)%Z.

(** 55-57 *)
Definition get_size_cost (R_F R_P N t : Z) : Z :=
  let n := Zceil (fdiv (f64_of_int N) (f64_of_int t)) in
  (N * R_F + n * R_P)%Z.

(** 60-61 *)
Definition get_depth_cost (R_F R_P N t : Z) : Z := (R_F + R_P)%Z.

(** 69-72: the variables of the search; [None] is the initial [float("inf")]. *)
Record found := Found { R_P : nat; R_F : nat; min_cost : option Z; max_cost_rf : nat }.

Definition less_cost (cost : Z) (m : option Z) : bool := if m is Some m then Z.ltb cost m else true.
Definition same_cost (cost : Z) (m : option Z) : bool := if m is Some m then Z.eqb cost m else false.

(** 81: [int(ceil(float(R_P_t) * 1.075))] *)
Definition margin_R_P (R_P_t : nat) : nat :=
  Z.to_nat (Zceil (fmul (f64_of_int (Z.of_nat R_P_t)) (f64_rnd (1075 / 1000)))).

(** 76-87: the body of the inner loop.  [R_P_t], the variable of the outer loop, is
    assigned to in line 81 and keeps that value in the rest of the inner loop;
    [R_F_t] is assigned to in line 80 and set again by the loop. *)
Definition find_body (sat : Z -> Z -> outcome bool) (cost_function : Z -> Z -> Z -> Z -> Z)
    (N t : Z) (security_margin : bool) (R_F_t : nat) (st : nat * found) : outcome (nat * found) :=
  let: (R_P_t, f) := st in
  if odd R_F_t then Ret (R_P_t, f) else
  ok <- sat (Z.of_nat R_F_t) (Z.of_nat R_P_t) ;;
  if ~~ ok then Ret (R_P_t, f) else
  let R_F_t := if security_margin then R_F_t + 2 else R_F_t in
  let R_P_t := if security_margin then margin_R_P R_P_t else R_P_t in
  let cost := cost_function (Z.of_nat R_F_t) (Z.of_nat R_P_t) N t in
  if less_cost cost (min_cost f) || same_cost cost (min_cost f) && (R_F_t < max_cost_rf f)
  then Ret (R_P_t, Found R_P_t R_F_t (Some cost) R_F_t)
  else Ret (R_P_t, f).

(** 74-88: the loops; the result is [(R_F, R_P)]. *)
Definition find_loops (sat : Z -> Z -> outcome bool) (cost_function : Z -> Z -> Z -> Z -> Z)
    (N t : Z) (security_margin : bool) : outcome (nat * nat) :=
  f <- for_in (range 1 500) (fun R_P_t f =>
         st <- for_in (range 4 100) (find_body sat cost_function N t security_margin) (R_P_t, f) ;;
         Ret st.2)
       (Found 0 0 None 0) ;;
  Ret (R_F f, R_P f).

(** 63-88 *)
Definition find_FD_round_numbers (p t alpha M : Z) (cost_function : Z -> Z -> Z -> Z -> Z)
    (security_margin : bool) : outcome (nat * nat) :=
  let n := Zceil (py_log p 2) in
  find_loops (fun R_F R_P => sat_inequiv_alpha p t R_F R_P alpha M) cost_function (n * t) t security_margin.

(** 90-107: [[R_F, R_P, min_sbox_cost, min_size_cost]] *)
Definition calc_final_numbers_fixed (p t alpha M : Z) (security_margin : bool) : outcome (nat * nat * Z * Z) :=
  let n := Zceil (py_log p 2) in
  let N := (n * t)%Z in
  r <- find_FD_round_numbers p t alpha M get_sbox_cost security_margin ;;
  let: (R_F, R_P) := r in
  let min_sbox_cost := get_sbox_cost (Z.of_nat R_F) (Z.of_nat R_P) N t in
  let min_size_cost := get_size_cost (Z.of_nat R_F) (Z.of_nat R_P) N t in
  Ret (R_F, R_P, min_sbox_cost, min_size_cost).
End Script.
