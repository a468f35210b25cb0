(** Model of /repo/poseidon-paramgen/src/rounds.rs and utils.rs:6-30: the search
    for round numbers and the binary logarithm of the modulus.

    The 64-bit floating-point numbers are modelled by the real numbers, every
    operation being followed by rounding to the nearest number with 53 bits of
    precision (Flocq).  Simplifications: no infinities and no NaN, which arise
    for [t = 0], for [p = 0] and for the exponents 0 and 1 only (the exponents
    [Alpha::generate] returns are at least 3); no overflow of floats (every value
    is far below the largest float).  The logarithms of the mathematical library
    are parameters, since they are platform dependent.

    A [usize] is an unbounded integer, except where a float is cast to it. *)
From Coq Require Import ZArith NArith Reals.
From Flocq Require Import Core.
From mathcomp Require Import all_ssreflect.
From Verif Require Import Base Params Transcript.
Set Implicit Arguments.
Unset Strict Implicit.
Unset Printing Implicit Defensive.
Local Open Scope rust_scope.

(** * 64-bit floating-point numbers *)

Definition f64 := R.

(** Rounding to nearest, ties to even: [binary64]. *)
Definition f64_rnd (x : R) : f64 := round radix2 (FLT_exp (-1074) 53) ZnearestE x.

Definition fadd (x y : f64) : f64 := f64_rnd (x + y)%R.
Definition fsub (x y : f64) : f64 := f64_rnd (x - y)%R.
Definition fmul (x y : f64) : f64 := f64_rnd (x * y)%R.
Definition fdiv (x y : f64) : f64 := f64_rnd (x / y)%R.

Arguments fadd (_ _)%R_scope.
Arguments fsub (_ _)%R_scope.
Arguments fmul (_ _)%R_scope.
Arguments fdiv (_ _)%R_scope.

(** [f64::floor], [f64::ceil] *)
Definition ffloor (x : f64) : f64 := IZR (Zfloor x).
Definition fceil (x : f64) : f64 := IZR (Zceil x).

(** [n as f64], for an integer [n] *)
Definition f64_of_int (n : Z) : f64 := f64_rnd (IZR n).

(** [x as usize]: truncates and saturates *)
Definition as_usize (x : f64) : Z := Z.min (2 ^ 64 - 1) (Z.max 0 (Ztrunc x)).

(** [[x, y].iter().min_by(cmp_f64)] and [max_by] (rounds.rs:317-319 is [cmp_f64]) *)
Definition fmin (x y : f64) : f64 := if Rle_bool x y then x else y.
Definition fmax (x y : f64) : f64 := if Rle_bool x y then y else x.

(** The platform's [f64::ln] and [f64::log2]. *)
Record libm := Libm { f64_ln : f64 -> f64; f64_log2 : f64 -> f64 }.

Section Rounds.
Variable lm : libm.

(** [x.log(base)] of the standard library *)
Definition flog (x base : f64) : f64 := fdiv (f64_ln lm x) (f64_ln lm base).
Arguments flog (_ _)%R_scope.

(** * utils.rs:6-30 *)

(** The loop 13-16, from which [p_biguint] and [log_bit_boundaries] result.  Each
    iteration removes 48 bits; the fuel covers the bit length. *)
Fixpoint log2_loop (fuel : nat) (p boundaries : Z) : Z * Z :=
  match fuel with
  | 0 => (p, boundaries)
  | fuel'.+1 => if Z.ltb (2 ^ 50) p then log2_loop fuel' (Z.shiftr p 48) (boundaries + 48) else (p, boundaries)
  end.

(** 17-29: the bytes padded to eight give back the number. *)
Definition log2 (x : Z) : f64 :=
  let: (p, boundaries) := log2_loop (Z.to_nat (Z.log2_up x)) x 0 in
  fadd (f64_of_int boundaries) (f64_log2 lm (f64_of_int p)).

(** * rounds.rs *)

Implicit Types (i : input f64) (a : alpha) (c : rounds).

Definition f64_M i : f64 := f64_of_int (Z.of_N (in_M i)).
Definition f64_t i : f64 := f64_of_int (Z.of_nat (in_t i)).
Definition f64_exp (e : N) : f64 := f64_of_int (Z.of_N e).

(** 165-183 *)
Definition statistical_attack_full_rounds i a : nat :=
  let C := match a with
           | Inverse => 2%R
           | Exponent e => f64_log2 lm (fsub (f64_exp e) 1)
           end in
  if Rle_bool (f64_M i) (fmul (fsub (ffloor (in_log_2_p i)) C) (fadd (f64_t i) 1)) then 6 else 10.

(** 192-210 *)
Definition algebraic_attack_interpolation i a : Z :=
  let m := fmin (f64_M i) (in_log_2_p i) in
  match a with
  | Inverse => as_usize (fadd (fceil (f64_log2 lm (f64_t i))) (fceil (fmul (1 / 2)%R m)))
  | Exponent e =>
      as_usize (fceil (fadd (fceil (fmul (flog 2 (f64_exp e)) m)) (flog (f64_t i) (f64_exp e))))
  end.

(** 215-261.  The comparison 252 ends the loop, with [None] here. *)
Definition grobner_basis_v2_step (M : N) (upper : nat) (k : nat) (acc : option Z) : outcome (option Z) :=
  match acc with
  | None => Ret None
  | Some acc =>
      d <- usub upper k ;;
      let acc := Z.div (acc * Z.of_nat d) (Z.of_nat (k + 1)) in
      let bits := if Z.eqb acc 0 then 0%Z else (Z.log2 (Z.abs acc) + 1)%Z in
      if Z.leb (Z.of_N M) (as_usize (fceil (fmul 2 (f64_of_int bits)))) then Ret None else Ret (Some acc)
  end.

Definition algebraic_attack_grobner_basis_v2_possible i a c : outcome bool :=
  let r := Z.to_nat (as_usize (ffloor (fdiv (f64_t i) 3))) in
  match a with
  | Inverse => Panic
  | Exponent exponent =>
      full1 <- usub (r_F c) 1 ;;
      let upper := full1 * in_t i + r_P c + r + r * (r_F c)./2 + r_P c + N.to_nat exponent in
      let lower := r * (r_F c)./2 + r_P c + N.to_nat exponent in
      res <- for_in (range 0 lower) (grobner_basis_v2_step (in_M i) upper) (Some 1%Z) ;;
      Ret (if res is Some _ then true else false)
  end.

(** 270-315 *)
Definition algebraic_attack_grobner_basis_v1 i a : outcome Z :=
  let M := f64_M i in
  let t := f64_t i in
  let l := in_log_2_p i in
  t1 <- usub (in_t i) 1 ;;
  let t1 := f64_of_int (Z.of_nat t1) in
  let: (grobner_1, grobner_2) :=
    match a with
    | Inverse =>
        (fadd (fceil (fmul (1 / 2)%R (fmin M l))) (fceil (f64_log2 lm t)),
         fadd (fadd t1 (fceil (f64_log2 lm t)))
              (fmin (fceil (fdiv M (fadd t 1))) (fceil (fmul (1 / 2)%R l))))
    | Exponent e =>
        (fmul (flog 2 (f64_exp e)) (fmin (fdiv M 3) (fdiv l 2)),
         fadd t1 (fmin (fdiv (fmul (flog 2 (f64_exp e)) M) (fadd t 1))
                       (fdiv (fmul (flog 2 (f64_exp e)) l) 2)))
    end in
  Ret (as_usize (ffloor (fmax grobner_1 grobner_2))).

(** 98-100 and 103-104: the quantity bounded for an inverse S-box *)
Definition inverse_rounds i c : Z :=
  (as_usize (ffloor (fmul (f64_of_int (Z.of_nat (r_F c))) (f64_log2 lm (f64_t i)))) + Z.of_nat (r_P c))%Z.

(** 83-119 *)
Definition is_secure_v1 i a c : outcome bool :=
  if r_F c < statistical_attack_full_rounds i a then Ret false else
  let n := match a with Exponent _ => Z.of_nat (rounds_total c) | Inverse => inverse_rounds i c end in
  if Z.leb n (algebraic_attack_interpolation i a) then Ret false else
  g <- algebraic_attack_grobner_basis_v1 i a ;;
  Ret (~~ Z.leb n g).

(** 122-146 *)
Definition is_secure_v2 i a c : outcome bool :=
  if r_F c < statistical_attack_full_rounds i a then Ret false else
  match a with
  | Exponent _ =>
      let n := Z.of_nat (rounds_total c) in
      if Z.leb n (algebraic_attack_interpolation i a) then Ret false else
      g <- algebraic_attack_grobner_basis_v1 i a ;;
      if Z.leb n g then Ret false else
      possible <- algebraic_attack_grobner_basis_v2_possible i a c ;;
      Ret (~~ possible)
  | Inverse => Panic
  end.

(** 149-151 *)
Definition sbox_count c (t : nat) : N := (N.of_nat t * N.of_nat (r_F c) + N.of_nat (r_P c))%num.

(** 155-158: the literal is the float nearest to 1.075. *)
Definition apply_security_margin c : rounds :=
  RoundNumbers (Z.to_nat (as_usize (fceil (fmul (f64_rnd (1075 / 1000)) (f64_of_int (Z.of_nat (r_P c)))))))
               (r_F c + 2).

(** 28-45 and 57-75: the body of the loops, over [(choice, cost, cost_rf)] *)
Definition search_step (secure : rounds -> outcome bool) (t : nat) (rP rF : nat)
    (st : option rounds * N * N) : outcome (option rounds * N * N) :=
  let: (choice, cost, cost_rf) := st in
  let candidate := RoundNumbers rP rF in
  ok <- secure candidate ;;
  if ~~ ok then Ret (choice, cost, cost_rf) else
  let candidate := apply_security_margin candidate in
  let candidate_cost := sbox_count candidate t in
  if N.ltb candidate_cost cost || N.eqb candidate_cost cost && N.ltb (N.of_nat rF) cost_rf
  then Ret (Some candidate, candidate_cost, N.of_nat rF)
  else Ret (choice, cost, cost_rf).

Definition usize_max : N := (2 ^ 64 - 1)%num.

(** The loops and the final [unwrap], common to both functions *)
Definition search (secure : rounds -> outcome bool) (t : nat) : outcome rounds :=
  st <- for_in (range 1 400) (fun rP =>
          for_in (range 4 100) (fun rF => search_step secure t rP rF))
        (None, usize_max, usize_max) ;;
  match st.1.1 with Some c => Ret c | None => Panic end.

(** 18-48 *)
Definition v1_rounds i a : outcome rounds :=
  if N.ltb 256 (in_M i) then Panic else search (is_secure_v1 i a) (in_t i).

(** 51-77 *)
Definition v2_rounds i a : outcome rounds := search (is_secure_v2 i a) (in_t i).
End Rounds.
