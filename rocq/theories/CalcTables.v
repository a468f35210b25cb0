(** Model of /repo/vendor/hadeshash/code/calc_round_numbers.py, lines 109-202: the
    tables for random primes and the results for the scalar fields of two curves.

    [Crypto.Util.number.getPrime(n)] draws a random prime of [n] bits: the primes drawn
    are an argument.  What is printed is the list of the numbers in the printed lines;
    the text around them is left out. *)
From Coq Require Import ZArith Reals.
From Flocq Require Import Core.
From mathcomp Require Import all_ssreflect.
From Verif Require Import Base Rounds CalcRounds.
Set Implicit Arguments.
Unset Strict Implicit.
Unset Printing Implicit Defensive.
Local Open Scope rust_scope.

(** 121: the numbers of a line of a table *)
Record table_row := TableRow {
  tr_M : Z; tr_N : Z; tr_n : Z; tr_t : Z; tr_R_F : nat; tr_R_P : nat; tr_sbox : Z; tr_size : Z }.

(** 185-188 and 201-202: the numbers printed for an exponent and a width; the last is
    that of line 188 *)
Record result := Result {
  re_alpha : Z; re_t : Z; re_R_F : nat; re_R_P : nat; re_sbox : Z; re_size : Z; re_constraints : option Z }.

Section Script.
Variable lm : libm.

(** 111-121: the body of the loop, with the prime drawn in line 115 *)
Definition table_line (alpha : Z) (security_margin : bool) (comb : Z * Z * Z) (prime : Z) : outcome table_row :=
  let: (N, t, M) := comb in
  let n := Ztrunc (fdiv (f64_of_int N) (f64_of_int t)) in
  ret <- calc_final_numbers_fixed lm prime t alpha M security_margin ;;
  let: (R_F, R_P, min_sbox_cost, min_size_cost) := ret in
  Ret (TableRow M N n t R_F R_P min_sbox_cost min_size_cost).

(** 109-121 *)
Definition print_latex_table_combinations (combinations : seq (Z * Z * Z)) (alpha : Z) (security_margin : bool)
    (primes : seq Z) : outcome (seq table_row) :=
  for_in (zip combinations primes) (fun cp rows =>
    row <- table_line alpha security_margin cp.1 cp.2 ;; Ret (rcons rows row)) [::].

(** 134-137, 147-150 and 160-163, which are the same list *)
Definition table_combinations : seq (Z * Z * Z) := [::
  (1536, 2, 128); (1536, 4, 128); (1536, 6, 128); (1536, 8, 128); (1536, 16, 128);
  (1536, 2, 256); (1536, 4, 256); (1536, 6, 256); (1536, 8, 256); (1536, 16, 256)]%Z.

(** 182-188 and 198-202: the loops over exponents and widths; only the first uses its
    [addition_chain_depth]. *)
Definition print_results (p M : Z) (security_margin : bool) (addition_chain_depth : option Z)
    (alpha_vals t_vals : seq Z) : outcome (seq result) :=
  for_in alpha_vals (fun alpha rs =>
    for_in t_vals (fun t rs =>
      ret <- calc_final_numbers_fixed lm p t alpha M security_margin ;;
      let: (R_F, R_P, min_sbox_cost, min_size_cost) := ret in
      Ret (rcons rs (Result alpha t R_F R_P min_sbox_cost min_size_cost
        (option_map (Z.mul min_sbox_cost) addition_chain_depth))))
    rs) [::].

(** 173-188 *)
Definition bls377_prime : Z := 8444461749428370424248824938781546531375899335154063827935233455917409239041.
Definition bls377_results : outcome (seq result) := print_results bls377_prime 128 true (Some 5%Z) [:: 11; 17]%Z [:: 2; 3; 5]%Z.

(** 192-202 *)
Definition bls381_prime : Z := 52435875175126190479447740508185965837690552500527637822603658699938581184513.
Definition bls381_results : outcome (seq result) := print_results bls381_prime 128 true None [:: 5]%Z [:: 3; 5]%Z.
End Script.
