(** Concrete costs. *)
From Coq Require Import ZArith.
From mathcomp Require Import all_ssreflect all_algebra.
From Verif Require Import Base Fq Matrix MatrixExamples Params Permutation PoseidonExamples.
From Verif Require Import RateChecks Rate4 Rate7 Count CountSpec CountTheorems.
Import GRing.Theory.
Local Open Scope rust_scope.

Definition cost A (o : outcome (A * ops)) : outcome ops := omap snd o.

(** One partial and two full rounds of width 2, run: the optimized permutation needs more
    multiplications (15 against 12), in agreement with 2^2 >= 1 * (2 - 1)^2. *)
Example tiny_fast : cost _ (cpermute (tiny (Exponent 3) 1 2) (els [:: 1; 2]%Z) no_ops) = Ret (Ops 15 21 5).
Proof. by vm_compute. Qed.
Example tiny_base : cost _ (cunoptimized_permute (tiny (Exponent 3) 1 2) (els [:: 1; 2]%Z) no_ops) = Ret (Ops 12 18 5).
Proof. by vm_compute. Qed.
Example tiny_formula : (fast_muls 2 1 1, fast_adds 2 1 1, both_sboxes 2 1 1, base_muls 2 1 1, base_adds 2 1 1)
  = (15, 21, 5, 12, 18).
Proof. by []. Qed.
(** Five partial rounds are the first number that pays for width 2. *)
Example width_2 : [seq fast_muls 2 4 r < base_muls 2 4 r | r <- [:: 3; 4; 5; 31]] = [:: false; false; true; true].
Proof. by []. Qed.
(** A panic costs nothing that could be reported. *)
Example tiny_panic : cpermute (tiny Inverse 1 2) (els [:: -1; 2]%Z) no_ops = Panic.
Proof. by vm_compute. Qed.

(** The benchmark compares the two hashes at rate 4. *)
Example bench_input : size (nseq 5 (0%R : Fq)) = p_t RATE_4_PARAMS.
Proof. by []. Qed.
Example bench_rate_4 : (9 * 5 ^ 2 + 31 * (2 * 5 - 1), 9 * 5 ^ 2 + 71 * 5 - 1, 39 * 5 ^ 2, 39 * (5 ^ 2 + 5), 8 * 5 + 31)
  = (504, 579, 975, 1170, 71).
Proof. by []. Qed.
(** Multiplications at the rates 1 to 7 *)
Example all_rates : [seq (fast_muls t 4 31, base_muls t 4 31) | t <- iota 2 7]
  = [:: (129, 156); (236, 351); (361, 624); (504, 975); (665, 1404); (844, 1911); (1041, 2496)].
Proof. by []. Qed.
