(** Properties C62-C64: the reference script for round numbers and its agreement with
    the generator.  Statements only; proofs in [CalcSearch.v], [CalcProofs.v],
    [CalcProps.v], [CalcSmall.v] and [CalcCost.v]; concrete instances in
    [CalcExamples.v].

    The notions of the statements are in [CalcSpec.v] and [RoundsSpec.v]. *)
From Coq Require Import ZArith NArith Reals.
From Flocq Require Import Core.
From mathcomp Require Import all_ssreflect all_algebra.
From Verif Require Import Base Fq Params Transcript V1 Rounds RoundsSpec R1cs R1csSpec R1csHash RateChecks.
From Verif Require Import CalcRounds CalcSpec CalcProofs CalcProps CalcSmall CalcCost.
Delimit Scope Z_scope with Z.

(** ** C62 *)
Theorem C62_best (lm : libm) (p : Z) (t : nat) (alpha M : Z) (sm : bool) (F P : nat) :
  1 <= t -> (0 < alpha)%Z \/ alpha = (-1)%Z ->
  find_FD_round_numbers lm p (Z.of_nat t) alpha M get_sbox_cost sm = Ret (F, P) <->
  (exists c, script_best (script_secure lm p (Z.of_nat t) alpha M) t sm c (RoundNumbers P F)) \/
  (forall c, script_candidate c -> ~ script_secure lm p (Z.of_nat t) alpha M c) /\ F = 0 /\ P = 0.
Proof. exact: script_search. Qed.
Theorem C62_unsupported (lm : libm) (p t alpha M : Z) cost (sm : bool) :
  (alpha <= 0)%Z -> alpha <> (-1)%Z -> find_FD_round_numbers lm p t alpha M cost sm = Panic.
Proof. exact: find_invalid. Qed.
(** With the cost function that the script does not use: the fewest rounds *)
Theorem C62_depth (lm : libm) (p : Z) (t : nat) (alpha M : Z) (sm : bool) (F P : nat) :
  (0 < alpha)%Z \/ alpha = (-1)%Z ->
  find_FD_round_numbers lm p (Z.of_nat t) alpha M get_depth_cost sm = Ret (F, P) <->
  (exists c, script_best (script_secure lm p (Z.of_nat t) alpha M) 1 sm c (RoundNumbers P F)) \/
  (forall c, script_candidate c -> ~ script_secure lm p (Z.of_nat t) alpha M c) /\ F = 0 /\ P = 0.
Proof. exact: depth_search. Qed.
(** The comment in line 103 *)
Theorem C62_size (lm : libm) (p : Z) (t : nat) (alpha M : Z) (sm : bool) :
  accurate_ln lm -> (2 <= p < 2 ^ 1023)%Z -> 1 <= t -> (N.of_nat t < 2 ^ 32)%num ->
  find_FD_round_numbers lm p (Z.of_nat t) alpha M get_size_cost sm =
  find_FD_round_numbers lm p (Z.of_nat t) alpha M get_sbox_cost sm.
Proof. exact: size_same_rounds. Qed.

(** ** C63 *)
Theorem C63_agreement (lm : libm) (M : N) (t : nat) (p : Z) (e : N) (limbs : nat) (allow : bool) :
  accurate lm -> accurate_ln lm -> comparable M t p e -> t <= 405 ->
  exists r S,
    calc_final_numbers_fixed lm p (Z.of_nat t) (Z.of_N e) (Z.of_N M) true =
      Ret (r_F r, r_P r, Z.of_nat (sboxes t r), S) /\
    v1_rounds lm (input_generate (log2 lm) M t p limbs allow) (Exponent e) = Ret r.
Proof. exact: agreement. Qed.
Theorem C63_closed_form (lm : libm) (M : N) (t : nat) (p : Z) (e : N) (a b : Z) (sm : bool) :
  accurate lm -> accurate_ln lm -> comparable M t p e -> (0 <= a)%Z -> (1 <= b)%Z ->
  (Z.of_N e ^ a * 2 ^ 12 <= 2 ^ Z.of_N M * (2 ^ 12 - 1))%Z ->
  (2 ^ Z.of_N M * 2 ^ 12 <= Z.of_N e ^ (a + 1) * (2 ^ 12 - 1))%Z ->
  (Z.of_N e ^ (b - 1) < Z.of_nat t <= Z.of_N e ^ b)%Z ->
  let total := Z.max (a + b + 2) (Z.of_nat t) in
  exists r, reported sm (RoundNumbers (Z.to_nat (Z.max 1 (total - 6))) 6) r /\
    calc_final_numbers_fixed lm p (Z.of_nat t) (Z.of_N e) (Z.of_N M) sm =
    Ret (r_F r, r_P r, Z.of_nat (sboxes t r), (Zceil (py_log lm p 2) * Z.of_nat (sboxes t r))%Z).
Proof. by move=> acc accl C; exact: closed_form. Qed.
(** Not for larger widths, *)
Theorem C63_every_width_refuted (lm : libm) (M : N) (t : nat) (p : Z) (e : N) (limbs : nat) (allow : bool) :
  accurate lm -> accurate_ln lm -> comparable M t p e -> 405 < t ->
  exists r S,
    calc_final_numbers_fixed lm p (Z.of_nat t) (Z.of_N e) (Z.of_N M) true =
      Ret (r_F r, r_P r, Z.of_nat (sboxes t r), S) /\ r_F r = 8 /\
    (v1_rounds lm (input_generate (log2 lm) M t p limbs allow) (Exponent e) = Panic \/
     exists2 r', v1_rounds lm (input_generate (log2 lm) M t p limbs allow) (Exponent e) = Ret r' & r_F r < r_F r').
Proof. exact: disagreement. Qed.
(** and not for every modulus: for this prime the generator chooses fewer rounds. *)
Theorem C63_every_modulus_refuted (lm : libm) (limbs : nat) (allow : bool) : accurate lm -> accurate_ln lm ->
  [/\ prime (Z.to_nat small_p), Z.gcd 3 (small_p - 1) = 1%Z,
      find_FD_round_numbers lm small_p 2 3 128 get_sbox_cost true = Ret (8, 64) &
      v1_rounds lm (input_generate (log2 lm) 128 2 small_p limbs allow) (Exponent 3) = Ret (RoundNumbers 63 8)].
Proof.
exact (fun acc accl => And4 small_p_prime small_p_coprime (small_script acc accl) (small_generator limbs allow acc)).
Qed.

(** ** C64 *)
Theorem C64_alpha_17 (lm : libm) (t : nat) : accurate lm -> accurate_ln lm -> 2 <= t <= 8 ->
  calc_final_numbers_fixed lm q (Z.of_nat t) 17 128 true =
  Ret (8, 31, Z.of_nat (8 * t + 31), (253 * Z.of_nat (8 * t + 31))%Z).
Proof. exact: script_17. Qed.
Theorem C64_alpha_11 (lm : libm) (t : nat) : accurate lm -> accurate_ln lm -> 2 <= t <= 8 ->
  calc_final_numbers_fixed lm q (Z.of_nat t) 11 128 true =
  Ret (8, 37, Z.of_nat (8 * t + 37), (253 * Z.of_nat (8 * t + 37))%Z).
Proof. exact: script_11. Qed.
Theorem C64_bls381 (lm : libm) (t : nat) : accurate lm -> accurate_ln lm -> 2 <= t <= 5 ->
  calc_final_numbers_fixed lm bls381_prime (Z.of_nat t) 5 128 true =
  Ret (8, 56, Z.of_nat (8 * t + 56), (255 * Z.of_nat (8 * t + 56))%Z).
Proof. exact: script_381. Qed.
(** The hypothesis of line 43, for the gadget with all words allocated *)
Theorem C64_constraints (lm : libm) (es : Fq_fieldType -> outcome (fpvar Fq_fieldType)) (p : params Fq_fieldType) :
  accurate lm -> accurate_ln lm -> List.In p shipped ->
  forall (cs : csys Fq_fieldType) (ws : seq (fpvar Fq_fieldType)),
  wf_csys cs -> all (wf_var cs) ws -> size ws = p_t p -> all (@is_var _) ws ->
  exists S,
    calc_final_numbers_fixed lm q (Z.of_nat (p_t p)) 17 128 true =
      Ret (r_F (p_rounds p), r_P (p_rounds p), Z.of_nat S, (253 * Z.of_nat S)%Z) /\
    gadget_cost cs (r1cs_n_to_1_fixed_hash es p cs ws) (5 * S).
Proof. exact: script_constraints. Qed.

Print Assumptions C62_best.
Print Assumptions C62_unsupported.
Print Assumptions C62_depth.
Print Assumptions C62_size.
Print Assumptions C63_agreement.
Print Assumptions C63_closed_form.
Print Assumptions C63_every_width_refuted.
Print Assumptions C63_every_modulus_refuted.
Print Assumptions C64_alpha_17.
Print Assumptions C64_alpha_11.
Print Assumptions C64_bls381.
Print Assumptions C64_constraints.
