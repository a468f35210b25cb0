(** Concrete instances for the properties in [Properties_Rounds.v]. *)
From Coq Require Import ZArith NArith Reals Lra Lia.
From Flocq Require Import Core.
From mathcomp Require Import all_ssreflect all_algebra.
From Verif Require Import Base Fq Params PrimeField Alpha AlphaProofs Transcript V1 ParamgenExamples.
From Verif Require Import Rounds RoundsSpec F64Proofs RoundsSearch RoundsClosed RoundsEval RoundsCheck RoundsProps AppendixGData AppendixG RateChecks WholeGenerator.
Delimit Scope Z_scope with Z.
Delimit Scope R_scope with Re.

(** There are accurate libraries: the correctly rounded one and exact logarithms. *)
Example accurate_1 : accurate rounded_libm. Proof. exact: rounded_accurate. Qed.
Example accurate_2 : accurate exact_libm. Proof. exact: exact_accurate. Qed.
(** Not every library is. *)
Example inaccurate : ~ accurate (Libm (fun _ => 0%Re) (fun _ => 0%Re)).
Proof. by case=> _ _ /(_ 1%N isT) /=; lra. Qed.

(** C40: width 3, level 128: 28 partial and 6 full rounds are the cheapest secure candidate. *)
Definition i3 : input f64 := input_generate (log2 rounded_libm) 128 3 q 4 true.
Example i3_cheapest : exists c, cheapest (fun c => is_secure_v1 rounded_libm i3 (Exponent 17) c = Ret true) 3 c (RoundNumbers 31 8).
Proof.
have := @q_rounds rounded_libm 3 4 true rounded_accurate isT.
by move/(@v1_search rounded_libm i3 (Exponent 17)) => /(_ isT erefl) [].
Qed.
(** A secure level of 257 bits is refused. *)
Example level_257 : v1_rounds rounded_libm (input_generate (log2 rounded_libm) 257 3 q 4 true) (Exponent 17) = Panic.
Proof. by []. Qed.
Example v2_inverse : v2_rounds rounded_libm i3 Inverse = Panic.
Proof. exact: v2_inverse_panics. Qed.

(** C41: 28 partial rounds become 31 (30.1 rounded up), 40 become exactly 43. *)
Example margin_28 : apply_security_margin (RoundNumbers 28 6) = RoundNumbers 31 8.
Proof. by rewrite apply_security_marginE. Qed.
Example margin_40 : apply_security_margin (RoundNumbers 40 6) = RoundNumbers 43 8.
Proof. by rewrite apply_security_marginE. Qed.
Example margin_30_40 : ~ with_margin (RoundNumbers 28 6) (RoundNumbers 30 8).
Proof. by case. Qed.

(** C42 *)
Example q_3 : v1_rounds exact_libm (input_generate (log2 exact_libm) 128 3 q 4 true) (Exponent 17) = Ret (RoundNumbers 31 8).
Proof. exact: q_rounds exact_accurate _. Qed.

(** C43: ten full rounds are required for 256 bits of security when the field is small,
    here 12 with the margin. *)
Example twelve : v1_rounds rounded_libm (input_generate (log2 rounded_libm) 256 2 65537 1 true) (Exponent 3) = Ret (RoundNumbers 4 12).
Proof. by apply: (@v1_eval_exp_sound _ _ _ 65537 (Certs (8, 128, 129) (1, 1, 1) (1024, 646, 647) (16, 10, 11))%Z) rounded_accurate _ _. Qed.

(** C44: a power of two is exact, the modulus is within the bounds. *)
Example log2_q : (252 < log2 rounded_libm q < 253)%Re.
Proof.
have := @ev_log2_sound rounded_libm rounded_accurate q (8, 97, 98)%Z.
rewrite (_ : ev_log2 _ _ = Some (264372223, 264503297)%Z) //= /u => -[].
by rewrite (_ : (2 ^ 20)%Z = 1048576%Z) //; lra.
Qed.

(** C51: the tables have 30 rows. *)
Example rows : (size table_7, size table_8, size table_9) = (10, 10, 10). Proof. by []. Qed.
Example row_7_1 : List.In (nth (Row 0 0 0 0 0) table_7 4) table_7 /\
  row_M (nth (Row 0 0 0 0 0) table_7 4) = 128%num /\ row_t (nth (Row 0 0 0 0 0) table_7 4) = 16 /\
  row_rP (nth (Row 0 0 0 0 0) table_7 4) = 64.
Proof. by split=> //; do 4 right; left. Qed.

(** C52: the hypotheses hold for the field of the shipped parameters. *)
Example Fq_exponent : alpha_generate Fq_pf q false = Ret (Exponent 17).
Proof. exact: alpha_of_Fq. Qed.
Example Fq_returns (Me : merlin) :
  exists P, [/\ v1_generate Fq_pf Me (log2 rounded_libm) (v1_rounds rounded_libm) 128 3 q 4 false = Ret P,
                p_alpha P = Exponent 17 & r_F (p_rounds P) = 8 \/ r_F (p_rounds P) = 12].
Proof. exact: (@generator_returns rounded_libm Fq_pf Me 128 3 4 false rounded_accurate _ 17 isT _ Fq_exponent). Qed.
