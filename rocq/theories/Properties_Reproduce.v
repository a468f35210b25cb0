(** C37: the shipped parameter sets are reproduced by the generator. *)
From Coq Require Import ZArith NArith Ascii String.
From mathcomp Require Import all_ssreflect all_algebra.
From Verif Require Import Base Fq Matrix Params Bytes PrimeField Alpha Transcript V1 Rounds RoundsSpec RateChecks.
From Verif Require Import Build BuildSpec Strobe Reproduce MerlinShipped ReproduceFile.

(** [merlin128] is the Merlin transcript on Strobe-128 and Keccak-f[1600]
    ([Strobe.v], [Keccak.v]); [lm] the logarithms of the mathematical library. *)
Theorem C37_reproduced (lm : libm) (allow : bool) (p : params Fq_fieldType) : accurate lm -> List.In p shipped ->
  v1_generate Fq_pf merlin128 (log2 lm) (v1_rounds lm) 128 (p_t p) q 4 allow = Ret p.
Proof. exact: reproduced. Qed.
Theorem C37_every_width (lm : libm) (allow : bool) (t : nat) : accurate lm -> (2 <= t <= 8)%N ->
  exists p, [/\ List.In p shipped, p_t p = t &
    v1_generate Fq_pf merlin128 (log2 lm) (v1_rounds lm) 128 t q 4 allow = Ret p].
Proof. exact: reproduced_widths. Qed.
(** The constants alone: no assumption on the logarithms is needed. *)
Theorem C37_round_constants (L : Type) (p : params Fq_fieldType) (i : input L) : List.In p shipped ->
  in_M i = 128%num -> in_t i = p_t p -> in_p i = q -> in_p_limbs i = 4%N ->
  v1_generate_arc Fq_pf merlin128 i (RoundNumbers 31 8) (Exponent 17) = Ret (p_arc p).
Proof. exact (fun hp => @shipped_arc L p hp i). Qed.
(** The file compiled for the seven widths defines functions returning the shipped sets. *)
Theorem C37_file (lm : libm) (allow : bool) : accurate lm -> exists code,
  v1_compile (fun t => v1_generate Fq_pf merlin128 (log2 lm) (v1_rounds lm) 128 t q 4 allow) (iota 2 7) = Ret code /\
  forall p, List.In p shipped -> run_file Fq_pf code (str "rate_" ++ display_usize (p_t1 p)) = Some p.
Proof. exact: reproduced_file. Qed.

Print Assumptions C37_reproduced.
Print Assumptions C37_every_width.
Print Assumptions C37_round_constants.
Print Assumptions C37_file.
