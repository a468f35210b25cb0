(** The Poseidon1 generator with its own search for round numbers: everything about
    returned parameter sets without side conditions on the round numbers. *)
From Coq Require Import ZArith NArith Reals Lia.
From mathcomp Require Import all_ssreflect all_algebra.
From Verif Require Import Base Fq Matrix MatrixSpec Params Permutation PoseidonProofs Spec PrimeField Alpha AlphaProofs Transcript.
From Verif Require Import Cauchy Mds V1 V1Proofs Rounds RoundsSpec RoundsProps Montgomery RateChecks Shipped Slia.
Import GRing.Theory.
Set Implicit Arguments.
Unset Strict Implicit.
Unset Printing Implicit Defensive.
Local Open Scope ring_scope.
Delimit Scope Z_scope with Z.

Lemma exponent_range (PF : prime_field) allow e : (128 < pf_p PF)%Z ->
  alpha_generate PF (pf_p PF) allow = Ret (Exponent e) -> (3 <= e < 2 ^ 32)%num.
Proof.
move=> p128 /(generate_exponent allow e p128) [pre [post [H _ _]]].
have : N.to_nat e \in odd_exponents by rewrite H mem_cat inE eqxx orbT.
have B : all (fun x => 3 <= x < 200)%N odd_exponents by [].
by move/(allP B)/andP => [H1 H2]; clear -H1 H2; slia.
Qed.

Lemma margin_positive t (S : rounds -> Prop) c r : cheapest S t c r -> (0 < r_P r)%N.
Proof. by case=> -[H1 _ _ _] _ [_ H2 _] _; clear -H1 H2; slia. Qed.

Section Whole.
Variables (lm : libm) (PF : prime_field) (Me : merlin) (M : N) (t limbs : nat) (allow : bool).
Hypothesis acc : accurate lm.
Hypothesis M256 : (M <= 256)%num.

Notation p := (pf_p PF).
Notation generator := (v1_generate PF Me (log2 lm) (v1_rounds lm) M t p limbs allow).

(** With an exponent the generator returns parameters. *)
Theorem generator_returns e : (1 < t <= 8)%N -> (2 ^ 127 <= p)%Z ->
  alpha_generate PF p allow = Ret (Exponent e) ->
  exists P, [/\ generator = Ret P, p_alpha P = Exponent e &
                r_F (p_rounds P) = 8%N \/ r_F (p_rounds P) = 12%N].
Proof.
move=> Ht big Ha; have t128 : (1 < t <= 128)%N by case/andP: Ht => H1 H2; clear -H1 H2; slia.
set i := input_generate (log2 lm) M t p limbs allow.
have p128 : (128 < p)%Z by apply: Z.lt_le_trans big.
have [r [Hr HF _]] := @rounds_even lm i e acc t128 (exponent_range p128 Ha) M256.
have ts : (N.of_nat (in_t i) < 2 ^ 56)%num by case/andP: t128 => H1 H2; rewrite -[in_t i]/t; clear -H2; slia.
have t1 : (1 <= in_t i)%N by case/andP: t128 => H1 _; rewrite -[in_t i]/t; clear -H1; slia.
have [_ [c Hc]] := proj1 (@v1_search lm i (Exponent e) r t1 ts) Hr.
have [P [H1 H2 H3]] := @v1_generate_succeeds _ PF Me (log2 lm) (v1_rounds lm) M limbs allow t (Exponent e) r Ht big Ha Hr (margin_positive Hc).
by exists P; rewrite H3; split.
Qed.

(** What it returns *)
Variables (P : params PF) (e : N).
Hypothesis gP : generator = Ret P.
Hypothesis Pe : p_alpha P = Exponent e.

Lemma generator_rounds : (0 < r_P (p_rounds P))%N /\ ~~ odd (r_F (p_rounds P)).
Proof.
have : ~~ (1 < t <= 8)%N \/ (p < 2 ^ 127)%Z -> False.
  by move/(@v1_generate_panics _ PF Me (log2 lm) (v1_rounds lm) M limbs allow t); rewrite gP.
move=> H; have Ht : (1 < t <= 8)%N by apply/negPn/negP => N; apply: H; left.
have big : (2 ^ 127 <= p)%Z by apply/Z.nlt_ge => N; apply: H; right.
move: gP; rewrite /v1_generate; case Ea: (alpha_generate _ _ _) => [a|] //=.
set i := input_generate (log2 lm) M t p limbs allow.
case Er: (v1_rounds lm i a) => [r|] //=.
case: (v1_generate_mds _ _) => [m|] //=; case: (v1_generate_arc _ _ _ _ _) => [arc|] //=.
case: (mds_generate_optimized _ _ _) => [om|] //=; case: (arc_generate_optimized _ _ _ _) => [d|] //= [EP].
move: Pe; rewrite -EP /= => Ea'; rewrite {}Ea' in Ea Er.
have t128 : (1 < t <= 128)%N by case/andP: Ht => H1 H2; clear -H1 H2; slia.
have p128 : (128 < p)%Z by apply: Z.lt_le_trans big.
have [r' [Hr HF Ho]] := @rounds_even lm i e acc t128 (exponent_range p128 Ea) M256.
have ts : (N.of_nat (in_t i) < 2 ^ 56)%num by case/andP: t128 => H1 H2; rewrite -[in_t i]/t; clear -H2; slia.
have t1 : (1 <= in_t i)%N by case/andP: t128 => H1 _; rewrite -[in_t i]/t; clear -H1; slia.
have [_ [c Hc]] := proj1 (@v1_search lm i (Exponent e) r t1 ts) Er.
split; first exact: margin_positive Hc.
by move: Er; rewrite Hr => -[<-].
Qed.

Theorem generator_textbook (st : seq PF) : size st = t ->
  permute P st = Ret (ofV (poseidon (fun x => x ^+ N.to_nat e) (cauchy_mx PF (1 + p_t1 P))
    (@row_of _ (p_t1 P) (p_arc P)) (r_F (p_rounds P) %/ 2) (r_P (p_rounds P)) (toV (1 + p_t1 P) st))).
Proof. by case: generator_rounds => *; apply: returned_textbook; eauto. Qed.

Theorem generator_hash (inp st : seq PF) : size inp = t -> size st = t ->
  n_to_1_fixed_hash P inp st = unoptimized_n_to_1_fixed_hash P inp st.
Proof. by case: generator_rounds => r0 ev; apply: returned_hash gP r0 ev _ _. Qed.

Theorem generator_bijective (y : seq PF) : size y = t -> exists! x : seq PF, size x = t /\ permute P x = Ret y.
Proof. by case: generator_rounds => r0 ev; apply: returned_bij gP r0 ev _ Pe _. Qed.
End Whole.

(** The shipped sets *)
Theorem shipped_rounds lm limbs allow (p : params Fq_fieldType) : accurate lm -> List.In p shipped ->
  v1_rounds lm (input_generate (log2 lm) (N.of_nat (p_M p)) (p_t p) q limbs allow) (p_alpha p) = Ret (p_rounds p).
Proof.
move=> acc /shipped_spec [-> Ht -> -> ->]; exact: q_rounds.
Qed.
