(** C58: at least 4(t+1) + 31/t S-boxes differ between two runs of a shipped permutation.
    C59: the differential uniformity of the S-box is at most 16.
    C61: what the statistical check of rounds.rs:161-183 means.
    Statements only; proofs in [ActiveProofs.v], [ActiveShipped.v] and [StatProofs.v];
    instances in [ActiveExamples.v].  The notions are defined in [ActiveSpec.v] and
    [StatSpec.v]. *)
From Coq Require Import ZArith NArith Reals.
From mathcomp Require Import all_ssreflect all_algebra.
From Verif Require Import Base Fq Matrix MatrixSpec Params Permutation Spec PrimeField RateChecks Cauchy.
From Verif Require Import Alpha Transcript Mds V1 TrailsSpec ActiveSpec ActiveProofs ActiveShipped.
From Verif Require Import Rounds RoundsSpec StatSpec StatProofs.
Import GRing.Theory.
Delimit Scope Z_scope with Z.
Delimit Scope R_scope with Re.
Local Open Scope R_scope.
Local Open Scope ring_scope.

(** ** The branch number *)
Theorem C58_mds_branch (F : fieldType) (n : nat) (M : 'M[F]_n) : mds_mx M ->
  forall x : 'cV[F]_n, x != 0 -> (n.+1 <= #|[pred i | x i 0 != 0%R]%R| + #|[pred i | (M *m x) i 0 != 0]%R|)%N.
Proof. exact: mds_branch. Qed.
Theorem C58_generated_branch (PF : prime_field) (L : Type) (i : input L) (m : rmat PF) :
  in_p i = pf_p PF -> v1_generate_mds PF i = Ret m -> branch (toM (in_t i) (in_t i) m) (in_t i).+1.
Proof. exact: generated_branch. Qed.
Theorem C58_shipped_branch (p : params Fq_fieldType) : List.In p shipped ->
  branch (toM (1 + p_t1 p) (1 + p_t1 p) (p_mds p)) (1 + p_t1 p).+1.
Proof. exact: shipped_branch. Qed.

(** ** Active S-boxes *)
Theorem C58_active (F : fieldType) (n : nat) (S : F -> F) (M : 'M[F]_n.+1) (c : nat -> 'cV[F]_n.+1) (Rf Rp b : nat)
    (x y : 'cV[F]_n.+1) : injective S -> M \in unitmx -> x != y -> branch M b -> no_inactive_trail M 1 ->
  (2 * (Rf./2 * b) + Rp %/ n.+1 <= active_total S M c Rf Rp x y)%N.
Proof. exact: active_bound. Qed.
Theorem C58_states (F : fieldType) (n : nat) (S : F -> F) (M : 'M[F]_(1 + n)) (c : nat -> 'cV[F]_(1 + n)) (Rf Rp : nat)
    (x : 'cV[F]_(1 + n)) : after S M c Rf Rp (Rf + Rp + Rf) x = poseidon S M c Rf Rp x.
Proof. exact: after_poseidon. Qed.

(** The states counted are those of the Rust permutation with the shipped parameters. *)
Theorem C58_shipped_states (p : params Fq_fieldType) : List.In p shipped -> forall x : 'cV[Fq]_(1 + p_t1 p),
  permute p (ofV x) = Ret (ofV (after (fun x : Fq => x ^+ 17) (toM (1 + p_t1 p) (1 + p_t1 p) (p_mds p))
    (fun r => \col_(i < 1 + p_t1 p) nth 0 (elements (p_arc p)) (r * (1 + p_t1 p) + i)) 4 31 39 x)).
Proof. exact: shipped_after. Qed.
Theorem C58_shipped_active (p : params Fq_fieldType) : List.In p shipped -> forall x y : 'cV[Fq]_(1 + p_t1 p),
  x != y ->
  (4 * (1 + p_t1 p).+1 + 31 %/ (1 + p_t1 p) <=
   active_total (fun x : Fq => x ^+ 17) (toM (1 + p_t1 p) (1 + p_t1 p) (p_mds p))
     (fun r => \col_(i < 1 + p_t1 p) nth 0%R (elements (p_arc p)) (r * (1 + p_t1 p) + i)) 4 31 x y)%N.
Proof. exact: shipped_active. Qed.

(** ** Differential uniformity *)
Theorem C59_power (F : fieldType) (e : nat) : (1 < e)%N -> e%:R != 0 :> F ->
  forall a b : F, a != 0 -> forall xs : seq F, uniq xs ->
  all (fun x => (x + a) ^+ e - x ^+ e == b) xs -> (size xs <= e.-1)%N.
Proof. exact: power_uniformity. Qed.
Theorem C59_sbox (a b : Fq) : a != 0 -> forall xs : seq Fq, uniq xs ->
  all (fun x => (x + a) ^+ 17 - x ^+ 17 == b) xs -> (size xs <= 16)%N.
Proof. exact: pow17_uniformity. Qed.

(** x^-1, with and without the inverse of zero (for which the code panics) *)
Theorem C59_inverse (F : fieldType) (a b : F) : a != 0 -> forall xs : seq F, uniq xs ->
  all (fun x => (x + a)^-1 - x^-1 == b) xs -> (size xs <= 4)%N.
Proof. exact: inverse_uniformity. Qed.
Theorem C59_inverse_nonzero (F : fieldType) (a b : F) (xs : seq F) : a != 0 -> uniq xs ->
  all (fun x => [&& x != 0, x + a != 0 & (x + a)^-1 - x^-1 == b]) xs -> (size xs <= 2)%N.
Proof. exact: inverse_pairs. Qed.

(** ** Characteristics *)
(** Two consecutive full rounds of the generator's output, if six full rounds are
    found sufficient: the product of the numbers of inputs is at most p^(2t) / 2^M. *)
Theorem C61_check (lm : libm) (i : input f64) (p : Z) (a : alpha) :
  accurate lm -> (0 < p < 2 ^ 1024)%Z -> in_log_2_p i = log2 lm p -> (in_t i < 1024)%N -> (in_M i < 2 ^ 32)%num ->
  exponent_ok a -> statistical_attack_full_rounds lm i a = 6%N ->
  (IZR (Z.of_N (in_M i)) <= (log_2 (IZR p) - log_2 (IZR (uniformity_of a))) * (INR (in_t i) + 1) + / 2 ^ 20)%Re.
Proof. exact: check_6. Qed.
Theorem C61_two_rounds (PF : prime_field) (lm : libm) (M : N) (n limbs : nat) (allow : bool) (a : alpha) (m : rmat PF) :
  let i := input_generate (log2 lm) M n (pf_p PF) limbs allow in
  accurate lm -> (pf_p PF < 2 ^ 1024)%Z -> (M < 2 ^ 32)%num ->
  alpha_generate PF (pf_p PF) allow = Ret a -> v1_generate_mds PF i = Ret m ->
  statistical_attack_full_rounds lm i a = 6%N ->
  forall (a0 b0 b1 : 'cV[PF]_n) (xs0 xs1 : seq 'cV[PF]_n), a0 != 0 ->
  uniq xs0 -> all (follows (sbox_of a) a0 b0) xs0 ->
  uniq xs1 -> all (follows (sbox_of a) (toM n n m *m b0) b1) xs1 ->
  (INR (size xs0) * INR (size xs1) <= IZR (pf_p PF) ^ (2 * n) * Rpower 2 (/ 2 ^ 20 - IZR (Z.of_N M)))%Re.
Proof. exact: generated_characteristic. Qed.
(** All rounds, in general and for the shipped parameters *)
Theorem C61_all_rounds (F : fieldType) (S : F -> F) (d N n : nat) (M : 'M[F]_n.+1) (Rf Rp e : nat)
    (a b : nat -> 'cV[F]_n.+1) (xs : nat -> seq 'cV[F]_n.+1) (k : nat) :
  uniformity S d -> card_le F N -> injective S -> (0 < d <= N)%N -> M \in unitmx -> branch M e ->
  no_inactive_trail M 1 -> characteristic_inputs S M Rf Rp a b xs ->
  k = (2 * (Rf./2 * e) + Rp %/ n.+1)%N ->
  (\prod_(r < Rf + Rp + Rf) size (xs r) <= d ^ k * N ^ ((Rf + Rp + Rf) * n.+1 - k))%N.
Proof. by move=> *; apply: characteristic_bound; eauto. Qed.
Theorem C61_shipped (p : params Fq_fieldType) : List.In p shipped ->
  forall (a b : nat -> 'cV[Fq]_(1 + p_t1 p)) (xs : nat -> seq 'cV[Fq]_(1 + p_t1 p)),
  characteristic_inputs (n := p_t1 p) (fun x : Fq => x ^+ 17) (toM (1 + p_t1 p) (1 + p_t1 p) (p_mds p)) 4 31 a b xs ->
  let k := (4 * (1 + p_t1 p).+1 + 31 %/ (1 + p_t1 p))%N in
  (Z.of_nat (\prod_(r < 39) size (xs r)) <= 16 ^ Z.of_nat k * q ^ Z.of_nat (39 * (1 + p_t1 p) - k))%Z.
Proof. exact: shipped_characteristic. Qed.

Print Assumptions C58_mds_branch.
Print Assumptions C58_generated_branch.
Print Assumptions C58_shipped_branch.
Print Assumptions C58_active.
Print Assumptions C58_states.
Print Assumptions C58_shipped_states.
Print Assumptions C58_shipped_active.
Print Assumptions C59_power.
Print Assumptions C59_sbox.
Print Assumptions C59_inverse.
Print Assumptions C59_inverse_nonzero.
Print Assumptions C61_check.
Print Assumptions C61_two_rounds.
Print Assumptions C61_all_rounds.
Print Assumptions C61_shipped.
