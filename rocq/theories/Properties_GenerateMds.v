(** C71: vendor/generate_mds.sage.  Proofs in [CauchyDet.v], [GenerateMdsProofs.v],
    [GenerateMdsNear.v], [GenerateMdsRounds.v] and [GenerateMdsTheorems.v]; instances in
    [GenerateMdsExamples.v]; the notions of the statements in [GenerateMdsSpec.v].  [rc] is the
    function computing field elements from names and indices (SHA-256 in the script). *)
From Coq Require Import ZArith String.
From mathcomp Require Import all_ssreflect all_algebra.
From Verif Require Import Base Cauchy ActiveSpec Params Fq Transcript V1 Rounds RoundsSpec.
From Verif Require Import GenerateMds GenerateMdsSpec GenerateMdsProofs GenerateMdsNear GenerateMdsRounds GenerateMdsTheorems CauchyDet.
Import GRing.Theory.
Delimit Scope Z_scope with Z.
Local Open Scope ring_scope.

(** ** The determinant that the script asserts *)
Theorem C71_determinant (F : fieldType) (m : nat) (x y : 'I_m -> F) : (forall i j, x i != y j) ->
  \det (\matrix_(i, j) (x i - y j)^-1 : 'M[F]_m) =
  (-1) ^+ 'C(m, 2) * (\prod_(i < m) \prod_(j < m | (j < i)%N) (x i - x j)) * (\prod_(i < m) \prod_(j < m | (j < i)%N) (y i - y j))
  / \prod_(i < m) \prod_(j < m) (x i - y j).
Proof. exact (@cauchy_det F m x y). Qed.
Theorem C71_expected_det (F : finFieldType) (m : nat) (x y : nat -> F) :
  (forall i j, (i < m)%N -> (j < m)%N -> x i <> y j) ->
  expected_det m [seq x i | i <- iota 0 m] [seq y i | i <- iota 0 m] = \det (cauchy_of m x y).
Proof. exact (@expected_detE F m x y). Qed.

(** ** The matrices without [optimize_mds] *)
Theorem C71_matrix (F : finFieldType) (rc : string -> nat -> F) (name : string) (m : nat) (M : 'M[F]_m) :
  generate_mds_matrix rc name m false = Ret M <->
  exists2 a, (a < 100)%N & chosen (rc (append name "x")) (rc (append name "y")) a M.
Proof. exact (@matrix_cases F rc name m M). Qed.
Theorem C71_mds (F : finFieldType) (rc : string -> nat -> F) (name : string) (m : nat) (M : 'M[F]_m) :
  generate_mds_matrix rc name m false = Ret M ->
  [/\ mds_mx M, forall z, ~ has_eigenvalue M z &
    forall k (U : 'M[F]_(k, m)), invariant M U -> \rank U <> 1%N /\ ((0 < m)%N -> \rank U <> m.-1)].
Proof. exact (@matrix_good F rc name m M). Qed.

(** ** The matrices with [optimize_mds]: the branch number is [m], one less than that of an
    MDS matrix, and the docstring ("an MDS matrix ... with no eigenvalues in the field") is false. *)
Theorem C71_near_mds (F : finFieldType) (rc : string -> nat -> F) (name : string) (m : nat) (M : 'M[F]_m) :
  generate_mds_matrix rc name m true = Ret M ->
  [/\ (m == 3%N) || (m == 4%N), branch M m, exists2 x, x != 0 & (wt x + wt (M *m x) = m)%N &
      M \in unitmx = (m.-1%:R != 0 :> F)].
Proof. exact (@near_good F rc name m M). Qed.
Theorem C71_near_mds_refuted (F : finFieldType) (rc : string -> nat -> F) (name : string) (m : nat) (M : 'M[F]_m) :
  generate_mds_matrix rc name m true = Ret M -> ~ mds_mx M /\ has_eigenvalue M m.-1%:R.
Proof. exact (@near_bad F rc name m M). Qed.

(** ** The numbers of rounds *)
Theorem C71_rounds (order nb : Z) (sec alpha cap t : nat) (p : Z) (a b : nat) :
  (2 <= alpha)%N -> (2 <= t)%N -> (0 < sec)%N -> (Z.of_nat t ^ Z.of_nat sec <= p)%Z ->
  (2 ^ (nb - 1) <= order < 2 ^ nb)%Z -> (1 <= nb)%Z -> (Z.of_nat sec < Z.of_nat cap * nb)%Z ->
  (Z.of_nat alpha ^ Z.of_nat a < 2 ^ Z.of_nat sec <= Z.of_nat alpha ^ Z.of_nat a.+1)%Z ->
  (2 ^ Z.of_nat b < Z.of_nat t <= 2 ^ Z.of_nat b.+1)%Z ->
  (6 <= a.+1 + b.+1)%N -> (Z.of_nat (a.+1 + b.+1) < 2 ^ 40)%Z ->
  calculate_num_poseidon_rounds order sec alpha cap t p = Ret (8 + (43 * (Z.of_nat a.+1 + Z.of_nat b.+1 - 6) + 39) / 40)%Z.
Proof. exact (@rounds_formula order nb sec alpha cap t p a b). Qed.
Theorem C71_rounds_capacity (order nb : Z) (sec alpha cap t : nat) (p : Z) :
  (2 ^ (nb - 1) <= order < 2 ^ nb)%Z -> (1 <= nb)%Z -> (Z.of_nat cap * nb <= Z.of_nat sec)%Z ->
  calculate_num_poseidon_rounds order sec alpha cap t p = Panic.
Proof. exact (@rounds_capacity order nb sec alpha cap t p). Qed.
Theorem C71_script_rounds :
  [seq script_rounds arity | arity <- iota 1 5] = [seq Ret n | n <- [:: 38; 39; 38; 34; 31]%Z].
Proof. exact script_rounds_values. Qed.
(** For four of the five instances of the script the numbers of rounds are below those
    that the library's own test requires: whatever numbers, without the margin, the printed
    ones come from, the test fails on them. *)
Theorem C71_secure_refuted (lm : libm) (limbs : nat) (allow : bool) (arity : nat) (n : Z) (c : rounds) :
  accurate lm -> List.In arity [:: 1; 3; 4; 5]%N -> script_rounds arity = Ret n ->
  with_margin c (RoundNumbers (Z.to_nat (n - 8)) 8) ->
  is_secure_v1 lm (input_generate (log2 lm) 128 arity.+1 q limbs allow) (Exponent 17) c = Ret false.
Proof. exact (@library_rejects lm limbs allow arity n c). Qed.
Theorem C71_secure_2 (lm : libm) (limbs : nat) (allow : bool) :
  accurate lm -> with_margin (RoundNumbers 28 6) (RoundNumbers 31 8) /\
  is_secure_v1 lm (input_generate (log2 lm) 128 3 q limbs allow) (Exponent 17) (RoundNumbers 28 6) = Ret true.
Proof. exact (@library_accepts lm limbs allow). Qed.

(** ** The printed instances *)
Theorem C71_instance (F : finFieldType) (rc : string -> nat -> F) (arity : nat) (I : instance F) :
  (1 <= arity <= 5)%N -> script_instance rc arity = Ret I ->
  [/\ i_size I = arity.+1, i_rate I = arity, i_capacity I = 1%N & i_alpha I = 17%N] /\
  [/\ i_full I = 8%Z, i_partial I = nth 0%Z [:: 0; 30; 31; 30; 26; 23]%Z arity,
    flatten (i_ark I) = mkseq (rc "Hades"%string) (Z.to_nat (i_full I + i_partial I) * arity.+1) &
    shape (i_ark I) = nseq (Z.to_nat (i_full I + i_partial I)) arity.+1] /\
  [/\ mds_mx (i_mds I) & forall z, ~ has_eigenvalue (i_mds I) z].
Proof. exact (@instance_cases F rc arity I). Qed.
(** The constants of the instances are not independent: as far as both go, they are the same. *)
Theorem C71_shared_constants (F : finFieldType) (rc : string -> nat -> F) (a b : nat) (I J : instance F) (k : nat) :
  (1 <= a <= 5)%N -> (1 <= b <= 5)%N -> script_instance rc a = Ret I -> script_instance rc b = Ret J ->
  (k < size (flatten (i_ark I)))%N -> (k < size (flatten (i_ark J)))%N ->
  nth 0 (flatten (i_ark I)) k = nth 0 (flatten (i_ark J)) k.
Proof. exact (@instances_share F rc a b I J k). Qed.

(** ** The sponge *)
Theorem C71_sponge (F : finFieldType) (g : seq F -> outcome (seq F)) (f : seq F -> seq F) (m r out : nat) :
  (0 < r)%N -> (r <= m)%N -> (forall s, size s = m -> g s = Ret (f s) /\ size (f s) = m) ->
  forall bs : seq (seq F), all (fun b => size b == r) bs ->
  sponge g m r out (flatten bs) = if (out <= r)%N then Ret (take out (absorb f r bs (nseq m 0))) else Panic.
Proof. exact (@sponge_cases F g f m r out). Qed.
Theorem C71_sponge_length (F : finFieldType) (g : seq F -> outcome (seq F)) (m r out : nat) :
  (0 < r)%N -> forall inputs : seq F, ~~ (r %| size inputs)%N -> sponge g m r out inputs = Panic.
Proof. exact (@sponge_length F g m r out). Qed.

Print Assumptions C71_determinant.
Print Assumptions C71_expected_det.
Print Assumptions C71_matrix.
Print Assumptions C71_mds.
Print Assumptions C71_near_mds.
Print Assumptions C71_near_mds_refuted.
Print Assumptions C71_rounds.
Print Assumptions C71_rounds_capacity.
Print Assumptions C71_script_rounds.
Print Assumptions C71_secure_refuted.
Print Assumptions C71_secure_2.
Print Assumptions C71_instance.
Print Assumptions C71_shared_constants.
Print Assumptions C71_sponge.
Print Assumptions C71_sponge_length.
