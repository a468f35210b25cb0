(** C68: along every line of the input space each hash is a polynomial of degree below
    q - 1, so that its values sum to zero.  Statements only; proofs in [SumProofs.v] and
    [SumShipped.v]; instances in [SumExamples.v].  The notions are defined in [SumSpec.v]
    and [DegreeSpec.v]. *)
From Coq Require Import ZArith NArith.
From mathcomp Require Import all_ssreflect all_algebra.
From Verif Require Import Base Fq Matrix MatrixSpec Params Permutation Spec RateChecks ActiveSpec.
From Verif Require Import DegreeSpec DegreeShipped SumSpec SumProofs SumShipped.
Import GRing.Theory.
Delimit Scope Z_scope with Z.
Local Open Scope ring_scope.

(** ** Any field, matrix, constants and exponent *)
Theorem C68_line (F : fieldType) (n e : nat) (M : 'M[F]_n.+1) (c : nat -> 'cV[F]_n.+1) (Rf Rp : nat) :
  (2 <= e)%N -> forall (a b : 'cV[F]_n.+1) (k : nat) (i : 'I_n.+1),
  degree_le (fun x => after (fun y : F => y ^+ e) M c Rf Rp k (a + x *: b) i 0) (e ^ k).
Proof. exact: line_degree_le. Qed.
Theorem C68_roots (F : fieldType) (m : nat) (H : seq F) (f : F -> F) (d : nat) : roots_of_unity m H ->
  degree_le f d -> (d < m)%N -> \sum_(h <- H) f h = m%:R * f 0.
Proof. exact: degree_sum. Qed.

(** ** The seven hashes, on the list of the domain separator and the inputs *)
Theorem C68_hash_line (a b : seq Fq) : (1 < size a <= 8)%N -> size b = size a ->
  exists2 P : {poly Fq}, (size P <= (17 ^ 39).+1)%N &
    forall x : Fq, hash_on (on_line (F := Fq_fieldType) a b x) = Ret P.[x].
Proof. exact: hash_line. Qed.
Theorem C68_hash_zero_sum (a b : seq Fq) : (1 < size a <= 8)%N -> size b = size a ->
  forall xs : seq Fq, enumerates (F := Fq_fieldType) xs ->
  \sum_(x <- xs) value (hash_on (on_line (F := Fq_fieldType) a b x)) = 0.
Proof. exact: hash_zero_sum. Qed.

(** The same with the values multiplied by those of any polynomial of degree below q - 1 - 17^39 *)
Theorem C68_hash_moments (a b : seq Fq) : (1 < size a <= 8)%N -> size b = size a ->
  forall (xs : seq Fq) (Q : {poly Fq}), enumerates (F := Fq_fieldType) xs ->
  (17 ^ 39 + Z.of_nat (size Q) < q)%Z ->
  \sum_(x <- xs) value (hash_on (on_line (F := Fq_fieldType) a b x)) * Q.[x] = 0.
Proof. exact: hash_moments. Qed.

(** Over a group of roots of unity of order m > 17^39 the values average to that at the centre. *)
Theorem C68_hash_subgroup (a b : seq Fq) : (1 < size a <= 8)%N -> size b = size a ->
  forall (m : nat) (H : seq Fq), roots_of_unity (F := Fq_fieldType) m H -> (17 ^ 39 < Z.of_nat m)%Z ->
  \sum_(h <- H) value (hash_on (on_line (F := Fq_fieldType) a b h)) = m%:R * value (hash_on a).
Proof. exact: hash_subgroup. Qed.

(** ** The permutations *)
Theorem C68_permute_zero_sum (p : params Fq_fieldType) : List.In p shipped ->
  forall (a b xs : seq Fq) (i : nat), size a = p_t p -> size b = p_t p -> (i < p_t p)%N ->
  enumerates (F := Fq_fieldType) xs ->
  \sum_(x <- xs) (if permute p (on_line (F := Fq_fieldType) a b x) is Ret s then nth 0 s i else 0) = 0.
Proof. exact: permute_zero_sum. Qed.

Print Assumptions C68_line.
Print Assumptions C68_roots.
Print Assumptions C68_hash_line.
Print Assumptions C68_hash_zero_sum.
Print Assumptions C68_hash_moments.
Print Assumptions C68_hash_subgroup.
Print Assumptions C68_permute_zero_sum.
