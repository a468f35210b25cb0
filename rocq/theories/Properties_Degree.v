(** C67: each word of the shipped permutations and each hash is a polynomial of degree
    exactly 17^39 in any one word of the input; what the interpolation check of
    rounds.rs:185-210 means.  Statements only; proofs in [DegreeProofs.v],
    [DegreeCheck.v], [DegreeShipped.v] and [DegreeRounds.v]; instances in
    [DegreeExamples.v].  The notions are defined in [DegreeSpec.v]. *)
From Coq Require Import ZArith NArith Reals.
From mathcomp Require Import all_ssreflect all_algebra.
From Verif Require Import Base Fq Matrix MatrixSpec Params Permutation Spec RateChecks Transcript Rounds RoundsSpec StatSpec ActiveSpec.
From Verif Require Import DegreeSpec DegreeProofs DegreeShipped DegreeRounds.
Import GRing.Theory.
Delimit Scope Z_scope with Z.
Delimit Scope R_scope with Re.
Local Open Scope R_scope.
Local Open Scope ring_scope.

(** ** What a degree says *)
Theorem C67_agree (F : fieldType) (f : F -> F) (d : nat) (P : {poly F}) (xs : seq F) : exact_degree f d ->
  (size P <= d)%N -> uniq xs -> all (fun x => f x == P.[x]) xs -> (size xs <= d)%N.
Proof. exact: degree_agree. Qed.
Theorem C67_values (F : fieldType) (f : F -> F) (d : nat) (y : F) (xs : seq F) : exact_degree f d ->
  (0 < d)%N -> uniq xs -> all (fun x => f x == y) xs -> (size xs <= d)%N.
Proof. exact: degree_values. Qed.

(** ** Any matrix, constants and exponent *)
Theorem C67_degree_le (F : fieldType) (n e : nat) (M : 'M[F]_n.+1) (c : nat -> 'cV[F]_n.+1) (Rf Rp : nat) :
  (2 <= e)%N -> forall (s : 'cV[F]_n.+1) (j : 'I_n.+1) (k : nat) (i : 'I_n.+1),
  degree_le (fun x => after (fun y : F => y ^+ e) M c Rf Rp k (with_word s j x) i 0) (e ^ k).
Proof. exact: after_degree_le. Qed.
Theorem C67_exact (F : fieldType) (n e : nat) (M : 'M[F]_n.+1) (c : nat -> 'cV[F]_n.+1) (Rf Rp : nat) :
  (2 <= e)%N ->
  (forall (j : 'I_n.+1) (r : nat), (r <= Rf)%N -> nonzero (iter r (FL e M) (col j M))) ->
  (0 < Rf)%N -> (0 < Rp)%N ->
  forall (s : 'cV[F]_n.+1) (j : 'I_n.+1) (k : nat) (i : 'I_n.+1), (0 < k <= Rf + Rp + Rf)%N ->
  exact_degree (fun x => after (fun y : F => y ^+ e) M c Rf Rp k (with_word s j x) i 0) (e ^ k).
Proof. exact: after_exact. Qed.

(** ** The shipped parameters *)
Theorem C67_shipped_rounds (p : params Fq_fieldType) : List.In p shipped ->
  forall (s : 'cV[Fq]_(1 + p_t1 p)) (j i : 'I_(1 + p_t1 p)) (k : nat), (0 < k <= 39)%N ->
  exact_degree (fun x : Fq_fieldType => after (fun y : Fq => y ^+ 17) (toM (1 + p_t1 p) (1 + p_t1 p) (p_mds p))
    (fun r => \col_(i < 1 + p_t1 p) nth 0 (elements (p_arc p)) (r * (1 + p_t1 p) + i)) 4 31 k
    (with_word s j x) i 0) (17 ^ k).
Proof. exact: shipped_degree. Qed.
Theorem C67_shipped_permute (p : params Fq_fieldType) : List.In p shipped ->
  forall (inp : seq Fq) (j i : nat), size inp = p_t p -> (j < p_t p)%N -> (i < p_t p)%N ->
  exact_degree (fun x : Fq_fieldType => if permute p (set_nth 0 inp j x) is Ret s then nth 0 s i else 0) (17 ^ 39).
Proof. exact: permute_degree. Qed.

(** ** The seven hashes, on the list of the domain separator and the inputs *)
Theorem C67_hash (l : seq Fq) (j : nat) : (1 < size l <= 8)%N -> (j < size l)%N ->
  exists2 P : {poly Fq}, size P = (17 ^ 39).+1 & forall x : Fq, hash_on (set_nth 0 l j x) = Ret P.[x].
Proof. exact: hash_degree. Qed.
Theorem C67_hash_interpolation (l : seq Fq) (j : nat) (Q : {poly Fq}) (xs : seq Fq) :
  (1 < size l <= 8)%N -> (j < size l)%N -> (size Q <= 17 ^ 39)%N -> uniq xs ->
  (forall x : Fq, x \in xs -> hash_on (set_nth 0 l j x) = Ret Q.[x]) -> (size xs <= 17 ^ 39)%N.
Proof. exact: hash_interpolation. Qed.
Theorem C67_hash_no_shorter (l : seq Fq) (j : nat) (Q : {poly Fq}) :
  (1 < size l <= 8)%N -> (j < size l)%N -> (size Q <= 17 ^ 39)%N ->
  exists x : Fq, hash_on (set_nth 0 l j x) <> Ret Q.[x].
Proof. exact: hash_no_shorter. Qed.
Theorem C67_hash_values (l : seq Fq) (j : nat) (y : Fq) (xs : seq Fq) :
  (1 < size l <= 8)%N -> (j < size l)%N -> uniq xs ->
  (forall x : Fq, x \in xs -> hash_on (set_nth 0 l j x) = Ret y) -> (size xs <= 17 ^ 39)%N.
Proof. exact: hash_values. Qed.
Theorem C67_numbers : (2 ^ 159 < 17 ^ 39 < q)%Z.
Proof. exact: bound_17. Qed.

(** ** The interpolation check: what it accepts has degree at least t * 2^min(M, log2 p) *)
Theorem C67_check (lm : libm) (i : input f64) (p : Z) (e : N) : accurate lm -> (1 < p < 2 ^ 1024)%Z ->
  in_log_2_p i = log2 lm p -> (1 < in_t i < 1024)%N -> (in_M i < 2 ^ 16)%num -> (3 <= e < 2 ^ 32)%num ->
  forall c : rounds, is_secure_v1 lm i (Exponent e) c = Ret true ->
  (Rpower 2 (Rmin (IZR (Z.of_N (in_M i))) (log_2 (IZR p))) * INR (in_t i) <= IZR (Z.of_N e) ^ rounds_total c)%Re.
Proof. exact: interp_degree. Qed.

Print Assumptions C67_agree.
Print Assumptions C67_values.
Print Assumptions C67_degree_le.
Print Assumptions C67_exact.
Print Assumptions C67_shipped_rounds.
Print Assumptions C67_shipped_permute.
Print Assumptions C67_hash.
Print Assumptions C67_hash_interpolation.
Print Assumptions C67_hash_no_shorter.
Print Assumptions C67_hash_values.
Print Assumptions C67_numbers.
Print Assumptions C67_check.
