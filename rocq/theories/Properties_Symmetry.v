(** C81: affine symmetries of the full rounds. *)
From Coq Require Import NArith.
From mathcomp Require Import all_ssreflect all_algebra.
From Verif Require Import Base Fq Matrix MatrixSpec Params Cauchy RateChecks ActiveSpec SymmetrySpec Symmetry SymmetryShipped SymmetryPartial SymmetryMixed.
Import GRing.Theory.
Local Open Scope ring_scope.
Delimit Scope N_scope with num.

(** ** The power maps: only scaled permutations of the words, without an offset *)
Theorem C81_power_maps (F : fieldType) (e : nat) (rs : seq F) : (2 <= e)%N -> e%:R != 0 :> F -> uniq rs -> size rs = e.+1 ->
  forall t (A B : 'M[F]_t) (a b : 'cV[F]_t), carries (powers e) A a B b ->
  forall i j, A i j != 0 -> a i 0 = 0 /\ forall k, k != j -> A i k = 0.
Proof. exact: power_symmetry. Qed.

(** ** The power map on the first word: a multiple of it, and any map of the others *)
Theorem C81_first_word (F : fieldType) (e : nat) (rs : seq F) : (2 <= e)%N -> e%:R != 0 :> F -> uniq rs -> size rs = e.+1 ->
  forall n (A B : 'M[F]_n.+1) (a b : 'cV[F]_n.+1), A \in unitmx -> carries (first_power e) A a B b ->
  [/\ A 0 0 != 0, a 0 0 = 0, b 0 0 = 0 & B 0 0 = A 0 0 ^+ e] /\
  (forall k : 'I_n.+1, k != 0 -> [/\ A 0 k = 0, A k 0 = 0, B 0 k = 0, B k 0 = 0 & b k 0 = a k 0]) /\
  (forall i k : 'I_n.+1, i != 0 -> k != 0 -> B i k = A i k).
Proof. exact: first_symmetry. Qed.

(** ** Two full rounds with the Cauchy matrix, in any field with enough elements *)
Theorem C81_two_rounds (F : fieldType) (e : nat) (rs : seq F) : (2 <= e)%N -> e%:R != 0 :> F -> uniq rs -> size rs = e.+1 ->
  injective (fun x : F => x ^+ e) -> forall n, (2 <= n.+1 <= 8)%N ->
  (forall a b : N, (a < 2 ^ 20)%num -> (b < 2 ^ 20)%num -> (N.to_nat a)%:R = (N.to_nat b)%:R :> F -> a = b) ->
  cauchy_mx F n.+1 \in unitmx ->
  forall (c c' : 'cV[F]_n.+1) A0 a0 A1 a1 A2 a2,
  c' != 0 -> (n.+1 = 2%N -> forall i j : 'I_n.+1, (i < j)%N -> c' i 0 ^+ 2 != 2%:R * c' j 0 ^+ 2) ->
  A0 \in unitmx ->
  carries (full e (cauchy_mx F n.+1) c) A0 a0 A1 a1 -> carries (full e (cauchy_mx F n.+1) c') A1 a1 A2 a2 ->
  [/\ A0 = 1%:M /\ a0 = 0, A1 = 1%:M /\ a1 = 0 & A2 = 1%:M /\ a2 = 0].
Proof. move=> h1 h2 h3 h4 h5 n h6 h7 h8 c c' A0 a0 A1 a1 A2 a2 g1 g2; exact (@two_rounds F e rs h1 h2 h3 h4 h5 n h6 h7 h8 c c' A0 a0 A1 a1 A2 a2 (conj g1 g2)). Qed.

(** ** The shipped parameters *)
Section Shipped.
Context (p : params Fq_fieldType).
Let t1 := p_t1 p.
Let M := toM (1 + t1) (1 + t1) (p_mds p).
Let c r := \col_(i < 1 + t1) nth 0 (elements (p_arc p)) (r * (1 + t1) + i).

Theorem C81_rounds k A0 a0 A1 a1 A2 a2 : List.In p shipped -> (k < 38)%N -> A0 \in unitmx ->
  carries (full 17 M (c k)) A0 a0 A1 a1 -> carries (full 17 M (c k.+1)) A1 a1 A2 a2 ->
  [/\ A0 = 1%:M /\ a0 = 0, A1 = 1%:M /\ a1 = 0 & A2 = 1%:M /\ a2 = 0].
Proof. move=> hp; exact: (shipped_rounds hp). Qed.

(** The states of the permutation after full round r *)
Theorem C81_full_round r x : List.In p shipped -> (r < 4)%N || (35 <= r)%N ->
  after (fun x : Fq => x ^+ 17) M c 4 31 r.+1 x = full 17 M (c r) (after (fun x : Fq => x ^+ 17) M c 4 31 r x).
Proof. move=> hp; exact: shipped_full. Qed.

(** Every round, and neighbouring rounds of which one is full *)
Theorem C81_round r x : List.In p shipped ->
  after (fun x : Fq => x ^+ 17) M c 4 31 r.+1 x
  = (if (r < 4)%N || (35 <= r)%N then full 17 M (c r) else partial 17 M (c r)) (after (fun x : Fq => x ^+ 17) M c 4 31 r x).
Proof. move=> hp; exact: shipped_round. Qed.
Theorem C81_neighbours r A0 a0 A1 a1 A2 a2 : List.In p shipped -> (r < 4)%N || (34 <= r < 38)%N -> A0 \in unitmx ->
  carries (if (r < 4)%N || (35 <= r)%N then full 17 M (c r) else partial 17 M (c r)) A0 a0 A1 a1 ->
  carries (if (r.+1 < 4)%N || (35 <= r.+1)%N then full 17 M (c r.+1) else partial 17 M (c r.+1)) A1 a1 A2 a2 ->
  [/\ A0 = 1%:M /\ a0 = 0, A1 = 1%:M /\ a1 = 0 & A2 = 1%:M /\ a2 = 0].
Proof. move=> hp; exact: (shipped_ends hp). Qed.

(** Inputs in an affine relation other than equality: the states after the first or those
    after the second round are not in one. *)
Theorem C81_inputs A0 a0 A1 a1 A2 a2 : List.In p shipped -> A0 \in unitmx ->
  carries (after (fun x : Fq => x ^+ 17) M c 4 31 1) A0 a0 A1 a1 ->
  carries (after (fun x : Fq => x ^+ 17) M c 4 31 2) A0 a0 A2 a2 -> A0 = 1%:M /\ a0 = 0.
Proof. move=> hp; exact: (shipped_inputs hp). Qed.
End Shipped.

Print Assumptions C81_power_maps.
Print Assumptions C81_first_word.
Print Assumptions C81_two_rounds.
Print Assumptions C81_rounds.
Print Assumptions C81_full_round.
Print Assumptions C81_round.
Print Assumptions C81_neighbours.
Print Assumptions C81_inputs.
