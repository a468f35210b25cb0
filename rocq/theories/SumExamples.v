(** Instances for C68. *)
From Coq Require Import ZArith NArith.
From mathcomp Require Import all_ssreflect all_algebra.
From Verif Require Import Base Fq Hash DegreeSpec DegreeShipped SumSpec SumProofs SumShipped.
Set Implicit Arguments.
Unset Strict Implicit.
Unset Printing Implicit Defensive.
Import GRing.Theory.
Local Open Scope ring_scope.

(** Over the field of five elements: the squares sum to zero, the fourth powers do not. *)
Example enum_5 : enumerates [:: 0; 1; 2%:R; 3%:R; 4%:R : 'F_5].
Proof. by split=> // -[] [|[|[|[|[|//]]]]] h; rewrite !inE -!val_eqE. Qed.
Example squares_5 : \sum_(x <- [:: 0; 1; 2%:R; 3%:R; 4%:R : 'F_5]) x ^+ 2 = 0.
Proof. by rewrite unlock; apply/eqP. Qed.
Example fourth_5 : \sum_(x <- [:: 0; 1; 2%:R; 3%:R; 4%:R : 'F_5]) x ^+ 4 != 0.
Proof. by rewrite unlock. Qed.

(** The square roots of one: values average to that at zero only below degree two. *)
Example roots_5 : roots_of_unity 2 [:: 1; 4%:R : 'F_5].
Proof. by split=> // -[] [|[|[|[|[|//]]]]] h; rewrite !inE -!val_eqE. Qed.
Example roots_5_1 : \sum_(h <- [:: 1; 4%:R : 'F_5]) (h + 3%:R) = 2%:R * 3%:R.
Proof. by rewrite unlock; apply/eqP. Qed.
Example roots_5_2 : \sum_(h <- [:: 1; 4%:R : 'F_5]) h ^+ 2 != 2%:R * 0 ^+ 2.
Proof. by rewrite unlock. Qed.

(** An enumeration of the field exists, and the hash of two inputs with the sum of the
    inputs fixed sums to zero over it. *)
Example enumeration_exists : exists xs : seq Fq, enumerates (F := Fq_fieldType) xs.
Proof. have [n [nq _]] := q_pred; eexists; exact (points_enumerate nq). Qed.
Example hash_2_antidiagonal (ds s : Fq) : exists2 xs : seq Fq, enumerates (F := Fq_fieldType) xs &
  \sum_(x <- xs) value (hash_2 ds (x, s - x)) = 0.
Proof.
have [xs en] := enumeration_exists; exists xs; first exact en.
have H := @hash_zero_sum [:: ds; 0; s] [:: 0; 1; -1] isT erefl xs en.
rewrite -[RHS]H; apply: eq_bigr => x _.
have E : on_line (F := Fq_fieldType) [:: ds; 0; s] [:: 0; 1; -1] x = [:: ds; x; s - x].
  by rewrite /on_line /= mulr0 addr0 add0r mulr1 mulrN1.
rewrite E; exact (congr1 value (erefl (hash_2 ds (x, s - x)) : hash_2 ds (x, s - x) = hash_on [:: ds; x; s - x])).
Qed.
