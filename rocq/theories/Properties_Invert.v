(** C73: preimages of the hashes when the domain separator is not fixed. *)
From Coq Require Import ZArith.
From mathcomp Require Import all_ssreflect all_algebra.
From Verif Require Import Base Fq Params Permutation Hash RateChecks Spec DegreeShipped InvertSpec InvertProofs InvertShipped.
Set Implicit Arguments.
Unset Strict Implicit.
Unset Printing Implicit Defensive.
Import GRing.Theory.
Local Open Scope ring_scope.
Delimit Scope Z_scope with Z.

(** ** Any field, S-box, matrix and constants *)
Theorem C73_backwards (F : fieldType) (t1 : nat) (S S' : F -> F) (M M' : 'M[F]_(1 + t1))
    (rc : nat -> 'cV[F]_(1 + t1)) : cancel S S' -> cancel S' S -> M *m M' = 1%:M -> M' *m M = 1%:M ->
  forall Rf Rp : nat, cancel (poseidon S M rc Rf Rp) (poseidon_back S' M' rc Rf Rp) /\
    cancel (poseidon_back S' M' rc Rf Rp) (poseidon S M rc Rf Rp).
Proof. exact (fun K1 K2 h h' Rf Rp => conj (poseidon_backK rc K1 h' Rf Rp) (poseidonK rc K2 h Rf Rp)). Qed.

(** ** The shipped parameters *)
Theorem C73_root (x : Fq) : root17 (x ^+ 17) = x /\ root17 x ^+ 17 = x.
Proof. exact (conj (root17K x) (pow17K x)). Qed.
Theorem C73_permute (p : params Fq_fieldType) : List.In p shipped ->
  forall x y : seq Fq, size x = p_t p -> size y = p_t p -> permute p x = Ret y <-> x = unpermute p y.
Proof. exact: permute_back. Qed.

(** ** The seven hashes, on the list of the domain separator and the [n] inputs *)
Theorem C73_preimage (n : nat) (h : Fq) (w : seq Fq) : (0 < n <= 7)%N -> size w = n ->
  size (preimage h w) = n.+1 /\ hash_on (preimage h w) = Ret h.
Proof. exact (fun hn sw => conj (preimage_size hn h sw) (preimage_hash hn h sw)). Qed.
Theorem C73_preimages (n : nat) (h : Fq) (l : seq Fq) : (0 < n <= 7)%N -> size l = n.+1 ->
  hash_on l = Ret h <-> exists! w : seq Fq, size w = n /\ l = preimage h w.
Proof. exact (fun hn sl => preimages hn h sl). Qed.
(** Every value is the hash of exactly q^n lists. *)
Theorem C73_balanced (n : nat) (h : Fq) (L : seq (seq Fq)) : (0 < n <= 7)%N -> all_lists n.+1 L ->
  Z.of_nat (count (hashes_to h) L) = (q ^ Z.of_nat n)%Z.
Proof. exact (fun hn => @preimage_count n hn h L). Qed.
(** With the domain separator fixed: at most 17^39 q^(n-1) *)
Theorem C73_fixed_separator (n : nat) (ds h : Fq) (L : seq (seq Fq)) : (0 < n <= 7)%N -> all_lists n L ->
  (Z.of_nat (count (fun v => hashes_to h (ds :: v)) L) <= 17 ^ 39 * q ^ Z.of_nat n.-1)%Z.
Proof. exact (fun hn => @fixed_count n hn ds h L). Qed.
Theorem C73_lists (n : nat) : exists L : seq (seq Fq), all_lists n L.
Proof. exact: lists_exist. Qed.
(** Collisions at any value, between the hashes of any two rates *)
Theorem C73_collision (n n' : nat) (h : Fq) : (0 < n <= 7)%N -> (0 < n' <= 7)%N ->
  exists l l' : seq Fq, [/\ l <> l', size l = n.+1, size l' = n'.+1, hash_on l = Ret h & hash_on l' = Ret h].
Proof. exact: free_collision. Qed.

Print Assumptions C73_backwards.
Print Assumptions C73_root.
Print Assumptions C73_permute.
Print Assumptions C73_preimage.
Print Assumptions C73_preimages.
Print Assumptions C73_balanced.
Print Assumptions C73_fixed_separator.
Print Assumptions C73_lists.
Print Assumptions C73_collision.
