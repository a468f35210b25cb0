(** C79: the optimized round constants of [generate_ark] in vendor/generate_mds.sage.
    Statements only; proofs in [GenerateArkProofs.v] and [ArkField.v]; instances in
    [ArkExamples.v]. *)
From Coq Require Import String.
From mathcomp Require Import all_ssreflect all_algebra.
From Verif Require Import Base Fq Cauchy ArkSpec GenerateArk GenerateArkProofs ArkField.
Import GRing.Theory.
Local Open Scope ring_scope.
Local Open Scope rust_scope.

(** What is computed, and when the script fails; the first non-linear constant is always 0 *)
Theorem C79_values (F : fieldType) (rc : string -> nat -> F) (n N R : nat) (M : 'M[F]_n.+1) :
  generate_ark rc N true R (Some M) =
  if (M \in unitmx) && (maxn 1 R + 8 <= N)%N then
    Ret (ArkOut (map (round_constants n rc) (iota 0 N))
      (Some (\sum_(i < maxn 1 R) clear_0 (invmx M ^+ i *m round_constants n rc (4 + i))))
      (0 :: [seq (invmx M ^+ i *m round_constants n rc (4 + i)) 0 0 | i <- iota 1 (R - 1)]))
  else Panic.
Proof. exact (@ark_values F rc n N R M). Qed.
Print Assumptions C79_values.

Theorem C79_no_matrix (F : fieldType) (rc : string -> nat -> F) (n N R : nat) :
  generate_ark (n := n) rc N true R None = Panic.
Proof. exact (@ark_no_matrix F rc n N R). Qed.
Print Assumptions C79_no_matrix.

Theorem C79_plain (F : fieldType) (rc : string -> nat -> F) (n N R : nat) (M : option 'M[F]_n.+1) :
  generate_ark rc N false R M = Ret (ArkOut (map (round_constants n rc) (iota 0 N)) None [::]).
Proof. exact (@ark_plain F rc n N R M). Qed.
Print Assumptions C79_plain.

(** Constants can be moved, for any number of rounds *)
Theorem C79_moving (F : fieldType) (n : nat) (S : F -> F) (M : 'M[F]_n.+1) (r : nat) (c : nat -> 'cV[F]_n.+1) :
  M \in unitmx -> (0 < r)%N -> exists l w, forall x, moved_rounds S M l w r x = partial_rounds S M c r x.
Proof. exact (@moving F n S M r c). Qed.
Print Assumptions C79_moving.

(** Those of the script, but for the first word, are right for one and two rounds *)
Theorem C79_two_rounds (F : fieldType) (n : nat) (S : F -> F) (M : 'M[F]_n.+1) (N R : nat)
    (rc : string -> nat -> F) (out : ark_out F n) (x : 'cV[F]_n.+1) :
  (0 < R <= 2)%N -> generate_ark rc N true R (Some M) = Ret out ->
  exists l w, [/\ a_linear out = Some l, size w = R, behead w = behead (a_words out) &
    moved_rounds S M l (nth 0 w) R x = partial_rounds S M (fun i => round_constants n rc (4 + i)) R x].
Proof. exact (@ark_two_rounds F n S M N R rc out x). Qed.
Print Assumptions C79_two_rounds.

(** For three and more rounds they are wrong, whatever first three words are put in *)
Theorem C79_three_rounds_refuted (F : fieldType) (n : nat) (S : F -> F) (M : 'M[F]_n.+1) (N R : nat) (i j : 'I_n.+1) :
  M \in unitmx -> (2 < R)%N -> (R + 8 <= N)%N -> injective S ->
  i != 0 -> M i 0 != 0 -> j != 0 -> M 0 j != 0 ->
  (exists y z, S (y + 1) - S y <> S (z + 1) - S z) ->
  exists rc out l, [/\ generate_ark rc N true R (Some M) = Ret out, a_linear out = Some l &
    forall w : nat -> F, (forall k, (2 < k)%N -> w k = nth 0 (a_words out) k) ->
    ~ forall x, moved_rounds S M l w R x = partial_rounds S M (fun i => round_constants n rc (4 + i)) R x].
Proof. exact (@ark_wrong F n S M N R i j). Qed.
Print Assumptions C79_three_rounds_refuted.

Theorem C79_field_refuted (n N R : nat) (M : 'M[Fq]_n.+2) : mds_mx M -> (2 < R)%N -> (R + 8 <= N)%N ->
  exists rc out l, [/\ generate_ark rc N true R (Some M) = Ret out, a_linear out = Some l &
    forall w : nat -> Fq, (forall k, (2 < k)%N -> w k = nth 0 (a_words out) k) ->
    ~ forall x, moved_rounds (fun y => y ^+ 17) M l w R x =
      partial_rounds (fun y => y ^+ 17) M (fun i => round_constants n.+1 rc (4 + i)) R x].
Proof. exact (@ark_wrong_Fq n N R M). Qed.
Print Assumptions C79_field_refuted.
