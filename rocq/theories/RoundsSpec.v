(** Specification of the choice of round numbers, independent of the code: what
    a cheapest secure candidate is, and which mathematical libraries are accurate
    enough for the theorems. *)
From Coq Require Import ZArith Reals.
From mathcomp Require Import all_ssreflect.
From Verif Require Import Params Rounds.
Set Implicit Arguments.
Unset Strict Implicit.
Unset Printing Implicit Defensive.

(** The candidates considered *)
Definition candidate (c : rounds) : Prop :=
  [/\ 1 <= r_P c, r_P c < 400, 4 <= r_F c & r_F c < 100].

(** The security margin of Section 5.4 of the Poseidon paper: two more full
    rounds, and 7.5 percent more partial rounds, rounded up; an integer is
    [ceil (1.075 n)] when it is the least one with [43 n <= 40 m]. *)
Definition with_margin (c r : rounds) : Prop :=
  [/\ r_F r = r_F c + 2, 43 * r_P c <= 40 * r_P r & 40 * r_P r < 43 * r_P c + 40].

(** The number of S-boxes evaluated by a permutation of width [t] *)
Definition sboxes (t : nat) (r : rounds) : nat := t * r_F r + r_P r.

(** [c], with margin [r], is the cheapest of the secure candidates; among
    candidates of equal cost it is the one with the fewest full rounds. *)
Definition cheapest (secure : rounds -> Prop) (t : nat) (c r : rounds) : Prop :=
  [/\ candidate c, secure c, with_margin c r &
      forall c' r', candidate c' -> secure c' -> with_margin c' r' -> c' <> c ->
        sboxes t r < sboxes t r' \/ sboxes t r = sboxes t r' /\ r_F r < r_F r'].

(** A mathematical library whose logarithms of integers have a relative error of
    at most [2^-40], and whose binary logarithm is exact on the powers of two.
    (The errors of the common libraries are below [2^-52].) *)
Definition accurate (lm : libm) : Prop :=
  [/\ forall n : Z, (2 <= n <= 2 ^ 64)%Z ->
        (Rabs (f64_ln lm (IZR n) - ln (IZR n)) <= ln (IZR n) / 2 ^ 40)%R,
      forall n : Z, (1 <= n <= 2 ^ 64)%Z ->
        (Rabs (f64_log2 lm (IZR n) - ln (IZR n) / ln 2) <= ln (IZR n) / ln 2 / 2 ^ 40)%R &
      forall k : nat, (k <= 63)%N -> f64_log2 lm (2 ^ k)%R = INR k].
