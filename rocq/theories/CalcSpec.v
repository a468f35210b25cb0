(** What the reference script for round numbers is meant to find, independently of
    its loops, and what is assumed of the logarithm. *)
From Coq Require Import ZArith Reals.
From mathcomp Require Import all_ssreflect.
From Verif Require Import Base Params Rounds RoundsSpec CalcRounds.
Set Implicit Arguments.
Unset Strict Implicit.
Unset Printing Implicit Defensive.

(** The script's test accepts a candidate. *)
Definition script_secure (lm : libm) (p t alpha M : Z) (c : rounds) : Prop :=
  sat_inequiv_alpha lm p t (Z.of_nat (r_F c)) (Z.of_nat (r_P c)) alpha M = Ret true.

(** The candidates of the script: more partial rounds than in the generator are
    tried, and even numbers of full rounds only. *)
Definition script_candidate (c : rounds) : Prop :=
  [/\ 1 <= r_P c, r_P c < 500, 4 <= r_F c, r_F c < 100 & ~~ odd (r_F c)].

(** The round numbers reported for a candidate *)
Definition reported (security_margin : bool) (c r : rounds) : Prop :=
  if security_margin then with_margin c r else r = c.

(** [c], reported as [r], is the cheapest of the secure candidates, and the one with
    the fewest full rounds among those. *)
Definition script_best (secure : rounds -> Prop) (t : nat) (sm : bool) (c r : rounds) : Prop :=
  [/\ script_candidate c, secure c, reported sm c r &
      forall c' r', script_candidate c' -> secure c' -> reported sm c' r' -> c' <> c ->
        sboxes t r < sboxes t r' \/ sboxes t r = sboxes t r' /\ r_F r < r_F r'].

(** The natural logarithm of an integer below [2^1023], converted to a [float] first,
    has a relative error of at most [2^-40]. *)
Definition accurate_ln (lm : libm) : Prop :=
  forall n : Z, (2 <= n < 2 ^ 1023)%Z ->
    (Rabs (f64_ln lm (f64_of_int n) - ln (IZR n)) <= ln (IZR n) / 2 ^ 40)%R.

(** Inputs on which the two searches are compared: the modulus is larger than the
    security level requires, the statistical bound is satisfied by six full rounds,
    and the width is not a proper power of the exponent. *)
Definition comparable (M : N) (t : nat) (p : Z) (e : N) : Prop :=
  [/\ 2 <= t <= 500, (3 <= e < 2 ^ 32)%num, (M <= 256)%num,
      ((Z.of_N e - 1) ^ 2 <= 2 ^ Z.of_N M)%Z /\ (2 ^ (Z.of_N M + 1) <= p < 2 ^ 1023)%Z &
      forall k : Z, (2 <= k)%Z -> Z.of_nat t <> (Z.of_N e ^ k)%Z].
