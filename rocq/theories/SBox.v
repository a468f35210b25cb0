(** x^17 is a bijection of [Fq]. *)
From Coq Require Import ZArith Lia.
From mathcomp Require Import all_ssreflect all_algebra.
From Verif Require Import Fq.
Set Implicit Arguments.
Unset Strict Implicit.
Unset Printing Implicit Defensive.
Import GRing.Theory.
Local Open Scope ring_scope.
Delimit Scope Z_scope with Z.

(** 1/17 modulo q-1 *)
Definition inv17 : Z :=
  3973864352672174317293564677073668955941599687131324154322462802784663171313%Z.

Lemma to_nat_bezout (e k m c : Z) : (0 <= e)%Z -> (0 <= k)%Z -> (0 <= m)%Z -> (0 <= c)%Z ->
  (e * k = 1 + m * c)%Z -> (Z.to_nat e * Z.to_nat k = 1 + Z.to_nat c * Z.to_nat m)%N.
Proof.
move=> h1 h2 h3 h4 E; apply: Nat2Z.inj.
by rewrite -[(_ * _)%N]/((Z.to_nat e * Z.to_nat k)%coq_nat) -[(_ + _)%N]/((1 + (Z.to_nat c * Z.to_nat m))%coq_nat);
  rewrite Nat2Z.inj_mul Nat2Z.inj_add Nat2Z.inj_mul !Z2Nat.id // E Z.mul_comm.
Qed.

Lemma inv17_bezout : (17 * Z.to_nat inv17 = 1 + Z.to_nat (q - 1) * 8)%N.
Proof. by apply: (@to_nat_bezout 17 inv17 8 (q - 1)). Qed.

Lemma pow_cycle (x : Fq) m : x ^+ (1 + Z.to_nat (q - 1) * m) = x.
Proof.
rewrite exprD expr1 exprM; case: (eqVneq x 0) => [->|x0]; first by rewrite mul0r.
by rewrite Fq_fermat // expr1n mulr1.
Qed.

Lemma pow17_bij : bijective (fun x : Fq => x ^+ 17).
Proof.
exists (fun x => x ^+ Z.to_nat inv17) => x.
- by rewrite -exprM inv17_bezout pow_cycle.
- by rewrite -exprM mulnC inv17_bezout pow_cycle.
Qed.

Lemma coprime17 : coprime 17 (Z.to_nat (q - 1)).
Proof.
apply/coprimeP; first by [].
exists (Z.to_nat inv17, 8)%N; cbn [fst snd].
by rewrite [(Z.to_nat inv17 * 17)%N]mulnC inv17_bezout mulnC addnK.
Qed.
