(** The field [Fq] of the decaf377 crate: integers modulo the order of the
    BLS12-377 scalar field.  The arithmetic of the crate itself is external to
    the repository (DESIGN.md, "Not modelled"); this file is the mathematical
    object it is assumed to implement, in a form that can be computed with. *)
From Coq Require Import ZArith Zpow_facts Lia.
From mathcomp Require Import all_ssreflect all_algebra.
From Verif Require Import PrimeLib.
Set Implicit Arguments.
Unset Strict Implicit.
Unset Printing Implicit Defensive.
Delimit Scope Z_scope with Z.

(** The modulus: written in /repo/poseidon-paramgen/tests and used by
    decaf377 as [Fq::MODULUS]. *)
Definition q : Z :=
  8444461749428370424248824938781546531375899335154063827935233455917409239041%Z.

(** * Primality of the modulus *)

Definition q_z : Z := 9586122913090633729%Z.
Definition q_r : Z := 91893752504881257701523279626832445440%Z.

Lemma prime_2_46_cert :
  pock_check q_z 2 136227 11 4793061456545316864
    (Z.to_pos (136227 * 2 ^ 45)) = true.
Proof. vm_cast_no_check (erefl true). Qed.

Lemma q_cert :
  pock_check q q_z q_r 2
    7315935960597485343006954300966482193220948849870360263662418687653309940247
    (Z.to_pos (q_r * q_z)) = true.
Proof. vm_cast_no_check (erefl true). Qed.

Lemma q_z_prime : prime (Z.to_nat q_z).
Proof.
have ekE : Z.pos (Z.to_pos (136227 * 2 ^ 45)) = (136227 * 2 ^ Z.of_nat 45)%Z by [].
have NE : (q_z - 1 = 136227 * 2 ^ Z.of_nat 46)%Z by [].
have lt : (q_z < (2 ^ Z.of_nat 46 + 1) ^ 2)%Z by [].
have p2 : prime (Z.to_nat 2) by [].
exact (@pock_prime q_z 2 136227 11 _ _ 45 p2 ekE NE prime_2_46_cert lt).
Qed.

Lemma q_prime : prime (Z.to_nat q).
Proof.
have ekE : Z.pos (Z.to_pos (q_r * q_z)) = (q_r * q_z ^ Z.of_nat 1)%Z by [].
have NE : (q - 1 = q_r * q_z ^ Z.of_nat 2)%Z by [].
have lt : (q < (2 * q_z ^ Z.of_nat 2 + 1) ^ 2)%Z by [].
exact (@pock_prime_odd q q_z q_r 2 _ _ 1 q_z_prime ekE NE q_cert isT isT lt).
Qed.

(** * The type *)

Definition in_range (z : Z) : bool := ((0 <=? z) && (z <? q))%Z.
Record Fq := mkFq { fval : Z; frange : in_range fval }.

Lemma in_rangeP z : reflect (0 <= z < q)%Z (in_range z).
Proof.
apply: (iffP andP) => [[/Z.leb_le H1 /Z.ltb_lt H2]|[H1 H2]]; first by [].
by split; [apply/Z.leb_le | apply/Z.ltb_lt].
Qed.

Lemma mod_range z : in_range (z mod q).
Proof. by apply/in_rangeP; apply: Z.mod_pos_bound. Qed.

Definition Fq_of_Z (z : Z) : Fq := mkFq (mod_range z).

Definition Z_code (z : Z) : bool * nat := ((0 <=? z)%Z, Z.abs_nat z).
Definition Z_decode (c : bool * nat) : Z := if c.1 then Z.of_nat c.2 else (- Z.of_nat c.2)%Z.
Lemma Z_codeK : cancel Z_code Z_decode.
Proof. by move=> z; rewrite /Z_code /Z_decode /=; case: Z.leb_spec => H; lia. Qed.
Lemma Z_eqP : Equality.axiom Z.eqb.
Proof. by move=> a b; apply: (iffP idP) => /Z.eqb_eq. Qed.
Definition Z_eqMixin := EqMixin Z_eqP.
Canonical Z_eqType := EqType Z Z_eqMixin.
Definition Z_choiceMixin := CanChoiceMixin Z_codeK.
Canonical Z_choiceType := ChoiceType Z Z_choiceMixin.

Canonical Fq_subType := [subType for fval].
Definition Fq_eqMixin := [eqMixin of Fq by <:].
Canonical Fq_eqType := EqType Fq Fq_eqMixin.
Definition Fq_choiceMixin := [choiceMixin of Fq by <:].
Canonical Fq_choiceType := ChoiceType Fq Fq_choiceMixin.

Lemma Fq_inj (a b : Fq) : fval a = fval b -> a = b.
Proof. exact: val_inj. Qed.

Lemma fvalP (a : Fq) : (0 <= fval a < q)%Z.
Proof. exact/in_rangeP/frange. Qed.

Lemma Fq_of_Z_val (a : Fq) : Fq_of_Z (fval a) = a.
Proof. by apply: Fq_inj; apply: Z.mod_small; apply: fvalP. Qed.

Lemma Fq_of_Z_eq a b : (a mod q = b mod q)%Z -> Fq_of_Z a = Fq_of_Z b.
Proof. by move=> H; apply: Fq_inj. Qed.

Definition Fq_zero := Fq_of_Z 0.
Definition Fq_one := Fq_of_Z 1.
Definition Fq_add a b := Fq_of_Z (fval a + fval b).
Definition Fq_opp a := Fq_of_Z (- fval a).
Definition Fq_mul a b := Fq_of_Z (fval a * fval b).

(** Inverse: extended Euclid proposes, a multiplication checks; Fermat's
    little theorem is the fallback that makes the definition obviously right. *)
Fixpoint egcd_cand (fuel : nat) (r0 r1 s0 s1 : Z) : Z :=
  match fuel with
  | O => 0
  | S fuel' => if (r1 =? 0)%Z then s0
               else egcd_cand fuel' r1 (r0 mod r1)%Z s1 (s0 - (r0 / r1) * s1)%Z
  end.
Definition q_minus_2 : positive := Z.to_pos (q - 2).
Definition inv_Z (x : Z) : Z :=
  let c := egcd_cand 600 q x 0 1 in
  if ((x * c) mod q =? 1)%Z then c else powmod q x q_minus_2.
Definition Fq_inv (a : Fq) : Fq := Fq_of_Z (inv_Z (fval a)).

Lemma Fq_addA : associative Fq_add.
Proof.
move=> a b c; apply: Fq_of_Z_eq => /=.
by rewrite Zplus_mod_idemp_l Zplus_mod_idemp_r Z.add_assoc.
Qed.
Lemma Fq_addC : commutative Fq_add.
Proof. by move=> a b; rewrite /Fq_add Z.add_comm. Qed.
Lemma Fq_add0 : left_id Fq_zero Fq_add.
Proof. by move=> a; rewrite /Fq_add /= Fq_of_Z_val. Qed.
Lemma Fq_addN : left_inverse Fq_zero Fq_opp Fq_add.
Proof.
move=> a; apply: Fq_of_Z_eq => /=.
by rewrite Zplus_mod_idemp_l Z.add_opp_diag_l.
Qed.
Definition Fq_zmodMixin := ZmodMixin Fq_addA Fq_addC Fq_add0 Fq_addN.
Canonical Fq_zmodType := ZmodType Fq Fq_zmodMixin.

Lemma Fq_mulA : associative Fq_mul.
Proof.
move=> a b c; apply: Fq_of_Z_eq => /=.
by rewrite Zmult_mod_idemp_l Zmult_mod_idemp_r Z.mul_assoc.
Qed.
Lemma Fq_mulC : commutative Fq_mul.
Proof. by move=> a b; rewrite /Fq_mul Z.mul_comm. Qed.
Lemma Fq_mul1 : left_id Fq_one Fq_mul.
Proof. by move=> a; rewrite -[RHS]Fq_of_Z_val; apply: Fq_of_Z_eq; rewrite Zmult_mod_idemp_l Z.mul_1_l. Qed.
Lemma Fq_mulD : left_distributive Fq_mul Fq_add.
Proof.
move=> a b c; apply: Fq_of_Z_eq => /=.
by rewrite Zmult_mod_idemp_l Zplus_mod_idemp_l Zplus_mod_idemp_r Z.mul_add_distr_r.
Qed.
Lemma Fq_1neq0 : Fq_one != Fq_zero.
Proof. by []. Qed.
Definition Fq_ringMixin := ComRingMixin Fq_mulA Fq_mulC Fq_mul1 Fq_mulD Fq_1neq0.
Canonical Fq_ringType := RingType Fq Fq_ringMixin.
Canonical Fq_comRingType := ComRingType Fq Fq_mulC.

(** Fermat's little theorem, on [Z]. *)
Lemma fermat_Z x : (0 < x < q)%Z -> (x ^ (q - 1) mod q = 1)%Z.
Proof.
exact: fermat_Zgen q_prime.
Qed.

Lemma inv_ZP x : (0 < x < q)%Z -> ((inv_Z x * x) mod q = 1)%Z.
Proof.
move=> xr; rewrite /inv_Z; case: Z.eqb_spec => [H|_]; first by rewrite Z.mul_comm.
rewrite powmodE // Zmult_mod_idemp_l.
rewrite Z.mul_comm -Z.pow_succ_r //.
exact: fermat_Z.
Qed.

Import GRing.Theory.
Local Open Scope ring_scope.
Lemma Fq_mulV (a : Fq) : a != 0 -> Fq_mul (Fq_inv a) a = 1.
Proof.
move=> a0; apply: Fq_inj; rewrite /= Zmult_mod_idemp_l inv_ZP //.
have H := fvalP a; split; last by lia.
case: (Z.eq_dec (fval a) 0) => [E|]; last by lia.
by case/negP: a0; apply/eqP; apply: Fq_inj; rewrite E.
Qed.
Lemma Fq_inv0 : Fq_inv 0 = 0.
Proof. by apply: Fq_inj; vm_compute. Qed.
Definition Fq_unitMixin := FieldUnitMixin Fq_mulV Fq_inv0.
Canonical Fq_unitRingType := UnitRingType Fq Fq_unitMixin.
Canonical Fq_comUnitRingType := [comUnitRingType of Fq].
Lemma Fq_field_axiom : GRing.Field.mixin_of Fq_unitRingType.
Proof. by []. Qed.
Definition Fq_idomainMixin := FieldIdomainMixin Fq_field_axiom.
Canonical Fq_idomainType := IdomainType Fq Fq_idomainMixin.
Canonical Fq_fieldType := FieldType Fq Fq_field_axiom.

(** * Facts *)

Lemma Fq_of_Z_add a b : Fq_of_Z (a + b) = Fq_of_Z a + Fq_of_Z b.
Proof. by apply: Fq_of_Z_eq => /=; rewrite -Zplus_mod. Qed.
Lemma Fq_of_Z_mul a b : Fq_of_Z (a * b) = Fq_of_Z a * Fq_of_Z b.
Proof. by apply: Fq_of_Z_eq => /=; rewrite -Zmult_mod. Qed.
Lemma Fq_of_Z_opp a : Fq_of_Z (- a) = - Fq_of_Z a.
Proof.
apply/eqP; rewrite -addr_eq0 -Fq_of_Z_add Z.add_opp_diag_l; exact/eqP.
Qed.
Lemma Fq_of_Z_sub a b : Fq_of_Z (a - b) = Fq_of_Z a - Fq_of_Z b.
Proof. by rewrite -Fq_of_Z_opp -Fq_of_Z_add. Qed.
Lemma Fq_of_Z_mod a : Fq_of_Z (a mod q) = Fq_of_Z a.
Proof. by apply: Fq_of_Z_eq; rewrite Zmod_mod. Qed.
Lemma Fq_of_Z_nat n : Fq_of_Z (Z.of_nat n) = n%:R.
Proof.
elim: n => [|n IH]; first by [].
by rewrite Nat2Z.inj_succ -Z.add_1_r Fq_of_Z_add IH -addn1 natrD.
Qed.
Lemma Fq_of_Z_eq0 a : (Fq_of_Z a == 0) = (a mod q =? 0)%Z.
Proof. by []. Qed.
Lemma Fq_nat_eq0 n : (n%:R == 0 :> Fq) = (Z.to_nat q %| n)%N.
Proof.
by rewrite -Fq_of_Z_nat Fq_of_Z_eq0 dvdn_Z.
Qed.
Lemma Fq_of_Z_exp a n : Fq_of_Z (a ^ Z.of_nat n) = Fq_of_Z a ^+ n.
Proof.
elim: n => [|n IH]; first by rewrite Z.pow_0_r expr0.
by rewrite Nat2Z.inj_succ Z.pow_succ_r ?Fq_of_Z_mul ?IH ?exprS //; exact: Nat2Z.is_nonneg.
Qed.

Lemma Fq_fermat (a : Fq) : a != 0 -> a ^+ (Z.to_nat (q - 1)) = 1.
Proof.
move=> a0; rewrite -[a]Fq_of_Z_val -Fq_of_Z_exp Z2Nat.id //.
transitivity (Fq_of_Z 1); last by [].
apply: Fq_of_Z_eq; rewrite fermat_Z; first by [].
have H := fvalP a; split; last by lia.
case: (Z.eq_dec (fval a) 0) => [E|]; last by lia.
by case/negP: a0; apply/eqP; apply: Fq_inj; rewrite E.
Qed.
