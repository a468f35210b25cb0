(** The contract of ark-ff's [PrimeField] trait (external), over which
    poseidon-paramgen is generic: a field together with its modulus and the
    conversions from and to integers.  Instances: [Fq], and the integers modulo
    any prime. *)
From Coq Require Import ZArith Lia.
From mathcomp Require Import all_ssreflect all_algebra.
From Verif Require Import PrimeLib Fq.
Set Implicit Arguments.
Unset Strict Implicit.
Unset Printing Implicit Defensive.
Import GRing.Theory.
Local Open Scope ring_scope.
Delimit Scope Z_scope with Z.

Record prime_field := PrimeField {
  pf_field :> fieldType;
  (** [F::MODULUS] *)
  pf_p : Z;
  pf_prime : prime (Z.to_nat pf_p);
  (** [F::from(n)] for an integer n, also [from_le_bytes_mod_order] *)
  pf_of : Z -> pf_field;
  (** [x.into()], the canonical representative as a big integer *)
  pf_to : pf_field -> Z;
  pf_of_add : forall a b, pf_of (a + b)%Z = pf_of a + pf_of b;
  pf_of_mul : forall a b, pf_of (a * b)%Z = pf_of a * pf_of b;
  pf_of_1 : pf_of 1%Z = 1;
  pf_of_to : forall x, pf_of (pf_to x) = x;
  pf_to_of : forall z, pf_to (pf_of z) = (z mod pf_p)%Z }.

(** [F::MODULUS_BIT_SIZE] *)
Definition modulus_bits (PF : prime_field) : nat := Z.to_nat (Z.log2 (pf_p PF) + 1).

Section Facts.
Variable PF : prime_field.
Local Notation p := (pf_p PF).
Local Notation ofz := (@pf_of PF).

Lemma pf_p_gt1 : (1 < p)%Z.
Proof.
have /prime_gt1 /ltP := pf_prime PF; lia.
Qed.

Lemma pf_of_0 : ofz 0 = 0.
Proof. by apply: (@addrI _ (ofz 0)); rewrite -pf_of_add addr0. Qed.

Lemma pf_of_opp a : ofz (- a)%Z = - ofz a.
Proof. by apply/eqP; rewrite -addr_eq0 -pf_of_add Z.add_opp_diag_l pf_of_0. Qed.

Lemma pf_of_sub a b : ofz (a - b)%Z = ofz a - ofz b.
Proof. by rewrite -pf_of_opp -pf_of_add. Qed.

Lemma pf_of_nat n : ofz (Z.of_nat n) = n%:R.
Proof.
elim: n => [|n IH]; first exact: pf_of_0.
by rewrite Nat2Z.inj_succ -Z.add_1_r pf_of_add IH pf_of_1 -addn1 natrD.
Qed.

Lemma pf_of_eq a b : ofz a = ofz b <-> (a mod p = b mod p)%Z.
Proof.
rewrite -!pf_to_of; split=> [-> //|E].
by rewrite -[ofz a]pf_of_to -[ofz b]pf_of_to E.
Qed.

Lemma pf_of_mod a : ofz (a mod p)%Z = ofz a.
Proof. by apply/pf_of_eq; rewrite Zmod_mod. Qed.

Lemma pf_of_eq0 a : ofz a = 0 <-> (a mod p = 0)%Z.
Proof. by rewrite -pf_of_0 pf_of_eq Zmod_0_l. Qed.

Lemma pf_of_small_neq0 a : (0 < a < p)%Z -> ofz a != 0.
Proof. by move=> h; apply/eqP => /pf_of_eq0; rewrite Z.mod_small; lia. Qed.

Lemma pf_nat_neq0 n : (0 < n)%N -> (Z.of_nat n < p)%Z -> n%:R != 0 :> PF.
Proof. by move=> /ltP n0 np; rewrite -pf_of_nat pf_of_small_neq0 //; lia. Qed.

Lemma pf_of_exp a n : ofz (a ^ Z.of_nat n)%Z = ofz a ^+ n.
Proof.
elim: n => [|n IH]; first by rewrite Z.pow_0_r expr0 pf_of_1.
by rewrite Nat2Z.inj_succ Z.pow_succ_r ?pf_of_mul ?IH ?exprS //; exact: Nat2Z.is_nonneg.
Qed.

Lemma pf_to_range (x : PF) : (0 <= pf_to x < p)%Z.
Proof. by rewrite -[x]pf_of_to pf_to_of; apply: Z.mod_pos_bound; have := pf_p_gt1; lia. Qed.

Lemma pf_to_inj : injective (@pf_to PF).
Proof. by move=> x y E; rewrite -[x]pf_of_to E pf_of_to. Qed.

Lemma pf_fermat (x : PF) : x != 0 -> x ^+ Z.to_nat (p - 1) = 1.
Proof.
move=> x0; have p1 := pf_p_gt1; have r := pf_to_range x.
rewrite -[x]pf_of_to -pf_of_exp Z2Nat.id; last by lia.
rewrite -pf_of_1; apply/pf_of_eq; rewrite fermat_Zgen; [| exact: pf_prime |].
  by rewrite Z.mod_small //; lia.
split; last by lia.
case: (Z.eq_dec (pf_to x) 0) => [E|]; last by lia.
by case/negP: x0; apply/eqP; rewrite -[x]pf_of_to E pf_of_0.
Qed.

(** x^e is a bijection when e is coprime to p-1. *)
Lemma pf_pow_bij (e : nat) : (0 < e)%N -> coprime e (Z.to_nat (p - 1)) ->
  bijective (fun x : PF => x ^+ e).
Proof.
move=> e0 /(coprimeP _ e0) [[u v]] /= E.
set m := Z.to_nat (p - 1) in E.
have uE : (e * u = 1 + m * v)%N.
  by rewrite mulnC [(m * v)%N]mulnC -E subnK // ltnW // -subn_gt0 E.
have cyc : forall (x : PF), x ^+ (1 + m * v) = x.
  move=> x; rewrite exprD expr1 exprM; case: (eqVneq x 0) => [->|x0]; first by rewrite mul0r.
  by rewrite pf_fermat // expr1n mulr1.
exists (fun x => x ^+ u) => x.
- by rewrite -exprM uE cyc.
- by rewrite -exprM mulnC uE cyc.
Qed.
End Facts.

(** * Instances *)

Lemma Fq_to_of z : fval (Fq_of_Z z) = (z mod q)%Z.
Proof. by []. Qed.
Lemma Fq_of_Z_1 : Fq_of_Z 1 = 1.
Proof. by []. Qed.
Definition Fq_pf : prime_field :=
  @PrimeField Fq_fieldType q q_prime Fq_of_Z fval Fq_of_Z_add Fq_of_Z_mul Fq_of_Z_1
    Fq_of_Z_val Fq_to_of.

(** Every prime has a [prime_field]. *)
Section Fp.
Variable p : nat.
Hypothesis pp : prime p.
Local Notation Fp := 'F_p.
Definition fp_of (z : Z) : Fp := (Z.to_nat (z mod Z.of_nat p)) %:R.
Definition fp_to (x : Fp) : Z := Z.of_nat x.
Let p0 : (0 < Z.of_nat p)%Z. Proof. have /prime_gt0/ltP := pp; lia. Qed.

Lemma fp_to_nat n : fp_to (n%:R) = (Z.of_nat n mod Z.of_nat p)%Z.
Proof. by rewrite /fp_to val_Fp_nat // Zofnat_modn ?prime_gt0. Qed.
Lemma fp_to_of z : fp_to (fp_of z) = (z mod Z.of_nat p)%Z.
Proof.
have h := Z.mod_pos_bound z _ p0.
by rewrite /fp_of fp_to_nat Z2Nat.id ?Zmod_mod //; lia.
Qed.
Lemma fp_of_to x : fp_of (fp_to x) = x.
Proof.
rewrite /fp_of /fp_to Z.mod_small; first by rewrite Nat2Z.id natr_Zp.
have := ltn_ord x; rewrite {2}Fp_cast // => /ltP; lia.
Qed.
Lemma fp_to_inj : injective fp_to.
Proof. by move=> x y E; rewrite -[x]fp_of_to E fp_of_to. Qed.
Lemma fp_of_nat n : fp_of (Z.of_nat n) = n%:R.
Proof. by apply: fp_to_inj; rewrite fp_to_of fp_to_nat. Qed.
Lemma fp_of_mod z : fp_of (z mod Z.of_nat p) = fp_of z.
Proof. by rewrite /fp_of Zmod_mod. Qed.
Lemma fp_of_add a b : fp_of (a + b)%Z = fp_of a + fp_of b.
Proof.
have ha := Z.mod_pos_bound a _ p0; have hb := Z.mod_pos_bound b _ p0.
rewrite -fp_of_mod Zplus_mod fp_of_mod {2 3}/fp_of -natrD -fp_of_nat; congr fp_of.
by rewrite -plusE Nat2Z.inj_add !Z2Nat.id //; lia.
Qed.
Lemma fp_of_mul a b : fp_of (a * b)%Z = fp_of a * fp_of b.
Proof.
have ha := Z.mod_pos_bound a _ p0; have hb := Z.mod_pos_bound b _ p0.
rewrite -fp_of_mod Zmult_mod fp_of_mod {2 3}/fp_of -natrM -fp_of_nat; congr fp_of.
by rewrite -multE Nat2Z.inj_mul !Z2Nat.id //; lia.
Qed.
Lemma fp_of_1 : fp_of 1 = 1.
Proof. by rewrite -[1%Z]/(Z.of_nat 1) fp_of_nat. Qed.
Lemma fp_prime : prime (Z.to_nat (Z.of_nat p)).
Proof. by rewrite Nat2Z.id. Qed.
Definition Fp_pf : prime_field :=
  @PrimeField [fieldType of Fp] (Z.of_nat p) fp_prime fp_of fp_to fp_of_add fp_of_mul fp_of_1
    fp_of_to fp_to_of.
End Fp.
