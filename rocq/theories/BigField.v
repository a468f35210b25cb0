(** Arithmetic modulo [q] on machine-integer based numbers (Bignums), used only
    to run [check_params]; [phi] maps it homomorphically to [Fq]. *)
From Coq Require Import ZArith.
From Bignums Require Import BigZ.
From mathcomp Require Import all_ssreflect all_algebra.
From Verif Require Import Base Fq Matrix Params Montgomery Check.
Set Implicit Arguments.
Unset Strict Implicit.
Unset Printing Implicit Defensive.
Import GRing.Theory.
Local Open Scope ring_scope.
Delimit Scope Z_scope with Z.

Definition bq : BigZ.t := Eval vm_compute in BigZ.of_Z q.
Definition brinv : BigZ.t := Eval vm_compute in BigZ.of_Z mont_rinv.
Definition b64 : BigZ.t := Eval vm_compute in BigZ.of_Z (2 ^ 64).

Definition bops : ops BigZ.t :=
  Ops BigZ.zero BigZ.one
    (fun a b => BigZ.modulo (BigZ.add a b) bq)
    (fun a b => BigZ.modulo (BigZ.sub a b) bq)
    (fun a b => BigZ.modulo (BigZ.mul a b) bq)
    BigZ.eqb
    (fun n => BigZ.modulo (BigZ.of_Z (Z.of_nat n)) bq).

Definition fops : ops Fq :=
  Ops 0 1 (fun a b => a + b) (fun a b => a - b) (fun a b => a * b)
    (fun a b => a == b) (fun n => n%:R).

Definition phi (a : BigZ.t) : Fq := Fq_of_Z (BigZ.to_Z a).

Lemma bqE : BigZ.to_Z bq = q. Proof. by vm_compute. Qed.
Lemma brinvE : BigZ.to_Z brinv = mont_rinv. Proof. by vm_compute. Qed.
Lemma b64E : BigZ.to_Z b64 = (2 ^ 64)%Z. Proof. by vm_compute. Qed.

Lemma phi0 : phi (o0 bops) = o0 fops. Proof. by []. Qed.
Lemma phi1 : phi (o1 bops) = o1 fops. Proof. by []. Qed.
Lemma phi_add a b : phi (oadd bops a b) = oadd fops (phi a) (phi b).
Proof. by rewrite /phi /= BigZ.spec_modulo BigZ.spec_add bqE Fq_of_Z_mod Fq_of_Z_add. Qed.
Lemma phi_sub a b : phi (osub bops a b) = osub fops (phi a) (phi b).
Proof. by rewrite /phi /= BigZ.spec_modulo BigZ.spec_sub bqE Fq_of_Z_mod Fq_of_Z_sub. Qed.
Lemma phi_mul a b : phi (omul bops a b) = omul fops (phi a) (phi b).
Proof. by rewrite /phi /= BigZ.spec_modulo BigZ.spec_mul bqE Fq_of_Z_mod Fq_of_Z_mul. Qed.
Lemma phi_eq a b : oeq bops a b -> oeq fops (phi a) (phi b).
Proof. by rewrite /= BigZ.spec_eqb /phi => /Z.eqb_eq ->. Qed.
Lemma phi_nat n : phi (onat bops n) = onat fops n.
Proof. by rewrite /phi /= BigZ.spec_modulo BigZ.spec_of_Z bqE Fq_of_Z_mod Fq_of_Z_nat. Qed.

(** Decoding Montgomery limbs. *)
Definition bmont (l : limbs) : BigZ.t :=
  BigZ.modulo (BigZ.mul brinv
    (BigZ.add (BigZ.of_Z (limb0 l)) (BigZ.mul b64
      (BigZ.add (BigZ.of_Z (limb1 l)) (BigZ.mul b64
        (BigZ.add (BigZ.of_Z (limb2 l)) (BigZ.mul b64 (BigZ.of_Z (limb3 l))))))))) bq.

Lemma phi_bmont l : phi (bmont l) = from_montgomery_limbs l.
Proof.
rewrite from_montgomery_limbsE /phi /bmont BigZ.spec_modulo bqE Fq_of_Z_mod.
rewrite !(BigZ.spec_mul, BigZ.spec_add, BigZ.spec_of_Z) b64E brinvE Z.mul_comm.
by [].
Qed.
