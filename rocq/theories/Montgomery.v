(** decaf377's [Fq::from_montgomery_limbs] (external; contract): the four 64-bit
    limbs, least significant first, hold [x * 2^256 mod q]. *)
From Coq Require Import ZArith Lia.
From mathcomp Require Import all_ssreflect all_algebra.
From Verif Require Import Base Fq Matrix Params.
Set Implicit Arguments.
Unset Strict Implicit.
Unset Printing Implicit Defensive.
Import GRing.Theory.
Local Open Scope ring_scope.
Delimit Scope Z_scope with Z.

Record limbs := mkLimbs { limb0 : Z; limb1 : Z; limb2 : Z; limb3 : Z }.

Definition limbs_val (l : limbs) : Z :=
  (limb0 l + 2 ^ 64 * (limb1 l + 2 ^ 64 * (limb2 l + 2 ^ 64 * limb3 l)))%Z.

Definition from_montgomery_limbs (l : limbs) : Fq :=
  Fq_of_Z (limbs_val l) / Fq_of_Z (2 ^ 256).

Definition from_montgomery_params (p : params limbs) : params Fq_fieldType :=
  map_params from_montgomery_limbs p.

(** Limbs as the [u64]s of a reduced representation. *)
Definition canonical_limbs (l : limbs) : bool :=
  let u64 z := ((0 <=? z) && (z <? 2 ^ 64))%Z in
  [&& u64 (limb0 l), u64 (limb1 l), u64 (limb2 l), u64 (limb3 l) &
      (limbs_val l <? q)%Z].

(** 2^-256 mod q *)
Definition mont_rinv : Z :=
  3482466379256973933331601287759811764685972354380176549708408303012390300674%Z.

Lemma mont_rinvE : Fq_of_Z mont_rinv = (Fq_of_Z (2 ^ 256))^-1.
Proof.
have h : Fq_of_Z (2 ^ 256) * Fq_of_Z mont_rinv = 1.
  by rewrite -Fq_of_Z_mul; apply: Fq_of_Z_eq; vm_compute.
have n0 : Fq_of_Z (2 ^ 256) != 0.
  by apply/negP => /eqP z; move: h; rewrite z mul0r => /esym/eqP; rewrite oner_eq0.
by rewrite -[LHS]mul1r -(mulVf n0) -mulrA h mulr1.
Qed.

Lemma from_montgomery_limbsE l :
  from_montgomery_limbs l = Fq_of_Z (limbs_val l * mont_rinv).
Proof. by rewrite Fq_of_Z_mul mont_rinvE. Qed.

(** On canonical limbs the decoding is injective. *)
Lemma canonical_inj l l' : canonical_limbs l -> canonical_limbs l' ->
  from_montgomery_limbs l = from_montgomery_limbs l' -> l = l'.
Proof.
case: l => a0 a1 a2 a3; case: l' => b0 b1 b2 b3.
rewrite /canonical_limbs; cbn [limb0 limb1 limb2 limb3].
set va := limbs_val _; set vb := limbs_val _.
case/and5P=> /andP [/Z.leb_le A0 /Z.ltb_lt A0'] /andP [/Z.leb_le A1 /Z.ltb_lt A1']
  /andP [/Z.leb_le A2 /Z.ltb_lt A2'] /andP [/Z.leb_le A3 /Z.ltb_lt A3'] /Z.ltb_lt VA.
case/and5P=> /andP [/Z.leb_le B0 /Z.ltb_lt B0'] /andP [/Z.leb_le B1 /Z.ltb_lt B1']
  /andP [/Z.leb_le B2 /Z.ltb_lt B2'] /andP [/Z.leb_le B3 /Z.ltb_lt B3'] /Z.ltb_lt VB.
have n0 : Fq_of_Z (2 ^ 256) != 0 by rewrite Fq_of_Z_eq0; vm_compute.
move/(mulIf (invr_neq0 n0)) => /(congr1 fval); cbn [fval Fq_of_Z].
have pa : (0 <= va)%Z by rewrite /va /limbs_val; cbn [limb0 limb1 limb2 limb3]; lia.
have pb : (0 <= vb)%Z by rewrite /vb /limbs_val; cbn [limb0 limb1 limb2 limb3]; lia.
rewrite !Z.mod_small; [|lia|lia]; rewrite /va /vb /limbs_val; cbn [limb0 limb1 limb2 limb3] => E.
have E0 : a0 = b0 by lia.
have E1 : a1 = b1 by lia.
have E2 : a2 = b2 by lia.
have E3 : a3 = b3 by lia.
by rewrite E0 E1 E2 E3.
Qed.
