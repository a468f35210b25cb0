(** Facts about the shipped parameter sets. *)
From Coq Require Import ZArith Lia.
From mathcomp Require Import all_ssreflect all_algebra.
From Verif Require Import Base PrimeLib Fq Matrix MatrixSpec MatrixProofs Params Montgomery Permutation Spec.
From Verif Require Import PermutationProofs PoseidonProofs Check CheckSound BigField RateChecks Cauchy SBox.
Set Implicit Arguments.
Unset Strict Implicit.
Unset Printing Implicit Defensive.
Import GRing.Theory.
Local Open Scope ring_scope.
Delimit Scope Z_scope with Z.

Definition header_ok A (p : params A) : bool :=
  [&& p_t p == (1 + p_t1 p)%N, (1 <= p_t1 p <= 7)%N, p_M p == 128%N,
      (if p_alpha p is Exponent e then (e =? 17)%num else false),
      r_P (p_rounds p) == 31%N & r_F (p_rounds p) == 8%N].

Lemma headers : all (@header_ok limbs) shipped_raw.
Proof. by vm_compute. Qed.

Definition params_elements A (p : params A) : seq A :=
  let om := p_optimized_mds p in
  elements (p_mds p) ++ elements (p_arc p) ++ elements (p_optimized_arc p) ++
  elements (om_M_hat om) ++ elements (om_v om) ++ elements (om_w om) ++
  elements (om_M_prime om) ++ elements (om_M_doubleprime om) ++
  elements (om_M_inverse om) ++ elements (om_M_hat_inverse om) ++ [:: om_M_00 om] ++
  elements (om_M_i om) ++ flatten (map (@elements A) (om_v_collection om)) ++
  flatten (map (@elements A) (om_w_hat_collection om)).

Lemma canonical_big : all (fun r => all canonical_limbs (params_elements r)) shipped_raw = true.
Proof. vm_cast_no_check (erefl true). Qed.

Lemma small_Fq m : (0 < m < 24)%N -> m%:R != 0 :> Fq.
Proof.
move=> /andP [m0 m24]; rewrite -Fq_of_Z_nat Fq_of_Z_eq0; apply/negP => /Z.eqb_eq.
rewrite Z.mod_small; first by move: m0; rewrite -[0%N]/(Z.to_nat 0) => /ltP; lia.
move/ltP: m24 => H; split; first exact: Nat2Z.is_nonneg.
by apply: (Z.lt_trans _ 24); first lia.
Qed.

Section One.
Variable p : params Fq_fieldType.
Hypothesis hp : List.In p shipped.
Local Notation t1 := (p_t1 p).

Lemma shipped_rawP : exists2 r, List.In r shipped_raw & p = from_montgomery_params r.
Proof.
have : List.In p (map from_montgomery_params shipped_raw) by rewrite -shippedE.
elim: shipped_raw => //= r l IH [<-|/IH [r' h ->]]; first by exists r => //; left.
by exists r' => //; right.
Qed.

Lemma shipped_spec : [/\ p_t p = (1 + t1)%N, (1 <= t1 <= 7)%N, p_M p = 128%N,
  p_alpha p = Exponent 17 & p_rounds p = RoundNumbers 31 8].
Proof.
have [r hr ->] := shipped_rawP.
have := all_In headers hr; rewrite /header_ok /from_montgomery_params /=.
case: r {hr} => /= t t1 M a [rp rf] _ _ _ _; case/and5P=> /eqP -> h /eqP ->.
by case: a => //= e /N.eqb_eq -> /andP [/eqP -> /eqP ->].
Qed.

Lemma shipped_check : check_params (field_ops Fq_fieldType) p.
Proof. by have [r hr ->] := shipped_rawP; apply: checked. Qed.

Lemma shipped_wf : wf_params p.
Proof. by case/and5P: shipped_check. Qed.

Lemma shipped_mds : toM (1 + t1) (1 + t1) (p_mds p) = cauchy_mx _ (1 + t1).
Proof.
have [ht _ _ _ _] := shipped_spec; have wf := shipped_wf.
case/and5P: shipped_check => _ _ hc _ _.
by apply/matrixP => i j; have [_] := check_cauchy_sound ht erefl wf hc i j; rewrite /pM => ->; rewrite mxE.
Qed.

Lemma shipped_cauchy : mds_mx (cauchy_mx Fq_fieldType (1 + t1)).
Proof.
have [_ /andP [_ l7] _ _ _] := shipped_spec.
apply: cauchy_mds => m /andP [m0 ml]; apply: small_Fq; rewrite m0 /=.
by apply: (leq_trans ml); rewrite (leq_mul2l 3 (1 + t1) 8).
Qed.

Local Notation t := (1 + p_t1 p)%N.
Local Notation S17 := (fun x : Fq => x ^+ 17).
Let ht : p_t p = t. Proof. by case: shipped_spec. Qed.

(** Both permutations are the textbook permutation. *)
Definition shipped_poseidon : 'cV[Fq]_t -> 'cV[Fq]_t :=
  poseidon S17 (cauchy_mx _ t) (fun r => \col_i nth 0 (elements (p_arc p)) (r * t + i)) 4 31.

Lemma shipped_unopt x : unoptimized_permute p (ofV x) = Ret (ofV (shipped_poseidon x)).
Proof.
have [_ _ _ ha hr] := shipped_spec.
rewrite (unoptimized_permute_ofV ht erefl shipped_wf) (unoptV_poseidon ha) /= hr /=.
by rewrite /pM shipped_mds.
Qed.

Lemma shipped_opt x : permute p (ofV x) = Ret (ofV (shipped_poseidon x)).
Proof.
have [_ _ _ ha hr] := shipped_spec; have wf := shipped_wf.
case/and5P: shipped_check => _ _ hc hf /andP [hk _].
have Rp0 : (0 < r_P (p_rounds p))%N by rewrite hr.
rewrite -shipped_unopt (unoptimized_permute_ofV ht erefl wf) (permute_ofV ht erefl wf) //.
rewrite (opt_unopt Rp0 (check_factor_sound ht erefl wf hf)) //.
exact: (check_consts_sound ht erefl wf Rp0 hk).
Qed.

Lemma shipped_bij : bijective shipped_poseidon.
Proof.
apply: bij_poseidon; first exact: pow17_bij.
exact: (mds_unit shipped_cauchy).
Qed.
End One.
Arguments shipped_poseidon : clear implicits.
