(** The parameter sets shipped in /repo/poseidon377/src/params pass
    [check_params]; computed on machine integers, transferred to [Fq]. *)
From Coq Require Import ZArith.
From Bignums Require Import BigZ.
From mathcomp Require Import all_ssreflect all_algebra.
From Verif Require Import Base Fq Matrix Params Montgomery Check BigField.
From Verif Require Import Rate1 Rate2 Rate3 Rate4 Rate5 Rate6 Rate7.
Set Implicit Arguments.
Unset Strict Implicit.
Unset Printing Implicit Defensive.

(** /repo/poseidon377/src/lib.rs:10-34 *)
Definition shipped_raw : seq (params limbs) :=
  [:: rate_1_raw; rate_2_raw; rate_3_raw; rate_4_raw; rate_5_raw; rate_6_raw; rate_7_raw].
Definition shipped : seq (params Fq_fieldType) :=
  [:: RATE_1_PARAMS; RATE_2_PARAMS; RATE_3_PARAMS; RATE_4_PARAMS; RATE_5_PARAMS;
      RATE_6_PARAMS; RATE_7_PARAMS].

Lemma shippedE : shipped = map from_montgomery_params shipped_raw.
Proof. by []. Qed.

Lemma checked_big : all (fun r => check_params bops (map_params bmont r)) shipped_raw = true.
Proof. vm_cast_no_check (erefl true). Qed.

Lemma map_params_comp A B C (f : A -> B) (g : B -> C) p :
  map_params g (map_params f p) = map_params (g \o f) p.
Proof.
case: p => t t1 M a r [? ? m] [? ? arc] [? ? oarc] [[? ? ?] [? ? ?] [? ? ?] [? ? ?] [? ? ?] [? ? ?] [? ? ?] ? [? ? ?] vs ws].
rewrite /map_params /map_optimized_mds /map_rmat /=.
by rewrite -!map_comp; congr Params; congr OptimizedMds; apply: eq_map => x; rewrite /= -map_comp.
Qed.

Lemma eq_map_params A B (f g : A -> B) p : f =1 g -> map_params f p = map_params g p.
Proof.
move=> E; have Em : map_rmat f =1 map_rmat g by case=> r c l; rewrite /map_rmat /= (eq_map E).
by case: p => t t1 M a r m arc oarc o; rewrite /map_params /map_optimized_mds /= !Em E !(eq_map Em).
Qed.

Lemma all_In T (a : pred T) l x : all a l -> List.In x l -> a x.
Proof. by elim: l => //= y l IH /andP [ay al] [<- //|]; apply: IH. Qed.

Lemma checked r : List.In r shipped_raw -> check_params fops (from_montgomery_params r).
Proof.
move=> /(all_In checked_big) C.
have := check_params_phi phi0 phi1 phi_add phi_sub phi_mul phi_eq phi_nat C.
by rewrite map_params_comp (eq_map_params _ phi_bmont).
Qed.
