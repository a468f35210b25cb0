(** Instances for C73: inputs found by running the permutations backwards from
    zero, and a collision. *)
From Coq Require Import ZArith.
From mathcomp Require Import all_ssreflect all_algebra.
From Verif Require Import Base Fq Matrix Params Montgomery Permutation Hash RateChecks PoseidonProps TestVectors.
From Verif Require Import Rate1 Rate2 DegreeShipped InvertSpec InvertProofs InvertShipped.
Set Implicit Arguments.
Unset Strict Implicit.
Unset Printing Implicit Defensive.
Import GRing.Theory.
Local Open Scope ring_scope.
Delimit Scope Z_scope with Z.

(** Two pairs of a domain separator and an input whose hash is zero *)
Definition zero_1 : seq Z :=
  [:: 5715383237518260320995289015141111353521846202003890740295394124131024668075;
      2446638037543084466119965144690579123142027092584218775315305864202560179186]%Z.
Definition zero_1' : seq Z :=
  [:: 4002946596650752194604136360557058514022209565482431160347012566970451442015;
      3619891962621519351780269181562680084704859110410969744532252975017869849273]%Z.
(** A domain separator and two inputs whose hash is zero *)
Definition zero_2 : seq Z :=
  [:: 52620268612637745124907646900583647314194082659144621838883564136623543365;
      7899481376560073340342054411116012249552798376230677636052394920361441794106;
      3762254817602292234547722911036142989727357955038054531722583124074446656953]%Z.

Lemma zeros_big : [&& big_hash rate_1_raw zero_1 =? 0, big_hash rate_1_raw zero_1' =? 0 & big_hash rate_2_raw zero_2 =? 0]%Z = true.
Proof. vm_cast_no_check (erefl true). Qed.

Example hash_zero : hash_on (map Fq_of_Z zero_1) = Ret (Fq_of_Z 0).
Proof.
have /and3P [/Z.eqb_eq <- _ _] := zeros_big; rewrite [LHS]hash_1E; congr Ret.
exact (@big_hashE rate_1_raw zero_1 raw1 erefl).
Qed.
Example hash_zero' : hash_on (map Fq_of_Z zero_1') = Ret (Fq_of_Z 0).
Proof.
have /and3P [_ /Z.eqb_eq <- _] := zeros_big; rewrite [LHS]hash_1E; congr Ret.
exact (@big_hashE rate_1_raw zero_1' raw1 erefl).
Qed.
Example hash_zero_2 : hash_on (map Fq_of_Z zero_2) = Ret (Fq_of_Z 0).
Proof.
have /and3P [_ _ /Z.eqb_eq <-] := zeros_big; rewrite [LHS]hash_2E; congr Ret.
exact (@big_hashE rate_2_raw zero_2 raw2 erefl).
Qed.
Example collision_1 : map Fq_of_Z zero_1 <> map Fq_of_Z zero_1' /\
  hash_on (map Fq_of_Z zero_1) = hash_on (map Fq_of_Z zero_1').
Proof.
split; last by rewrite hash_zero hash_zero'.
by move=> /(congr1 (fun l => fval (head 0 l))); move/Z.eqb_eq => h; vm_compute in h.
Qed.

(** They are among those that the backward run gives. *)
Example zero_is_preimage : exists w, size w = 1%N /\ map Fq_of_Z zero_1 = preimage 0 w.
Proof.
have H := proj1 (@preimages 1 isT (map Fq_of_Z zero_1) 0 erefl) hash_zero.
by have [w [h _]] := H; exists w.
Qed.

(** Counting over the field of three elements: the nine pairs *)
Example pairs_3 : all_lists 2 (lists [:: 0; 1; 2%:R : 'F_3] 2) /\ size (lists [:: 0; 1; 2%:R : 'F_3] 2) = 9%N.
Proof.
split; last by [].
by apply: lists_all => // -[] [|[|[|//]]] h; rewrite !inE -!val_eqE.
Qed.
(** The pairs with a given sum are a third of them. *)
Example sums_3 (h : 'F_3) : count (fun l => nth 0 l 0 + nth 0 l 1 == h) (lists [:: 0; 1; 2%:R : 'F_3] 2) = 3%N.
Proof. by case: h => [] [|[|[|//]]] h; apply/eqP; vm_compute. Qed.
