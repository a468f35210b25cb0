(** Instances of C77. *)
From Coq Require Import ZArith.
From mathcomp Require Import all_ssreflect all_algebra.
From Verif Require Import Base Fq Matrix MatrixSpec ActiveSpec BranchSpec V2 V2Spec ExternalBranch Properties_Branch.
Set Implicit Arguments.
Unset Strict Implicit.
Unset Printing Implicit Defensive.
Import GRing.Theory.
Local Open Scope ring_scope.

(** Width 8, 24 and 28 over the project's field: 6, 10, and 10 again. *)
Example branch_8 : exists2 m, external_generate Fq_fieldType 8 = Ret m & branch_number (toM 8 8 m) 6.
Proof. exact (@C77_Fq 8 (erefl _) isT isT). Qed.
Example branch_24 : exists2 m, external_generate Fq_fieldType 24 = Ret m & branch_number (toM 24 24 m) 10.
Proof. exact (@C77_Fq 24 (erefl _) isT isT). Qed.
Example branch_28 : exists2 m, external_generate Fq_fieldType 28 = Ret m & branch_number (toM 28 28 m) 10.
Proof. exact (@C77_Fq 28 (erefl _) isT isT). Qed.

(** The branch number is one number: at width 28 it is not 28/4 + 4. *)
Lemma branch_number_unique (F : fieldType) n (M : 'M[F]_n) b c : branch_number M b -> branch_number M c -> b = c.
Proof.
by case=> B [x [x0 Ex]] [C [y [y0 Ey]]]; apply/eqP; rewrite eqn_leq -{1}Ey -{2}Ex B // C.
Qed.
Example branch_28_not_11 m : external_generate Fq_fieldType 28 = Ret m -> ~ branch_number (toM 28 28 m) 11.
Proof. by case: branch_28 => m' -> H [<-] /(branch_number_unique H). Qed.

(** The hypothesis on the field is needed: over the field with two elements the first
    unit vector of width 8 is mapped to a vector of weight 3. *)
Example branch_two : ~ branch (external_mx [fieldType of 'F_2] 2) 6.
Proof.
move=> /(_ (\col_(k < 8) (k == 0%N :> nat)%:R)) H.
have E (i : 'I_8) : (external_mx [fieldType of 'F_2] 2 *m \col_(k < 8) (k == 0%N :> nat)%:R) i 0 = (((i %/ 4 == 0)%N).+1 * m4 (i %% 4) 0)%:R.
  rewrite mxE (bigD1 (ord0 : 'I_8)) //= !mxE eqxx mulr1 big1 ?addr0 // => j.
  by rewrite -val_eqE /= !mxE => /negbTE ->; rewrite mulr0.
have : (6 <= wt (\col_(k < 8) (k == 0%N :> nat)%:R : 'cV['F_2]_8) + wt (external_mx [fieldType of 'F_2] 2 *m \col_(k < 8) (k == 0%N :> nat)%:R))%N.
  by apply: H; apply/negP => /eqP /colP /(_ ord0); rewrite !mxE.
rewrite !wtE (eq_bigr (fun i : 'I_8 => nat_of_bool (i == 0%N :> nat))); last by move=> i _; rewrite mxE; case: (nat_of_ord i == 0%N).
have -> : (\sum_i ((external_mx [fieldType of 'F_2] 2 *m \col_(k < 8) (k == 0%N :> nat)%:R) i 0%R != 0%R) =
    \sum_(i < 8) ((((i %/ 4 == 0)%N).+1 * m4 (i %% 4) 0)%:R%R != 0%R :> 'F_2))%N by apply: eq_bigr => i _; rewrite E.
by rewrite !big_ord_recl !big_ord0.
Qed.
