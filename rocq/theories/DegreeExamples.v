(** Instances for C67. *)
From Coq Require Import ZArith NArith Reals.
From mathcomp Require Import all_ssreflect all_algebra.
From Verif Require Import Base Fq Matrix MatrixSpec Params Permutation Spec RateChecks Hash ActiveSpec.
From Verif Require Import DegreeSpec DegreeProofs DegreeShipped.
Set Implicit Arguments.
Unset Strict Implicit.
Unset Printing Implicit Defensive.
Import GRing.Theory.
Local Open Scope ring_scope.

(** The S-box has degree 17. *)
Example sbox_17 : exact_degree (fun x : Fq_fieldType => x ^+ 17) 17.
Proof. by exists 'X^17; [rewrite size_polyXn|move=> x; rewrite hornerXn]. Qed.

(** Over three elements the cube is the identity, of degree 1 and 3 at once: a degree
    counts only below the size of the field, whence [C67_numbers]. *)
Example cube_F3 : exact_degree (fun x : 'F_3 => x) 3 /\ exact_degree (fun x : 'F_3 => x) 1.
Proof.
split; last by exists 'X; [rewrite size_polyX|move=> x; rewrite hornerX].
exists 'X^3; first by rewrite size_polyXn.
by move=> x; rewrite hornerXn; case: x => [] [|[|[|//]]] h; apply/val_inj.
Qed.

(** With squares and the matrix (1 1; 1 -1) the second word loses its leading term in the
    second round, although no entry of the matrix is zero: the condition of [C67_exact]
    is needed. *)
Definition M2 (F : fieldType) : 'M[F]_2 := \matrix_(i, j) (if (i == 1) && (j == 1) then -1 else 1).
Example M2_entries (F : fieldType) j : nonzero (col j (M2 F)).
Proof. by move=> i; rewrite !mxE; case: ifP => _; rewrite ?oppr_eq0 oner_neq0. Qed.
Example M2_drop (F : fieldType) : ~ nonzero (FL 2 (M2 F) (col 0 (M2 F))).
Proof. by move=> /(_ 1); rewrite !mxE !big_ord_recl big_ord0 !mxE /= expr1n mul1r mulN1r addr0 subrr eqxx. Qed.
Example M2_degree (F : fieldType) :
  degree_le (fun x => after (fun y : F => y ^+ 2) (M2 F) (fun _ => 0) 2 1 2 (with_word 0 0 x) 1 0) 0.
Proof.
exists 0; first by rewrite size_poly0.
move=> x; rewrite horner0; rewrite /after /=; rewrite !mxE !big_ord_recl big_ord0 !mxE /=.
rewrite !big_ord_recl !big_ord0 !mxE /=.
by rewrite !addr0 expr0n /= !mulr0 !addr0 !mul1r !subr0 mulN1r subrr.
Qed.

(** The seventh hash with the fourth input unknown *)
Example hash_7_degree (ds v0 v1 v2 v4 v5 v6 : Fq) : exists2 P : {poly Fq},
  size P = (17 ^ 39).+1 & forall x, hash_7 ds (v0, v1, v2, x, v4, v5, v6) = Ret P.[x].
Proof.
have E x : hash_7 ds (v0, v1, v2, x, v4, v5, v6) = hash_on (set_nth 0 [:: ds; v0; v1; v2; 0; v4; v5; v6] 4 x).
  exact (erefl (hash_7 ds (v0, v1, v2, x, v4, v5, v6))).
have [P sP hP] := @hash_degree [:: ds; v0; v1; v2; 0; v4; v5; v6] 4 isT isT.
exists P; [exact sP|move=> x; rewrite E; exact (hP x)].
Qed.

(** The first hash is not x^17 in its input. *)
Lemma size_X17 k : (size ('X^17 : {poly Fq}) <= 17 ^ k.+2)%N.
Proof. by rewrite size_polyXn; apply: (@leq_trans (17 ^ 2)); last rewrite leq_exp2l. Qed.
Example hash_1_not_power (ds : Fq) : exists x, hash_1 ds x <> Ret (x ^+ 17).
Proof.
have [x n] := @hash_no_shorter [:: ds; 0] 1 'X^17 isT isT (size_X17 37).
exists x; have E : hash_1 ds x = hash_on (set_nth 0 [:: ds; 0] 1 x) by exact (erefl (hash_1 ds x)).
by rewrite hornerXn -E in n.
Qed.
