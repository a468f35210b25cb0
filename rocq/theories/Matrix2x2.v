(** The matrix of two rows and two columns with given entries. *)
From mathcomp Require Import all_ssreflect all_algebra.
From Verif Require Import Base Matrix MatrixSpec MatrixProofs MatrixProps.
Set Implicit Arguments.
Unset Strict Implicit.
Unset Printing Implicit Defensive.
Import GRing.Theory.
Local Open Scope ring_scope.

Theorem new_2x2_entries (F : fieldType) (a b c d : F) :
  exists m, [/\ new_2x2 a b c d = Ret m, get_element m 0 0 = Ret a /\ get_element m 0 1 = Ret b,
                get_element m 1 0 = Ret c & get_element m 1 1 = Ret d].
Proof. by eexists; split; first reflexivity. Qed.

Theorem new_2x2_determinant (F : fieldType) (a b c d : F) :
  bind (new_2x2 a b c d) (fun m => determinant m) = Ret (a * d - b * c).
Proof.
have E : new_2x2 a b c d = Ret (Rmat 2 2 [:: a; b; c; d]) by [].
have [_ M] := @mnew_row_major F 2 2 4 [:: a; b; c; d] _ ord0 ord0 E.
rewrite E bind_ret M determinant_ofM // (expand_det_row _ ord0) !big_ord_recl big_ord0 addr0.
by rewrite /cofactor !det_mx11 !mxE /= expr0 expr1 mul1r mulN1r mulrN.
Qed.
