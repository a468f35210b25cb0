(** Concrete, non-trivial instances for the matrix properties, computed in the
    model over [Fq]. *)
From Coq Require Import ZArith.
From mathcomp Require Import all_ssreflect all_algebra.
From Verif Require Import Base Fq Matrix MatrixSpec MatrixProofs Matrix2x2.
Import GRing.Theory.
Local Open Scope rust_scope.
Delimit Scope Z_scope with Z.

Definition els (l : seq Z) : seq Fq := map Fq_of_Z l.
Definition show (o : outcome (rmat Fq)) : outcome (nat * nat * seq Z) :=
  omap (fun m => (n_rows m, n_cols m, map fval (elements m))) o.
Definition A33 : rmat Fq := Rmat 3 3 (els [:: 2; 3; 5; 7; 11; 13; 17; 19; 23]%Z).
Definition A23 : rmat Fq := Rmat 2 3 (els [:: 1; 2; 3; 4; 5; 6]%Z).
Definition S22 : rmat Fq := Rmat 2 2 (els [:: 1; 2; 2; 4]%Z).

Example A33_wf : wf_shape 3 3 A33. Proof. by vm_compute. Qed.
Example A23_wf : wf_shape 2 3 A23. Proof. by vm_compute. Qed.
Example A33_det : omap fval (determinant A33) = Ret (q - 78)%Z. Proof. by vm_compute. Qed.
Example A33_inverse : (r <- inverse A33 ;; i <- expect r ;; show (square_mat_mul 9 A33 i))
  = Ret (3, 3, [:: 1; 0; 0; 0; 1; 0; 0; 0; 1]%Z). Proof. by vm_compute. Qed.
Example S22_singular : inverse S22 = Ret (Err NoMatrixInverse). Proof. by vm_compute. Qed.
Example A23_transpose : show (transpose A23) = Ret (3, 2, [:: 1; 4; 2; 5; 3; 6]%Z).
Proof. by vm_compute. Qed.
Example A23_mul : show (mat_mul 6 A23 A33) = Ret (2, 3, [:: 67; 82; 100; 145; 181; 223]%Z).
Proof. by vm_compute. Qed.
Example A23_mul_mismatch : mat_mul 6 A33 A23 = Panic. Proof. by vm_compute. Qed.
Example A23_mul_size : mat_mul 5 A23 A33 = Panic. Proof. by vm_compute. Qed.
Example A23_mul_size2 : mat_mul 7 A23 A33 = Panic. Proof. by vm_compute. Qed.
Example A33_minors : show (minors A33) = Ret (3, 3,
  [:: 6%Z; (q - 60)%Z; (q - 54)%Z; (q - 26)%Z; (q - 39)%Z; (q - 13)%Z; (q - 16)%Z; (q - 9)%Z; 1%Z]).
Proof. by vm_compute. Qed.
Example A23_set : show (set_element A23 1 2 (Fq_of_Z 9)) = Ret (2, 3, [:: 1; 2; 3; 4; 5; 9]%Z).
Proof. by vm_compute. Qed.
Example A23_alias : omap fval (get_element A23 0 4) = Ret 5%Z. Proof. by vm_compute. Qed.
Example A23_oob : get_element A23 1 3 = Panic. Proof. by vm_compute. Qed.
Example A23_row : row_vector A23 0 = Panic. Proof. by vm_compute. Qed.
Example A33_hat : show (mds_hat 2 4 A33) = Ret (2, 2, [:: 11; 13; 19; 23]%Z).
Proof. by vm_compute. Qed.
Example A33_v : show (mds_v 2 A33) = Ret (1, 2, [:: 3; 5]%Z). Proof. by vm_compute. Qed.
Example A33_w : show (mds_w 2 A33) = Ret (2, 1, [:: 7; 17]%Z). Proof. by vm_compute. Qed.
Example dot : omap fval (dot_product (els [:: 1; 2; 3]%Z) (els [:: 4; 5; 6]%Z)) = Ret 32%Z.
Proof. by vm_compute. Qed.
Example dot_mismatch : dot_product (els [:: 1; 2; 3]%Z) (els [:: 4; 5]%Z) = Panic.
Proof. by vm_compute. Qed.
Example mds_four : show (mds_from_elements 2 4 (els [:: 1; 2; 3; 4]%Z)) = Ret (2, 2, [:: 1; 2; 3; 4]%Z).
Proof. by vm_compute. Qed.
Example new_wrong : mnew 2 2 4 (els [:: 1; 2; 3]%Z) = Panic. Proof. by vm_compute. Qed.

(** Entries 2, 3, 5, 7: the determinant is -1. *)
Section TwoByTwo.
Local Open Scope ring_scope.
Example det_2x2 : bind (new_2x2 (2%:R : 'F_11) 3%:R 5%:R 7%:R) (fun m => determinant m) = Ret (-1).
Proof. by rewrite new_2x2_determinant; congr Ret; apply: val_inj. Qed.
End TwoByTwo.
