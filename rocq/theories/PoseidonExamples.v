(** Concrete instances for the properties of the permutation. *)
From Coq Require Import ZArith.
From mathcomp Require Import all_ssreflect all_algebra.
From Verif Require Import Base Fq Matrix MatrixExamples Params Permutation PoseidonProofs PoseidonProps.
Import GRing.Theory.
Local Open Scope rust_scope.
Delimit Scope Z_scope with Z.

(** A small parameter set with given numbers of rounds (r_P in {0, 1}). *)
Definition tiny (a : alpha) (rp rf : nat) : params Fq_fieldType :=
  Params 2 1 80 a (RoundNumbers rp rf)
    (Rmat 2 2 (els [:: 2; 3; 5; 7]%Z))
    (Rmat (rp + rf) 2 (els (take (2 * (rp + rf)) [:: 1; 2; 3; 4; 5; 6; 7; 8; 9; 10]%Z)))
    (Rmat (rp + rf) 2 (els (take (2 * (rp + rf)) [:: 1; 2; 3; 4; 5; 6; 7; 8; 9; 10]%Z)))
    (OptimizedMds (Rmat 1 1 (els [:: 7]%Z)) (Rmat 1 1 (els [:: 3]%Z)) (Rmat 1 1 (els [:: 5]%Z))
       (Rmat 2 2 (els [:: 1; 0; 0; 7]%Z)) (Rmat 2 2 (els [:: 2; 3; 0; 1]%Z))
       (Rmat 2 2 (els [:: 0; 0; 0; 0]%Z)) (Rmat 1 1 (els [:: 0]%Z)) (Fq_of_Z 2)
       (Rmat 2 2 (els [:: 1; 0; 0; 7]%Z))
       (nseq rp (Rmat 1 1 (els [:: 5]%Z)))
       (nseq rp (Rmat 1 1 [:: Fq_of_Z 3 / Fq_of_Z 7]%R))).

Definition showst (o : outcome (seq Fq)) : outcome (seq Z) := omap (map fval) o.

Example tiny_wf : wf_params (tiny (Exponent 3) 1 3). Proof. by vm_compute. Qed.

(** One partial and two full rounds: optimized and unoptimized agree. *)
Example tiny_opt : showst (permute (tiny (Exponent 3) 1 2) (els [:: 1; 2]%Z))
  = showst (unoptimized_permute (tiny (Exponent 3) 1 2) (els [:: 1; 2]%Z)).
Proof. by vm_compute. Qed.
Example tiny_opt_ret : exists s, showst (permute (tiny (Exponent 3) 1 2) (els [:: 1; 2]%Z)) = Ret s.
Proof. by eexists; vm_compute. Qed.

(** The inverse S-box panics on a zero word, in both permutations. *)
Example tiny_inverse_panic :
  permute (tiny Inverse 1 2) (els [:: -1; 2]%Z) = Panic /\
  unoptimized_permute (tiny Inverse 1 2) (els [:: -1; 2]%Z) = Panic.
Proof. by split; vm_compute. Qed.

(** Three full rounds behave like two. *)
Example tiny_odd :
  showst (unoptimized_permute (tiny (Exponent 3) 1 3) (els [:: 1; 2]%Z))
  = showst (unoptimized_permute (tiny (Exponent 3) 1 2) (els [:: 1; 2]%Z)).
Proof. by vm_compute. Qed.

(** Without partial rounds: panic versus a result. *)
Example tiny_no_partial :
  omap (fun r => fval r.1) (unoptimized_n_to_1_fixed_hash (tiny (Exponent 3) 0 2) (els [:: 1; 2]%Z) (els [:: 0; 0]%Z))
    = Ret 880638071%Z /\
  n_to_1_fixed_hash (tiny (Exponent 3) 0 2) (els [:: 1; 2]%Z) (els [:: 0; 0]%Z) = Panic.
Proof. by split; vm_compute. Qed.
