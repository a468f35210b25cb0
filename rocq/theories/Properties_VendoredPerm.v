(** C70: the permutations of the five vendored scripts and the vendored test vectors.
    Proofs in [VendoredPermProofs.v], [VendoredExec.v] and [VendoredTheorems.v]; instances
    in [VendoredExamples.v].  [poseidon] is the textbook permutation of [Spec.v]. *)
From Coq Require Import ZArith NArith.
From mathcomp Require Import all_ssreflect all_algebra.
From Verif Require Import Base Matrix MatrixSpec Params Permutation Spec PrimeField Mds.
From Verif Require Sage.
From Verif Require Import GrainTables VendoredTables VendoredPerm VendoredTheorems.
Import GRing.Theory.
Delimit Scope Z_scope with Z.
Local Open Scope ring_scope.

(** ** The four scripts with x^5 *)
Theorem C70_perm (F : fieldType) (t1 R_F R_P : nat) (M : 'M[F]_(1 + t1)) (rc x : seq F) : size x = (1 + t1)%N ->
  x5_perm R_F R_P M rc x =
  if ((R_F %/ 2 + R_P + R_F %/ 2) * (1 + t1) <= size rc)%N then
    Ret (ofV (poseidon (fun x => x ^+ 5) M (fun r => \col_i nth 0 rc (r * (1 + t1) + i)) (R_F %/ 2) R_P (toV (1 + t1) x)))
  else Panic.
Proof. exact (@x5_perm_cases F t1 R_F R_P M rc x). Qed.
Theorem C70_test_vectors (T : test_vector) (PF : prime_field) (t1 : nat) :
  List.In T [:: vector_x5_255_3; vector_x5_255_5; vector_x5_254_3; vector_x5_254_5] ->
  let V := tv_script T in pf_p PF = v_prime V -> v_t V = (1 + t1)%N ->
  x5_perm (v_R_F V) (v_R_P V) (v_matrix_field PF V (1 + t1)) (v_constants_field PF V) [seq pf_of PF z | z <- tv_input T] =
    Ret [seq pf_of PF z | z <- tv_output T] /\
  [seq pf_to z | z <- [seq pf_of PF z | z <- tv_output T]] = tv_output T.
Proof. exact (@script_vector T PF t1). Qed.
Theorem C70_bijective (T : test_vector) (PF : prime_field) (t1 : nat) :
  List.In T [:: vector_x5_255_3; vector_x5_255_5; vector_x5_254_3; vector_x5_254_5] ->
  let V := tv_script T in pf_p PF = v_prime V -> v_t V = (1 + t1)%N -> forall y : seq PF, size y = (1 + t1)%N ->
  exists! x : seq PF, size x = (1 + t1)%N /\
    x5_perm (v_R_F V) (v_R_P V) (v_matrix_field PF V (1 + t1)) (v_constants_field PF V) x = Ret y.
Proof. exact (@vector_bij T PF t1). Qed.

(** ** The library's generator and permutations on their matrices and constants *)
Theorem C70_library (T : test_vector) (PF : prime_field) (t1 bits : nat) :
  List.In T [:: vector_x5_255_3; vector_x5_255_5; vector_x5_254_3; vector_x5_254_5] ->
  let V := tv_script T in let M := v_matrix_field PF V (1 + t1) in
  let r := RoundNumbers (v_R_P V) (v_R_F V) in
  let arc := Rmat (v_R_P V + v_R_F V) (1 + t1) (v_constants_field PF V) in
  pf_p PF = v_prime V -> v_t V = (1 + t1)%N ->
  exists om d, [/\ mds_generate_optimized (ofM M) (1 + t1) r = Ret om,
    arc_generate_optimized (@row_vector_vec PF) arc (ofM M) r = Ret d &
    let P := Params (1 + t1) t1 bits (Exponent 5) r (ofM M) arc d om in
    (forall x : seq PF, size x = (1 + t1)%N ->
      unoptimized_permute P x = x5_perm (v_R_F V) (v_R_P V) M (v_constants_field PF V) x /\
      permute P x = x5_perm (v_R_F V) (v_R_P V) M (v_constants_field PF V) x) /\
    permute P [seq pf_of PF z | z <- tv_input T] = Ret [seq pf_of PF z | z <- tv_output T]].
Proof. exact (@vector_library T PF t1 bits). Qed.

(** ** The script with x^3: its closing assertion, for every input *)
Theorem C70_optimized (PF : prime_field) : pf_p PF = v_prime x3_64_24_optimized -> forall x : 'rV[PF]_(1 + 23),
  let M := v_matrix_field PF x3_64_24_optimized (1 + 23) in let rc := v_constants_field PF x3_64_24_optimized in
  Sage.perm 3 8 42 M rc x = Ret (Sage.perm_original 3 8 42 M rc x).
Proof. exact (@x3_assert PF). Qed.
Theorem C70_optimized_bijective (PF : prime_field) : pf_p PF = v_prime x3_64_24_optimized ->
  bijective (Sage.perm_original 3 8 42 (v_matrix_field PF x3_64_24_optimized (1 + 23)) (v_constants_field PF x3_64_24_optimized)).
Proof. exact (@x3_bij PF). Qed.

Print Assumptions C70_perm.
Print Assumptions C70_test_vectors.
Print Assumptions C70_bijective.
Print Assumptions C70_library.
Print Assumptions C70_optimized.
Print Assumptions C70_optimized_bijective.
