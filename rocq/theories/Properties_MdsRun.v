(** C80: vendor/generate_mds.sage with SHA-256, the matrices and instances it computes. *)
From Coq Require Import NArith ZArith String.
From mathcomp Require Import all_ssreflect all_algebra.
From Verif Require Import Base Fq FqFinite Matrix MatrixSpec Params RateChecks.
From Verif Require Import GenerateMds GenerateMdsSpec Sha256 Sha256Proofs MdsRun MdsRunTheorems.
Import GRing.Theory.
Local Open Scope ring_scope.
Delimit Scope N_scope with num.
Delimit Scope Z_scope with Z.

(** ** SHA-256: padding to whole blocks, without collisions, and the range *)
Theorem C80_padded (msg : seq N) : (64 %| size (pad msg))%N.
Proof. exact: pad_blocks. Qed.
Theorem C80_padding (a b : seq N) :
  (N.of_nat (size a) < 2 ^ 61)%num -> (N.of_nat (size b) < 2 ^ 61)%num -> pad a = pad b -> a = b.
Proof. exact: pad_inj. Qed.
Theorem C80_range (msg : seq N) : (sha256 msg < 2 ^ 256)%num.
Proof. exact: sha256_lt. Qed.

(** ** No input is hashed for two constants *)
Theorem C80_inputs (f g : string) (i j : nat) :
  List.In f [:: "Hades"; "HadesMDSx"; "HadesMDSy"]%string ->
  List.In g [:: "Hades"; "HadesMDSx"; "HadesMDSy"]%string ->
  encode (name_index f i) = encode (name_index g j) -> f = g /\ i = j.
Proof. exact: inputs_inj. Qed.

(** ** The matrices: the attempt taken for each width *)
Theorem C80_matrix (m : nat) : (2 <= m <= 6)%N ->
  let k := nth 0%N [:: 0; 0; 0; 0; 2; 1; 1]%N m in
  let rc := generate_round_constant in
  generate_mds_matrix (F := Fq_finFieldType) rc "HadesMDS" m false
  = Ret (\matrix_(i, j) (rc "HadesMDSx"%string (k * m + i)%N - rc "HadesMDSy"%string (k * m + j)%N)^-1).
Proof. exact (@run_matrix m). Qed.

(** ** The instances of the five arities: the script does not fail *)
Theorem C80_instance (arity : nat) : (1 <= arity <= 5)%N ->
  let m := arity.+1 in
  let k := nth 0%N [:: 0; 0; 0; 0; 2; 1; 1]%N m in
  let rc := generate_round_constant in
  script_instance (F := Fq_finFieldType) rc arity
  = Ret (@Instance Fq_finFieldType 8 (nth 0%Z [:: 0; 30; 31; 30; 26; 23]%Z arity) 17 m
      (ark_rs (F := Fq_finFieldType) rc m (8 + nth 0 [:: 0; 30; 31; 30; 26; 23] arity)%N)
      (\matrix_(i, j) (rc "HadesMDSx"%string (k * m + i)%N - rc "HadesMDSy"%string (k * m + j)%N)^-1) arity 1).
Proof. exact (@run_instance arity). Qed.

(** ** They are not the matrices of poseidon377: every entry is another one *)
Theorem C80_not_shipped (p : params Fq_fieldType) : List.In p shipped -> (p_t1 p <= 5)%N ->
  let m := (1 + p_t1 p)%N in
  let k := nth 0%N [:: 0; 0; 0; 0; 2; 1; 1]%N m in
  let rc := generate_round_constant in
  forall i j : 'I_m, toM m m (p_mds p) i j
    <> (rc "HadesMDSx"%string (k * m + i)%N - rc "HadesMDSy"%string (k * m + j)%N)^-1.
Proof. exact (@run_entries p). Qed.

Print Assumptions C80_padded.
Print Assumptions C80_padding.
Print Assumptions C80_range.
Print Assumptions C80_inputs.
Print Assumptions C80_matrix.
Print Assumptions C80_instance.
Print Assumptions C80_not_shipped.
