(** Concrete instances for the properties in [Properties_Build.v]. *)
From Coq Require Import ZArith NArith Ascii String.
From mathcomp Require Import all_ssreflect all_algebra.
From Verif Require Import Base Fq Matrix MatrixExamples Params Bytes PoseidonExamples PrimeField.
From Verif Require Import Transcript V1 V2 Build BuildSpec BuildProofs BuildFile BuildGen.
Local Open Scope ring_scope.
Delimit Scope Z_scope with Z.

(** C46: the text of a slice, and what it is read as; order and multiplicity are kept, the largest
    element is printed in full. *)
Example slice_text : serialize_slice_f (els [:: 7; 10; 7]%Z : seq Fq_pf) =
  str "vec![F::from_str(""7"").map_err(|_| ()).unwrap(), F::from_str(""10"").map_err(|_| ()).unwrap(), F::from_str(""7"").map_err(|_| ()).unwrap()]".
Proof. by vm_compute. Qed.

Definition read_slice (s : bytes) : option (seq Z) :=
  if parse_expr s is Some e then
    if eval Fq_pf [::] (str "F") e is Some (VVec vs) then
      all_some (fun v : value Fq_pf => if v is VField x then Some (fval x) else None) vs
    else None
  else None.
Example slice_read : read_slice (serialize_slice_f (els [:: 7; 10; 0; -1]%Z : seq Fq_pf)) = Some [:: 7; 10; 0; q - 1]%Z.
Proof. by vm_compute. Qed.
Example slices_read : read_slice (serialize_slice_of_vecs_f ([:: els [:: 1; 2]%Z; els [:: 3]%Z; [::]] : seq (seq Fq_pf))) =
  Some [:: 1; 2; 3]%Z.
Proof. by vm_compute. Qed.
(** Other texts: what is not a canonical number is not read, and trailing text is an error. *)
Example not_read : (read_slice (str "vec![F::from_str(""07"").map_err(|_| ()).unwrap()]"),
  read_slice (str "vec![F::from_str("""").map_err(|_| ()).unwrap()]"),
  read_slice (str "vec![F::from_str(""7"").map_err(|_| ()).unwrap()]]"),
  read_slice (str "vec![F::from_str(""7"").map_err(|_| ())]"),
  read_slice (str "vec[F::from_str(""7"").map_err(|_| ()).unwrap()]")) = (None, None, None, None, None).
Proof. by vm_compute. Qed.
Example empty_is_vec : serialize_slice_f ([::] : seq Fq_pf) = str "vec]" /\ read_slice (str "vec]") = None /\ read_slice (str "vec![]") = Some [::].
Proof. by vm_compute. Qed.

(** C55: the file of one or several small parameter sets. *)
Definition tiny_gen (t : nat) : outcome (params Fq_pf) :=
  if t == 2%N then Ret (tiny (Exponent 3) 1 2) else Panic.
Definition tiny_file : bytes := if v1_compile tiny_gen [:: 2%N] is Ret s then s else [::].
Example tiny_good : good tiny_gen [:: 2%N].
Proof.
move=> t; rewrite inE => /eqP ->; exists (tiny (Exponent 3) 1 2); split=> //.
by apply: wf_params_printable; vm_compute.
Qed.
(** The file printed for it is read back: printing what was read gives the same text. *)
Example tiny_file_runs : (if run_file Fq_pf tiny_file (str "rate_1") is Some P then display_params P else Panic) =
  @display_params Fq_pf (tiny (Exponent 3) 1 2).
Proof. by vm_compute. Qed.
Example tiny_file_other : run_file Fq_pf tiny_file (str "rate_2") = None.
Proof. by vm_compute. Qed.
(** The same width twice gives two functions of one name. *)
Example tiny_twice : exists code, v1_compile tiny_gen [:: 2; 2]%N = Ret code /\ run_file Fq_pf code (str "rate_1") = None.
Proof. by eexists; split; [vm_compute; reflexivity | vm_compute]. Qed.
Example tiny_panics : v1_compile tiny_gen [:: 2; 3]%N = Panic.
Proof. by vm_compute. Qed.
(** Without partial rounds the collections are empty and the file is not a program. *)
Definition flat_gen (t : nat) : outcome (params Fq_pf) := Ret (tiny (Exponent 3) 0 2).
Example flat_file : exists code, v1_compile flat_gen [:: 2%N] = Ret code /\ parse_file code = None.
Proof. by eexists; split; [vm_compute; reflexivity | vm_compute]. Qed.
