(** C46, C55: generated source code. *)
From Coq Require Import ZArith NArith Ascii String.
From mathcomp Require Import all_ssreflect all_algebra.
From Verif Require Import Base Matrix Params Bytes PrimeField Alpha Transcript Mds V1 V2 Rounds RoundsSpec.
From Verif Require Import Build BuildSpec BuildProofs BuildFile BuildGen BuildV2.
Delimit Scope Z_scope with Z.

(** ** C46 *)
Theorem C46_slice (PF : prime_field) (imported : seq bytes) (xs : seq PF) : (0 < size xs)%N ->
  exists e, parse_expr (serialize_slice_f xs) = Some e /\
            eval PF imported (str "F") e = Some (VVec (map (@VField PF) xs)).
Proof. exact: slice_value. Qed.
Theorem C46_slice_of_vecs (PF : prime_field) (imported : seq bytes) (xs : seq (seq PF)) : (0 < size (flatten xs))%N ->
  exists e, parse_expr (serialize_slice_of_vecs_f xs) = Some e /\
            eval PF imported (str "F") e = Some (VVec (map (@VField PF) (flatten xs))).
Proof. exact: slice_of_vecs_value. Qed.
Theorem C46_element (PF : prime_field) (imported : seq bytes) (x : PF) :
  exists e, parse_expr (serialize_f x) = Some e /\ eval PF imported (str "F") e = Some (VField x).
Proof. exact: element_value. Qed.
Theorem C46_empty (PF : prime_field) : serialize_slice_f ([::] : seq PF) = str "vec]" /\ parse_expr (str "vec]") = None.
Proof. exact (conj (empty_slice_text PF) (empty_slice PF)). Qed.
Theorem C46_empty_vecs (PF : prime_field) (n : nat) :
  parse_expr (serialize_slice_of_vecs_f (nseq n ([::] : seq PF))) = None.
Proof. exact: empty_slice_of_vecs. Qed.
Theorem C46_empty_matrices (PF : prime_field) : parse_expr (serialize_slice_matrix_f ([::] : seq (rmat PF))) = None.
Proof. exact: empty_slice_matrix. Qed.
Theorem C46_injective (PF : prime_field) (xs ys : seq PF) : (0 < size xs)%N -> (0 < size ys)%N ->
  serialize_slice_f xs = serialize_slice_f ys -> xs = ys.
Proof. exact: slice_injective. Qed.

Theorem C46_decimal (n : N) :
  [/\ decimal (display_N n) = n, all is_digit (display_N n), display_N n != [::] &
      (display_N n == str "0") || (head 0%num (display_N n) != chr "0")].
Proof. exact: display_NP. Qed.

(** ** C55 *)
Theorem C55_file_runs (lm : libm) (PF : prime_field) (Me : merlin) (M : N) (limbs : nat) (allow : bool)
    (ts : seq nat) (code : bytes) :
  let gen t := v1_generate PF Me (log2 lm) (v1_rounds lm) M t (pf_p PF) limbs allow in
  v1_compile gen ts = Ret code -> uniq ts -> forall t, t \in ts ->
  exists P, gen t = Ret P /\ run_file PF code (str "rate_" ++ display_usize t.-1) = Some P.
Proof. exact: generated_file. Qed.
Theorem C55_file_functions (lm : libm) (PF : prime_field) (Me : merlin) (M : N) (limbs : nat) (allow : bool)
    (ts : seq nat) (code : bytes) :
  let gen t := v1_generate PF Me (log2 lm) (v1_rounds lm) M t (pf_p PF) limbs allow in
  v1_compile gen ts = Ret code -> exists prog,
  parse_file code = Some prog /\ fn_names prog = [seq str "rate_" ++ display_usize t.-1 | t <- ts].
Proof. exact: generated_file_functions. Qed.
Theorem C55_duplicates (lm : libm) (PF : prime_field) (Me : merlin) (M : N) (limbs : nat) (allow : bool)
    (ts : seq nat) (code name : bytes) :
  let gen t := v1_generate PF Me (log2 lm) (v1_rounds lm) M t (pf_p PF) limbs allow in
  v1_compile gen ts = Ret code -> ~~ uniq ts -> run_file PF code name = None.
Proof. exact: generated_file_duplicates. Qed.
Theorem C55_file_exists (lm : libm) (PF : prime_field) (Me : merlin) (M : N) (limbs : nat) (allow : bool)
    (ts : seq nat) :
  let gen t := v1_generate PF Me (log2 lm) (v1_rounds lm) M t (pf_p PF) limbs allow in
  (forall t, t \in ts -> gen t <> Panic) <-> exists code, v1_compile gen ts = Ret code.
Proof. exact: generated_file_exists. Qed.
(** The same for parameter sets from anywhere, as long as they can be printed. *)
Theorem C55_printed (PF : prime_field) (gen : nat -> outcome (params PF)) (ts : seq nat) (code : bytes) (t : nat)
    (P : params PF) : good gen ts -> uniq ts -> v1_compile gen ts = Ret code ->
  t \in ts -> gen t = Ret P -> run_file PF code (str "rate_" ++ display_usize t.-1) = Some P.
Proof. exact: compile_runs. Qed.
Theorem C55_v2_panics (PF : prime_field) (gen : nat -> outcome (params2 PF)) (ts : seq nat) : ts <> [::] ->
  v2_compile gen ts = Panic.
Proof. exact: v2_compile_panics. Qed.
(** Without widths there is a file, of imports only; [v2_exports] are the names that v2.rs
    makes public. *)
Theorem C55_v2_nothing (PF : prime_field) (gen : nat -> outcome (params2 PF)) : exists code,
  v2_compile gen [::] = Ret code /\
  parse_file code = Some [:: IUse [:: str "ark_ff"] [:: str "PrimeField"];
                             IUse [:: str "poseidon_parameters"; str "v2"] v2_names].
Proof. exact (@v2_compile_nothing PF gen). Qed.
Theorem C55_v2_unresolved : filter (fun x => x \notin v2_exports) v2_names = [:: str "Matrix"].
Proof. exact v2_unresolved. Qed.

Print Assumptions C46_slice.
Print Assumptions C46_slice_of_vecs.
Print Assumptions C46_element.
Print Assumptions C46_empty.
Print Assumptions C46_empty_vecs.
Print Assumptions C46_empty_matrices.
Print Assumptions C46_injective.
Print Assumptions C46_decimal.
Print Assumptions C55_file_runs.
Print Assumptions C55_file_functions.
Print Assumptions C55_duplicates.
Print Assumptions C55_file_exists.
Print Assumptions C55_printed.
Print Assumptions C55_v2_panics.
Print Assumptions C55_v2_nothing.
Print Assumptions C55_v2_unresolved.
