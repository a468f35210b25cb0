(** Properties C09-C13: the R1CS gadget.  Statements only; proofs in
    [R1csProps.v], [R1csProofs.v] and [R1csShape.v]; the notions used are
    defined in [R1csSpec.v]; concrete instances in [R1csExamples.v].

    [es] is what the external [Sum] returns when there is no variable among the
    summands (see [R1cs.v]); it is arbitrary unless said otherwise. *)
From Coq Require Import NArith.
From mathcomp Require Import all_ssreflect all_algebra.
From Verif Require Import Base Fq Matrix Params Permutation Hash R1cs R1csSpec R1csHash R1csProps.
From Verif Require Import RateChecks PoseidonProps.
Import GRing.Theory.
Local Open Scope ring_scope.
Local Open Scope rust_scope.
Local Notation FqVar := (fpvar Fq_fieldType).
Local Notation csys := (csys Fq_fieldType).

Section R1csProperties.
Variable es : Fq_fieldType -> outcome FqVar.

(** The words form a legal call: they belong to the system, and not all of them
    are constants. *)
Definition legal (cs : csys) (ws : seq FqVar) : bool :=
  [&& wf_csys cs, all (wf_var cs) ws & has (@is_var _) ws].

(** ** C09 *)
Theorem C09_sound_hash_1 (cs : csys) (ds v0 : FqVar) : legal cs [:: ds; v0] ->
  gadget_sound (r1cs_hash_1 es cs ds v0)
    (fun a => hash_1 (eval a ds) (eval a v0)).
Proof. by case/and3P=> h1 h2 h3; exact: (shipped_sound in1). Qed.
Theorem C09_sound_hash_2 (cs : csys) (ds v0 v1 : FqVar) : legal cs [:: ds; v0; v1] ->
  gadget_sound (r1cs_hash_2 es cs ds (v0, v1))
    (fun a => hash_2 (eval a ds) (eval a v0, eval a v1)).
Proof. by case/and3P=> h1 h2 h3; exact: (shipped_sound in2). Qed.
Theorem C09_sound_hash_3 (cs : csys) (ds v0 v1 v2 : FqVar) : legal cs [:: ds; v0; v1; v2] ->
  gadget_sound (r1cs_hash_3 es cs ds (v0, v1, v2))
    (fun a => hash_3 (eval a ds) (eval a v0, eval a v1, eval a v2)).
Proof. by case/and3P=> h1 h2 h3; exact: (shipped_sound in3). Qed.
Theorem C09_sound_hash_4 (cs : csys) (ds v0 v1 v2 v3 : FqVar) : legal cs [:: ds; v0; v1; v2; v3] ->
  gadget_sound (r1cs_hash_4 es cs ds (v0, v1, v2, v3))
    (fun a => hash_4 (eval a ds) (eval a v0, eval a v1, eval a v2, eval a v3)).
Proof. by case/and3P=> h1 h2 h3; exact: (shipped_sound in4). Qed.
Theorem C09_sound_hash_5 (cs : csys) (ds v0 v1 v2 v3 v4 : FqVar) : legal cs [:: ds; v0; v1; v2; v3; v4] ->
  gadget_sound (r1cs_hash_5 es cs ds (v0, v1, v2, v3, v4))
    (fun a => hash_5 (eval a ds) (eval a v0, eval a v1, eval a v2, eval a v3, eval a v4)).
Proof. by case/and3P=> h1 h2 h3; exact: (shipped_sound in5). Qed.
Theorem C09_sound_hash_6 (cs : csys) (ds v0 v1 v2 v3 v4 v5 : FqVar) : legal cs [:: ds; v0; v1; v2; v3; v4; v5] ->
  gadget_sound (r1cs_hash_6 es cs ds (v0, v1, v2, v3, v4, v5))
    (fun a => hash_6 (eval a ds) (eval a v0, eval a v1, eval a v2, eval a v3, eval a v4, eval a v5)).
Proof. by case/and3P=> h1 h2 h3; exact: (shipped_sound in6). Qed.
Theorem C09_sound_hash_7 (cs : csys) (ds v0 v1 v2 v3 v4 v5 v6 : FqVar) : legal cs [:: ds; v0; v1; v2; v3; v4; v5; v6] ->
  gadget_sound (r1cs_hash_7 es cs ds (v0, v1, v2, v3, v4, v5, v6))
    (fun a => hash_7 (eval a ds) (eval a v0, eval a v1, eval a v2, eval a v3, eval a v4, eval a v5, eval a v6)).
Proof. by case/and3P=> h1 h2 h3; exact: (shipped_sound in7). Qed.

(** ** C10 *)
Theorem C10_complete_hash_1 (cs : csys) (ds v0 : FqVar) : legal cs [:: ds; v0] ->
  gadget_complete cs (r1cs_hash_1 es cs ds v0).
Proof. by case/and3P=> h1 h2 h3; exact: (shipped_complete in1). Qed.
Theorem C10_complete_hash_2 (cs : csys) (ds v0 v1 : FqVar) : legal cs [:: ds; v0; v1] ->
  gadget_complete cs (r1cs_hash_2 es cs ds (v0, v1)).
Proof. by case/and3P=> h1 h2 h3; exact: (shipped_complete in2). Qed.
Theorem C10_complete_hash_3 (cs : csys) (ds v0 v1 v2 : FqVar) : legal cs [:: ds; v0; v1; v2] ->
  gadget_complete cs (r1cs_hash_3 es cs ds (v0, v1, v2)).
Proof. by case/and3P=> h1 h2 h3; exact: (shipped_complete in3). Qed.
Theorem C10_complete_hash_4 (cs : csys) (ds v0 v1 v2 v3 : FqVar) : legal cs [:: ds; v0; v1; v2; v3] ->
  gadget_complete cs (r1cs_hash_4 es cs ds (v0, v1, v2, v3)).
Proof. by case/and3P=> h1 h2 h3; exact: (shipped_complete in4). Qed.
Theorem C10_complete_hash_5 (cs : csys) (ds v0 v1 v2 v3 v4 : FqVar) : legal cs [:: ds; v0; v1; v2; v3; v4] ->
  gadget_complete cs (r1cs_hash_5 es cs ds (v0, v1, v2, v3, v4)).
Proof. by case/and3P=> h1 h2 h3; exact: (shipped_complete in5). Qed.
Theorem C10_complete_hash_6 (cs : csys) (ds v0 v1 v2 v3 v4 v5 : FqVar) : legal cs [:: ds; v0; v1; v2; v3; v4; v5] ->
  gadget_complete cs (r1cs_hash_6 es cs ds (v0, v1, v2, v3, v4, v5)).
Proof. by case/and3P=> h1 h2 h3; exact: (shipped_complete in6). Qed.
Theorem C10_complete_hash_7 (cs : csys) (ds v0 v1 v2 v3 v4 v5 v6 : FqVar) : legal cs [:: ds; v0; v1; v2; v3; v4; v5; v6] ->
  gadget_complete cs (r1cs_hash_7 es cs ds (v0, v1, v2, v3, v4, v5, v6)).
Proof. by case/and3P=> h1 h2 h3; exact: (shipped_complete in7). Qed.

(** ** C11 *)
Theorem C11_unique_hash_1 (cs : csys) (ds v0 : FqVar) : legal cs [:: ds; v0] ->
  gadget_unique cs [:: ds; v0] (r1cs_hash_1 es cs ds v0).
Proof. by case/and3P=> h1 h2 h3; exact: (shipped_unique in1). Qed.
Theorem C11_unique_hash_2 (cs : csys) (ds v0 v1 : FqVar) : legal cs [:: ds; v0; v1] ->
  gadget_unique cs [:: ds; v0; v1] (r1cs_hash_2 es cs ds (v0, v1)).
Proof. by case/and3P=> h1 h2 h3; exact: (shipped_unique in2). Qed.
Theorem C11_unique_hash_3 (cs : csys) (ds v0 v1 v2 : FqVar) : legal cs [:: ds; v0; v1; v2] ->
  gadget_unique cs [:: ds; v0; v1; v2] (r1cs_hash_3 es cs ds (v0, v1, v2)).
Proof. by case/and3P=> h1 h2 h3; exact: (shipped_unique in3). Qed.
Theorem C11_unique_hash_4 (cs : csys) (ds v0 v1 v2 v3 : FqVar) : legal cs [:: ds; v0; v1; v2; v3] ->
  gadget_unique cs [:: ds; v0; v1; v2; v3] (r1cs_hash_4 es cs ds (v0, v1, v2, v3)).
Proof. by case/and3P=> h1 h2 h3; exact: (shipped_unique in4). Qed.
Theorem C11_unique_hash_5 (cs : csys) (ds v0 v1 v2 v3 v4 : FqVar) : legal cs [:: ds; v0; v1; v2; v3; v4] ->
  gadget_unique cs [:: ds; v0; v1; v2; v3; v4] (r1cs_hash_5 es cs ds (v0, v1, v2, v3, v4)).
Proof. by case/and3P=> h1 h2 h3; exact: (shipped_unique in5). Qed.
Theorem C11_unique_hash_6 (cs : csys) (ds v0 v1 v2 v3 v4 v5 : FqVar) : legal cs [:: ds; v0; v1; v2; v3; v4; v5] ->
  gadget_unique cs [:: ds; v0; v1; v2; v3; v4; v5] (r1cs_hash_6 es cs ds (v0, v1, v2, v3, v4, v5)).
Proof. by case/and3P=> h1 h2 h3; exact: (shipped_unique in6). Qed.
Theorem C11_unique_hash_7 (cs : csys) (ds v0 v1 v2 v3 v4 v5 v6 : FqVar) : legal cs [:: ds; v0; v1; v2; v3; v4; v5; v6] ->
  gadget_unique cs [:: ds; v0; v1; v2; v3; v4; v5; v6] (r1cs_hash_7 es cs ds (v0, v1, v2, v3, v4, v5, v6)).
Proof. by case/and3P=> h1 h2 h3; exact: (shipped_unique in7). Qed.

(** ** C12.  With every word allocated the count is 5*(8(n+1)+31), with a constant
    domain separator 5*(8(n+1)+30). *)
Theorem C12_cost_hash_1 (cs : csys) (ds v0 : FqVar) : legal cs [:: ds; v0] ->
  gadget_cost cs (r1cs_hash_1 es cs ds v0)
    (5 * (count (@is_var _) [:: ds; v0] + 7 * 2 + 31)).
Proof. by case/and3P=> h1 h2 h3; exact: (shipped_cost in1). Qed.
Theorem C12_cost_hash_2 (cs : csys) (ds v0 v1 : FqVar) : legal cs [:: ds; v0; v1] ->
  gadget_cost cs (r1cs_hash_2 es cs ds (v0, v1))
    (5 * (count (@is_var _) [:: ds; v0; v1] + 7 * 3 + 31)).
Proof. by case/and3P=> h1 h2 h3; exact: (shipped_cost in2). Qed.
Theorem C12_cost_hash_3 (cs : csys) (ds v0 v1 v2 : FqVar) : legal cs [:: ds; v0; v1; v2] ->
  gadget_cost cs (r1cs_hash_3 es cs ds (v0, v1, v2))
    (5 * (count (@is_var _) [:: ds; v0; v1; v2] + 7 * 4 + 31)).
Proof. by case/and3P=> h1 h2 h3; exact: (shipped_cost in3). Qed.
Theorem C12_cost_hash_4 (cs : csys) (ds v0 v1 v2 v3 : FqVar) : legal cs [:: ds; v0; v1; v2; v3] ->
  gadget_cost cs (r1cs_hash_4 es cs ds (v0, v1, v2, v3))
    (5 * (count (@is_var _) [:: ds; v0; v1; v2; v3] + 7 * 5 + 31)).
Proof. by case/and3P=> h1 h2 h3; exact: (shipped_cost in4). Qed.
Theorem C12_cost_hash_5 (cs : csys) (ds v0 v1 v2 v3 v4 : FqVar) : legal cs [:: ds; v0; v1; v2; v3; v4] ->
  gadget_cost cs (r1cs_hash_5 es cs ds (v0, v1, v2, v3, v4))
    (5 * (count (@is_var _) [:: ds; v0; v1; v2; v3; v4] + 7 * 6 + 31)).
Proof. by case/and3P=> h1 h2 h3; exact: (shipped_cost in5). Qed.
Theorem C12_cost_hash_6 (cs : csys) (ds v0 v1 v2 v3 v4 v5 : FqVar) : legal cs [:: ds; v0; v1; v2; v3; v4; v5] ->
  gadget_cost cs (r1cs_hash_6 es cs ds (v0, v1, v2, v3, v4, v5))
    (5 * (count (@is_var _) [:: ds; v0; v1; v2; v3; v4; v5] + 7 * 7 + 31)).
Proof. by case/and3P=> h1 h2 h3; exact: (shipped_cost in6). Qed.
Theorem C12_cost_hash_7 (cs : csys) (ds v0 v1 v2 v3 v4 v5 v6 : FqVar) : legal cs [:: ds; v0; v1; v2; v3; v4; v5; v6] ->
  gadget_cost cs (r1cs_hash_7 es cs ds (v0, v1, v2, v3, v4, v5, v6))
    (5 * (count (@is_var _) [:: ds; v0; v1; v2; v3; v4; v5; v6] + 7 * 8 + 31)).
Proof. by case/and3P=> h1 h2 h3; exact: (shipped_cost in7). Qed.

(** Neither the number nor the contents of the constraints depend on values, on
    the synthesis mode, or on [es]. *)
Theorem C12_shape_independent_of_values (F : fieldType) (p : params F) :
  wf_params p -> forall e : N, p_alpha p = Exponent e -> (0 < N.to_nat e)%N -> (1 < p_t p)%N ->
  forall es1 es2 (cs1 cs2 : R1cs.csys F) ws1 ws2 out1 cs1',
  wf_csys cs1 -> all (wf_var cs1) ws1 -> size ws1 = p_t p -> has (@is_var F) ws1 ->
  wf_csys cs2 -> all (wf_var cs2) ws2 ->
  shape_of_cs cs1 = shape_of_cs cs2 -> map (@shape_of_var F) ws1 = map (@shape_of_var F) ws2 ->
  r1cs_n_to_1_fixed_hash es1 p cs1 ws1 = Ret (out1, cs1') ->
  exists out2 cs2', [/\ r1cs_n_to_1_fixed_hash es2 p cs2 ws2 = Ret (out2, cs2'),
    shape_of_cs cs1' = shape_of_cs cs2' & shape_of_var out1 = shape_of_var out2].
Proof. exact: generic_shape. Qed.

(** ** C13.  Any field, any parameter set. *)
Theorem C13_inverse_panics (F : fieldType) (p : params F) es' (cs : R1cs.csys F) ws : p_alpha p = Inverse ->
  (1 < r_F (p_rounds p))%N || (0 < r_P (p_rounds p))%N ->
  r1cs_n_to_1_fixed_hash es' p cs ws = Panic.
Proof. exact: inverse_panics. Qed.

(** ** C47.  Sums without variables panic in ark-r1cs-std 0.4. *)
Theorem C47_constant_inputs_panic (F : fieldType) (p : params F) : wf_params p ->
  forall (cs : R1cs.csys F) ws, (1 < r_F (p_rounds p))%N || (0 < r_P (p_rounds p))%N ->
  all (fun x => ~~ is_var x) ws -> r1cs_n_to_1_fixed_hash (fun _ => Panic) p cs ws = Panic.
Proof. exact: constants_panic. Qed.

(** ** Generic versions of C09-C12: every parameter set with a positive exponent *)
Section Generic.
Variables (F : fieldType) (p : params F) (e : N) (es' : F -> outcome (fpvar F))
  (cs : R1cs.csys F) (ws : seq (fpvar F)).
Local Notation Rf := ((r_F (p_rounds p)) %/ 2)%N.
Theorem C09_sound_generic : wf_params p -> p_alpha p = Exponent e -> (0 < N.to_nat e)%N -> (1 < p_t p)%N ->
  wf_csys cs -> all (wf_var cs) ws -> size ws = p_t p -> has (@is_var F) ws ->
  gadget_sound (r1cs_n_to_1_fixed_hash es' p cs ws)
    (fun a => r <- unoptimized_n_to_1_fixed_hash p (map (eval a) ws) (instance_new p) ;; Ret r.1).
Proof. by move=> h1 h2 h3 h4; exact: (generic_sound h1 h2 h3 h4). Qed.
Theorem C10_complete_generic : wf_params p -> p_alpha p = Exponent e -> (0 < N.to_nat e)%N -> (1 < p_t p)%N ->
  wf_csys cs -> all (wf_var cs) ws -> size ws = p_t p -> has (@is_var F) ws ->
  gadget_complete cs (r1cs_n_to_1_fixed_hash es' p cs ws).
Proof. by move=> h1 h2 h3 h4; exact: (generic_complete h1 h2 h3 h4). Qed.
Theorem C11_unique_generic : wf_params p -> p_alpha p = Exponent e -> (0 < N.to_nat e)%N -> (1 < p_t p)%N ->
  wf_csys cs -> all (wf_var cs) ws -> size ws = p_t p -> has (@is_var F) ws ->
  gadget_unique cs ws (r1cs_n_to_1_fixed_hash es' p cs ws).
Proof. by move=> h1 h2 h3 h4; exact: (generic_unique h1 h2 h3 h4). Qed.
Theorem C12_cost_generic : wf_params p -> p_alpha p = Exponent e -> (0 < N.to_nat e)%N -> (1 < p_t p)%N ->
  wf_csys cs -> all (wf_var cs) ws -> size ws = p_t p -> has (@is_var F) ws -> (0 < Rf)%N ->
  gadget_cost cs (r1cs_n_to_1_fixed_hash es' p cs ws)
    (mul_count e * (count (@is_var F) ws + p_t p * (2 * Rf).-1 + r_P (p_rounds p))).
Proof. by move=> h1 h2 h3 h4; exact: (generic_cost h1 h2 h3 h4). Qed.
End Generic.
End R1csProperties.

Print Assumptions C09_sound_hash_1.
Print Assumptions C09_sound_hash_2.
Print Assumptions C09_sound_hash_3.
Print Assumptions C09_sound_hash_4.
Print Assumptions C09_sound_hash_5.
Print Assumptions C09_sound_hash_6.
Print Assumptions C09_sound_hash_7.
Print Assumptions C10_complete_hash_1.
Print Assumptions C10_complete_hash_2.
Print Assumptions C10_complete_hash_3.
Print Assumptions C10_complete_hash_4.
Print Assumptions C10_complete_hash_5.
Print Assumptions C10_complete_hash_6.
Print Assumptions C10_complete_hash_7.
Print Assumptions C11_unique_hash_1.
Print Assumptions C11_unique_hash_2.
Print Assumptions C11_unique_hash_3.
Print Assumptions C11_unique_hash_4.
Print Assumptions C11_unique_hash_5.
Print Assumptions C11_unique_hash_6.
Print Assumptions C11_unique_hash_7.
Print Assumptions C12_cost_hash_1.
Print Assumptions C12_cost_hash_2.
Print Assumptions C12_cost_hash_3.
Print Assumptions C12_cost_hash_4.
Print Assumptions C12_cost_hash_5.
Print Assumptions C12_cost_hash_6.
Print Assumptions C12_cost_hash_7.
Print Assumptions C12_shape_independent_of_values.
Print Assumptions C13_inverse_panics.
Print Assumptions C47_constant_inputs_panic.
Print Assumptions C09_sound_generic.
Print Assumptions C10_complete_generic.
Print Assumptions C11_unique_generic.
Print Assumptions C12_cost_generic.
