(** Property C66: the key files with which the repository tests its gadgets fit
    the constraints of the test circuit.  Statements only; proofs in
    [KeyShipped.v]; [in_A], [in_B], [in_C], [n_vars] and [wire_at] are in
    [KeySpec.v]; the files' contents in [KeyData.v]; concrete instances in
    [KeyExamples.v].  [x_query_inf] says for each point of [x_query] whether it is
    the point at infinity, hence whether the variable's polynomial vanishes at the
    secret point. *)
From mathcomp Require Import all_ssreflect all_algebra.
From Verif Require Import Base Fq Hash R1cs R1csSpec Preimage PreimageSpec PreimageProofs KeySpec KeyData KeyShipped.
Local Notation FqVar := (fpvar Fq_fieldType).
Local Notation csys := (csys Fq_fieldType).

Section Key.
Variables (es : Fq_fieldType -> outcome FqVar) (setup : bool) (c : PreimageCircuit) (cs : csys).
Hypothesis c7 : seven c.
Hypothesis run : generate_constraints es c (new_cs _ setup) = Ret cs.

(** ** C66 *)
Theorem C66_b_query : b_g2_query_inf = b_g1_query_inf /\ size b_g1_query_inf = n_vars cs /\
  forall i, i < n_vars cs -> nth false b_g1_query_inf i = ~~ in_B cs (wire_at cs i).
Proof. exact: (b_query_any c7 run). Qed.

(** The reduction adds a term for the constant and for each public input. *)
Theorem C66_a_query : size a_query_inf = n_vars cs /\
  forall i, i < n_vars cs -> nth false a_query_inf i = ~~ ((i < 1 + cs_ninst cs) || in_A cs (wire_at cs i)).
Proof. exact: (a_query_any c7 run). Qed.

Theorem C66_l_query : size l_query_inf = cs_nwit cs /\
  forall i, i < cs_nwit cs ->
    nth false l_query_inf i = ~~ [|| in_A cs (Wit i), in_B cs (Wit i) | in_C cs (Wit i)].
Proof. exact: (l_query_any c7 run). Qed.

(** The evaluation domain is the smallest power of two holding the constraints
    and the added terms. *)
Theorem C66_lengths : gamma_abc_len = 1 + cs_ninst cs /\
  exists2 d, h_query_len = 2 ^ d - 1 & 2 ^ d.-1 < size (cs_cons cs) + (1 + cs_ninst cs) <= 2 ^ d.
Proof. exact: (lengths_any c7 run). Qed.
End Key.
Print Assumptions C66_b_query.
Print Assumptions C66_a_query.
Print Assumptions C66_l_query.
Print Assumptions C66_lengths.
