(** Property C65: the circuit with which the repository tests its gadgets.
    Statements only; proofs in [PreimageProofs.v]; [hashes_of] is in
    [PreimageSpec.v], [satisfies] and [asg] in [R1csSpec.v]; concrete instances
    in [PreimageExamples.v].  [es] is arbitrary, see [R1cs.v]. *)
From Coq Require Import ZArith.
From mathcomp Require Import all_ssreflect all_algebra.
From Verif Require Import Base Fq Hash R1cs R1csSpec Preimage PreimageSpec PreimageProofs PreimageTest.
Import GRing.Theory.
Local Notation FqVar := (fpvar Fq_fieldType).
Local Notation csys := (csys Fq_fieldType).

Section Preimage.
Variables (es : Fq_fieldType -> outcome FqVar) (setup : bool) (c : PreimageCircuit).
Hypothesis c7 : seven c.

(** ** C65 *)
Theorem C65_runs : exists cs, generate_constraints es c (new_cs _ setup) = Ret cs.
Proof. exact: preimage_runs. Qed.

Variable cs : csys.
Hypothesis run : generate_constraints es c (new_cs _ setup) = Ret cs.

(** Whatever the witness, the public inputs are the hashes of its first seven values. *)
Theorem C65_sound (a : wire -> Fq) : satisfies (a : wire -> Fq_fieldType) (cs_cons cs) ->
  hashes_of (fun i => a (Wit i)) (fun i => a (Inst i)).
Proof. exact: (preimage_sound c7 run). Qed.

(** All preimages have a satisfying assignment. *)
Theorem C65_complete (w h : nat -> Fq) : hashes_of w h ->
  exists2 a : wire -> Fq_fieldType, satisfies a (cs_cons cs) &
    forall i, i < 7 -> a (Wit i) = w i /\ a (Inst i) = h i.
Proof. exact: (preimage_complete c7 run). Qed.

(** It is determined by the preimages, public inputs included. *)
Theorem C65_unique (a a' : wire -> Fq_fieldType) :
  satisfies a (cs_cons cs) -> satisfies a' (cs_cons cs) ->
  (forall i, i < 7 -> a (Wit i) = a' (Wit i)) ->
  forall w, wire_in (cs_ninst cs) (cs_nwit cs) w -> a w = a' w.
Proof. exact: (preimage_unique c7 run). Qed.

(** With an assignment, as the prover runs it: the constraints are satisfied if
    and only if the outputs given are the hashes of the preimages given. *)
Theorem C65_happy : setup = false ->
  cs_inst cs = hash_outputs c /\
  (satisfies (asg cs) (cs_cons cs) <-> hashes_of (at_ (preimages c)) (at_ (hash_outputs c))).
Proof. by move=> h; split; [exact: (preimage_inst c7 run)|exact: (preimage_happy c7 run)]. Qed.

(** The public inputs of the test of the unhappy path: no satisfying assignment has
    these public inputs and the preimages proved. *)
Theorem C65_unhappy (h : Fq) (a : wire -> Fq_fieldType) : satisfies a (cs_cons cs) ->
  hash_1 DOMAIN_SEP (at_ (preimages c) 0) = Ret h ->
  (forall i, i < 7 -> a (Inst i) = (h + 1)%R) -> a (Wit 0) <> at_ (preimages c) 0.
Proof. exact: (preimage_unhappy c7 run). Qed.

Theorem C65_size : [/\ cs_ninst cs = 7, cs_nwit cs = 2457, size (cs_cons cs) = 2457 & wf_csys cs].
Proof. exact: (preimage_size c7 run). Qed.

(** The constraints generated for the keys are those which the prover generates. *)
Theorem C65_shape (es' : Fq_fieldType -> outcome FqVar) (setup' : bool) (c' : PreimageCircuit) : seven c' ->
  exists2 cs', generate_constraints es' c' (new_cs _ setup') = Ret cs' &
    [/\ cs_cons cs' = cs_cons cs, cs_ninst cs' = cs_ninst cs & cs_nwit cs' = cs_nwit cs].
Proof. exact: (preimage_shape c7 run). Qed.
End Preimage.

(** The domain separator is 666, and keys can be generated with the circuit of the tests. *)
Theorem C65_domain_separator : DOMAIN_SEP = Fq_of_Z 666%Z.
Proof. exact domain_sep_666. Qed.
Theorem C65_test_circuit (es : Fq_fieldType -> outcome FqVar) (setup : bool) :
  exists cs, generate_constraints es test_circuit (new_cs _ setup) = Ret cs.
Proof. exact (@test_circuit_runs es setup). Qed.
Print Assumptions C65_runs.
Print Assumptions C65_sound.
Print Assumptions C65_complete.
Print Assumptions C65_unique.
Print Assumptions C65_happy.
Print Assumptions C65_unhappy.
Print Assumptions C65_size.
Print Assumptions C65_shape.
Print Assumptions C65_domain_separator.
Print Assumptions C65_test_circuit.
