(** Model of the circuit in /repo/poseidon-tests/tests/poseidon377_r1cs.rs, with which
    the gadgets are tested, and of what it uses of ark-relations 0.4 and
    ark-r1cs-std 0.4 in addition to [R1cs.v] (external, contract: see DESIGN.md).

    Not modelled: the proof system (Groth16), keys and their files. *)
From Coq Require Import ZArith.
From mathcomp Require Import all_ssreflect all_algebra.
From Verif Require Import Base Fq Matrix Params R1cs R1csHash Montgomery.
Set Implicit Arguments.
Unset Strict Implicit.
Unset Printing Implicit Defensive.
Import GRing.Theory.
Local Open Scope ring_scope.
Local Open Scope rust_scope.

(** * External *)
Section External.
Variable F : fieldType.

(** [ConstraintSystem::new_ref], in setup mode or with an assignment *)
Definition new_cs (setup : bool) : csys F := Csys setup 0 [::] 0 [::] [::].

(** [AllocatedFp::new_input], as [new_witness] *)
Definition new_input (v : option F) (cs : csys F) : outcome (alloc F * csys F) :=
  let var := [:: (1, Inst (cs_ninst cs))] in
  if cs_setup cs then
    Ret (Alloc None var,
         Csys true (cs_ninst cs).+1 (cs_inst cs) (cs_nwit cs) (cs_wit cs) (cs_cons cs))
  else
    match v with
    | Some x => Ret (Alloc (Some x) var,
         Csys false (cs_ninst cs).+1 (rcons (cs_inst cs) x) (cs_nwit cs) (cs_wit cs) (cs_cons cs))
    | None => Panic
    end.

(** [FpVar::enforce_equal]: [(x - y) * 1 = 0]; two constants are not compared. *)
Definition neg_lc (l : lc F) : lc F := [seq (- kw.1, kw.2) | kw <- l].
Definition enforce_equal (x y : fpvar F) (cs : csys F) : csys F :=
  let one := [:: (1, One)] in
  match x, y with
  | Constant _, Constant _ => cs
  | Constant c, Var v | Var v, Constant c => enforce ((c, One) :: neg_lc (a_lc v)) one [::] cs
  | Var v, Var w => enforce (a_lc v ++ neg_lc (a_lc w)) one [::] cs
  end.
End External.

(** * The circuit *)

(** poseidon377_r1cs.rs:17-22 *)
Definition DOMAIN_SEP : Fq := from_montgomery_limbs
  (mkLimbs 15545862963729521748 8301038308012579564 6940338389606830037 431207966161902270).

(** poseidon377_r1cs.rs:40-57; both arrays have seven elements (25). *)
Record PreimageCircuit := Circuit { preimages : seq Fq; hash_outputs : seq Fq }.

Section Circuit.
(** Behaviour of the external [Sum] of no variable, see [R1cs.v]. *)
Variable empty_sum : Fq_fieldType -> outcome (fpvar Fq_fieldType).
Local Notation FqVar := (fpvar Fq_fieldType).
Local Notation csys := (csys Fq_fieldType).

(** The loops at 66-69 and 74-77 *)
Definition alloc_all (new : option Fq_fieldType -> csys -> outcome (alloc Fq_fieldType * csys))
    (values : seq Fq) (cs : csys) : outcome (seq FqVar * csys) :=
  for_in values (fun value st =>
    let: (vars, cs) := st in
    rc <- new (Some value) cs ;;
    Ret (rcons vars (Var rc.1), rc.2)) ([::], cs).

(** 60-157: the constraint system afterwards *)
Definition generate_constraints (self : PreimageCircuit) (cs : csys) : outcome csys :=
  st <- alloc_all (@new_witness _) (preimages self) cs ;;
  let: (preimage_vars, cs) := st in
  let domain_separator_var := Constant (DOMAIN_SEP : Fq_fieldType) in
  st <- alloc_all (@new_input _) (hash_outputs self) cs ;;
  let: (hash_output_vars, cs) := st in
  (* 81-83 *)
  v0 <- aget preimage_vars 0 ;;
  rc <- r1cs_hash_1 empty_sum cs domain_separator_var v0 ;;
  h <- aget hash_output_vars 0 ;;
  let cs := enforce_equal h rc.1 rc.2 in
  (* 85-90 *)
  v1 <- aget preimage_vars 1 ;;
  rc <- r1cs_hash_2 empty_sum cs domain_separator_var (v0, v1) ;;
  h <- aget hash_output_vars 1 ;;
  let cs := enforce_equal h rc.1 rc.2 in
  (* 92-101 *)
  v2 <- aget preimage_vars 2 ;;
  rc <- r1cs_hash_3 empty_sum cs domain_separator_var (v0, v1, v2) ;;
  h <- aget hash_output_vars 2 ;;
  let cs := enforce_equal h rc.1 rc.2 in
  (* 103-113 *)
  v3 <- aget preimage_vars 3 ;;
  rc <- r1cs_hash_4 empty_sum cs domain_separator_var (v0, v1, v2, v3) ;;
  h <- aget hash_output_vars 3 ;;
  let cs := enforce_equal h rc.1 rc.2 in
  (* 115-126 *)
  v4 <- aget preimage_vars 4 ;;
  rc <- r1cs_hash_5 empty_sum cs domain_separator_var (v0, v1, v2, v3, v4) ;;
  h <- aget hash_output_vars 4 ;;
  let cs := enforce_equal h rc.1 rc.2 in
  (* 128-140 *)
  v5 <- aget preimage_vars 5 ;;
  rc <- r1cs_hash_6 empty_sum cs domain_separator_var (v0, v1, v2, v3, v4, v5) ;;
  h <- aget hash_output_vars 5 ;;
  let cs := enforce_equal h rc.1 rc.2 in
  (* 142-155 *)
  v6 <- aget preimage_vars 6 ;;
  rc <- r1cs_hash_7 empty_sum cs domain_separator_var (v0, v1, v2, v3, v4, v5, v6) ;;
  h <- aget hash_output_vars 6 ;;
  let cs := enforce_equal h rc.1 rc.2 in
  Ret cs.

(** 162-165: the circuit for which keys are generated *)
Definition test_circuit : PreimageCircuit := Circuit (nseq 7 (Fq_of_Z 2)) (nseq 7 (Fq_of_Z 2)).
End Circuit.
