(** Concrete cases for the test circuit: the preimages 1, ..., 7. *)
From Coq Require Import ZArith.
From mathcomp Require Import all_ssreflect all_algebra.
From Verif Require Import Base Fq Params Montgomery Hash R1cs R1csSpec Shipped PoseidonProps TestVectors.
From Verif Require Import Rate1 Rate2 Rate3 Rate4 Rate5 Rate6 Rate7.
From Verif Require Import Preimage PreimageSpec PreimageProofs.
Set Implicit Arguments.
Unset Strict Implicit.
Unset Printing Implicit Defensive.
Import GRing.Theory.
Local Notation K := Fq_fieldType.

(** The constant of the tests is the integer 666. *)
Example domain_sep_value : DOMAIN_SEP = Fq_of_Z 666%Z.
Proof. by apply/val_inj; vm_compute. Qed.

Definition seven_hashes : seq Z := [::
  3302775602057315913454017005751245631958211431078227592628453305331954642813;
  6110996709452190448038899642936449022002969037527470329410941649290884678610;
  1298058004279575415901568643361231156634029811818726025249194923557459788970;
  699240077224766116216101704143947658434445168595761898836411723363735711480;
  6839736614059000495462722594023892588775790985315381712525949158488304519850;
  7434510698230692645161186394282337055320607597681463615882930126727561214043;
  350986374555844759721730484446796423594589262058872869060615427954476345264]%Z.

Lemma big1 : (big_hash rate_1_raw [:: 666; 1]%Z =? nth 0%Z seven_hashes 0)%Z = true.
Proof. vm_cast_no_check (erefl true). Qed.
Example hash_1_value : hash_1 DOMAIN_SEP (Fq_of_Z 1%Z) = Ret (Fq_of_Z (nth 0%Z seven_hashes 0)).
Proof.
rewrite domain_sep_value hash_1E; congr Ret; have /Z.eqb_eq <- := big1.
exact (@big_hashE rate_1_raw [:: 666; 1]%Z raw1 erefl).
Qed.
Lemma big2 : (big_hash rate_2_raw [:: 666; 1; 2]%Z =? nth 0%Z seven_hashes 1)%Z = true.
Proof. vm_cast_no_check (erefl true). Qed.
Example hash_2_value : hash_2 DOMAIN_SEP (Fq_of_Z 1%Z, Fq_of_Z 2%Z) = Ret (Fq_of_Z (nth 0%Z seven_hashes 1)).
Proof.
rewrite domain_sep_value hash_2E; congr Ret; have /Z.eqb_eq <- := big2.
exact (@big_hashE rate_2_raw [:: 666; 1; 2]%Z raw2 erefl).
Qed.
Lemma big3 : (big_hash rate_3_raw [:: 666; 1; 2; 3]%Z =? nth 0%Z seven_hashes 2)%Z = true.
Proof. vm_cast_no_check (erefl true). Qed.
Example hash_3_value : hash_3 DOMAIN_SEP (Fq_of_Z 1%Z, Fq_of_Z 2%Z, Fq_of_Z 3%Z) = Ret (Fq_of_Z (nth 0%Z seven_hashes 2)).
Proof.
rewrite domain_sep_value hash_3E; congr Ret; have /Z.eqb_eq <- := big3.
exact (@big_hashE rate_3_raw [:: 666; 1; 2; 3]%Z raw3 erefl).
Qed.
Lemma big4 : (big_hash rate_4_raw [:: 666; 1; 2; 3; 4]%Z =? nth 0%Z seven_hashes 3)%Z = true.
Proof. vm_cast_no_check (erefl true). Qed.
Example hash_4_value : hash_4 DOMAIN_SEP (Fq_of_Z 1%Z, Fq_of_Z 2%Z, Fq_of_Z 3%Z, Fq_of_Z 4%Z) = Ret (Fq_of_Z (nth 0%Z seven_hashes 3)).
Proof.
rewrite domain_sep_value hash_4E; congr Ret; have /Z.eqb_eq <- := big4.
exact (@big_hashE rate_4_raw [:: 666; 1; 2; 3; 4]%Z raw4 erefl).
Qed.
Lemma big5 : (big_hash rate_5_raw [:: 666; 1; 2; 3; 4; 5]%Z =? nth 0%Z seven_hashes 4)%Z = true.
Proof. vm_cast_no_check (erefl true). Qed.
Example hash_5_value : hash_5 DOMAIN_SEP (Fq_of_Z 1%Z, Fq_of_Z 2%Z, Fq_of_Z 3%Z, Fq_of_Z 4%Z, Fq_of_Z 5%Z) = Ret (Fq_of_Z (nth 0%Z seven_hashes 4)).
Proof.
rewrite domain_sep_value hash_5E; congr Ret; have /Z.eqb_eq <- := big5.
exact (@big_hashE rate_5_raw [:: 666; 1; 2; 3; 4; 5]%Z raw5 erefl).
Qed.
Lemma big6 : (big_hash rate_6_raw [:: 666; 1; 2; 3; 4; 5; 6]%Z =? nth 0%Z seven_hashes 5)%Z = true.
Proof. vm_cast_no_check (erefl true). Qed.
Example hash_6_value : hash_6 DOMAIN_SEP (Fq_of_Z 1%Z, Fq_of_Z 2%Z, Fq_of_Z 3%Z, Fq_of_Z 4%Z, Fq_of_Z 5%Z, Fq_of_Z 6%Z) = Ret (Fq_of_Z (nth 0%Z seven_hashes 5)).
Proof.
rewrite domain_sep_value hash_6E; congr Ret; have /Z.eqb_eq <- := big6.
exact (@big_hashE rate_6_raw [:: 666; 1; 2; 3; 4; 5; 6]%Z raw6 erefl).
Qed.
Lemma big7 : (big_hash rate_7_raw [:: 666; 1; 2; 3; 4; 5; 6; 7]%Z =? nth 0%Z seven_hashes 6)%Z = true.
Proof. vm_cast_no_check (erefl true). Qed.
Example hash_7_value : hash_7 DOMAIN_SEP (Fq_of_Z 1%Z, Fq_of_Z 2%Z, Fq_of_Z 3%Z, Fq_of_Z 4%Z, Fq_of_Z 5%Z, Fq_of_Z 6%Z, Fq_of_Z 7%Z) = Ret (Fq_of_Z (nth 0%Z seven_hashes 6)).
Proof.
rewrite domain_sep_value hash_7E; congr Ret; have /Z.eqb_eq <- := big7.
exact (@big_hashE rate_7_raw [:: 666; 1; 2; 3; 4; 5; 6; 7]%Z raw7 erefl).
Qed.

Definition right_circuit : PreimageCircuit :=
  Circuit (map Fq_of_Z [:: 1; 2; 3; 4; 5; 6; 7]%Z) (map Fq_of_Z seven_hashes).

Example right_seven : seven right_circuit. Proof. by []. Qed.
Example test_seven : seven test_circuit. Proof. by []. Qed.

Example right_hashes : hashes_of (at_ (preimages right_circuit)) (at_ (hash_outputs right_circuit)).
Proof.
exact (conj hash_1_value (conj hash_2_value (conj hash_3_value (conj hash_4_value
  (conj hash_5_value (conj hash_6_value hash_7_value)))))).
Qed.

(** The prover's assignment for these values satisfies the constraints; *)
Example right_satisfied es : exists2 cs, generate_constraints es right_circuit (new_cs _ false) = Ret cs &
  satisfies (asg cs) (cs_cons cs) /\ cs_inst cs = map Fq_of_Z seven_hashes.
Proof.
have [cs E] := preimage_runs es false right_seven; exists cs; first exact: E; split.
  exact (proj2 (preimage_happy right_seven E erefl) right_hashes).
exact (preimage_inst right_seven E erefl).
Qed.

(** for the values with which keys are generated it does not. *)
Definition wrong_circuit : PreimageCircuit :=
  Circuit (map Fq_of_Z [:: 1; 2; 3; 4; 5; 6; 7]%Z) (nseq 7 (Fq_of_Z 2)).
Example wrong_not_satisfied es cs : generate_constraints es wrong_circuit (new_cs _ false) = Ret cs ->
  ~~ satisfies (asg cs) (cs_cons cs).
Proof.
move=> E; have [H _] := preimage_happy (c := wrong_circuit) isT E erefl.
apply/negP => /H [h _]; have := etrans (esym hash_1_value) h.
move/(congr1 (fun o => if o is Ret x then fval x else 0%Z)).
by apply/Z.eqb_neq; vm_compute.
Qed.
