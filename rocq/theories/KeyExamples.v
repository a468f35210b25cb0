(** Concrete cases for the key files. *)
From mathcomp Require Import all_ssreflect all_algebra.
From Verif Require Import Base Fq Hash R1cs R1csSpec Preimage PreimageSpec PreimageProofs PreimageExamples.
From Verif Require Import KeySpec KeyData KeyShipped.
Set Implicit Arguments.
Unset Strict Implicit.
Unset Printing Implicit Defensive.
Local Notation K := Fq_fieldType.

(** The variables which occur in no right factor: the 7 public inputs, one witness of
    each S-box (490), and the results of the last S-boxes of each hash (35). *)
Example b_infinite : count id b_g1_query_inf = 7 + 490 + 35.
Proof. by vm_compute. Qed.
Example b_first : take 24 b_g1_query_inf = false :: nseq 7 true ++ nseq 7 false ++
  [:: false; false; false; true; false; false; false; false; true].
Proof. by vm_compute. Qed.

(** The preimages occur, as does the constant; the fourth witness of the first S-box,
    [x^16], does not, the fifth, [x^17], does. *)
Example b_circuit es cs : generate_constraints es test_circuit (new_cs _ true) = Ret cs ->
  [/\ in_B cs One, in_B cs (Wit 0), in_B cs (Wit 10) = false & in_B cs (Wit 11)].
Proof.
move=> E; have [_ [_ h]] := b_query_any test_seven E; have n := n_varsE test_seven E.
have h' i : i < 1 + (7 + 2457) -> in_B cs (wire_at cs i) = ~~ nth false b_g1_query_inf i.
  by rewrite -n => /h ->; rewrite negbK.
have w := wire_wit test_seven E.
split.
- by rewrite -(wire_one cs) h'.
- by rewrite -(w 0) h'.
- by rewrite -(w 10) h'.
- by rewrite -(w 11) h'.
Qed.
