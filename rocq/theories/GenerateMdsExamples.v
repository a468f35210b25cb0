(** Concrete instances of the statements of [Properties_GenerateMds.v]. *)
From Coq Require Import ZArith Reals String.
From mathcomp Require Import all_ssreflect all_algebra.
From Verif Require Import Base Params Fq Transcript V1 Rounds RoundsSpec F64Proofs RoundsClosed RoundsProps Cauchy CauchyDet ActiveSpec.
From Verif Require Import GenerateMds GenerateMdsSpec GenerateMdsProofs GenerateMdsNear GenerateMdsRounds GenerateMdsTheorems.
Set Implicit Arguments.
Unset Strict Implicit.
Unset Printing Implicit Defensive.
Import GRing.Theory.
Delimit Scope Z_scope with Z.
Local Open Scope ring_scope.

(** The values 0, 1 and 2, 3 modulo 5 *)
Definition rc5 (name : string) (i : nat) : 'F_5 := if String.eqb name "mx" then i%:R else (i + 2)%:R.
Definition M5 : 'M['F_5]_2 := \matrix_(i, j) nth 0 (nth [::] [:: [:: 2%:R; 3%:R]; [:: 4%:R; 2%:R]] i) j.

Lemma M5E : cauchy_of 2 (attempt_of 2 (rc5 "mx") 0) (attempt_of 2 (rc5 "my") 0) = M5.
Proof.
by apply/matrixP => i j; rewrite !mxE; case: i => [[|[|//]] hi]; case: j => [[|[|//]] hj]; apply/eqP.
Qed.

Lemma M5_no_eigenvalue z : ~ has_eigenvalue M5 z.
Proof.
case=> v v0 E.
have E0 := congr1 (fun u : 'cV['F_5]_2 => u ord0 0) E; have E1 := congr1 (fun u : 'cV['F_5]_2 => u (lift ord0 ord0) 0) E.
rewrite !mxE !big_ord_recl !big_ord0 !mxE /= in E0 E1.
apply/negP: v0; rewrite negbK; apply/eqP/colP => i; rewrite mxE.
suff [h0 h1] : v ord0 0 = 0 /\ v (lift ord0 ord0) 0 = 0.
  case: i => [[|[|//]] hi]; [rewrite -[RHS]h0 | rewrite -[RHS]h1]; congr (v _ _); exact/val_inj.
move: (v ord0 0) (v (lift ord0 ord0) 0) E0 E1 => a b {E v i}.
have H : all (fun z : nat => all (fun a : nat => all (fun b : nat =>
  ((2%:R * a%:R + (3%:R * b%:R + 0) == z%:R * a%:R :> 'F_5) && (4%:R * a%:R + (2%:R * b%:R + 0) == z%:R * b%:R :> 'F_5)) ==> ((a == 0%N) && (b == 0%N)))
  (iota 0 5)) (iota 0 5)) (iota 0 5) by vm_compute.
move=> /eqP E0 /eqP E1.
have nat_of (c : 'F_5) : exists2 k, k \in iota 0 5 & c = k%:R.
  by exists (val c); rewrite ?natr_Zp // mem_iota; exact: ltn_ord.
case: (nat_of z) (nat_of a) (nat_of b) => z' hz ?; subst z => -[a' ha ?] [b' hb ?]; subst a b.
move/allP: H => /(_ _ hz) /allP /(_ _ ha) /allP /(_ _ hb) /implyP.
by rewrite E0 E1 => /(_ isT) /andP [/eqP -> /eqP ->].
Qed.

Example returns_M5 : generate_mds_matrix rc5 "m" 2 false = Ret M5.
Proof.
apply/matrix_cases; exists 0%N => //; rewrite -M5E; split=> //.
  by case=> // _; split=> [[|[|//]] [|[|//]]|[|[|//]] [|[|//]]|[|[|//]] [|[|//]]].
by move=> z; rewrite M5E; exact: M5_no_eigenvalue.
Qed.
(** Its determinant is 2, by the formula (-1) * (1 - 0) * (3 - 2) / ((0-2) (0-3) (1-2) (1-3)). *)
Example det_M5 : expected_det 2 [:: 0; 1] [:: 2%:R; 3%:R] = 2%:R :> 'F_5.
Proof. by apply/eqP; vm_compute. Qed.
(** Equal values are an assertion failure. *)
Example collision : generate_mds_matrix (fun _ _ => 0 : 'F_5) "m" 2 false = Panic.
Proof. by []. Qed.

(** The matrix for three words modulo 7, and a width that is refused *)
Definition rc7 (name : string) (i : nat) : 'F_7 := if String.eqb name "mx" then i%:R else (i + 3)%:R.
Example returns_near3 : generate_mds_matrix rc7 "m" 3 true = Ret (near3 _).
Proof.
apply/optimized_3; split=> //.
by split=> [[|[|[|//]]] [|[|[|//]]]|[|[|[|//]]] [|[|[|//]]]|[|[|[|//]]] [|[|[|//]]]].
Qed.
Example near3_not_mds : ~ mds_mx (near3 [fieldType of 'F_7]) /\ has_eigenvalue (near3 [fieldType of 'F_7]) 2%:R.
Proof. exact: near_bad returns_near3. Qed.
Example width_2 : generate_mds_matrix rc7 "m" 2 true = Panic. Proof. exact: optimized_other. Qed.

(** The numbers of rounds; 27 partial rounds for two words are not enough for the library. *)
Example rounds_of_2 : script_rounds 1 = Ret 38%Z. Proof. exact: rounds_1. Qed.
Example reject_27 : with_margin (RoundNumbers 27 6) (RoundNumbers (Z.to_nat (38 - 8)) 8) /\
  is_secure_v1 exact_libm (input_generate (log2 exact_libm) 128 2 q 4 true) (Exponent 17) (RoundNumbers 27 6) = Ret false.
Proof.
have W : with_margin (RoundNumbers 27 6) (RoundNumbers (Z.to_nat (38 - 8)) 8) by [].
by split=> //; apply: (@library_rejects exact_libm 4 true 1 38%Z) exact_accurate _ rounds_1 W; left.
Qed.

(** Two blocks of two words into a state of three; the function reverses the state. *)
Example sponge_rev : sponge (fun s : seq 'F_5 => Ret (rev s)) 3 2 2 [:: 1; 2%:R; 3%:R; 4%:R] = Ret [:: 1; 1].
Proof.
have: if sponge (fun s : seq 'F_5 => Ret (rev s)) 3 2 2 [:: 1; 2%:R; 3%:R; 4%:R] is Ret s then s == [:: 1; 1] else false by vm_compute.
by case: sponge => // s /eqP ->.
Qed.
Example sponge_odd : sponge (fun s : seq 'F_5 => Ret (rev s)) 3 2 2 [:: 1] = Panic. Proof. by []. Qed.

(** Constants: two rows of three words *)
Example ark_6 : flatten (ark_rs rc7 3 2) = [:: 3%:R; 4%:R; 5%:R; 6%:R; 0; 1].
Proof. by apply/eqP; vm_compute. Qed.
