(** The permutations with the S-box [1/x]. *)
From Coq Require Import ZArith.
From mathcomp Require Import all_ssreflect all_algebra.
From Verif Require Import Base Matrix MatrixSpec MatrixProofs Params Permutation PermutationProofs PoseidonProofs Spec InverseSpec.
From Verif Require Import PrimeField Alpha Transcript Cauchy Mds V1 V1Proofs.
Set Implicit Arguments.
Unset Strict Implicit.
Unset Printing Implicit Defensive.
Import GRing.Theory.
Local Open Scope ring_scope.
Local Open Scope rust_scope.
Delimit Scope Z_scope with Z.

Section Perm.
Variables (F : fieldType) (p : params F) (t1 : nat).
Hypothesis hi : p_alpha p = Inverse.
Local Notation vec := ('cV[F]_(1 + t1)).
Local Notation c := (@pc _ p t1).
Local Notation Mx := (pM p t1).

Lemma for_in_partial (ok : vec -> nat -> bool) (step : vec -> nat -> vec) f rs x :
  (forall r x, f r x = if ok x r then Ret (step x r) else Panic) ->
  for_in rs f x = if along ok step x rs then Ret (foldl step x rs) else Panic.
Proof.
move=> H; elim: rs x => //= r rs IH x; rewrite H; case: ifP => //= _; exact: IH.
Qed.

Lemma traverse_inv (s : seq F) : traverse (sbox p) s =
  if all (fun x => x != 0) s then Ret (map GRing.inv s) else Panic.
Proof.
elim: s => //= x s ->; rewrite /sbox hi /fdiv; case: eqP => //= _.
by rewrite div1r; case: all.
Qed.

Lemma fullR_inverse r (x : vec) : fullR p c r x =
  if full_ok c x r then Ret (full_round GRing.inv Mx x (c r)) else Panic.
Proof.
rewrite /fullR /fullO traverse_inv.
have -> : all (fun x => x != 0) (ofV (x + c r)) = full_ok c x r.
  apply/(all_nthP 0)/forallP => [H i|H k].
    by have := H i; rewrite size_ofV nth_ofV; apply.
  by rewrite size_ofV => kt; rewrite -[k]/(val (Ordinal kt)) nth_ofV; apply: H.
case: ifP => //= _; congr (Ret (_ *m _)); apply/matrixP => i j; rewrite !mxE.
by rewrite (nth_map 0) ?size_ofV // nth_ofV !mxE.
Qed.

Lemma partR_inverse r (x : vec) : partR p r x =
  if partial_ok c x r then Ret (partial_round GRing.inv Mx x (c r)) else Panic.
Proof.
rewrite /partR /partO /sbox hi /fdiv /partial_ok; case: eqP => //= _; rewrite div1r; congr (Ret (_ *m _)).
by apply/matrixP => i j; rewrite !mxE; case: eqP => // ->.
Qed.

Lemma unoptV_inverse (x : vec) :
  let Rf := (r_F (p_rounds p) %/ 2)%N in let Rp := r_P (p_rounds p) in
  unoptV p x = if zero_free Mx c Rf Rp x then Ret (poseidon GRing.inv Mx c Rf Rp x) else Panic.
Proof.
rewrite /unoptV /zero_free /poseidon (for_in_partial _ _ fullR_inverse).
case: ifP => //= _; rewrite (for_in_partial _ _ partR_inverse).
by case: ifP => //= _; rewrite (for_in_partial _ _ fullR_inverse).
Qed.

Hypotheses (ht : p_t p = (1 + t1)%N) (ht1 : p_t1 p = t1) (wf : wf_params p).

Lemma unoptimized_inverse (st : seq F) : size st = p_t p ->
  let Rf := (r_F (p_rounds p) %/ 2)%N in let Rp := r_P (p_rounds p) in
  unoptimized_permute p st =
  if zero_free (toM (1 + t1) (1 + t1) (p_mds p)) (@row_of _ t1 (p_arc p)) Rf Rp (toV (1 + t1) st)
  then Ret (ofV (poseidon GRing.inv (toM (1 + t1) (1 + t1) (p_mds p)) (@row_of _ t1 (p_arc p)) Rf Rp (toV (1 + t1) st)))
  else Panic.
Proof.
rewrite ht => ss; rewrite /= -{1}(ofV_toV ss) (unoptimized_permute_ofV ht ht1 wf) unoptV_inverse.
by case: ifP.
Qed.
End Perm.

(** What the generator returns for fields without a suitable exponent *)
Section Returned.
Variables (L : Type) (PF : prime_field) (Me : merlin) (log2 : Z -> L)
  (v1_rounds : input L -> alpha -> outcome rounds) (M : N) (limbs : nat) (allow : bool).
Variables (t : nat) (P : params PF).
Hypotheses (gP : v1_generate PF Me log2 v1_rounds M t (pf_p PF) limbs allow = Ret P)
  (r0 : (0 < r_P (p_rounds P))%N) (ev : ~~ odd (r_F (p_rounds P))) (hi : p_alpha P = Inverse).

Lemma returned_inverse (st : seq PF) : size st = t ->
  let Rf := (r_F (p_rounds P) %/ 2)%N in let Rp := r_P (p_rounds P) in
  let C := cauchy_mx PF (1 + p_t1 P) in let c := @row_of _ (p_t1 P) (p_arc P) in
  let x := toV (1 + p_t1 P) st in
  permute P st = unoptimized_permute P st /\
  permute P st = if zero_free C c Rf Rp x then Ret (ofV (poseidon GRing.inv C c Rf Rp x)) else Panic.
Proof.
have [t1 [arc [et ht1 big wfa [ea er eg eP]]]] := v1_generate_inv gP r0.
subst t; move: hi r0 ev; rewrite eP => /= hi' r0' ev' ss.
have E := generated_permute M (p_alpha P) ht1 big r0' wfa ev' ss; split=> //; rewrite E.
have [wf _] := generated_wf M (p_alpha P) wfa.
by rewrite (unoptimized_inverse (t1 := t1)) // generated_mdsE.
Qed.
End Returned.
