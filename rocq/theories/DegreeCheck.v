(** A Boolean check that top coefficients do not vanish, run on machine integers
    modulo [q] for the Cauchy matrices. *)
From Coq Require Import ZArith.
From Bignums Require Import BigZ.
From mathcomp Require Import all_ssreflect all_algebra.
From Verif Require Import Base Fq Matrix MatrixSpec MatrixProofs Check CheckSound BigField Cauchy TrailsSpec TrailsProofs TrailsCheck.
From Verif Require Import ActiveSpec DegreeSpec DegreeProofs.
Set Implicit Arguments.
Unset Strict Implicit.
Unset Printing Implicit Defensive.
Import GRing.Theory.
Local Open Scope ring_scope.

Section Steps.
Variables (A : Type) (o : ops A) (red : A -> A) (nz : A -> bool).
Definition sq (x : A) : A := red (omul o x x).
Definition pow17 (x : A) : A := red (omul o (sq (sq (sq (sq x)))) x).
Fixpoint steps (M : seq (seq A)) (v : seq A) (r : nat) : bool :=
  all nz v && if r is r'.+1 then steps M (map red (mulv o M (map pow17 v))) r' else true.
End Steps.

Definition check_degree (t : nat) : bool :=
  check_lcm t && all (fun row => steps zops bred bnz (bcauchy t) row 4) (bcauchy t).

Section Sound.
Variable F : fieldType.
Local Notation o := (field_ops F).
Local Notation nzF := (fun a : F => a != 0).

Lemma pow17E (x : F) : pow17 o id x = x ^+ 17.
Proof. by rewrite /pow17 /sq /= -!expr2 -!exprM -exprSr. Qed.

Lemma steps_sound n (M : 'M[F]_n.+1) (v : 'cV[F]_n.+1) r : steps o id nzF (mrows M) (ofV v) r ->
  forall k, (k <= r)%N -> nonzero (iter k (FL 17 M) v).
Proof.
elim: r v => [|r IH] v /= /andP [h1 h2].
  by case=> // _ i; move/allP: h1 => -> //; apply: map_f; rewrite mem_enum.
case=> [_ i|k kr]; first by move/allP: h1 => -> //; apply: map_f; rewrite mem_enum.
rewrite iterSr; apply: IH kr; move: h2; rewrite map_id.
have -> : map (pow17 o id) (ofV v) = ofV (\col_i (v i 0 ^+ 17)).
  by rewrite /ofV -map_comp; apply: eq_map => i; rewrite /= pow17E mxE.
by rewrite mulv_ofV.
Qed.

Lemma FL_scaleM n e (M : 'M[F]_n.+1) l v : FL e (l *: M) v = l *: FL e M v.
Proof. by rewrite /FL scalemxAl. Qed.
Lemma iter_scaleM n e (M : 'M[F]_n.+1) l j k : l != 0 ->
  exists2 b, b != 0 & iter k (FL e (l *: M)) (col j (l *: M)) = b *: iter k (FL e M) (col j M).
Proof.
move=> l0; elim: k => [|k [b b0 E]]; first by exists l => //=; apply/colP => i; rewrite !mxE.
by exists (l * b ^+ e); rewrite ?mulf_neq0 ?expf_neq0 //= E FL_scaleM FL_scale scalerA.
Qed.

Lemma steps_scaled n (M : 'M[F]_n.+1) l R j : l != 0 -> M^T = M ->
  all (fun row => steps o id nzF (mrows (l *: M)) row R) (mrows (l *: M)) ->
  forall k, (k <= R)%N -> nonzero (iter k (FL 17 M) (col j M)).
Proof.
move=> l0 sym /allP H k kR i.
have [b b0 E] := @iter_scaleM n 17 M l j k l0.
have : nonzero (iter k (FL 17 (l *: M)) (col j (l *: M))).
  apply: steps_sound kR; apply: H.
  have -> : ofV (col j (l *: M)) = [seq (l *: M) j i | i <- enum 'I_n.+1].
    by apply: eq_map => x; rewrite !mxE -[in LHS]sym mxE.
  by apply: (map_f (fun j => [seq (l *: M) j i | i <- enum 'I_n.+1])); rewrite mem_enum.
by move/(_ i); rewrite E mxE mulf_eq0 (negbTE b0).
Qed.
End Sound.

Local Notation mphi := (map (map phi)).
Lemma pow17_phi x : phi (pow17 zops bred x) = pow17 fops id (phi x).
Proof. by rewrite /pow17 /sq !(phi_bred, z_phi_mul). Qed.
Lemma steps_phi M v r : steps zops bred bnz M v r -> steps fops id (fun a => a != 0) (mphi M) (map phi v) r.
Proof.
elim: r v => [|r IH] v /= /andP [h1 h2]; apply/andP; split.
- by elim: v h1 {h2} => //= x v IHv /andP [/phi_bnz -> /IHv].
- by [].
- by elim: v h1 {h2} => //= x v IHv /andP [/phi_bnz -> /IHv].
- move/IH: h2; rewrite map_id.
  have -> : map phi (map bred (mulv zops M (map (pow17 zops bred) v))) =
      mulv fops (mphi M) (map (pow17 fops id) (map phi v)).
    rewrite -map_comp (eq_map (f2 := phi)); last by move=> x; rewrite /= phi_bred.
    rewrite (mulv_phi (o := zops) (o' := fops)) //; last exact: z_phi_mul; last exact: z_phi_add.
    by congr mulv; rewrite -!map_comp; apply: eq_map => x; rewrite /= pow17_phi.
  by [].
Qed.

Lemma check_degreeP n : check_degree n.+1 -> forall (j : 'I_n.+1) k, (k <= 4)%N ->
  nonzero (iter k (FL 17 (cauchy_mx Fq_fieldType n.+1)) (col j (cauchy_mx Fq_fieldType n.+1))).
Proof.
case/andP => /bcauchyE [L0 E] H j k k4.
apply: (steps_scaled (R := 4) _ L0) => //.
  by apply/matrixP => i l; rewrite !mxE; congr (_%:R^-1); rewrite addnC addnA addnAC.
rewrite -[X in all _ X]E all_map -E; apply: seq.sub_all H => row; exact: steps_phi.
Qed.

Lemma check_2_8 : all check_degree (iota 2 7).
Proof. by vm_compute. Qed.
