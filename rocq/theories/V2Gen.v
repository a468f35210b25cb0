(** The Poseidon2 generator as a whole. *)
From Coq Require Import ZArith NArith Reals Lia.
From mathcomp Require Import all_ssreflect all_algebra.
From Verif Require Import Base Fq Matrix MatrixSpec MatrixProofs Params PrimeField Alpha AlphaProofs Transcript TranscriptProofs.
From Verif Require Import Cauchy Mds MdsProofs V1 V2 V2Spec V2Proofs Rounds RoundsSpec RoundsProps V2Rounds Slia.
Set Implicit Arguments.
Unset Strict Implicit.
Unset Printing Implicit Defensive.
Import GRing.Theory.
Local Open Scope ring_scope.
Delimit Scope Z_scope with Z.
Local Open Scope rust_scope.

Section Generator.
Variables (L : Type) (PF : prime_field) (Me : merlin) (log2 : Z -> L)
  (v2_rounds : input L -> alpha -> outcome rounds) (M : N) (t limbs : nat) (p : Z) (allow : bool).
Let gen := v2_generate PF Me log2 v2_rounds M t p limbs allow.
Let i := input_generate log2 M t p limbs allow.

Lemma v2_generateP P : gen = Ret P <->
  exists a r arc, [/\ alpha_generate PF p allow = Ret a, v2_rounds i a = Ret r,
    v2_generate_arc PF Me i r a = Ret arc,
    t = 2%N /\ 5%:R != 0 :> PF \/ t = 3%N /\ 7%:R != 0 :> PF &
    P = Params2 (N.to_nat M) a r arc (ofM (internal_mx PF t)) (ofM (internal_mx PF t))].
Proof.
rewrite /gen /v2_generate -/i; split.
- case: (alpha_generate _ _ _) => [a|] //; rewrite bind_ret.
  case Er : (v2_rounds _ _) => [r|] //; rewrite bind_ret.
  case Ec : (v2_generate_arc _ _ _ _ _) => [arc|] //; rewrite bind_ret internal_generateE.
  case: ifP => // H; rewrite bind_ret.
  have T : t = 2%N /\ 5%:R != 0 :> PF \/ t = 3%N /\ 7%:R != 0 :> PF.
    by case/orP: H => /andP[/eqP -> ->]; [left | right].
  have -> : (t < 4)%N by case: T => -[-> _].
  by move=> [<-]; exists a, r, arc.
- move=> [a [r [arc [-> Er Ec T ->]]]]; rewrite bind_ret Er bind_ret Ec bind_ret internal_generateE.
  have -> : (t == 2%N) && (5%:R != 0 :> PF) || (t == 3%N) && (7%:R != 0 :> PF).
    by case: T => -[-> ->].
  by rewrite bind_ret; have -> : (t < 4)%N by case: T => -[-> _].
Qed.

Lemma v2_generate_panics : t <> 2%N -> t <> 3%N -> gen = Panic.
Proof.
by case E : gen => [P|] // t2 t3; case/v2_generateP: E => a [r [arc [_ _ _ [[]|[]]]]].
Qed.

Lemma v2_generate_returned P : gen = Ret P -> [/\ q_m_e P = q_m_i P, wf_shape t t (q_m_i P),
  toM t t (q_m_i P) = internal_mx PF t & toM t t (q_m_i P) \in unitmx].
Proof.
case/v2_generateP => a [r [arc [_ _ _ T ->]]]; rewrite /= toM_ofM; split=> //; first exact: wf_ofM.
rewrite unitmxE unitfE internal_det; last by case: T => -[-> _].
by case: T => -[-> ].
Qed.
End Generator.

(** For the field of the repository *)
Theorem v2_generate_q lm Me limbs allow t : accurate lm -> t = 2%N \/ t = 3%N ->
  exists arc : rmat Fq_pf,
  [/\ wf_shape (8 * t + 31) 1 arc, mds_mx (internal_mx Fq_pf t) &
  v2_generate Fq_pf Me (log2 lm) (v2_rounds lm) 128 t q limbs allow =
    Ret (Params2 128 (Exponent 17) (RoundNumbers 31 8) arc (ofM (internal_mx Fq_pf t)) (ofM (internal_mx Fq_pf t)))].
Proof.
move=> acc T; have Ht : (2 <= t <= 8)%N by case: T => ->.
set i := input_generate (log2 lm) 128 t q limbs allow.
have [els [E1 E2 _]] := v2_arcE Fq_pf Me i (RoundNumbers 31 8) (Exponent 17).
have small m : (0 < m <= 7)%N -> m%:R != 0 :> Fq_pf.
  case/andP => m0 m7; apply: pf_nat_neq0 => //; apply: (Z.le_lt_trans _ 7) => //; clear -m7; slia.
exists (Rmat (8 * t + 31) 1 els); split.
- by rewrite /wf_shape !eqxx muln1 [elements _]/= E2 eqxx.
- by apply: internal_mds => //; case: T => ->.
- apply/v2_generateP; exists (Exponent 17), (RoundNumbers 31 8), (Rmat (8 * t + 31) 1 els); split=> //.
  + exact: q_rounds2.
  + by case: T => ->; [left | right]; rewrite small.
Qed.
