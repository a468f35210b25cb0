(** Properties C45, C53 and C54: Poseidon2 parameters, the inverse S-box, the additional
    security check of Poseidon2.  Statements only; proofs in [V2Proofs.v], [V2Gen.v],
    [V2Rounds.v] and [InverseProofs.v]; concrete instances in [V2Examples.v].

    The matrices of the statements are defined by their entries in [V2Spec.v];
    [zero_free] is in [InverseSpec.v]. *)
From Coq Require Import ZArith NArith Reals.
From mathcomp Require Import all_ssreflect all_algebra.
From Verif Require Import Base Fq Matrix MatrixSpec Params Permutation Spec PrimeField Alpha Transcript Cauchy Mds V1 Rounds RoundsSpec.
From Verif Require Import V1Proofs V2 V2Spec V2Proofs V2Rounds V2Gen InverseSpec InverseProofs.
Import GRing.Theory.
Local Open Scope ring_scope.
Delimit Scope Z_scope with Z.

(** ** C45.  Any field. *)
Theorem C45_internal (F : fieldType) (t : nat) : internal_generate F t =
  if (t == 2%N) && (5%:R != 0 :> F) || (t == 3%N) && (7%:R != 0 :> F) then Ret (ofM (internal_mx F t)) else Panic.
Proof. exact: internal_generateE. Qed.
Theorem C45_internal_det (F : fieldType) (t : nat) : (t == 2%N) || (t == 3%N) ->
  \det (internal_mx F t) = (if t == 2%N then 5%N else 7%N)%:R.
Proof. exact: internal_det. Qed.
Theorem C45_internal_mds (F : fieldType) (t : nat) : (t == 2%N) || (t == 3%N) ->
  (forall m, (0 < m <= 7)%N -> m%:R != 0 :> F) -> mds_mx (internal_mx F t).
Proof. exact: internal_mds. Qed.
Theorem C45_external (F : fieldType) (t : nat) : external_generate F t =
  if (3 < t)%N && (t %% 4 == 0)%N then Ret (if t == 4%N then ofM (M4 F) else ofM (external_mx F (t %/ 4))) else Panic.
Proof. exact: external_generateE. Qed.
Theorem C45_external_unit (F : fieldType) (d : nat) : (0 < d)%N ->
  (external_mx F d \in unitmx) = (2%:R != 0 :> F) && ((d.+1)%:R != 0 :> F).
Proof. exact: external_unit. Qed.
Theorem C45_M4_unit (F : fieldType) : (M4 F \in unitmx) = (2%:R != 0 :> F).
Proof. exact: M4_unit. Qed.
Theorem C45_M4_mds (F : fieldType) : (forall m, (0 < m <= 64)%N -> m%:R != 0 :> F) -> mds_mx (M4 F).
Proof. exact: M4_mds. Qed.

(** The generator, with any search for round numbers *)
Theorem C45_generate (L : Type) (PF : prime_field) (Me : merlin) (log2 : Z -> L) rounds2 (M : N) (t limbs : nat)
    (p : Z) (allow : bool) (P : params2 PF) :
  let i := input_generate log2 M t p limbs allow in
  v2_generate PF Me log2 rounds2 M t p limbs allow = Ret P <->
  exists a r arc, [/\ alpha_generate PF p allow = Ret a, rounds2 i a = Ret r,
    v2_generate_arc PF Me i r a = Ret arc,
    t = 2%N /\ 5%:R != 0 :> PF \/ t = 3%N /\ 7%:R != 0 :> PF &
    P = Params2 (N.to_nat M) a r arc (ofM (internal_mx PF t)) (ofM (internal_mx PF t))].
Proof. exact: v2_generateP. Qed.
Theorem C45_other_widths_panic (L : Type) (PF : prime_field) (Me : merlin) (log2 : Z -> L) rounds2 (M : N)
    (t limbs : nat) (p : Z) (allow : bool) :
  t <> 2%N -> t <> 3%N -> v2_generate PF Me log2 rounds2 M t p limbs allow = Panic.
Proof. exact: v2_generate_panics. Qed.
Theorem C45_returned (L : Type) (PF : prime_field) (Me : merlin) (log2 : Z -> L) rounds2 (M : N) (t limbs : nat)
    (p : Z) (allow : bool) (P : params2 PF) :
  v2_generate PF Me log2 rounds2 M t p limbs allow = Ret P ->
  [/\ q_m_e P = q_m_i P, wf_shape t t (q_m_i P), toM t t (q_m_i P) = internal_mx PF t &
      toM t t (q_m_i P) \in unitmx].
Proof. exact: v2_generate_returned. Qed.
Theorem C45_Fq (lm : libm) (Me : merlin) (limbs : nat) (allow : bool) (t : nat) :
  accurate lm -> t = 2%N \/ t = 3%N ->
  exists arc : rmat Fq_pf,
  [/\ wf_shape (8 * t + 31) 1 arc, mds_mx (internal_mx Fq_pf t) &
  v2_generate Fq_pf Me (log2 lm) (v2_rounds lm) 128 t q limbs allow =
    Ret (Params2 128 (Exponent 17) (RoundNumbers 31 8) arc (ofM (internal_mx Fq_pf t)) (ofM (internal_mx Fq_pf t)))].
Proof. exact: v2_generate_q. Qed.

(** ** C53 *)
Theorem C53_inverse_sbox (F : fieldType) (p : params F) (t1 : nat) :
  p_alpha p = Inverse -> p_t p = (1 + t1)%N -> p_t1 p = t1 -> wf_params p ->
  forall st : seq F, size st = p_t p ->
  let Rf := (r_F (p_rounds p) %/ 2)%N in let Rp := r_P (p_rounds p) in
  unoptimized_permute p st =
  if zero_free (toM (1 + t1) (1 + t1) (p_mds p)) (@row_of _ t1 (p_arc p)) Rf Rp (toV (1 + t1) st)
  then Ret (ofV (poseidon GRing.inv (toM (1 + t1) (1 + t1) (p_mds p)) (@row_of _ t1 (p_arc p)) Rf Rp (toV (1 + t1) st)))
  else Panic.
Proof. exact: unoptimized_inverse. Qed.
Theorem C53_generated (L : Type) (PF : prime_field) (Me : merlin) (log2 : Z -> L) rounds1 (M : N) (limbs : nat)
    (allow : bool) (t : nat) (P : params PF) :
  v1_generate PF Me log2 rounds1 M t (pf_p PF) limbs allow = Ret P ->
  (0 < r_P (p_rounds P))%N -> ~~ odd (r_F (p_rounds P)) -> p_alpha P = Inverse ->
  forall st : seq PF, size st = t ->
  let Rf := (r_F (p_rounds P) %/ 2)%N in let Rp := r_P (p_rounds P) in
  let C := cauchy_mx PF (1 + p_t1 P) in let c := @row_of _ (p_t1 P) (p_arc P) in
  let x := toV (1 + p_t1 P) st in
  permute P st = unoptimized_permute P st /\
  permute P st = if zero_free C c Rf Rp x then Ret (ofV (poseidon GRing.inv C c Rf Rp x)) else Panic.
Proof. exact: returned_inverse. Qed.

(** ** C54 *)
Theorem C54_groebner (i : input f64) (e : N) (c : rounds) : (1 <= r_F c)%N -> (Z.of_nat (in_t i) < 2 ^ 40)%Z ->
  (Z.of_nat (v2_upper (in_t i) e c) < 2 ^ 49)%Z ->
  algebraic_attack_grobner_basis_v2_possible i (Exponent e) c =
  Ret (~~ has (fun k => reached (in_M i) 'C(v2_upper (in_t i) e c, k)) (iota 1 (v2_lower (in_t i) e c))).
Proof. exact: v2_possibleE. Qed.
Theorem C54_Fq_rounds (lm : libm) (t limbs : nat) (allow : bool) : accurate lm -> (2 <= t <= 8)%N ->
  v2_rounds lm (input_generate (log2 lm) 128 t q limbs allow) (Exponent 17) = Ret (RoundNumbers 31 8).
Proof. exact: q_rounds2. Qed.

Print Assumptions C45_internal.
Print Assumptions C45_internal_det.
Print Assumptions C45_internal_mds.
Print Assumptions C45_external.
Print Assumptions C45_external_unit.
Print Assumptions C45_M4_unit.
Print Assumptions C45_M4_mds.
Print Assumptions C45_generate.
Print Assumptions C45_other_widths_panic.
Print Assumptions C45_returned.
Print Assumptions C45_Fq.
Print Assumptions C53_inverse_sbox.
Print Assumptions C53_generated.
Print Assumptions C54_groebner.
Print Assumptions C54_Fq_rounds.
