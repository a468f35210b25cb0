(** A checker for the outcome of the round-number search, sound for every
    accurate mathematical library. *)
From Coq Require Import ZArith NArith Reals Lia Lra.
From Flocq Require Import Core.
From mathcomp Require Import all_ssreflect.
From Verif Require Import Base Params Transcript Rounds RoundsSpec F64Proofs RoundsSearch RoundsClosed RoundsEval Slia.
Set Implicit Arguments.
Unset Strict Implicit.
Unset Printing Implicit Defensive.
Local Open Scope Z_scope.

(** Certificates for the logarithms of the modulus, of [e - 1] (base 2), of 2 and
    of [t] (base [e], or of [t] to the base 2 for the inverse S-box) *)
Record certs := Certs { c_p : Z * Z * Z; c_C : Z * Z * Z; c_2 : Z * Z * Z; c_t : Z * Z * Z }.

Definition ev_log2 (p : Z) (c : Z * Z * Z) : iv :=
  let: (y, b) := log2_loop (Z.to_nat (Z.log2_up p)) p 0 in
  if Z.leb 0 y && Z.leb y (2 ^ 53) then iadd (iint b) (ilog2 y c) else None.

Definition ilit (n : Z) : iv := Some (n * u, n * u).
Definition ihalf : iv := Some (2 ^ 19, 2 ^ 19).

Definition ev_stat (M t : Z) (l C : iv) : option nat :=
  match ile (iint M) (imul (isub (ifloor l) C) (iadd (iint t) (ilit 1))) with
  | Some true => Some 6%N
  | Some false => Some 10%N
  | None => None
  end.

Definition ev_interp_exp (M : Z) (l L T : iv) : option Z :=
  iusize (iceil (iadd (iceil (imul L (imin (iint M) l))) T)).

Definition ev_grobner_exp (M t : Z) (l L : iv) : option Z :=
  let g1 := imul L (imin (idiv (iint M) (ilit 3)) (idiv l (ilit 2))) in
  let g2 := iadd (iint (t - 1)) (imin (idiv (imul L (iint M)) (iadd (iint t) (ilit 1)))
                                      (idiv (imul L l) (ilit 2))) in
  iusize (ifloor (imax g1 g2)).

Definition ev_interp_inv (M : Z) (l T : iv) : option Z :=
  iusize (iadd (iceil T) (iceil (imul ihalf (imin (iint M) l)))).

Definition ev_grobner_inv (M t : Z) (l T : iv) : option Z :=
  let g1 := iadd (iceil (imul ihalf (imin (iint M) l))) (iceil T) in
  let g2 := iadd (iadd (iint (t - 1)) (iceil T))
                 (imin (iceil (idiv (iint M) (iadd (iint t) (ilit 1)))) (iceil (imul ihalf l))) in
  iusize (ifloor (imax g1 g2)).

Section Sound.
Variable lm : libm.
Hypothesis acc : accurate lm.

Lemma ev_log2_sound p c : enc (ev_log2 p c) (log2 lm p).
Proof.
rewrite /ev_log2 /log2; case: log2_loop => y b; case: ifP => // /andP[/Z.leb_spec0 H0 /Z.leb_spec0 H].
apply: enc_add; first exact: enc_int.
rewrite f64_of_int_small; last by lia.
exact: enc_log2.
Qed.

Variables (i : input f64) (l : iv).
Hypothesis Hl : enc l (in_log_2_p i).
Let M := Z.of_N (in_M i).
Let t := Z.of_nat (in_t i).

Definition C_of (a : alpha) : R :=
  match a with Inverse => 2%R | Exponent e => f64_log2 lm (fsub (f64_exp e) 1) end.

Lemma ev_stat_sound a C s : enc C (C_of a) -> ev_stat M t l C = Some s ->
  statistical_attack_full_rounds lm i a = s.
Proof.
move=> HC; rewrite /ev_stat /statistical_attack_full_rounds -/(C_of a).
case E: ile => [b|] //.
rewrite (@ile_sound _ _ _ _ b _ _ E); first by case: b E => _ [<-].
  exact: enc_int.
by apply: enc_mul; [apply: enc_sub => //; exact: enc_floor | apply: enc_add; [exact: enc_int | exact: enc_lit]].
Qed.

Section Exp.
Variables (e : N) (L T : iv).
Hypothesis HL : enc L (flog lm 2%R (f64_exp e)).

Lemma ev_interp_exp_sound n : enc T (flog lm (f64_t i) (f64_exp e)) ->
  ev_interp_exp M l L T = Some n -> algebraic_attack_interpolation lm i (Exponent e) = n.
Proof.
move=> HT; apply: iusize_sound; apply: enc_ceil; apply: enc_add => //; apply: enc_ceil.
by apply: enc_mul => //; apply: enc_min => //; exact: enc_int.
Qed.

Lemma ev_grobner_exp_sound n : (1 <= in_t i)%N ->
  ev_grobner_exp M t l L = Some n -> algebraic_attack_grobner_basis_v1 lm i (Exponent e) = Ret n.
Proof.
move=> t1 E; rewrite /algebraic_attack_grobner_basis_v1 /usub t1 bind_ret; congr Ret.
apply: iusize_sound E; apply: enc_floor; apply: enc_max.
  apply: enc_mul => //; apply: enc_min; apply: enc_div => //; by [exact: enc_int | exact: enc_lit].
apply: enc_add.
  rewrite (_ : t - 1 = Z.of_nat (in_t i - 1)); first exact: enc_int.
  by clear -t1; rewrite /t; slia.
apply: enc_min; apply: enc_div; try exact: enc_lit.
- by apply: enc_mul => //; exact: enc_int.
- by apply: enc_add; [exact: enc_int | exact: enc_lit].
- exact: enc_mul.
Qed.
End Exp.

Section Inv.
Variable T : iv.
Hypothesis HT : enc T (f64_log2 lm (f64_t i)).

Lemma ev_interp_inv_sound n :
  ev_interp_inv M l T = Some n -> algebraic_attack_interpolation lm i Inverse = n.
Proof.
apply: iusize_sound; apply: enc_add; first exact: enc_ceil.
apply: enc_ceil; apply: enc_mul; first exact: enc_half.
by apply: enc_min => //; exact: enc_int.
Qed.

Lemma ev_grobner_inv_sound n : (1 <= in_t i)%N ->
  ev_grobner_inv M t l T = Some n -> algebraic_attack_grobner_basis_v1 lm i Inverse = Ret n.
Proof.
move=> t1 E; rewrite /algebraic_attack_grobner_basis_v1 /usub t1 bind_ret; congr Ret.
apply: iusize_sound E; apply: enc_floor; apply: enc_max.
  apply: enc_add; last exact: enc_ceil.
  apply: enc_ceil; apply: enc_mul; first exact: enc_half.
  by apply: enc_min => //; exact: enc_int.
apply: enc_add.
  apply: enc_add; last exact: enc_ceil.
  rewrite (_ : t - 1 = Z.of_nat (in_t i - 1)); first exact: enc_int.
  by clear -t1; rewrite /t; slia.
apply: enc_min; apply: enc_ceil.
  by apply: enc_div; [exact: enc_int | apply: enc_add; [exact: enc_int | exact: enc_lit]].
by apply: enc_mul => //; exact: enc_half.
Qed.
End Inv.
End Sound.

(** * Exponents *)

Definition ev_exp (M t e p : Z) (c : certs) : option (nat * Z * Z) :=
  if [&& in53 2 t, in53 2 e & Z.leb 0 M] then
    let l := ev_log2 p (c_p c) in
    let L := ilog 2 e (c_2 c) in
    let T := ilog t e (c_t c) in
    match ev_stat M t l (ilog2 (e - 1) (c_C c)), ev_interp_exp M l L T, ev_grobner_exp M t l L with
    | Some s, Some K, Some G => Some (s, K, G)
    | _, _, _ => None
    end
  else None.

Lemma f64_exp_small e : in53 0 (Z.of_N e) -> f64_exp e = IZR (Z.of_N e).
Proof. by case/andP=> /Z.leb_spec0 H1 /Z.leb_spec0 H2; apply: f64_of_int_small; lia. Qed.

Lemma in53W lo lo' x : lo <= lo' -> in53 lo' x -> in53 lo x.
Proof. by move=> H /andP[/Z.leb_spec0 H1 H2]; rewrite /in53 H2 andbT; apply/Z.leb_spec0; lia. Qed.

Lemma ev_exp_sound lm (i : input f64) e p c s K G :
  accurate lm -> in_log_2_p i = log2 lm p ->
  ev_exp (Z.of_N (in_M i)) (Z.of_nat (in_t i)) (Z.of_N e) p c = Some (s, K, G) ->
  [/\ statistical_attack_full_rounds lm i (Exponent e) = s,
      algebraic_attack_interpolation lm i (Exponent e) = K,
      algebraic_attack_grobner_basis_v1 lm i (Exponent e) = Ret G &
      (2 <= in_t i)%N].
Proof.
move=> acc Hp; rewrite /ev_exp; case: ifP => // /and3P[Ht He HM].
have t2 : (2 <= in_t i)%N by case/andP: Ht => /Z.leb_spec0 H _; clear -H; slia.
have Ee := f64_exp_small (in53W (_ : 0 <= 2) He).
have Et : f64_t i = IZR (Z.of_nat (in_t i)).
  by case/andP: Ht => /Z.leb_spec0 H1 /Z.leb_spec0 H2; apply: f64_of_int_small; lia.
have Hl : enc (ev_log2 p (c_p c)) (in_log_2_p i) by rewrite Hp; exact: ev_log2_sound.
case E1: ev_stat => [s'|] //; case E2: ev_interp_exp => [K'|] //; case E3: ev_grobner_exp => [G'|] //.
case=> <- <- <-; split=> //.
- apply: (ev_stat_sound Hl _ E1); rewrite /C_of Ee // /fsub -minus_IZR.
  rewrite -/(f64_of_int _) f64_of_int_small; first exact: enc_log2.
  by case/andP: He => /Z.leb_spec0 H1 /Z.leb_spec0 H2; lia.
- by apply: (ev_interp_exp_sound Hl _ _ E2); rewrite ?Et Ee //; apply: enc_log.
- by apply: (ev_grobner_exp_sound Hl _ _ E3); [rewrite Ee //; apply: enc_log | slia].
Qed.

(** The outcome for Poseidon1 *)
Definition v1_eval_exp (M t e p : Z) (c : certs) : option (outcome rounds) :=
  match ev_exp M t e p c with
  | Some (s, K, G) =>
      if Z.leb M 256 then
        if Z.ltb (Z.max K G) 498 then Some (Ret (margin (select s (Z.to_nat (Z.max K G)).+1)))
        else Some Panic
      else Some Panic
  | None => None
  end.

Theorem v1_eval_exp_sound lm (i : input f64) e p c r :
  accurate lm -> in_log_2_p i = log2 lm p ->
  v1_eval_exp (Z.of_N (in_M i)) (Z.of_nat (in_t i)) (Z.of_N e) p c = Some r ->
  v1_rounds lm i (Exponent e) = r.
Proof.
move=> acc Hp; rewrite /v1_eval_exp; case E: ev_exp => [[[s K] G]|] //.
have [E1 E2 E3 t2] := ev_exp_sound acc Hp E.
have ts : small (in_t i).
  move: E; rewrite /ev_exp; case: ifP => // /and3P[/andP[_ /Z.leb_spec0 H] _ _] _.
  by rewrite /small; lia.
case: Z.leb_spec => HM.
  have HM' : (in_M i <= 256)%num by lia.
  rewrite (v1_rounds_closed t2 ts HM' E3) E2 E1.
  have -> : ((Z.to_nat (Z.max K G)).+1 <= 498)%N = Z.ltb (Z.max K G) 498.
    by case: Z.ltb_spec => H; clear -H; slia.
  by case: ifP => _ [].
case=> <-; rewrite /v1_rounds (_ : N.ltb 256 (in_M i)) //.
by apply/N.ltb_spec0; lia.
Qed.
