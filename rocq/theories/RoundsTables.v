(** Checkers for the inverse S-box and for the Poseidon2 search. *)
From Coq Require Import ZArith NArith Reals Lia Lra.
From Flocq Require Import Core.
From mathcomp Require Import all_ssreflect.
From Verif Require Import Base Params Transcript V1 Rounds RoundsSpec F64Proofs RoundsSearch RoundsClosed RoundsEval RoundsCheck RoundsProps Slia.
Set Implicit Arguments.
Unset Strict Implicit.
Unset Printing Implicit Defensive.

(** * Cheapest candidates from bounds on the number of rounds counted *)

Section Cheapest.
Variables (w : nat -> Z) (wlo whi : nat -> Z) (t s : nat) (n : Z).

(** [n] is the number of rounds to exceed; [w f] of them come from [f] full rounds. *)
Definition counted (c : rounds) : Prop := s <= r_F c /\ (n < w (r_F c) + Z.of_nat (r_P c))%Z.

Definition least_rP (f : nat) : nat := Nat.max 1 (Z.to_nat (n + 1 - whi f)).

Definition better (c c' : rounds) : bool :=
  (sboxes t (margin c) < sboxes t (margin c')) ||
  (sboxes t (margin c) == sboxes t (margin c')) && (r_F c < r_F c').

Definition in_box_rounds (c : rounds) : bool := (1 <= r_P c < 400) && (4 <= r_F c < 100).

Definition cheapest_check (c : rounds) : bool :=
  [&& in_box_rounds c, s <= r_F c, Z.ltb n (wlo (r_F c) + Z.of_nat (r_P c)) &
      all (fun f => [|| 400 <= least_rP f, (f == r_F c) && (least_rP f == r_P c) |
                        better c (RoundNumbers (least_rP f) f)])
          (range s 100)].

Hypothesis w_bounds : forall f, 4 <= f < 100 -> (wlo f <= w f <= whi f)%Z.

Lemma cheapest_checkP c : cheapest_check c -> cheapest counted t c (margin c).
Proof.
move=> /and4P[/andP[/andP[H1 H2] /andP[H3 H4]] H5 /Z.ltb_spec0 H6 /allP H7].
split=> //; last first.
- move=> c' r' [A1 A2 A3 A4] [A5 A6] /with_marginE -> N.
  have W' := w_bounds (_ : 4 <= r_F c' < 100); rewrite A3 A4 in W'; have {W'}[_ W'] := W' isT.
  have P : least_rP (r_F c') <= r_P c' by rewrite /least_rP; clear -A1 A6 W'; slia.
  have : r_F c' \in range s 100 by rewrite mem_iota; clear -A5 A4; slia.
  have M : sboxes t (margin (RoundNumbers (least_rP (r_F c')) (r_F c'))) <= sboxes t (margin c') ?= iff (least_rP (r_F c') == r_P c').
    split.
      rewrite /sboxes leq_add2l; case: (ltngtP (least_rP (r_F c')) (r_P c')) P => // [P|P] _.
        by apply: ltnW; apply: margin_mono.
      by rewrite /margin /= P.
    rewrite /sboxes eqn_add2l; case: (ltngtP (least_rP (r_F c')) (r_P c')) P => // [P|P] _.
      by apply/eqP => E; have := @margin_mono (RoundNumbers (least_rP (r_F c')) (r_F c')) c' P; rewrite E ltnn.
    by rewrite /margin /= P eqxx.
  move/H7/or3P => [L|/andP[/eqP F /eqP Q]|B].
  + by exfalso; clear -L P A2; slia.
  + have NP : (least_rP (r_F c') == r_P c') = false.
      by apply/eqP => E; apply: N; apply: rounds_eq; rewrite -?F -?Q ?E.
    have Ec : RoundNumbers (least_rP (r_F c')) (r_F c') = c by apply: rounds_eq.
    by left; case: M; rewrite Ec NP ltn_neqAle => -> ->.
  + case/orP: B => [B|/andP[/eqP B B']].
      by left; case: M => M _; apply: leq_trans B M.
    case E: (least_rP (r_F c') == r_P c'); last first.
      by left; case: M; rewrite B E ltn_neqAle => -> ->.
    have Ec : RoundNumbers (least_rP (r_F c')) (r_F c') = c' by apply: rounds_eq => //=; apply/eqP.
    by right; rewrite Ec in B B'; split=> //; rewrite /= ltn_add2r.
- exact: margin_with.
have Hf : 4 <= r_F c < 100 by rewrite H3 H4.
by split=> //; have [W _] := w_bounds Hf; clear -H6 W; lia.
Qed.
End Cheapest.

(** * The inverse S-box *)

Definition iwlo (T : iv) (f : nat) : option (Z * Z) :=
  if ifloor (imul (iint (Z.of_nat f)) T) is Some K then
    if Z.leb 0 K.1 && Z.ltb K.2 (2 ^ 53) then Some (K.1 / u, K.2 / u)%Z else None
  else None.

(** [l] encloses the logarithm of the modulus. *)
Definition ev_inv_at (M t : Z) (l : iv) (c : certs) : option (nat * Z * Z) :=
  if [&& in53 1 t & Z.leb 0 M] then
    let T := ilog2 t (c_t c) in
    match ev_stat M t l (ilit 2), ev_interp_inv M l T, ev_grobner_inv M t l T with
    | Some s, Some K, Some G => Some (s, K, G)
    | _, _, _ => None
    end
  else None.

Definition v1_check_inv_at (M t : Z) (l : iv) (c : certs) (r : rounds) : bool :=
  match ev_inv_at M t l c with
  | Some (s, K, G) =>
      let T := ilog2 t (c_t c) in
      [&& Z.leb M 256, Z.ltb t (2 ^ 50),
          all (fun f => isSome (iwlo T f)) (range 4 100) &
          cheapest_check (fun f => if iwlo T f is Some K then K.1 else 0%Z)
                         (fun f => if iwlo T f is Some K then K.2 else 0%Z)
                         (Z.to_nat t) s (Z.max K G) r]
  | None => false
  end.

Definition v1_check_inv (M t p : Z) (c : certs) (r : rounds) : bool :=
  v1_check_inv_at M t (ev_log2 p (c_p c)) c r.

Lemma iwloP x f T K : f < 100 -> enc T x -> iwlo T f = Some K ->
  (K.1 <= as_usize (ffloor (fmul (f64_of_int (Z.of_nat f)) x)) <= K.2)%Z.
Proof.
move=> Hf HT; rewrite /iwlo.
have := enc_floor (enc_mul (enc_int (Z.of_nat f)) HT).
case: (ifloor _) => [J|] //= [A B]; case: ifP => // /andP[/Z.leb_spec0 H0 /Z.ltb_spec0 H1] [<-] /=.
have U := u_pos.
rewrite /ffloor in A B *; set y := Zfloor _ in A B *.
have {}A : (J.1 <= y * u)%Z by apply: le_IZR; rewrite (mult_IZR y).
have {}B : (y * u <= J.2)%Z by apply: le_IZR; rewrite (mult_IZR y).
have y0 : (0 <= y)%Z by move: A; rewrite /u; lia.
rewrite as_usize_IZR; last by move: B; rewrite /u; lia.
split; first by apply: Z.div_le_upper_bound => //; lia.
by apply: Z.div_le_lower_bound => //; lia.
Qed.

Theorem v1_check_inv_at_sound lm (i : input f64) l c r :
  accurate lm -> enc l (in_log_2_p i) ->
  v1_check_inv_at (Z.of_N (in_M i)) (Z.of_nat (in_t i)) l c r ->
  v1_rounds lm i Inverse = Ret (margin r).
Proof.
move=> acc Hl; rewrite /v1_check_inv_at /ev_inv_at; case: ifP => // /andP[Ht HM].
have t1 : 1 <= in_t i by case/andP: Ht => /Z.leb_spec0 H _; clear -H; slia.
have Et : f64_t i = IZR (Z.of_nat (in_t i)).
  by case/andP: Ht => /Z.leb_spec0 H1 /Z.leb_spec0 H2; apply: f64_of_int_small; lia.
have HT : enc (ilog2 (Z.of_nat (in_t i)) (c_t c)) (f64_log2 lm (f64_t i)) by rewrite Et; exact: enc_log2.
case E1: ev_stat => [s|] //; case E2: ev_interp_inv => [K|] //; case E3: ev_grobner_inv => [G|] //.
case/and4P => /Z.leb_spec0 M256 /Z.ltb_spec0 ts /allP All.
rewrite Nat2Z.id => /(@cheapest_checkP (fun f => as_usize (ffloor (fmul (f64_of_int (Z.of_nat f)) (f64_log2 lm (f64_t i)))))) H.
have {}ts : (N.of_nat (in_t i) < 2 ^ 56)%num by lia.
apply/(v1_search _ _ _ t1 ts); split; first by lia.
have E1' := ev_stat_sound Hl (enc_lit 2 : enc _ (C_of lm Inverse)) E1.
have E2' := ev_interp_inv_sound Hl HT E2.
have E3' := ev_grobner_inv_sound Hl HT t1 E3.
exists r; apply: cheapest_ext (H _) => [c' _|f Hf].
  rewrite /counted /is_secure_v1 E1' E2' E3' bind_ret /inverse_rounds.
  move: (as_usize _) => a; clear; move: (r_P c') => n.
  case: ltnP => Hs; first by split=> // -[Hs' _].
  case: Z.leb_spec => HI; first by split=> // -[_ ?]; exfalso; lia.
  case: Z.leb_spec => HG' /=; first by split=> // -[_ ?]; exfalso; lia.
  by split=> // _; split=> //; lia.
have := All f; rewrite mem_iota; case/andP: Hf => -> Hf; rewrite Hf => /(_ isT).
by case E: (iwlo _ _) => [J|] // _; apply: iwloP HT E.
Qed.

Theorem v1_check_inv_sound lm (i : input f64) p c r :
  accurate lm -> in_log_2_p i = log2 lm p ->
  v1_check_inv (Z.of_N (in_M i)) (Z.of_nat (in_t i)) p c r ->
  v1_rounds lm i Inverse = Ret (margin r).
Proof.
move=> acc Hp; apply: v1_check_inv_at_sound => //.
by rewrite Hp; exact: ev_log2_sound.
Qed.

(** * The additional test of Poseidon2 *)

Definition bits (x : Z) : Z := if Z.eqb x 0 then 0%Z else (Z.log2 (Z.abs x) + 1)%Z.

(** The loop on integers *)
Fixpoint v2_blocked (M : Z) (upper : Z) (lower : nat) (k acc : Z) : bool :=
  match lower with
  | 0 => false
  | lower'.+1 =>
      let acc := (acc * (upper - k) / (k + 1))%Z in
      if Z.leb M (2 * bits acc) then true
      else v2_blocked M upper lower' (k + 1) acc
  end.

Definition v2_params (t e : Z) (c : rounds) : Z * Z :=
  let r := (t / 3)%Z in
  let f2 := Z.of_nat (r_F c)./2 in
  let p := Z.of_nat (r_P c) in
  ((Z.of_nat (r_F c) - 1) * t + p + r + r * f2 + p + e, r * f2 + p + e)%Z.

Definition v2_check (M t e : Z) (c : rounds) : bool :=
  let: (upper, lower) := v2_params t e c in
  [&& Z.leb 1 t, Z.ltb t (2 ^ 40), 1 <= r_F c, Z.ltb upper (2 ^ 40) & v2_blocked M upper (Z.to_nat lower) 0 1].

Lemma floor_third t : (0 <= t < 2 ^ 40)%Z -> Z.to_nat (as_usize (ffloor (fdiv (f64_of_int t) 3))) = Z.to_nat (t / 3).
Proof.
move=> Ht; congr Z.to_nat; rewrite f64_of_int_small; last by lia.
have [d1 d2] : (3 * (t / 3) <= t /\ t <= 3 * (t / 3) + 2)%Z.
  by have := Z.div_mod t 3; have := Z.mod_pos_bound t 3; lia.
have q : (0 <= t / 3 < 2 ^ 40)%Z by lia.
have -> : ffloor (fdiv (IZR t) 3) = IZR (t / 3).
  congr IZR; apply: Zfloor_eq; rewrite /fdiv.
  have {}d1 := IZR_le _ _ d1; have {}d2 := IZR_le _ _ d2; rewrite ?(plus_IZR, mult_IZR) in d1 d2.
  split.
    by apply: rnd_lb; [apply: fmt_int; lia | lra].
  apply: (@Rle_lt_trans _ (IZR (4 * (t / 3) + 3) * bpow radix2 (-2))).
    apply: rnd_ub; first by apply: fmt_dyadic; lia.
    by rewrite plus_IZR mult_IZR /=; lra.
  by rewrite plus_IZR mult_IZR /=; lra.
by apply: as_usize_IZR; lia.
Qed.

Lemma v2_loop_done M upper xs : for_in xs (grobner_basis_v2_step M upper) None = Ret None.
Proof. by elim: xs. Qed.

Lemma for_in_iota1 S k n (f : nat -> S -> outcome S) st :
  for_in (iota k n.+1) f st = bind (f k st) (for_in (iota k.+1 n) f).
Proof. by []. Qed.

Lemma twice_bits b : (0 <= b < 2 ^ 50)%Z -> as_usize (fceil (fmul 2 (f64_of_int b))) = (2 * b)%Z.
Proof.
move=> Hb; rewrite f64_of_int_small; last by lia.
rewrite /fmul -mult_IZR rnd_fmt; last by apply: fmt_int; lia.
by rewrite /fceil Zceil_IZR as_usize_IZR //; lia.
Qed.

Lemma bits_bound x m : (0 <= m)%Z -> (0 <= x <= 2 ^ m)%Z -> (0 <= bits x <= m + 1)%Z.
Proof.
move=> Hm Hx; rewrite /bits; case: Z.eqb_spec => [|N]; first by lia.
rewrite Z.abs_eq; last by lia.
have := Z.log2_nonneg x; have := Z.log2_le_mono x (2 ^ m) (proj2 Hx); rewrite Z.log2_pow2; lia.
Qed.

Lemma lt_bits x : (0 <= x)%Z -> (x < 2 ^ bits x)%Z.
Proof.
move=> Hx; rewrite /bits; case: Z.eqb_spec => [->|N] //.
rewrite Z.abs_eq //; have := Z.log2_spec x; rewrite -Z.add_1_r; lia.
Qed.

Lemma v2_blockedP M upper lower k acc : (Z.of_nat upper < 2 ^ 40)%Z -> (Z.of_N M < 2 ^ 40)%Z ->
  k + lower <= upper -> (0 <= acc <= 2 ^ Z.of_N M)%Z ->
  v2_blocked (Z.of_N M) (Z.of_nat upper) lower (Z.of_nat k) acc ->
  for_in (iota k lower) (grobner_basis_v2_step M upper) (Some acc) = Ret None.
Proof.
move=> Hu HM; elim: lower k acc => [|lower IH] k acc Hk Ha //.
rewrite for_in_iota1 {1}/grobner_basis_v2_step.
have Hk' : k <= upper by clear -Hk; slia.
rewrite /usub Hk' bind_ret.
have -> : Z.of_nat (upper - k) = (Z.of_nat upper - Z.of_nat k)%Z by clear -Hk'; slia.
have -> : Z.of_nat (k + 1) = (Z.of_nat k + 1)%Z by clear; slia.
rewrite -[v2_blocked _ _ lower.+1 _ _]/(if Z.leb (Z.of_N M) (2 * bits (acc * (Z.of_nat upper - Z.of_nat k) / (Z.of_nat k + 1)))
  then true else v2_blocked (Z.of_N M) (Z.of_nat upper) lower (Z.of_nat k + 1) (acc * (Z.of_nat upper - Z.of_nat k) / (Z.of_nat k + 1))).
set acc' := (_ / _)%Z; rewrite -/(bits acc').
have k0 : (0 <= Z.of_nat upper - Z.of_nat k < 2 ^ 40)%Z by clear -Hk' Hu; move/leP: Hk'; lia.
have A0 : (0 <= acc')%Z by apply: Z.div_pos; [apply: Z.mul_nonneg_nonneg; lia | lia].
have A1 : (acc' <= 2 ^ (Z.of_N M + 40))%Z.
  apply: (Z.le_trans _ (acc * (Z.of_nat upper - Z.of_nat k))).
    apply: Z.div_le_upper_bound; first by lia.
    have : (0 <= acc * (Z.of_nat upper - Z.of_nat k))%Z by apply: Z.mul_nonneg_nonneg; lia.
    by have : (0 <= Z.of_nat k)%Z by [lia]; nia.
  rewrite Z.pow_add_r; try lia.
  by apply: Z.mul_le_mono_nonneg; lia.
have B := bits_bound (_ : 0 <= Z.of_N M + 40)%Z (conj A0 A1).
have {}B := B ltac:(lia).
rewrite twice_bits; last by lia.
case: Z.leb_spec => HL; first by rewrite bind_ret v2_loop_done.
rewrite bind_ret -[(Z.of_nat k + 1)%Z]/(Z.of_nat k + 1)%Z => H; apply: IH.
- by rewrite addSn -addnS.
- split=> //; apply: Z.lt_le_incl; apply: (Z.lt_le_trans _ _ _ (lt_bits A0)).
  by apply: Z.pow_le_mono_r; lia.
by rewrite Nat2Z.inj_succ -Z.add_1_r.
Qed.

Theorem v2_check_sound lm (i : input f64) e c :
  (Z.of_N (in_M i) < 2 ^ 40)%Z ->
  v2_check (Z.of_N (in_M i)) (Z.of_nat (in_t i)) (Z.of_N e) c ->
  is_secure_v1 lm i (Exponent e) c = Ret true -> is_secure_v2 lm i (Exponent e) c = Ret true.
Proof.
move=> HM; rewrite /v2_check.
case E: (v2_params _ _ _) => [upper lower] /and5P[/Z.leb_spec0 H1 /Z.ltb_spec0 H2 H3 /Z.ltb_spec0 H4 H5].
rewrite /is_secure_v1 /is_secure_v2; case: ifP => // _; case: ifP => // _.
case: algebraic_attack_grobner_basis_v1 => //= g [] /negbTE ->.
rewrite /algebraic_attack_grobner_basis_v2_possible.
rewrite /f64_t floor_third; last by lia.
rewrite /usub H3 bind_ret.
set lo := (_ + _); set up := (_ + _).
have N3 : Z.of_nat (Z.to_nat (Z.of_nat (in_t i) / 3)) = (Z.of_nat (in_t i) / 3)%Z.
  by rewrite Z2Nat.id //; apply: Z.div_pos; lia.
have Eu : Z.of_nat up = upper.
  have -> : upper = (v2_params (Z.of_nat (in_t i)) (Z.of_N e) c).1 by rewrite E.
  rewrite /up !(Nat2Z.inj_add, Nat2Z.inj_mul) Nat2Z.inj_sub ?N_nat_Z ?N3; last exact/leP.
  by rewrite /v2_params.
have El : Z.of_nat lo = lower.
  have -> : lower = (v2_params (Z.of_nat (in_t i)) (Z.of_N e) c).2 by rewrite E.
  by rewrite /lo !(Nat2Z.inj_add, Nat2Z.inj_mul) N_nat_Z N3.
rewrite -Eu -El Nat2Z.id in H4 H5.
rewrite /range subn0 v2_blockedP //.
- by rewrite add0n /up /lo leq_add2r leq_add2r leq_addl.
- by split=> //; rewrite -{1}(Z.pow_0_r 2); apply: Z.pow_le_mono_r; lia.
Qed.
