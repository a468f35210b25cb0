(** Evaluation of the floating-point part of the round-number search by interval
    arithmetic: for every accurate mathematical library at once.

    An interval is a pair of integers, in units of [2^-20]; [None] stands for all
    reals.  Rounding keeps a value in an interval whose ends are representable. *)
From Coq Require Import ZArith NArith Reals Lia Lra.
From Flocq Require Import Core.
From mathcomp Require Import all_ssreflect.
From Verif Require Import Base Params Transcript Rounds RoundsSpec F64Proofs RoundsSearch RoundsClosed Slia.
Set Implicit Arguments.
Unset Strict Implicit.
Unset Printing Implicit Defensive.
Local Open Scope Z_scope.

Definition iv := option (Z * Z).
Definition u : Z := 2 ^ 20.

Definition enc (o : iv) (x : R) : Prop :=
  if o is Some K then (IZR K.1 <= x * IZR u <= IZR K.2)%R else True.

Definition lift2 (f : Z * Z -> Z * Z -> iv) (a b : iv) : iv :=
  match a, b with Some K, Some J => f K J | _, _ => None end.
Definition lift1 (f : Z * Z -> iv) (a : iv) : iv := if a is Some K then f K else None.

Definition fits (z : Z) : bool := Z.ltb (Z.abs z) (2 ^ 53).
Definition irnd (K : Z * Z) : iv := if fits K.1 && fits K.2 then Some K else None.
Definition cdiv (a b : Z) : Z := - (- a / b).

Definition iadd := lift2 (fun K J => irnd (K.1 + J.1, K.2 + J.2)).
Definition isub := lift2 (fun K J => irnd (K.1 - J.2, K.2 - J.1)).
Definition imul := lift2 (fun K J =>
  if Z.leb 0 K.1 && Z.leb 0 J.1 then irnd (K.1 * J.1 / u, cdiv (K.2 * J.2) u) else None).
Definition idiv := lift2 (fun K J =>
  if Z.leb 0 K.1 && Z.ltb 0 J.1 then irnd (K.1 * u / J.2, cdiv (K.2 * u) J.1) else None).
Definition ifloor := lift1 (fun K => Some (K.1 / u * u, K.2 / u * u)).
Definition iceil := lift1 (fun K => Some (cdiv K.1 u * u, cdiv K.2 u * u)).
Definition imin := lift2 (fun K J => Some (Z.min K.1 J.1, Z.min K.2 J.2)).
Definition imax := lift2 (fun K J => Some (Z.max K.1 J.1, Z.max K.2 J.2)).
Definition iint (n : Z) : iv := irnd (n * u, n * u).

(** Known integral value *)
Definition iusize (a : iv) : option Z :=
  if a is Some K then
    if [&& Z.leb 0 K.1, Z.ltb K.2 (2 ^ 53) & Z.eqb (K.1 / u) (K.2 / u)] then Some (K.1 / u) else None
  else None.

(** Known truth value of [x <= y] *)
Definition ile (a b : iv) : option bool :=
  match a, b with
  | Some K, Some J => if Z.leb K.2 J.1 then Some true else if Z.ltb J.2 K.1 then Some false else None
  | _, _ => None
  end.

Lemma u_pos : (0 < IZR u)%R. Proof. by apply: (IZR_lt 0). Qed.

Lemma enc_rnd K x : enc (Some K) x -> enc (irnd K) (f64_rnd x).
Proof.
rewrite /irnd; case: ifP => // /andP[/Z.ltb_spec0 H1 /Z.ltb_spec0 H2] /= [A B].
have U : (bpow radix2 (-20) * IZR u = 1)%R by rewrite /u /=; lra.
have U' z : (IZR z = IZR z * bpow radix2 (-20) * IZR u)%R by rewrite Rmult_assoc U Rmult_1_r.
split.
  rewrite (U' K.1); apply: Rmult_le_compat_r; first exact: Rlt_le u_pos.
  apply: rnd_lb; first exact: fmt_dyadic.
  by apply: (Rmult_le_reg_r _ _ _ u_pos); rewrite -U'.
rewrite (U' K.2); apply: Rmult_le_compat_r; first exact: Rlt_le u_pos.
apply: rnd_ub; first exact: fmt_dyadic.
by apply: (Rmult_le_reg_r _ _ _ u_pos); rewrite -U'.
Qed.

Lemma enc_add a b x y : enc a x -> enc b y -> enc (iadd a b) (fadd x y).
Proof.
case: a b => [K|] [J|] //= [A B] [C D]; apply: enc_rnd; rewrite /= !plus_IZR Rmult_plus_distr_r.
by split; lra.
Qed.

Lemma enc_sub a b x y : enc a x -> enc b y -> enc (isub a b) (fsub x y).
Proof.
case: a b => [K|] [J|] //= [A B] [C D]; apply: enc_rnd; rewrite /= !minus_IZR Rmult_minus_distr_r.
by split; lra.
Qed.

Lemma div_le a b : 0 < b -> a / b * b <= a.
Proof. by move=> H; rewrite Z.mul_comm; apply: Z.mul_div_le. Qed.

Lemma cdiv_ge a b : 0 < b -> a <= cdiv a b * b.
Proof. by move=> H; rewrite /cdiv; have := @div_le (- a) b H; lia. Qed.

Lemma div_leR a b : 0 < b -> (IZR (a / b) * IZR b <= IZR a)%R.
Proof. by move=> H; rewrite -mult_IZR; apply: IZR_le; apply: div_le. Qed.

Lemma cdiv_geR a b : 0 < b -> (IZR a <= IZR (cdiv a b) * IZR b)%R.
Proof. by move=> H; rewrite -mult_IZR; apply: IZR_le; apply: cdiv_ge. Qed.

Lemma enc_mul a b x y : enc a x -> enc b y -> enc (imul a b) (fmul x y).
Proof.
case: a b => [K|] [J|] //= [A B] [C D]; case: ifP => // /andP[/Z.leb_spec0 /IZR_le H1 /Z.leb_spec0 /IZR_le H2].
apply: enc_rnd => /=; have U := u_pos.
have := @div_leR (K.1 * J.1) u erefl; have := @cdiv_geR (K.2 * J.2) u erefl.
rewrite (mult_IZR K.1) (mult_IZR K.2) => E F.
have X : (0 <= x * IZR u)%R by lra.
have Y : (0 <= y * IZR u)%R by lra.
have L : (IZR K.1 * IZR J.1 <= x * IZR u * (y * IZR u))%R by apply: Rmult_le_compat.
have L' : (x * IZR u * (y * IZR u) <= IZR K.2 * IZR J.2)%R by apply: Rmult_le_compat.
by split; apply: (Rmult_le_reg_r _ _ _ U); nra.
Qed.

Lemma enc_div a b x y : enc a x -> enc b y -> enc (idiv a b) (fdiv x y).
Proof.
case: a b => [K|] [J|] //= [A B] [C D]; case: ifP => // /andP[/Z.leb_spec0 /IZR_le H1 /Z.ltb_spec0 H2].
have H2' := IZR_lt _ _ H2; have U := u_pos.
have Y : (0 < y)%R by apply: (Rmult_lt_reg_r _ _ _ U); lra.
have J2 : 0 < J.2 by apply: lt_IZR; lra.
apply: enc_rnd => /=.
have := @div_leR (K.1 * u) J.2 J2; have := @cdiv_geR (K.2 * u) J.1 H2.
rewrite (mult_IZR K.1) (mult_IZR K.2) => E F.
set w := (x / y)%R.
have W : (x = w * y)%R by rewrite /w; field; lra.
have W0 : (0 <= w)%R.
  apply: Rmult_le_pos; last by apply: Rlt_le; apply: Rinv_0_lt_compat.
  by apply: (Rmult_le_reg_r _ _ _ U); lra.
rewrite W in A B.
have J2' := IZR_lt _ _ J2.
split.
  apply: (Rmult_le_reg_r _ _ _ J2'); apply: (Rle_trans _ _ _ F).
  apply: (Rle_trans _ (w * y * IZR u * IZR u)); first by apply: Rmult_le_compat_r; lra.
  by have : (0 <= w * IZR u)%R by [apply: Rmult_le_pos; lra]; nra.
apply: (Rmult_le_reg_r _ _ _ H2'); apply: Rle_trans _ E.
apply: (Rle_trans _ (w * y * IZR u * IZR u)); last by apply: Rmult_le_compat_r; lra.
by have : (0 <= w * IZR u)%R by [apply: Rmult_le_pos; lra]; nra.
Qed.

Lemma enc_floor a x : enc a x -> enc (ifloor a) (ffloor x).
Proof.
case: a => [K|] //= [A B]; rewrite (mult_IZR (K.1 / _)) (mult_IZR (K.2 / _)) /ffloor; have U := u_pos.
split; apply: Rmult_le_compat_r; try exact: Rlt_le; apply: IZR_le.
  apply: Zfloor_lub; apply: (Rmult_le_reg_r _ _ _ U); apply: Rle_trans _ A; exact: div_leR.
apply: Z.div_le_lower_bound => //; apply: le_IZR; rewrite (mult_IZR u) Rmult_comm.
by apply: Rle_trans _ B; apply: Rmult_le_compat_r; [exact: Rlt_le | exact: Zfloor_lb].
Qed.

Lemma enc_ceil a x : enc a x -> enc (iceil a) (fceil x).
Proof.
case: a => [K|] //= [A B]; rewrite (mult_IZR (cdiv K.1 _)) (mult_IZR (cdiv K.2 _)) /fceil; have U := u_pos.
split; apply: Rmult_le_compat_r; try exact: Rlt_le; apply: IZR_le.
  rewrite /cdiv; suff : (- Zceil x <= - K.1 / u) by lia.
  apply: Z.div_le_lower_bound => //; suff : K.1 <= Zceil x * u by lia.
  apply: le_IZR; rewrite (mult_IZR (Zceil x)); apply: (Rle_trans _ _ _ A).
  by apply: Rmult_le_compat_r; [exact: Rlt_le | exact: Zceil_ub].
apply: Zceil_glb; apply: (Rmult_le_reg_r _ _ _ U); apply: (Rle_trans _ _ _ B); exact: cdiv_geR.
Qed.

Lemma fminE x y : fmin x y = Rmin x y.
Proof.
rewrite /fmin; case: Rle_bool_spec => H; first by rewrite Rmin_left.
by rewrite Rmin_right //; apply: Rlt_le.
Qed.

Lemma fmaxE x y : fmax x y = Rmax x y.
Proof.
rewrite /fmax; case: Rle_bool_spec => H; first by rewrite Rmax_right.
by rewrite Rmax_left //; apply: Rlt_le.
Qed.

Lemma enc_min a b x y : enc a x -> enc b y -> enc (imin a b) (fmin x y).
Proof.
case: a b => [K|] [J|] //= [A B] [C D]; rewrite fminE.
have [a1 a2] := (IZR_le _ _ (Z.le_min_l K.1 J.1), IZR_le _ _ (Z.le_min_r K.1 J.1)).
split; first by rewrite /Rmin; case: Rle_dec => _; lra.
have U := u_pos.
have m1 := Rmult_le_compat_r _ _ _ (Rlt_le _ _ U) (Rmin_l x y).
have m2 := Rmult_le_compat_r _ _ _ (Rlt_le _ _ U) (Rmin_r x y).
by case: (Z.min_spec K.2 J.2) => [[_ ->]|[_ ->]]; lra.
Qed.

Lemma enc_max a b x y : enc a x -> enc b y -> enc (imax a b) (fmax x y).
Proof.
case: a b => [K|] [J|] //= [A B] [C D]; rewrite fmaxE.
have [a1 a2] := (IZR_le _ _ (Z.le_max_l K.2 J.2), IZR_le _ _ (Z.le_max_r K.2 J.2)).
split; last by rewrite /Rmax; case: Rle_dec => _; lra.
have U := u_pos.
have m1 := Rmult_le_compat_r _ _ _ (Rlt_le _ _ U) (Rmax_l x y).
have m2 := Rmult_le_compat_r _ _ _ (Rlt_le _ _ U) (Rmax_r x y).
by case: (Z.max_spec K.1 J.1) => [[_ ->]|[_ ->]]; lra.
Qed.

Lemma enc_int n : enc (iint n) (f64_of_int n).
Proof. by apply: enc_rnd; rewrite /= (mult_IZR n); split; apply: Rle_refl. Qed.

Lemma enc_lit n : enc (Some (n * u, n * u)) (IZR n).
Proof. by rewrite /= (mult_IZR n); split; apply: Rle_refl. Qed.

Lemma enc_half : enc (Some (2 ^ 19, 2 ^ 19)) (1 / 2).
Proof. by rewrite /= /u; split; rewrite /=; lra. Qed.

Lemma iusize_sound a x n : enc a x -> iusize a = Some n -> as_usize x = n.
Proof.
case: a => [K|] //= [A B]; case: ifP => // /and3P[/Z.leb_spec0 H1 /Z.ltb_spec0 H2 /Z.eqb_spec H3] [<-].
have U := u_pos.
have x0 : (0 <= x)%R by apply: (Rmult_le_reg_r _ _ _ U); have := IZR_le _ _ H1; lra.
rewrite /as_usize Ztrunc_floor //.
have -> : Zfloor x = K.1 / u.
  apply: Z.le_antisymm.
    rewrite H3; apply: Z.div_le_lower_bound => //; apply: le_IZR; rewrite (mult_IZR u) Rmult_comm.
    by apply: Rle_trans _ B; apply: Rmult_le_compat_r; [exact: Rlt_le | exact: Zfloor_lb].
  apply: Zfloor_lub; apply: (Rmult_le_reg_r _ _ _ U); apply: Rle_trans _ A; exact: div_leR.
have : 0 <= K.1 / u by apply: Z.div_pos.
have : K.2 / u <= K.2.
  apply: Z.div_le_upper_bound => //.
  have : 0 <= K.2 by apply: le_IZR; have := IZR_le _ _ H1; lra.
  by rewrite /u; lia.
by move: H2; rewrite -H3; lia.
Qed.

Lemma ile_sound a b x y r : enc a x -> enc b y -> ile a b = Some r -> Rle_bool x y = r.
Proof.
case: a b => [K|] [J|] //= [A B] [C D]; have U := u_pos.
case: ifP => [/Z.leb_spec0 /IZR_le H [<-]|_].
  by apply: Rle_bool_true; apply: (Rmult_le_reg_r _ _ _ U); lra.
case: ifP => [/Z.ltb_spec0 /IZR_lt H [<-]|_] //.
by apply: Rle_bool_false; apply: (Rmult_lt_reg_r _ _ _ U); lra.
Qed.

(** * Logarithms *)

(** From [e^a <= x^d <= e^b]: the logarithm of [x] to the base [e] is between
    [a/d] and [b/d]; the factors account for the errors of the library. *)
Definition ilog_bounds (c : Z * Z * Z) : iv :=
  let: (d, a, b) := c in
  irnd (a * u * (2 ^ 38 - 1) / (d * 2 ^ 38), cdiv (b * u * (2 ^ 38 + 1)) (d * 2 ^ 38)).

Definition ilog_cert (x e : Z) (c : Z * Z * Z) : bool :=
  let: (d, a, b) := c in
  [&& Z.ltb 0 d, Z.leb 0 a, Z.leb 0 b, Z.leb (e ^ a) (x ^ d) & Z.leb (x ^ d) (e ^ b)].

Definition in53 (lo x : Z) : bool := Z.leb lo x && Z.leb x (2 ^ 53).

Definition ilog (x e : Z) (c : Z * Z * Z) : iv :=
  if [&& in53 2 x, in53 2 e & ilog_cert x e c] then ilog_bounds c else None.

Definition ilog2 (x : Z) (c : Z * Z * Z) : iv :=
  let: (d, a, b) := c in
  if [&& in53 1 x & ilog_cert x 2 c] then
    if [&& Z.eqb d 1, Z.eqb a b & Z.leb a 63] then Some (a * u, a * u) else ilog_bounds c
  else None.

Lemma ln_IZR_pow x n : 0 < x -> 0 <= n -> ln (IZR (x ^ n)) = (IZR n * ln (IZR x))%R.
Proof.
move=> Hx Hn; rewrite -{1}(Z2Nat.id n) // -pow_IZR ln_pow; last exact: IZR_lt.
by rewrite INR_IZR_INZ Z2Nat.id.
Qed.

Lemma ln_leZ x y : 0 < x -> x <= y -> (ln (IZR x) <= ln (IZR y))%R.
Proof.
move=> Hx H; case: (Z.eq_dec x y) => [->|N]; first exact: Rle_refl.
by apply: Rlt_le; apply: ln_increasing; apply: IZR_lt => //; lia.
Qed.

Lemma ln_gt0 x : 2 <= x -> (0 < ln (IZR x))%R.
Proof. by move=> H; rewrite -ln_1; apply: ln_increasing; [lra | apply: IZR_lt; lia]. Qed.

(** [w = v * rho] with [rho] close to one and [v] between [a/d] and [b/d] *)
Lemma ilog_boundsP d a b (v w : R) :
  0 < d -> 0 <= a -> (IZR a <= IZR d * v <= IZR b)%R -> (0 <= v)%R ->
  (v * (1 - / 2 ^ 38) <= w <= v * (1 + / 2 ^ 38))%R ->
  forall K, K = (a * u * (2 ^ 38 - 1) / (d * 2 ^ 38), cdiv (b * u * (2 ^ 38 + 1)) (d * 2 ^ 38)) ->
  enc (Some K) w.
Proof.
move=> Hd Ha [A B] V [C D] K -> /=.
have D0 : 0 < d * 2 ^ 38 by lia.
have d0 := IZR_lt _ _ Hd.
have U := u_pos.
have E1 := @div_leR (a * u * (2 ^ 38 - 1)) (d * 2 ^ 38) D0.
have E2 := @cdiv_geR (b * u * (2 ^ 38 + 1)) (d * 2 ^ 38) D0.
rewrite (mult_IZR (a * u)) (mult_IZR a u) (mult_IZR d) in E1.
rewrite (mult_IZR (b * u)) (mult_IZR b u) (mult_IZR d) in E2.
have P : IZR (2 ^ 38) = (2 ^ 38)%R by rewrite pow_IZR.
have P1 : IZR (2 ^ 38 - 1) = (2 ^ 38 - 1)%R by rewrite -P -minus_IZR.
have P2 : IZR (2 ^ 38 + 1) = (2 ^ 38 + 1)%R by rewrite -P -plus_IZR.
rewrite P P1 in E1; rewrite P P2 in E2.
have p0 : (1 < 2 ^ 38)%R by rewrite -P; apply: (IZR_lt 1).
move: p0 C D E1 E2; set p := (2 ^ 38)%R; move=> p0 C D E1 E2.
have pi : (/ p * p = 1)%R by field; lra.
have i0 : (0 < / p)%R by apply: Rinv_0_lt_compat; lra.
have X : (0 < IZR d * p)%R by apply: Rmult_lt_0_compat; lra.
have dv : (0 <= IZR d * v)%R by apply: Rmult_le_pos; lra.
split; apply: (Rmult_le_reg_r _ _ _ X).
  apply: (Rle_trans _ _ _ E1).
  apply: (Rle_trans _ (IZR d * v * IZR u * (p - 1))).
    by apply: Rmult_le_compat_r; [lra | apply: Rmult_le_compat_r; lra].
  have -> : (IZR d * v * IZR u * (p - 1) = (v * (1 - / p)) * (IZR u * (IZR d * p)))%R.
    by field; lra.
  have -> : (w * IZR u * (IZR d * p) = w * (IZR u * (IZR d * p)))%R by ring.
  by apply: Rmult_le_compat_r => //; apply: Rmult_le_pos; lra.
apply: Rle_trans _ E2.
apply: (Rle_trans _ (IZR d * v * IZR u * (p + 1))).
  have -> : (IZR d * v * IZR u * (p + 1) = (v * (1 + / p)) * (IZR u * (IZR d * p)))%R.
    by field; lra.
  have -> : (w * IZR u * (IZR d * p) = w * (IZR u * (IZR d * p)))%R by ring.
  by apply: Rmult_le_compat_r => //; apply: Rmult_le_pos; lra.
by apply: Rmult_le_compat_r; [lra | apply: Rmult_le_compat_r; lra].
Qed.

Section Libm.
Variable lm : libm.
Hypothesis acc : accurate lm.

Lemma range64 lo x : in53 lo x -> lo <= x <= 2 ^ 64.
Proof. by case/andP=> /Z.leb_spec0 H1 /Z.leb_spec0 H2; lia. Qed.

Lemma certP x e d a b : 0 < x -> 2 <= e -> ilog_cert x e (d, a, b) ->
  [/\ 0 < d, 0 <= a & (IZR a <= IZR d * (ln (IZR x) / ln (IZR e)) <= IZR b)%R].
Proof.
move=> Hx He /and5P[/Z.ltb_spec0 Hd /Z.leb_spec0 Ha /Z.leb_spec0 Hb /Z.leb_spec0 H1 /Z.leb_spec0 H2].
have Le := ln_gt0 He.
have E : 0 < e by lia.
have X : 0 < x ^ d by apply: Z.pow_pos_nonneg; lia.
have A := ln_leZ (Z.pow_pos_nonneg _ _ E Ha) H1.
have B := ln_leZ X H2.
rewrite !ln_IZR_pow in A B; try lia.
split=> //; rewrite /Rdiv -Rmult_assoc.
split; apply: (Rmult_le_reg_r _ _ _ Le).
  by rewrite Rmult_assoc Rinv_l; lra.
by rewrite Rmult_assoc Rinv_l; lra.
Qed.

(** The quotient of two slightly wrong logarithms *)
Lemma quot_err (x y x' y' : R) : (0 <= x)%R -> (0 < y)%R ->
  (Rabs (x' - x) <= x / 2 ^ 40)%R -> (Rabs (y' - y) <= y / 2 ^ 40)%R ->
  (x / y * (1 - / 2 ^ 38) <= x' / y' <= x / y * (1 + / 2 ^ 38))%R.
Proof.
move=> X Y.
have -> : (2 ^ 40 = 4 * 2 ^ 38)%R by rewrite /=; ring.
have p0 : (1000 < 2 ^ 38)%R by rewrite pow_IZR; apply: IZR_lt.
move: p0; set p := (2 ^ 38)%R => p0.
have i0 : (0 < / p)%R by apply: Rinv_0_lt_compat; lra.
have i1 : (/ p < / 1000)%R by apply: Rinv_lt_contravar; lra.
have E z : (z / (4 * p) = z * (/ p / 4))%R by rewrite /Rdiv; field; lra.
rewrite !E; set h := (/ p)%R in i0 i1 *.
move=> /Rabs_le_inv [A B] /Rabs_le_inv [C D].
have Y' : (0 < y')%R by nra.
set r := (x / y)%R.
have r0 : (0 <= r)%R by apply: Rmult_le_pos => //; apply: Rlt_le; apply: Rinv_0_lt_compat.
have W : (x = r * y)%R by rewrite /r; field; lra.
have ry : (0 <= r * y)%R by apply: Rmult_le_pos; lra.
split; apply: (Rmult_le_reg_r _ _ _ Y').
  have -> : (x' / y' * y' = x')%R by field; lra.
  apply: (Rle_trans _ (r * (1 - h) * (y + y * (h / 4)))).
    by apply: Rmult_le_compat_l; [apply: Rmult_le_pos; lra | lra].
  have -> : (r * (1 - h) * (y + y * (h / 4)) = r * y * ((1 - h) * (1 + h / 4)))%R by ring.
  apply: (Rle_trans _ (r * y * (1 - h / 4))); last by rewrite -W; lra.
  by apply: Rmult_le_compat_l => //; nra.
have -> : (x' / y' * y' = x')%R by field; lra.
apply: (Rle_trans _ (r * (1 + h) * (y - y * (h / 4)))); last first.
  by apply: Rmult_le_compat_l; [apply: Rmult_le_pos; lra | lra].
have -> : (r * (1 + h) * (y - y * (h / 4)) = r * y * ((1 + h) * (1 - h / 4)))%R by ring.
apply: (Rle_trans _ (r * y * (1 + h / 4))); first by rewrite -W; lra.
by apply: Rmult_le_compat_l => //; nra.
Qed.

Lemma enc_log x e c : enc (ilog x e c) (flog lm (IZR x) (IZR e)).
Proof.
case: acc => Aln _ _; rewrite /ilog; case: ifP => // /and3P[Rx Re].
case: c => [[d a] b] C.
have [X _] := range64 Rx; have [E _] := range64 Re.
have X0 : 0 < x by lia.
have [Hd Ha H] := certP X0 E C.
have Lx := ln_gt0 X; have Le := ln_gt0 E.
apply: enc_rnd; apply: (@ilog_boundsP d a b (ln (IZR x) / ln (IZR e))%R) => //.
  by apply: Rmult_le_pos; [lra | apply: Rlt_le; apply: Rinv_0_lt_compat].
by apply: quot_err; [lra | lra | apply: Aln; apply: range64 | apply: Aln; apply: range64].
Qed.

Lemma enc_log2 x c : enc (ilog2 x c) (f64_log2 lm (IZR x)).
Proof.
case: acc => _ Al2 Apow; rewrite /ilog2; case: c => [[d a] b]; case: ifP => // /andP[Rx C].
have [X _] := range64 Rx.
have X0 : 0 < x by lia.
case: ifP => [/and3P[/Z.eqb_spec d1 /Z.eqb_spec ab /Z.leb_spec0 a63]|_].
  case/and5P: C => /Z.ltb_spec0 _ /Z.leb_spec0 Ha /Z.leb_spec0 _ /Z.leb_spec0 H1 /Z.leb_spec0 H2.
  have -> : x = 2 ^ a by move: H1 H2; rewrite -ab d1 Z.pow_1_r; lia.
  rewrite -(Z2Nat.id a) // -pow_IZR Apow; last by clear -Ha a63; slia.
  by rewrite INR_IZR_INZ Z2Nat.id //; apply: enc_lit.
have [Hd Ha H] := certP X0 (Z.le_refl 2) C.
have L2 := ln_gt0 (Z.le_refl 2).
have Lx : (0 <= ln (IZR x))%R by rewrite -ln_1; apply: (@ln_leZ 1); lia.
have v0 : (0 <= ln (IZR x) / ln 2)%R.
  by apply: Rmult_le_pos; [lra | apply: Rlt_le; apply: Rinv_0_lt_compat].
have := Al2 _ (range64 Rx); move: v0 H; set v := (ln _ / ln _)%R => v0 H /Rabs_le_inv [A B].
have Q : (v / 2 ^ 40 <= v * / 2 ^ 38)%R.
  apply: Rmult_le_compat_l => //; apply: Rinv_le_contravar; rewrite ?pow_IZR.
    by apply: (IZR_lt 0).
  by apply: IZR_le; lia.
have E : enc (Some (a * u * (2 ^ 38 - 1) / (d * 2 ^ 38), cdiv (b * u * (2 ^ 38 + 1)) (d * 2 ^ 38)))
             (f64_log2 lm (IZR x)).
  apply: (@ilog_boundsP d a b v) => //.
  by rewrite Rmult_minus_distr_l Rmult_plus_distr_l Rmult_1_r; lra.
by rewrite /ilog_bounds /irnd; case: ifP.
Qed.
End Libm.
