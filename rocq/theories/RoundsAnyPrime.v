(** The round numbers of the generator for every modulus of a given number of bits: the
    search of [RoundsCheck] with the logarithm of the modulus known only to lie between
    two consecutive integers. *)
From Coq Require Import ZArith NArith Reals Lia Lra.
From Flocq Require Import Core.
From mathcomp Require Import all_ssreflect.
From Verif Require Import Base Params Transcript V1 Rounds RoundsSpec F64Proofs RoundsSearch RoundsClosed RoundsEval RoundsCheck
  RoundsProps RoundsTables AppendixGData CalcTablesSpec AnyPrimeSpec PrimeLib Slia.
From Verif Require AppendixG.
Set Implicit Arguments.
Unset Strict Implicit.
Unset Printing Implicit Defensive.

(** * The logarithm of the modulus *)

Definition ilog_bits (n : Z) : iv := Some ((n - 1) * u - 1, n * u + 1)%Z.

Lemma bits_log2 n p : (1 <= n)%Z -> has_bits n p -> Z.log2 p = (n - 1)%Z.
Proof.
move=> n1 [h1 h2]; apply: Z.log2_unique; first by lia.
by rewrite (_ : Z.succ (n - 1) = n)%Z //; lia.
Qed.

Lemma enc_log_bits lm n p : accurate lm -> (1 <= n <= 1024)%Z -> has_bits n p ->
  enc (ilog_bits n) (log2 lm p).
Proof.
move=> acc Hn Hp; have E := bits_log2 (proj1 Hn) Hp.
have Rp : (0 < p < 2 ^ 1024)%Z.
  case: Hp => h1 h2; split.
    by have := @Z.pow_pos_nonneg 2 (n - 1) ltac:(lia) ltac:(lia); lia.
  by apply: (Z.lt_le_trans _ _ _ h2); apply: Z.pow_le_mono_r; lia.
have [v [_ F /(_ lm acc) H]] := log2_exact Rp; rewrite E in F.
have lo := Zfloor_lb v; have hi := Zfloor_ub v; rewrite F in lo hi.
move/Rabs_le_inv: H => [A B].
have S : (/ 2 ^ 34 * IZR u <= 1)%R by rewrite /u /=; lra.
have U := u_pos.
rewrite /ilog_bits /enc [fst _]/= [snd _]/= minus_IZR plus_IZR (mult_IZR (n - 1) u) (mult_IZR n u).
rewrite minus_IZR in lo hi *; move: (log2 lm p) (IZR u) A B S U => l w A B S U.
have P : (0 < / 2 ^ 34)%R by apply: Rinv_0_lt_compat; apply: pow_lt; lra.
move: (/ 2 ^ 34)%R A B S P => d A B S P.
split; nra.
Qed.

(** With the upper end of the range excluded *)
Definition ilog_inside (n : Z) : iv := Some ((n - 1) * u - 1, n * u - 2 ^ 7)%Z.

Lemma ln_below x : (0 < x)%R -> (ln x <= x - 1)%R.
Proof. by move=> x0; have := exp_ineq1_le (ln x); rewrite exp_ln //; lra. Qed.

Lemma enc_log_inside lm n p : accurate lm -> (1 <= n <= 1024)%Z -> has_bits n p ->
  (p * 2 ^ 12 <= 2 ^ n * (2 ^ 12 - 1))%Z -> enc (ilog_inside n) (log2 lm p).
Proof.
move=> acc Hn Hp Hi; have := enc_log_bits acc Hn Hp.
have Rp : (0 < p < 2 ^ 1024)%Z.
  case: Hp => h1 h2; split.
    by have := @Z.pow_pos_nonneg 2 (n - 1) ltac:(lia) ltac:(lia); lia.
  by apply: (Z.lt_le_trans _ _ _ h2); apply: Z.pow_le_mono_r; lia.
have [v [[L _] _ /(_ lm acc) H]] := log2_exact Rp.
rewrite /ilog_bits /ilog_inside /enc /= => -[A B]; split=> //.
move/Rabs_le_inv: H => [C D].
have L2 : (0 < ln 2)%R by have := ln_gt0 (Z.le_refl 2).
have ln2ub : (ln 2 <= 1)%R.
  by have := @ln_below 2; lra.
have N0 : (0 < 2 ^ n)%Z by apply: Z.pow_pos_nonneg; lia.
have P0 : (0 < p * 2 ^ 12)%Z by lia.
have Q := ln_leZ P0 Hi.
move: Q; rewrite (mult_IZR p (2 ^ 12)) (mult_IZR (2 ^ n) (2 ^ 12 - 1)).
rewrite (ln_mult (IZR p)); try (by apply: (IZR_lt 0); lia).
rewrite (ln_mult (IZR (2 ^ n))); try (by apply: (IZR_lt 0); lia).
rewrite (@ln_IZR_pow 2 n); try lia.
have : (ln (IZR (2 ^ 12 - 1)) <= ln (IZR (2 ^ 12)) - / 2 ^ 12)%R.
  have -> : IZR (2 ^ 12 - 1) = (IZR (2 ^ 12) * (1 - / 2 ^ 12))%R by rewrite /=; lra.
  rewrite ln_mult; [|by rewrite /=; lra|by lra].
  by have := @ln_below (1 - / 2 ^ 12)%R; lra.
move: (ln (IZR (2 ^ 12))) (ln (IZR (2 ^ 12 - 1))) => x y xy Q.
have Q' : (ln (IZR p) / ln 2 <= IZR n - / 2 ^ 12)%R.
  apply/(Rmult_le_reg_r (ln 2)) => //; rewrite /Rdiv Rmult_assoc Rinv_l; last by lra.
  have : (/ 2 ^ 12 * ln 2 <= / 2 ^ 12)%R by lra.
  by lra.
rewrite minus_IZR (mult_IZR n u).
have E : (log2 lm p <= IZR n - / 2 ^ 12 + / 2 ^ 34)%R by lra.
apply: (Rle_trans _ ((IZR n - / 2 ^ 12 + / 2 ^ 34) * IZR u)).
  by apply: Rmult_le_compat_r => //; apply: Rlt_le; exact: u_pos.
by rewrite /u /=; lra.
Qed.

(** * Ranges in place of values *)

Definition irange (a : iv) : option (Z * Z) :=
  if a is Some K then
    if Z.leb 0 K.1 && Z.ltb K.2 (2 ^ 53) then Some (K.1 / u, K.2 / u)%Z else None
  else None.

Lemma irange_sound a x J : enc a x -> irange a = Some J -> (J.1 <= as_usize x <= J.2)%Z.
Proof.
case: a => [K|] //= [A B]; case: ifP => // /andP[/Z.leb_spec0 H1 /Z.ltb_spec0 H2] [<-] /=.
have U := u_pos.
have x0 : (0 <= x)%R by apply: (Rmult_le_reg_r _ _ _ U); have := IZR_le _ _ H1; lra.
rewrite /as_usize Ztrunc_floor //.
have F1 : (K.1 / u <= Zfloor x)%Z.
  by apply: Zfloor_lub; apply: (Rmult_le_reg_r _ _ _ U); apply: Rle_trans _ A; exact: div_leR.
have F2 : (Zfloor x <= K.2 / u)%Z.
  apply: Z.div_le_lower_bound => //; apply: le_IZR; rewrite (mult_IZR u) Rmult_comm.
  by apply: Rle_trans _ B; apply: Rmult_le_compat_r; [exact: Rlt_le | exact: Zfloor_lb].
have F3 : (K.2 / u <= K.2)%Z.
  apply: Z.div_le_upper_bound => //.
  have : (0 <= K.2)%Z by apply: le_IZR; have := IZR_le _ _ H1; lra.
  by rewrite /u; lia.
have F4 : (0 <= K.1 / u)%Z by apply: Z.div_pos.
have H2' : (K.2 < 2 ^ 53)%Z by [].
by clear -H2' F1 F2 F3 F4; lia.
Qed.

Definition rg_interp_exp (M : Z) (l L T : iv) : option (Z * Z) :=
  irange (iceil (iadd (iceil (imul L (imin (iint M) l))) T)).

Definition rg_grobner_exp (M t : Z) (l L : iv) : option (Z * Z) :=
  let g1 := imul L (imin (idiv (iint M) (ilit 3)) (idiv l (ilit 2))) in
  let g2 := iadd (iint (t - 1)) (imin (idiv (imul L (iint M)) (iadd (iint t) (ilit 1)))
                                      (idiv (imul L l) (ilit 2))) in
  irange (ifloor (imax g1 g2)).

Definition rg_exp (M t e : Z) (l : iv) (c : certs) : option (nat * Z * Z) :=
  if [&& in53 2 t, in53 2 e & Z.leb 0 M] then
    let L := ilog 2 e (c_2 c) in
    let T := ilog t e (c_t c) in
    match ev_stat M t l (ilog2 (e - 1) (c_C c)), rg_interp_exp M l L T, rg_grobner_exp M t l L with
    | Some s, Some K, Some G => Some (s, Z.max K.1 G.1, Z.max K.2 G.2)
    | _, _, _ => None
    end
  else None.

Lemma rg_exp_sound lm (i : input f64) e l c s lo hi :
  accurate lm -> enc l (in_log_2_p i) ->
  rg_exp (Z.of_N (in_M i)) (Z.of_nat (in_t i)) (Z.of_N e) l c = Some (s, lo, hi) ->
  exists G, [/\ statistical_attack_full_rounds lm i (Exponent e) = s,
      algebraic_attack_grobner_basis_v1 lm i (Exponent e) = Ret G,
      (lo <= Z.max (algebraic_attack_interpolation lm i (Exponent e)) G <= hi)%Z &
      (2 <= in_t i)%N].
Proof.
move=> acc Hl; rewrite /rg_exp; case: ifP => // /and3P[Ht He HM].
have t2 : (2 <= in_t i)%N by case/andP: Ht => /Z.leb_spec0 H _; clear -H; slia.
have t1 : (1 <= in_t i)%N by clear -t2; slia.
have Ee := f64_exp_small (in53W (_ : 0 <= 2)%Z He).
have Et : f64_t i = IZR (Z.of_nat (in_t i)).
  by case/andP: Ht => /Z.leb_spec0 H1 /Z.leb_spec0 H2; apply: f64_of_int_small; lia.
have HL : enc (ilog 2 (Z.of_N e) (c_2 c)) (flog lm 2%R (f64_exp e)) by rewrite Ee //; apply: enc_log.
have HT : enc (ilog (Z.of_nat (in_t i)) (Z.of_N e) (c_t c)) (flog lm (f64_t i) (f64_exp e)).
  by rewrite Et Ee //; apply: enc_log.
case E1: ev_stat => [s'|] //; case E2: rg_interp_exp => [K|] //; case E3: rg_grobner_exp => [G|] //.
case=> <- <- <-.
have HK : (K.1 <= algebraic_attack_interpolation lm i (Exponent e) <= K.2)%Z.
  apply: irange_sound E2; apply: enc_ceil; apply: enc_add => //; apply: enc_ceil.
  by apply: enc_mul => //; apply: enc_min => //; exact: enc_int.
case E4: (algebraic_attack_grobner_basis_v1 lm i (Exponent e)) => [g|]; last first.
  by move: E4; rewrite /algebraic_attack_grobner_basis_v1 /usub t1 bind_ret.
exists g.
have HG : (G.1 <= g <= G.2)%Z.
  move: E4; rewrite /algebraic_attack_grobner_basis_v1 /usub t1 bind_ret => -[<-].
  apply: irange_sound E3; apply: enc_floor; apply: enc_max.
    by apply: enc_mul => //; apply: enc_min; apply: enc_div => //; by [exact: enc_int | exact: enc_lit].
  apply: enc_add.
    rewrite (_ : (Z.of_nat (in_t i) - 1 = Z.of_nat (in_t i - 1))%Z); first exact: enc_int.
    by clear -t1; slia.
  apply: enc_min; apply: enc_div; try exact: enc_lit.
  - by apply: enc_mul => //; exact: enc_int.
  - by apply: enc_add; [exact: enc_int | exact: enc_lit].
  - exact: enc_mul.
split=> //; last by lia.
apply: (ev_stat_sound Hl _ E1); rewrite /C_of Ee // /fsub -minus_IZR.
rewrite -/(f64_of_int _) f64_of_int_small; first exact: enc_log2.
by case/andP: He => /Z.leb_spec0 H1 /Z.leb_spec0 H2; lia.
Qed.

(** All the choices compatible with the range *)
Definition all_choices (s : nat) (lo hi : Z) (P : rounds -> bool) : bool :=
  all (fun k => P (select s (Z.to_nat lo + k).+1)) (iota 0 (Z.to_nat (hi - lo)).+1).

Lemma all_choicesP s lo hi P k : all_choices s lo hi P -> (0 <= lo <= k)%Z -> (k <= hi)%Z -> P (select s (Z.to_nat k).+1).
Proof.
move=> /allP H [h0 h1] h2; have := H (Z.to_nat (k - lo)).
rewrite mem_iota add0n.
have -> : Z.to_nat lo + Z.to_nat (k - lo) = Z.to_nat k by clear -h0 h1; slia.
by apply; clear -h1 h2; slia.
Qed.

(** The search with an exponent, the outcome satisfying [P] *)
Definition any_check (M t e : Z) (l : iv) (c : certs) (P : rounds -> bool) : bool :=
  match rg_exp M t e l c with
  | Some (s, lo, hi) =>
      [&& Z.leb M 256, Z.leb 0 lo, Z.ltb hi 498 & all_choices s lo hi (fun r => v2_check M t e r && P (margin r))]
  | None => false
  end.

Theorem any_check_sound lm (i : input f64) e l c P : accurate lm -> enc l (in_log_2_p i) ->
  any_check (Z.of_N (in_M i)) (Z.of_nat (in_t i)) (Z.of_N e) l c P ->
  exists r, [/\ P r, v1_rounds lm i (Exponent e) = Ret r & v2_rounds lm i (Exponent e) = Ret r].
Proof.
move=> acc Hl; rewrite /any_check; case E: rg_exp => [[[s lo] hi]|] //.
have [G [E1 E3 B t2]] := rg_exp_sound acc Hl E.
case/and4P => /Z.leb_spec0 HM /Z.leb_spec0 H0 /Z.ltb_spec0 HK H.
have := all_choicesP H (conj H0 (proj1 B)) (proj2 B).
set r := select _ _ => /andP[H2 HP].
have t1 : 1 <= in_t i by clear -t2; slia.
have ts : (N.of_nat (in_t i) < 2 ^ 56)%num.
  move: E; rewrite /rg_exp; case: ifP => // /and3P[/andP[_ /Z.leb_spec0 h] _ _] _.
  by clear -h; lia.
have n498 : (Z.to_nat (Z.max (algebraic_attack_interpolation lm i (Exponent e)) G)).+1 <= 498.
  by move: B; move: (Z.max _ _) => n B; clear -HK B; slia.
have s4 : 4 <= s < 100 by rewrite -E1; case: (s_610 lm i (Exponent e)) => ->.
have Hc : cheapest (fun c => is_secure_v1 lm i (Exponent e) c = Ret true) (in_t i) r (margin r).
  apply: cheapest_ext (select_cheapest t2 s4 n498) => c' _.
  by have h := secure_enough t2 c' E3; rewrite E1 in h; split=> /h.
exists (margin r); split=> //.
  by apply/(v1_search _ _ _ t1 ts); split; [lia | exists r].
apply: (v2_agrees t1 ts Hc); apply: v2_check_sound H2 _; first by lia.
by case: Hc.
Qed.

(** * Tables 7 and 8 *)

(** Checking a row *)
Definition close_check (e : N) (w : row) (r : rounds) : bool :=
  (r_F r == row_rF w) && ((r_P r == row_rP w) || shifts e w && ((r_P r).+1 == row_rP w)).

Definition row_any (e : N) (w : row) (c : certs) : bool :=
  Z.leb 1 (bits_of w) && Z.leb (bits_of w) 1024 &&
  any_check (Z.of_N (row_M w)) (Z.of_nat (row_t w)) (Z.of_N e) (ilog_bits (bits_of w)) c (close_check e w).

Lemma row_any_sound lm e w c p limbs allow : accurate lm -> row_any e w c -> has_bits (bits_of w) p ->
  chosen_close lm e w p limbs allow.
Proof.
move=> acc /andP[/andP[/Z.leb_spec0 H1 /Z.leb_spec0 H2] H] Hp.
set i := input_generate (log2 lm) (row_M w) (row_t w) p limbs allow.
have Hl : enc (ilog_bits (bits_of w)) (in_log_2_p i) := enc_log_bits acc (conj H1 H2) Hp.
have [r [/andP[/eqP F P] V1 V2]] := @any_check_sound lm i e _ c _ acc Hl H.
exists r; split=> //; split=> //.
by case/orP: P => [/eqP P|/andP[S /eqP P]]; [left | right].
Qed.

Definition any_certs_7 : seq certs := [::
  Certs (0, 0, 0) (1, 1, 1) (1000, 630, 631) (12, 7, 8);
  Certs (0, 0, 0) (1, 1, 1) (1000, 630, 631) (12, 15, 16);
  Certs (0, 0, 0) (1, 1, 1) (1000, 630, 631) (12, 19, 20);
  Certs (0, 0, 0) (1, 1, 1) (1000, 630, 631) (12, 22, 23);
  Certs (0, 0, 0) (1, 1, 1) (1000, 630, 631) (12, 30, 31);
  Certs (0, 0, 0) (1, 1, 1) (1000, 630, 631) (12, 7, 8);
  Certs (0, 0, 0) (1, 1, 1) (1000, 630, 631) (12, 15, 16);
  Certs (0, 0, 0) (1, 1, 1) (1000, 630, 631) (12, 19, 20);
  Certs (0, 0, 0) (1, 1, 1) (1000, 630, 631) (12, 22, 23);
  Certs (0, 0, 0) (1, 1, 1) (1000, 630, 631) (12, 30, 31)]%Z.

Definition any_certs_8 : seq certs := [::
  Certs (0, 0, 0) (1, 2, 2) (1000, 430, 431) (12, 5, 6);
  Certs (0, 0, 0) (1, 2, 2) (1000, 430, 431) (12, 10, 11);
  Certs (0, 0, 0) (1, 2, 2) (1000, 430, 431) (12, 13, 14);
  Certs (0, 0, 0) (1, 2, 2) (1000, 430, 431) (12, 15, 16);
  Certs (0, 0, 0) (1, 2, 2) (1000, 430, 431) (12, 20, 21);
  Certs (0, 0, 0) (1, 2, 2) (1000, 430, 431) (12, 5, 6);
  Certs (0, 0, 0) (1, 2, 2) (1000, 430, 431) (12, 10, 11);
  Certs (0, 0, 0) (1, 2, 2) (1000, 430, 431) (12, 13, 14);
  Certs (0, 0, 0) (1, 2, 2) (1000, 430, 431) (12, 15, 16);
  Certs (0, 0, 0) (1, 2, 2) (1000, 430, 431) (12, 20, 21)]%Z.

Theorem any_table_7 lm w p limbs allow : accurate lm -> List.In w table_7 -> has_bits (bits_of w) p ->
  chosen_close lm 3 w p limbs allow.
Proof.
move=> acc; move: w; apply: (@AppendixG.zip_in _ _ (row_any 3) _ table_7 any_certs_7); [by vm_compute | by vm_compute |].
by move=> w c; apply: row_any_sound.
Qed.

Theorem any_table_8 lm w p limbs allow : accurate lm -> List.In w table_8 -> has_bits (bits_of w) p ->
  chosen_close lm 5 w p limbs allow.
Proof.
move=> acc; move: w; apply: (@AppendixG.zip_in _ _ (row_any 5) _ table_8 any_certs_8); [by vm_compute | by vm_compute |].
by move=> w c; apply: row_any_sound.
Qed.

(** * Table 9 *)

Definition row_any_inv (w : row) (c : certs) : bool :=
  let r := RoundNumbers (row_rP w * 40 %/ 43) (row_rF w - 2) in
  [&& Z.leb 1 (bits_of w), Z.leb (bits_of w) 1024,
      v1_check_inv_at (Z.of_N (row_M w)) (Z.of_nat (row_t w))
        (if Z.ltb (Z.of_N (row_M w)) (bits_of w) then ilog_bits (bits_of w) else ilog_inside (bits_of w)) c r,
      r_P (margin r) == row_rP w & r_F (margin r) == row_rF w].

Theorem any_table_9 lm w p limbs allow : accurate lm -> List.In w table_9 -> has_bits (bits_of w) p ->
  ((bits_of w <= Z.of_N (row_M w))%Z -> not_top (bits_of w) p) ->
  v1_rounds lm (input_generate (log2 lm) (row_M w) (row_t w) p limbs allow) Inverse =
  Ret (RoundNumbers (row_rP w) (row_rF w)).
Proof.
move=> acc; move: w; apply: (@AppendixG.zip_in _ _ row_any_inv _ table_9 certs_9); [by vm_compute | by vm_compute |].
move=> w c /and5P[/Z.leb_spec0 H1 /Z.leb_spec0 H2 H /eqP HP /eqP HF] Hp Ht.
set i := input_generate _ _ _ _ _ _.
have Hl : enc (if Z.ltb (Z.of_N (row_M w)) (bits_of w) then ilog_bits (bits_of w) else ilog_inside (bits_of w)) (in_log_2_p i).
  case: Z.ltb_spec => h; first exact (enc_log_bits acc (conj H1 H2) Hp).
  exact (enc_log_inside acc (conj H1 H2) Hp (Ht h)).
rewrite (@v1_check_inv_at_sound lm i _ c _ acc Hl H); congr Ret.
by apply: rounds_eq.
Qed.

(** * The shift does occur *)

Definition low_96 : Z := 39614081257509345265564254209.
Definition low_192 : Z := 3138550867693340381917894772134149368949131643699595313153.
Definition low_256 : Z := 57896044618658097711785492504343954194777497466519791228867982660189915447297.

Lemma low_96_prime : prime (Z.to_nat low_96).
Proof.
have ck : pock_check low_96 2 35184372089167 3 (low_96 / 2) (Z.to_pos (low_96 / 2)) by vm_compute.
exact (@pock_prime low_96 2 35184372089167 3 _ _ 49 isT erefl erefl ck erefl).
Qed.
Lemma low_192_prime : prime (Z.to_nat low_192).
Proof.
have ck : pock_check low_192 2 9903520314283042199192993983 3 (low_192 / 2) (Z.to_pos (low_192 / 2)) by vm_compute.
exact (@pock_prime low_192 2 9903520314283042199192993983 3 _ _ 97 isT erefl erefl ck erefl).
Qed.
Lemma low_256_prime : prime (Z.to_nat low_256).
Proof.
have ck : pock_check low_256 2 42535295865117307932921825928971026629 3 (low_256 / 2) (Z.to_pos (low_256 / 2)) by vm_compute.
exact (@pock_prime low_256 2 42535295865117307932921825928971026629 3 _ _ 129 isT erefl erefl ck erefl).
Qed.

(** For a row: the prime of its size *)
Definition low_prime (w : row) : Z :=
  if Z.eqb (bits_of w) 96 then low_96 else if Z.eqb (bits_of w) 192 then low_192 else low_256.

Lemma low_prime_prime w : prime (Z.to_nat (low_prime w)).
Proof.
rewrite /low_prime; case: ifP => _; first exact: low_96_prime.
case: ifP => _; [exact: low_192_prime | exact: low_256_prime].
Qed.

Definition low_cert (w : row) (c : certs) : certs :=
  Certs (if Z.eqb (bits_of w) 256 then (1, 15, 15)%Z else if Z.eqb (bits_of w) 192 then (1, 47, 47)%Z else (50, 2350, 2351)%Z) (c_C c) (c_2 c) (c_t c).

Definition row_shift (e : N) (w : row) (c : certs) : bool :=
  let p := low_prime w in
  shifts e w ==>
  [&& Z.leb (2 ^ (bits_of w - 1)) p, Z.ltb p (2 ^ bits_of w), Z.eqb (Z.gcd (Z.of_N e) (p - 1)) 1 &
      AppendixG.both_check e (Row (row_M w) (row_t w) (row_rF w) (row_rP w).-1 p) (low_cert w c)] &&
  (0 < row_rP w).

Lemma row_shift_sound lm e w c limbs allow : accurate lm -> row_shift e w c -> shifts e w ->
  shift_witness lm e w limbs allow.
Proof.
move=> acc /implyP H /H /andP[/and4P[/Z.leb_spec0 H1 /Z.ltb_spec0 H2 /Z.eqb_spec H3 H4] H5].
have [V1 V2] := AppendixG.both_check_sound limbs allow acc H4.
exists (low_prime w), (RoundNumbers (row_rP w).-1 (row_rF w)).
by split=> //; [exact: low_prime_prime | rewrite /= prednK].
Qed.

Theorem shift_7 lm w limbs allow : accurate lm -> List.In w table_7 -> shifts 3 w -> shift_witness lm 3 w limbs allow.
Proof.
move=> acc; move: w; apply: (@AppendixG.zip_in _ _ (row_shift 3) _ table_7 any_certs_7); [by vm_compute | by vm_compute |].
by move=> w c; apply: row_shift_sound.
Qed.

Theorem shift_8 lm w limbs allow : accurate lm -> List.In w table_8 -> shifts 5 w -> shift_witness lm 5 w limbs allow.
Proof.
move=> acc; move: w; apply: (@AppendixG.zip_in _ _ (row_shift 5) _ table_8 any_certs_8); [by vm_compute | by vm_compute |].
by move=> w c; apply: row_shift_sound.
Qed.
