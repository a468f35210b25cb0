(** Properties of the reference script for round numbers, and its agreement with
    the generator. *)
From Coq Require Import ZArith NArith Reals Lia Lra.
From Flocq Require Import Core.
From mathcomp Require Import all_ssreflect.
From Verif Require Import Base Fq Params Transcript V1 Rounds RoundsSpec F64Proofs RoundsSearch RoundsClosed.
From Verif Require Import RoundsEval RoundsProps CalcRounds CalcSpec CalcSearch CalcProofs Slia.
Set Implicit Arguments.
Unset Strict Implicit.
Unset Printing Implicit Defensive.

(** * Values of alpha that are not supported *)
Lemma for_in_panic T S (xs : seq T) x (body : T -> S -> outcome S) s :
  body x s = Panic -> for_in (x :: xs) body s = Panic.
Proof. by rewrite /= => ->. Qed.

Lemma find_invalid lm p t alpha M cost sm : (alpha <= 0)%Z -> alpha <> (-1)%Z ->
  find_FD_round_numbers lm p t alpha M cost sm = Panic.
Proof.
move=> a0 a1; rewrite /find_FD_round_numbers /find_loops.
have -> : range 1 500 = 1 :: iota 2 498 by [].
have -> : range 4 100 = 4 :: iota 5 95 by [].
rewrite for_in_panic // for_in_panic // /find_body (_ : odd 4 = false) // /sat_inequiv_alpha.
have -> : Z.ltb 0 alpha = false by apply/Z.ltb_ge.
by have -> : Z.eqb alpha (-1) = false by apply/Z.eqb_neq.
Qed.

(** * The number of bits *)
Lemma bits_bounds lm p : accurate_ln lm -> (2 <= p < 2 ^ 1023)%Z ->
  (Rabs (py_log lm p 2 - ln (IZR p) / ln 2) <= / 2 ^ 27)%R.
Proof.
move=> accl Hp; have l2 := ln2_pos.
have A2 := @accl 2%Z ltac:(lia); rewrite f64_of_int_small in A2; last by lia.
have lp := @ln_gt0 p ltac:(lia).
have [Q1 Q2] := quot_err (Rlt_le _ _ lp) l2 (@accl p Hp) A2.
rewrite /py_log /fdiv (@f64_of_int_small 2); last by lia.
have V1 : (1 <= ln (IZR p) / ln 2)%R.
  by apply/div_bound' => //; rewrite Rmult_1_l; apply: (@ln_leZ 2); lia.
have V2 : (ln (IZR p) / ln 2 <= 1023)%R.
  by apply/div_bound => //; have := @ln_leZ p (2 ^ 1023) ltac:(lia) ltac:(lia); rewrite ln_IZR_pow.
move: Q1 Q2 V1 V2; move: (ln (IZR p) / ln 2)%R (f64_ln lm (f64_of_int p) / _)%R => v w Q1 Q2 V1 V2.
have [W1 W2] : (v - / 2 ^ 28 <= w <= v + / 2 ^ 28)%R by split; lra.
have /Rabs_le_inv R : (Rabs (f64_rnd w - w) <= / 2 ^ 40)%R by apply: rnd12; apply: Rabs_le; lra.
by apply: Rabs_le; lra.
Qed.

Lemma bits_eq lm p (n : Z) : accurate_ln lm -> (2 <= p < 2 ^ 1023)%Z -> (0 <= n)%Z ->
  (2 ^ n * 2 ^ 12 <= p * (2 ^ 12 - 1))%Z -> (p * 2 ^ 12 <= 2 ^ (n + 1) * (2 ^ 12 - 1))%Z ->
  Zceil (py_log lm p 2) = (n + 1)%Z.
Proof.
move=> accl Hp n0 H1 H2; have l2 := ln2_pos; have le1 := ln2_le1.
have /Rabs_le_inv B := bits_bounds accl Hp.
set v := (ln (IZR p) / ln 2)%R in B.
have Ev : (v * ln 2 = ln (IZR p))%R by apply: div_mul.
have mulP u w : (0 < u)%Z -> (0 < w)%Z -> (ln (IZR (u * w)) = ln (IZR u) + ln (IZR w))%R.
  by move=> u0 v0; rewrite mult_IZR ln_mult //; apply: IZR_lt.
have p2 k : (0 <= k)%Z -> (0 < 2 ^ k)%Z by move=> ?; apply: Z.pow_pos_nonneg.
have n1 : (0 <= n + 1)%Z by lia.
have d0 : (0 < 2 ^ 12)%Z by []; have d1 : (0 < 2 ^ 12 - 1)%Z by [].
have p0 : (0 < p)%Z by lia.
have q1 := Z.mul_pos_pos _ _ (p2 _ n0) d0; have q2 := Z.mul_pos_pos _ _ p0 d0.
have G : (ln (IZR (2 ^ 12 - 1)) + / IZR (2 ^ 12) <= ln (IZR (2 ^ 12)))%R by apply: ln_gap.
have I12 : (/ IZR (2 ^ 12) = / 2 ^ 12)%R by congr (/ _)%R; rewrite /=; lra.
have E1 := ln_leZ q1 H1; have E2 := ln_leZ q2 H2.
rewrite (mulP _ _ (p2 _ n0) d0) (mulP _ _ p0 d1) in E1.
rewrite (mulP _ _ p0 d0) (mulP _ _ (p2 _ n1) d1) in E2.
move: E1 E2 G; rewrite I12; move: (ln (IZR (2 ^ 12))) (ln (IZR (2 ^ 12 - 1))) => u w.
rewrite !ln_IZR_pow ?plus_IZR; try lia; move=> E1 E2 G.
have V1 : ((IZR n + / 2 ^ 12) * ln 2 <= v * ln 2)%R by nra.
have V2 : ((v + / 2 ^ 12) * ln 2 <= (IZR n + 1) * ln 2)%R by nra.
have W1 := Rmult_le_reg_r _ _ _ l2 V1; have W2 := Rmult_le_reg_r _ _ _ l2 V2.
by apply: Zceil_eq; rewrite plus_IZR; lra.
Qed.

Lemma bits_range lm p : accurate_ln lm -> (2 <= p < 2 ^ 1023)%Z -> (1 <= Zceil (py_log lm p 2) <= 1024)%Z.
Proof.
move=> accl Hp; have l2 := ln2_pos; have /Rabs_le_inv B := bits_bounds accl Hp.
have V1 : (1 <= ln (IZR p) / ln 2)%R.
  by apply/div_bound' => //; rewrite Rmult_1_l; apply: (@ln_leZ 2); lia.
have V2 : (ln (IZR p) / ln 2 <= 1023)%R.
  by apply/div_bound => //; have := @ln_leZ p (2 ^ 1023) ltac:(lia) ltac:(lia); rewrite ln_IZR_pow.
split; last by apply: Zceil_glb; lra.
suff : (0 < Zceil (py_log lm p 2))%Z by lia.
by apply: lt_IZR; have := Zceil_ub (py_log lm p 2); lra.
Qed.

(** * The cost by size *)
Lemma size_cost (n F P : Z) (t : nat) : (0 <= n <= 1024)%Z -> (1 <= t)%N -> (N.of_nat t < 2 ^ 32)%num ->
  get_size_cost F P (n * Z.of_nat t) (Z.of_nat t) = (n * (Z.of_nat t * F + P))%Z.
Proof.
move=> Hn t1 t32; rewrite /get_size_cost.
have T : (1 <= Z.of_nat t < 2 ^ 32)%Z by move/leP: t1; lia.
rewrite !f64_of_int_small; try nia.
have -> : fdiv (IZR (n * Z.of_nat t)) (IZR (Z.of_nat t)) = IZR n.
  rewrite /fdiv mult_IZR (_ : (_ / _)%R = IZR n); first by apply: rnd_fmt; apply: fmt_int; lia.
  by field; apply: not_0_IZR; lia.
by rewrite Zceil_IZR; ring.
Qed.

Theorem size_same_rounds lm p (t : nat) alpha M sm :
  accurate_ln lm -> (2 <= p < 2 ^ 1023)%Z -> (1 <= t)%N -> (N.of_nat t < 2 ^ 32)%num ->
  find_FD_round_numbers lm p (Z.of_nat t) alpha M get_size_cost sm =
  find_FD_round_numbers lm p (Z.of_nat t) alpha M get_sbox_cost sm.
Proof.
move=> accl Hp t1 t32; have [n1 n2] := bits_range accl Hp.
case: (Z.lt_ge_cases 0 alpha) => [a0|a0]; last case: (Z.eq_dec alpha (-1)) => a1; last by rewrite !find_invalid.
all: have Ha : (0 < alpha)%Z \/ alpha = (-1)%Z by [left | right].
all: have n0 : (0 < Zceil (py_log lm p 2))%Z by lia.
all: have nr : (0 <= Zceil (py_log lm p 2) <= 1024)%Z by lia.
all: have S F P := @script_search_gen lm p t alpha M sm F P get_size_cost _ t1 Ha n0 (fun F P => @size_cost _ _ _ t nr t1 t32).
all: have B F P := @script_search lm p t alpha M sm F P t1 Ha.
all: case E: (find_FD_round_numbers _ _ _ _ _ get_sbox_cost _) => [[F P]|].
all: try by apply/S/B.
all: case E': (find_FD_round_numbers _ _ _ _ _ _ _) => [[F P]|] //.
all: by move/S/B: E'; rewrite E.
Qed.

(** With the cost function of line 60: the fewest rounds, which is what S-boxes are
    counted for in a state of one word. *)
Theorem depth_search lm p (t : nat) alpha M sm F P :
  (0 < alpha)%Z \/ alpha = (-1)%Z ->
  find_FD_round_numbers lm p (Z.of_nat t) alpha M get_depth_cost sm = Ret (F, P) <->
  (exists c, script_best (script_secure lm p (Z.of_nat t) alpha M) 1 sm c (RoundNumbers P F)) \/
  (forall c, script_candidate c -> ~ script_secure lm p (Z.of_nat t) alpha M c) /\ F = 0 /\ P = 0.
Proof.
move=> Ha; rewrite /find_FD_round_numbers.
set sat := fun F P => sat_inequiv_alpha lm p (Z.of_nat t) F P alpha M.
pose s F P := if sat (Z.of_nat F) (Z.of_nat P) is Ret b then b else false.
have satE F' P' : sat (Z.of_nat F') (Z.of_nat P') = Ret (s F' P').
  by rewrite /s /sat; have [b ->] := sat_ret lm p (Z.of_nat t) M (Z.of_nat F') (Z.of_nat P') Ha.
have E c : script_secure lm p (Z.of_nat t) alpha M c <-> s (r_F c) (r_P c).
  by rewrite /script_secure -/(sat _ _) satE; split=> [[]|->].
set N := (_ * _)%Z; have -> : find_loops sat get_depth_cost N (Z.of_nat t) sm = find_loops sat get_depth_cost N (Z.of_nat 1) sm.
  by [].
have costE F' P' : get_depth_cost (Z.of_nat F') (Z.of_nat P') N (Z.of_nat 1) = (1 * (Z.of_nat 1 * Z.of_nat F' + Z.of_nat P'))%Z.
  by rewrite /get_depth_cost; lia.
apply: iff_trans (@find_loops_best sat s satE _ _ 1 1 Z.lt_0_1 costE isT sm F P) _.
split=> -[[c H]|[H H']].
- by left; exists c; apply: script_best_ext H => c' _; rewrite E.
- by right; split=> // c Hc; rewrite E; apply/negP; exact: H.
- by left; exists c; apply: script_best_ext H => c' _; rewrite -E.
- by right; split=> // c Hc; apply/negP; rewrite -E; exact: H.
Qed.

(** * Agreement *)
Section Comparable.
Variables (lm : libm) (M : N) (t : nat) (p : Z) (e : N) (limbs : nat) (allow : bool).
Hypothesis acc : accurate lm.
Hypothesis accl : accurate_ln lm.
Hypothesis C : comparable M t p e.
Local Notation n := (Zceil (py_log lm p 2)).
Local Notation script sm := (calc_final_numbers_fixed lm p (Z.of_nat t) (Z.of_N e) (Z.of_N M) sm).
Local Notation generator := (v1_rounds lm (input_generate (log2 lm) M t p limbs allow) (Exponent e)).
Local Notation required := (total_required lm M t e).
Local Notation best := (RoundNumbers (Nat.max 1 (required - 6)) 6).

Lemma p_range : (2 <= p < 2 ^ 1023)%Z.
Proof.
case: C => _ _ _ [_ [pM p1]] _; split=> //.
by have : (2 ^ 1 <= 2 ^ (Z.of_N M + 1))%Z by [apply: Z.pow_le_mono_r; lia]; lia.
Qed.

Lemma script_result sm : let r := finish sm best in
  script sm = Ret (r_F r, r_P r, Z.of_nat (sboxes t r), (n * Z.of_nat (sboxes t r))%Z).
Proof.
move=> r; case: C => Ht He HM [eM pM] Hk.
rewrite (@py_rounds lm M t p e acc accl Ht He HM eM pM Hk sm) -/r; congr (Ret (_, _, _, _)).
have [n1 n2] := bits_range accl p_range; case/andP: Ht => t2 t5.
rewrite size_cost; [|lia|by apply: leq_trans t2|by apply/N.lt_nge => h; move/leP: t5; lia].
by congr (_ * _)%Z; rewrite /sboxes -plusE -multE; lia.
Qed.

Lemma generator_result : generator = if required <= 498 then Ret (margin (select 6 required)) else Panic.
Proof. by case: C => Ht He HM [eM pM] Hk; exact: (@rust_rounds lm M t p e limbs allow acc Ht He HM eM pM Hk). Qed.

Lemma required_t : t <= required.
Proof. by rewrite /total_required; apply/leP; lia. Qed.
Lemma required_405 : (required <= 405) = (t <= 405).
Proof.
case: C => Ht He HM [eM pM] Hk; have a := @A_range lm M e acc He HM eM.
have b := @B_range lm M t e acc Ht He HM Hk.
by apply/idP/idP; rewrite /total_required => /leP ?; apply/leP; lia.
Qed.

(** The same round numbers are found *)
Theorem agreement : t <= 405 -> exists r S,
  script true = Ret (r_F r, r_P r, Z.of_nat (sboxes t r), S) /\ generator = Ret r.
Proof.
rewrite -required_405 => H; exists (margin best), (n * Z.of_nat (sboxes t (margin best)))%Z.
split; first exact: (script_result true).
rewrite generator_result (leq_trans H) //; congr (Ret (margin _)).
rewrite /select /select_rP /select_rF.
by have -> : Nat.max 6 (required - 399) = 6 by clear -H; slia.
Qed.

(** and beyond they are not: the generator gives up on partial rounds. *)
Theorem disagreement : 405 < t -> exists r S,
  script true = Ret (r_F r, r_P r, Z.of_nat (sboxes t r), S) /\ r_F r = 8 /\
  (generator = Panic \/ exists2 r', generator = Ret r' & r_F r < r_F r').
Proof.
rewrite ltnNge -required_405 -ltnNge => H; exists (margin best), (n * Z.of_nat (sboxes t (margin best)))%Z.
split; first exact: (script_result true).
split=> //; rewrite generator_result; case: ifP => Hn; last by left.
right; exists (margin (select 6 required)) => //=; rewrite /select_rF.
by clear -H; slia.
Qed.

(** The round numbers in integer arithmetic: [e^a < 2^M < e^(a+1)], with some
    distance, and [e^(b-1) < t <= e^b]. *)
Theorem closed_form (a b : Z) sm : (0 <= a)%Z -> (1 <= b)%Z ->
  (Z.of_N e ^ a * 2 ^ 12 <= 2 ^ Z.of_N M * (2 ^ 12 - 1))%Z ->
  (2 ^ Z.of_N M * 2 ^ 12 <= Z.of_N e ^ (a + 1) * (2 ^ 12 - 1))%Z ->
  (Z.of_N e ^ (b - 1) < Z.of_nat t <= Z.of_N e ^ b)%Z ->
  let total := Z.max (a + b + 2) (Z.of_nat t) in
  exists r, reported sm (RoundNumbers (Z.to_nat (Z.max 1 (total - 6))) 6) r /\
    script sm = Ret (r_F r, r_P r, Z.of_nat (sboxes t r), (n * Z.of_nat (sboxes t r))%Z).
Proof.
move=> a0 b1 H1 H2 H3 total; case: C => Ht He HM [eM pM] Hk.
have EA := @A_eq lm M e acc He HM eM a a0 H1 H2.
have EB := @B_eq lm M t e acc Ht He HM Hk b b1 H3.
have ER : required = Z.to_nat total by rewrite /total_required EA EB /total; congr Z.to_nat; lia.
have -> : RoundNumbers (Z.to_nat (Z.max 1 (total - 6))) 6 = best.
  by rewrite ER; congr RoundNumbers; rewrite -minusE; lia.
exists (finish sm best); split; last exact: script_result.
by rewrite /reported /finish; case: (sm) => //; exact: margin_with.
Qed.
End Comparable.

(** * The numbers printed at the end of the script (173-202) *)
Lemma not_power (e t : Z) : (2 <= e)%Z -> (0 < t < e ^ 2)%Z -> forall k : Z, (2 <= k)%Z -> t <> (e ^ k)%Z.
Proof. by move=> e2 Ht k Hk; have := @Z.pow_le_mono_r e 2 k ltac:(lia) Hk; lia. Qed.

Lemma script_row lm (t : nat) (p : Z) (e : N) (a n : Z) (P : nat) : accurate lm -> accurate_ln lm ->
  (3 <= e <= 17)%num -> (2 <= t <= 8)%N -> (Z.of_nat t <= Z.of_N e)%Z ->
  (2 ^ 129 <= p < 2 ^ 1023)%Z -> (28 <= a)%Z -> (0 <= n)%Z ->
  (Z.of_N e ^ a * 2 ^ 12 <= 2 ^ 128 * (2 ^ 12 - 1))%Z ->
  (2 ^ 128 * 2 ^ 12 <= Z.of_N e ^ (a + 1) * (2 ^ 12 - 1))%Z ->
  (2 ^ n * 2 ^ 12 <= p * (2 ^ 12 - 1))%Z -> (p * 2 ^ 12 <= 2 ^ (n + 1) * (2 ^ 12 - 1))%Z ->
  with_margin (RoundNumbers (Z.to_nat (a - 3)) 6) (RoundNumbers P 8) ->
  calc_final_numbers_fixed lm p (Z.of_nat t) (Z.of_N e) 128 true =
  Ret (8, P, Z.of_nat (8 * t + P), ((n + 1) * Z.of_nat (8 * t + P))%Z).
Proof.
move=> acc accl He Ht te Hp a28 n0 H1 H2 H3 H4 HP; case/andP: (Ht) => /leP t2 /leP t8.
have C : comparable 128 t p e.
  split.
  - by apply/andP; split; apply/leP; lia.
  - by clear -He; lia.
  - exact: N.le_refl || by [].
  - split; last exact: Hp.
    apply: (@Z.le_trans _ (16 ^ 2)); [apply: Z.pow_le_mono_l; clear -He; lia | by []].
  - by clear -He t2 te; apply: not_power; [lia | nia].
have a0 : (0 <= a)%Z by clear -a28; lia.
have b1 : (1 <= 1)%Z by [].
have b2 : (Z.of_N e ^ (1 - 1) < Z.of_nat t <= Z.of_N e ^ 1)%Z by rewrite Z.pow_0_r Z.pow_1_r; clear -t2 te; lia.
have [] := @closed_form lm 128 t p e acc accl C a 1 true a0 b1 H1 H2 b2.
clear C H1 H2; move=> r []; have -> : Z.max (a + 1 + 2) (Z.of_nat t) = (a + 3)%Z by clear -a28 t8; lia.
have -> : Z.to_nat (Z.max 1 (a + 3 - 6)) = Z.to_nat (a - 3) by clear -a28; lia.
move=> /= /with_marginE Er; move/with_marginE: HP => HP; rewrite -Er in HP.
rewrite -HP /= (@bits_eq lm p n accl _ n0 H3 H4); last first.
  by split; [apply: Z.le_trans (proj1 Hp) | case: Hp].
by rewrite /sboxes /= [t * 8]mulnC.
Qed.

Definition row_ok (p : Z) (e : N) (a n : Z) (P : nat) : bool :=
  let ez := Z.of_N e in
  [&& N.leb 3 e && N.leb e 17, Z.leb (2 ^ 129) p && Z.ltb p (2 ^ 1023), Z.leb 28 a && Z.leb 0 n,
      Z.leb (ez ^ a * 2 ^ 12) (2 ^ 128 * (2 ^ 12 - 1)) && Z.leb (2 ^ 128 * 2 ^ 12) (ez ^ (a + 1) * (2 ^ 12 - 1)),
      Z.leb (2 ^ n * 2 ^ 12) (p * (2 ^ 12 - 1)) && Z.leb (p * 2 ^ 12) (2 ^ (n + 1) * (2 ^ 12 - 1)) &
      (43 * Z.to_nat (a - 3) <= 40 * P) && (40 * P < 43 * Z.to_nat (a - 3) + 40)].
Lemma script_rowb lm (t : nat) (p : Z) (e : N) (a n : Z) (P : nat) : accurate lm -> accurate_ln lm ->
  (2 <= t <= 8)%N -> (Z.of_nat t <= Z.of_N e)%Z -> row_ok p e a n P ->
  calc_final_numbers_fixed lm p (Z.of_nat t) (Z.of_N e) 128 true =
  Ret (8, P, Z.of_nat (8 * t + P), ((n + 1) * Z.of_nat (8 * t + P))%Z).
Proof.
move=> acc accl Ht te /and5P[/andP[/N.leb_spec0 h1 /N.leb_spec0 h2] /andP[/Z.leb_spec0 h3 /Z.ltb_spec0 h4]
  /andP[/Z.leb_spec0 h5 /Z.leb_spec0 h6] /andP[/Z.leb_spec0 h7 /Z.leb_spec0 h8]
  /andP[/andP[/Z.leb_spec0 h9 /Z.leb_spec0 h10] /andP[h11 h12]]].
exact: (@script_row lm t p e a n P acc accl (conj h1 h2) Ht te (conj h3 h4)).
Qed.

Definition bls381_prime : Z := 52435875175126190479447740508185965837690552500527637822603658699938581184513.

Theorem script_17 lm (t : nat) : accurate lm -> accurate_ln lm -> (2 <= t <= 8)%N ->
  calc_final_numbers_fixed lm q (Z.of_nat t) 17 128 true =
  Ret (8, 31, Z.of_nat (8 * t + 31), (253 * Z.of_nat (8 * t + 31))%Z).
Proof.
move=> acc accl Ht; have h : (Z.of_nat t <= 17)%Z by case/andP: Ht => _ /leP; lia.
have ok : row_ok q 17 31 252 31 by vm_compute.
exact: (@script_rowb lm t q 17 31 252 31 acc accl Ht h ok).
Qed.
Theorem script_11 lm (t : nat) : accurate lm -> accurate_ln lm -> (2 <= t <= 8)%N ->
  calc_final_numbers_fixed lm q (Z.of_nat t) 11 128 true =
  Ret (8, 37, Z.of_nat (8 * t + 37), (253 * Z.of_nat (8 * t + 37))%Z).
Proof.
move=> acc accl Ht; have h : (Z.of_nat t <= 11)%Z by case/andP: Ht => _ /leP; lia.
have ok : row_ok q 11 37 252 37 by vm_compute.
exact: (@script_rowb lm t q 11 37 252 37 acc accl Ht h ok).
Qed.
Theorem script_381 lm (t : nat) : accurate lm -> accurate_ln lm -> (2 <= t <= 5)%N ->
  calc_final_numbers_fixed lm bls381_prime (Z.of_nat t) 5 128 true =
  Ret (8, 56, Z.of_nat (8 * t + 56), (255 * Z.of_nat (8 * t + 56))%Z).
Proof.
move=> acc accl /andP[t2 t5]; have h : (Z.of_nat t <= 5)%Z by move/leP: t5; lia.
have Ht : (2 <= t <= 8)%N by rewrite t2 (leq_trans t5).
have ok : row_ok bls381_prime 5 55 254 56 by vm_compute.
exact: (@script_rowb lm t bls381_prime 5 55 254 56 acc accl Ht h ok).
Qed.

(** * Accurate logarithms exist *)
Lemma ln_of_int (n : Z) : (2 <= n)%Z ->
  (Rabs (ln (f64_of_int n) - ln (IZR n)) <= ln (IZR n) / 2 ^ 45)%R /\ (/ 2 <= ln (IZR n))%R.
Proof.
move=> Hn; have n0 : (0 < IZR n)%R by apply: IZR_lt; lia.
have n2 : (2 <= IZR n)%R by apply: IZR_le; lia.
have B : (bpow radix2 (-1022) <= 1)%R by apply: (bpow_le radix2 _ 0).
have E := @rnd_err (IZR n); rewrite Rabs_pos_eq in E; last by lra.
have {}E := E ltac:(lra); set m := f64_of_int n in E *.
rewrite -/(f64_of_int n) -/m in E.
have b53 : bpow radix2 (-53) = (/ 2 ^ 53)%R by rewrite /= /Z.pow_pos /=; congr (/ _)%R; ring.
rewrite b53 in E; move/Rabs_le_inv: E => [E1 E2].
have m0 : (0 < m)%R by nra.
have L2 : (/ 2 <= ln (IZR n))%R by apply: Rle_trans (@ln_leZ 2 n _ _); try lia; exact: ln2_half.
have U := @ln_sub1 (m * / IZR n) ltac:(apply: Rmult_lt_0_compat => //; exact: Rinv_0_lt_compat).
have V := @ln_sub1 (IZR n * / m) ltac:(apply: Rmult_lt_0_compat => //; exact: Rinv_0_lt_compat).
rewrite ln_mult ?ln_Rinv // in U; last exact: Rinv_0_lt_compat.
rewrite ln_mult ?ln_Rinv // in V; last exact: Rinv_0_lt_compat.
have D1 : (m * / IZR n <= 1 + / 2 ^ 53)%R by apply/div_bound => //; lra.
have D2 : (IZR n * / m <= 1 + / 2 ^ 51)%R by apply/div_bound => //; nra.
by split=> //; apply: Rabs_le; split; nra.
Qed.

Lemma exact_accurate_ln : accurate_ln exact_libm.
Proof. by move=> n Hn /=; have [/Rabs_le_inv H1 H2] := @ln_of_int n ltac:(lia); apply: Rabs_le; lra. Qed.

Lemma rounded_accurate_ln : accurate_ln rounded_libm.
Proof.
move=> n Hn /=; have [/Rabs_le_inv H1 H2] := @ln_of_int n ltac:(lia).
have B : (bpow radix2 (-1022) <= / 4)%R.
  by apply: (Rle_trans _ (bpow radix2 (-2))); [apply: bpow_le | rewrite /=; lra].
have P : (0 <= ln (f64_of_int n))%R by lra.
have := @rnd_err (ln (f64_of_int n)); rewrite Rabs_pos_eq //.
have b53 : bpow radix2 (-53) = (/ 2 ^ 53)%R by rewrite /= /Z.pow_pos /=; congr (/ _)%R; ring.
rewrite b53 => /(_ ltac:(lra)) /Rabs_le_inv E.
by apply: Rabs_le; lra.
Qed.
