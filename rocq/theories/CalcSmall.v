(** A modulus for which the generator demands fewer rounds than the script. *)
From Coq Require Import ZArith NArith Reals Lia Lra.
From Flocq Require Import Core.
From mathcomp Require Import all_ssreflect.
From Verif Require Import Base PrimeLib Params Transcript V1 Rounds RoundsSpec F64Proofs RoundsSearch RoundsClosed.
From Verif Require Import RoundsEval RoundsCheck RoundsProps CalcRounds CalcSpec CalcSearch CalcProofs CalcProps Slia.
Set Implicit Arguments.
Unset Strict Implicit.
Unset Printing Implicit Defensive.

(** A prime just below [5 * 2^96]; three is coprime to its predecessor. *)
Definition small_p : Z := 396140812571296918169769213953.

Lemma small_p_cert : pock_check small_p 2 175921860444149 3 198070406285648459084884606976 198070406285648459084884606976.
Proof. by vm_compute. Qed.
Lemma small_p_prime : prime (Z.to_nat small_p).
Proof.
have ekE : Z.pos 198070406285648459084884606976 = (175921860444149 * 2 ^ Z.of_nat 50)%Z by [].
have NE : (small_p - 1 = 175921860444149 * 2 ^ Z.of_nat 51)%Z by [].
have lt : (small_p < (2 ^ Z.of_nat 51 + 1) ^ 2)%Z by [].
have p2 : prime (Z.to_nat 2) by [].
exact (@pock_prime small_p 2 175921860444149 3 _ _ 50 p2 ekE NE small_p_cert lt).
Qed.
Lemma small_p_coprime : Z.gcd 3 (small_p - 1) = 1%Z. Proof. by []. Qed.

(** The generator *)
Lemma small_generator lm limbs allow : accurate lm ->
  v1_rounds lm (input_generate (log2 lm) 128 2 small_p limbs allow) (Exponent 3) = Ret (RoundNumbers 63 8).
Proof.
move=> acc; have E : v1_eval_exp 128 2 3 small_p (Certs (1, 2, 2) (1, 1, 1) (1024, 646, 647) (1024, 646, 647))%Z =
  Some (Ret (RoundNumbers 63 8)) by vm_compute.
exact: (@v1_eval_exp_sound lm (input_generate (log2 lm) 128 2 small_p limbs allow) 3 small_p _ _ acc erefl E).
Qed.

(** The script *)
Section Small.
Local Open Scope R_scope.
Variable lm : libm.
Hypothesis acc : accurate lm.
Hypothesis accl : accurate_ln lm.
Local Notation l := (py_log lm small_p 2).
Local Notation L := (py_log lm 2 3).

Lemma small_range : (2 <= small_p < 2 ^ 1023)%Z.
Proof. by split; [apply/Z.leb_le | apply/Z.ltb_lt]; vm_compute. Qed.

Lemma cmp (a b c : Z) : (0 < c)%Z -> (0 <= a)%Z -> (0 <= b)%Z -> Z.leb (c ^ a) (small_p ^ b) ->
  IZR a * ln (IZR c) <= IZR b * ln (IZR small_p).
Proof.
have p0 : (0 < small_p)%Z by [].
move: small_p p0 => p p0 c0 a0 b0 /Z.leb_spec0 h.
by have := ln_leZ (Z.pow_pos_nonneg _ _ c0 a0) h; rewrite !ln_IZR_pow.
Qed.
Lemma cmp' (a b c : Z) : (0 < c)%Z -> (0 <= a)%Z -> (0 <= b)%Z -> Z.leb (small_p ^ b) (c ^ a) ->
  IZR b * ln (IZR small_p) <= IZR a * ln (IZR c).
Proof.
have p0 : (0 < small_p)%Z by [].
move: small_p p0 => p p0 c0 a0 b0 /Z.leb_spec0 h.
by have := ln_leZ (Z.pow_pos_nonneg _ _ p0 b0) h; rewrite !ln_IZR_pow.
Qed.

Lemma bound_1 : 983 * ln 2 <= 10 * ln (IZR small_p).
Proof.
have k : Z.leb (2 ^ 983) (small_p ^ 10) by vm_compute.
exact: (@cmp 983 10 2 erefl _ _ k).
Qed.
Lemma bound_2 : 2 * ln (IZR small_p) <= 197 * ln 2.
Proof.
have k : Z.leb (small_p ^ 2) (2 ^ 197) by vm_compute.
exact: (@cmp' 197 2 2 erefl _ _ k).
Qed.
Lemma bound_3 : 6201 * ln 3 <= 100 * ln (IZR small_p).
Proof.
have k : Z.leb (3 ^ 6201) (small_p ^ 100) by vm_compute.
exact: (@cmp 6201 100 3 erefl _ _ k).
Qed.
Lemma bound_4 : 10 * ln (IZR small_p) <= 621 * ln 3.
Proof.
have k : Z.leb (small_p ^ 10) (3 ^ 621) by vm_compute.
exact: (@cmp' 621 10 3 erefl _ _ k).
Qed.

Lemma l_bounds : 98 + / 4 <= l <= 98 + 3 / 4.
Proof.
have l2 := ln2_pos; have /Rabs_le_inv H := bits_bounds accl small_range.
have h1 := bound_1.
have h2 := bound_2.
have a1 : 983 / 10 <= ln (IZR small_p) / ln 2 by apply/div_bound' => //; lra.
have a2 : ln (IZR small_p) / ln 2 <= 197 / 2 by apply/div_bound => //; lra.
by lra.
Qed.

Lemma L_bounds3 : 6 / 10 <= L <= 7 / 10.
Proof.
have l2 := ln2_pos; have l3 : 0 < ln 3 by apply: (@ln_gt0 3).
have /Rabs_le_inv H := @py_log_range lm 0 3 acc ltac:(lia) ltac:(lia) 2 3 ltac:(lia) ltac:(lia).
have := @ln_leZ (3 ^ 61) (2 ^ 100) ltac:(lia) ltac:(lia); rewrite !ln_IZR_pow // => h1.
have := @ln_leZ (2 ^ 100) (3 ^ 65) ltac:(lia) ltac:(lia); rewrite !ln_IZR_pow // => h2.
have a1 : 61 / 100 <= ln 2 / ln 3 by apply/div_bound' => //; lra.
have a2 : ln 2 / ln 3 <= 65 / 100 by apply/div_bound => //; lra.
by lra.
Qed.

(** 62.03... *)
Lemma x_bounds : 62 + / 2 ^ 10 <= fmul L l <= 63.
Proof.
have l2 := ln2_pos; have l3 : 0 < ln 3 by apply: (@ln_gt0 3).
have lb := l_bounds; have Lb := L_bounds3.
have /Rabs_le_inv E : Rabs (fmul L l - L * l) <= / 2 ^ 40 by apply: rnd12; apply: Rabs_le; nra.
have /Rabs_le_inv H := @py_log_range lm 0 3 acc ltac:(lia) ltac:(lia) 2 3 ltac:(lia) ltac:(lia).
have /Rabs_le_inv Hl := bits_bounds accl small_range.
have h1 := bound_3.
have h2 := bound_4.
have Ev : ln 2 / ln 3 * (ln (IZR small_p) / ln 2) = ln (IZR small_p) / ln 3.
  by move: (ln (IZR small_p)) => y; field; lra.
have a1 : 6201 / 100 <= ln (IZR small_p) / ln 3 by apply/div_bound' => //; lra.
have a2 : ln (IZR small_p) / ln 3 <= 621 / 10 by apply/div_bound => //; lra.
move: H Hl Ev a1 a2 E lb Lb; move: (ln (IZR small_p) / ln 3) (ln 2 / ln 3) (ln (IZR small_p) / ln 2) => z a b.
move: L l (fmul L l) => A B C H Hl Ev a1 a2 E lb Lb.
have D : Rabs (A * B - z) <= / 2 ^ 20 by apply: Rabs_le; nra.
by move/Rabs_le_inv: D; lra.
Qed.

Lemma small_secure F P : (1 <= P <= 500)%N ->
  sat_inequiv_alpha lm small_p 2 (Z.of_nat F) (Z.of_nat P) 3 128 = Ret ((6 <= F) && (65 <= F + P))%N.
Proof.
move=> /andP[/leP P1 /leP P5]; rewrite /sat_inequiv_alpha (_ : Z.ltb 0 3 = true) //.
have HP : (0 <= Z.of_nat P <= 1000)%Z by lia.
have lb := l_bounds; have Lb := L_bounds3; have xb := x_bounds.
have -> : R_F_1 lm small_p 2 128 (py_log lm (3 - 1) 2) = 6%Z.
  rewrite /R_F_1 (_ : Zfloor l = 98%Z); last by apply: Zfloor_imp; rewrite /=; lra.
  have -> : py_log lm (3 - 1) 2 = 1.
    have [A _ _] := acc; have := A 2%Z ltac:(lia).
    rewrite /py_log /fdiv (@f64_of_int_small 2) // => /Rabs_le_inv A2.
    rewrite /Rdiv Rinv_r; first exact: (rnd_fmt (@fmt_int 1 ltac:(lia))).
    by have := ln2_pos; lra.
  rewrite !f64_of_int_small //.
  have -> : fsub 98 1 = 97 by rewrite /fsub -minus_IZR; apply: rnd_fmt; apply: fmt_int; lia.
  have -> : fmul 97 (IZR (2 + 1)) = 291 by rewrite /fmul -mult_IZR; apply: rnd_fmt; apply: fmt_int; lia.
  by rewrite Rle_bool_true //; lra.
have -> : R_F_2 lm small_p 2 (Z.of_nat P) 3 128 = (65 - Z.of_nat P)%Z.
  rewrite /R_F_2 /py_min Rle_bool_false; last by lra.
  rewrite (@Zceil_eq (fmul L l) 63); last by rewrite /=; lra.
  by rewrite (@Zceil_eq L 1); [lia | rewrite /=; lra].
have C3 : (Zceil (R_F_3 lm small_p (Z.of_nat P) 3 128) <= 65 - Z.of_nat P)%Z.
  rewrite /R_F_3 (@f64_of_int_small 128); last by lia.
  have D : 0 <= fdiv 128 3 <= 43.
    by split; [apply: (rnd_lb (@fmt_int 0 _)) | apply: (rnd_ub (@fmt_int 43 _))]; (lia || lra).
  have D' : 0 <= fdiv l 2 <= 50.
    by split; [apply: (rnd_lb (@fmt_int 0 _)) | apply: (rnd_ub (@fmt_int 50 _))]; (lia || lra).
  have Mn : 0 <= fmin (fdiv 128 3) (fdiv l 2) <= 43.
    by rewrite fminE; split; [apply: Rmin_glb; lra | apply: Rle_trans (Rmin_l _ _) _; lra].
  move: (fmin _ _) Mn => g Mn.
  have G : 0 <= fmul L g <= 43.
    by split; [apply: (rnd_lb (@fmt_int 0 _)) | apply: (rnd_ub (@fmt_int 43 _))]; (lia || nra).
  apply: ceil_sub_le => //.
    by split; [apply: (rnd_lb (@fmt_int 0 _)) | apply: (rnd_ub (@fmt_int 1000 _))]; (lia || lra).
  by apply: (Rle_trans _ 44); [apply: (rnd_ub (@fmt_int 44 _)); (lia || lra) | lra].
have C4 : (Zceil (R_F_4 lm small_p 2 (Z.of_nat P) 3 128) <= 65 - Z.of_nat P)%Z.
  rewrite /R_F_4 (@f64_of_int_small (2 - 1)); last by lia.
  rewrite (@f64_of_int_small (2 + 1)) ?(@f64_of_int_small 128); try lia.
  have D : 0 <= fmul L 128 <= 100.
    by split; [apply: (rnd_lb (@fmt_int 0 _)) | apply: (rnd_ub (@fmt_int 100 _))]; (lia || nra).
  have D' : 0 <= fdiv (fmul L 128) (IZR (2 + 1)) <= 50.
    by rewrite plus_IZR; split; [apply: (rnd_lb (@fmt_int 0 _)) | apply: (rnd_ub (@fmt_int 50 _))]; (lia || lra).
  have D2 : 0 <= fdiv (fmul L l) 2.
    by apply: (rnd_lb (@fmt_int 0 _)); (lia || lra).
  have Mn : 0 <= fmin (fdiv (fmul L 128) (IZR (2 + 1))) (fdiv (fmul L l) 2) <= 50.
    by rewrite fminE; split; [apply: Rmin_glb; lra | apply: Rle_trans (Rmin_l _ _) _; lra].
  move: (fmin _ _) Mn => g Mn; rewrite minus_IZR.
  apply: ceil_sub_le => //.
    by split; [apply: (rnd_lb (@fmt_int 0 _)) | apply: (rnd_ub (@fmt_int 1000 _))]; (lia || lra).
  by apply: (Rle_trans _ 64); [apply: (rnd_ub (@fmt_int 64 _)); (lia || lra) | lra].
move: C3 C4; move: (Zceil _) (Zceil _) => c3 c4 C3 C4.
congr Ret; apply/Z.leb_spec0/andP.
  by move=> H; split; apply/leP; rewrite -?plusE; lia.
by case=> /leP H1 /leP; rewrite -plusE => H2; lia.
Qed.

Theorem small_script :
  find_FD_round_numbers lm small_p 2 3 128 get_sbox_cost true = Ret (8%N, 64%N).
Proof.
have e0 : (0 < 3)%Z \/ 3%Z = (-1)%Z by left.
apply: (proj2 (@script_search lm small_p 2 3 128 true 8 64 isT e0)).
left; exists (RoundNumbers 59 6).
have := @script_select 2 6 65 true isT isT isT isT.
apply: script_best_ext => c [P1 P2 _ _ _].
rewrite /script_secure small_secure ?P1 ?(ltnW P2) // /enough /rounds_total addnC.
by split=> [[-> ->]|[/andP]].
Qed.
End Small.
