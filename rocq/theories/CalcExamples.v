(** Concrete instances for the properties in [Properties_Calc.v]. *)
From Coq Require Import ZArith NArith Reals Lia Lra.
From Flocq Require Import Core.
From mathcomp Require Import all_ssreflect.
From Verif Require Import Base Fq Params Transcript V1 Rounds RoundsSpec F64Proofs RoundsSearch RoundsClosed RoundsProps.
From Verif Require Import CalcRounds CalcSpec CalcSearch CalcProofs CalcProps CalcSmall.
Delimit Scope Z_scope with Z.
Delimit Scope R_scope with Re.

(** There are accurate libraries, *)
Example accurate_1 : accurate rounded_libm /\ accurate_ln rounded_libm.
Proof. exact (conj rounded_accurate rounded_accurate_ln). Qed.
Example accurate_2 : accurate exact_libm /\ accurate_ln exact_libm.
Proof. exact (conj exact_accurate exact_accurate_ln). Qed.
(** and not every library is. *)
Example inaccurate : ~ accurate_ln (Libm (fun _ => 0%Re) (fun _ => 0%Re)).
Proof.
move=> /(_ 2%Z ltac:(lia)) /=; have := ln2_pos => h.
by rewrite Rabs_left; lra.
Qed.

(** C62: for the field of the shipped parameters, 28 partial and 6 full rounds are
    the best candidate of width 3; they are reported with the margin. *)
Example best_17 : exists c, script_best (script_secure rounded_libm q 3 17 128) 3 true c (RoundNumbers 31 8).
Proof.
have := @script_17 rounded_libm 3 rounded_accurate rounded_accurate_ln isT.
rewrite /calc_final_numbers_fixed.
case E: find_FD_round_numbers => [[F P]|] //; rewrite bind_ret => -[EF EP _ _].
move: E; rewrite EF EP => /(@script_search rounded_libm q 3 17 128 true 8 31 isT (or_introl erefl)).
by case=> // -[_ []].
Qed.
(** The loops reach a state in which the inner variable has been overwritten: with a
    test that accepts everything, the body turns one partial round into two. *)
Example overwritten : exists f,
  find_body (fun _ _ => Ret true) get_sbox_cost 0 3 true 4 (1, Found 0 0 None 0) = Ret (2, f).
Proof. by rewrite /find_body margin_R_PE //; eexists. Qed.
(** Without a secure candidate, the initial zeros are returned. *)
Example none_secure : find_loops (fun _ _ => Ret false) get_sbox_cost 0 (Z.of_nat 3) true = Ret (0, 0).
Proof.
apply/(@find_loops_best _ (fun _ _ => false) _ get_sbox_cost 0 3 1) => //; last by right.
by move=> F P; rewrite /get_sbox_cost; lia.
Qed.
(** An unsupported exponent *)
Example alpha_0 : find_FD_round_numbers rounded_libm q 3 0 128 get_sbox_cost true = Panic.
Proof. exact: find_invalid. Qed.
Example cost_3 : get_sbox_cost 8 31 759 3 = 55%Z /\ get_size_cost 8 31 (253 * Z.of_nat 3) (Z.of_nat 3) = (253 * 55)%Z.
Proof. by split=> //; rewrite size_cost. Qed.

(** C63 *)
Example comparable_3 : comparable 128 3 q 17.
Proof.
split=> //.
exact: not_power.
Qed.
Example agree_3 : exists r S,
  calc_final_numbers_fixed rounded_libm q (Z.of_nat 3) 17 128 true = Ret (r_F r, r_P r, Z.of_nat (sboxes 3 r), S) /\
  v1_rounds rounded_libm (input_generate (log2 rounded_libm) 128 3 q 4 true) (Exponent 17) = Ret r.
Proof. exact: (@agreement _ _ _ _ _ 4 true rounded_accurate rounded_accurate_ln comparable_3). Qed.
(** The largest width of agreement: both demand as many rounds as there are words. *)
Example comparable_405 : comparable 128 405 q 17.
Proof.
split=> //.
move=> k Hk; case: (Z.eq_dec k 2) => [->|N]; first by [].
by have := @Z.pow_le_mono_r 17 3 k ltac:(lia) ltac:(lia); rewrite -[(17 ^ 3)%Z]/4913%Z; lia.
Qed.
Example script_405 : calc_final_numbers_fixed rounded_libm q (Z.of_nat 405) 17 128 true =
  Ret (8, 429, 3669%Z, (253 * 3669)%Z).
Proof.
have [] := @closed_form rounded_libm 128 405 q 17 rounded_accurate rounded_accurate_ln comparable_405 31 3 true.
- by []. - by []. - by apply/Z.leb_le; vm_compute. - by apply/Z.leb_le; vm_compute. - by [].
move=> r [Hr ->].
have {Hr} -> : r = RoundNumbers 429 8 by rewrite (with_marginE Hr).
rewrite (@bits_eq rounded_libm q 252 rounded_accurate_ln) //.
Qed.
(** Not comparable: 27 is a power of three. *)
Example not_comparable : ~ comparable 128 27 q 3.
Proof. by case=> _ _ _ _ /(_ 3%Z) H; apply: H. Qed.

(** C64: the numbers of line 186 for width 5 *)
Example printed_5 : calc_final_numbers_fixed rounded_libm q (Z.of_nat 5) 17 128 true = Ret (8, 31, 71%Z, 17963%Z).
Proof. exact: (script_17 rounded_accurate rounded_accurate_ln). Qed.
Example printed_5_11 : calc_final_numbers_fixed rounded_libm q (Z.of_nat 5) 11 128 true = Ret (8, 37, 77%Z, 19481%Z).
Proof. exact: (script_11 rounded_accurate rounded_accurate_ln). Qed.
