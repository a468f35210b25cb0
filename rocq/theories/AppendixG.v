(** Tables 7, 8 and 9 of appendix G of the Poseidon paper: the round numbers chosen for
    the primes of poseidon-paramgen/src/appendix_g.rs are those of the tables, with
    every accurate mathematical library. *)
From Coq Require Import ZArith NArith Reals Lia.
From mathcomp Require Import all_ssreflect.
From Verif Require Import Base Params Transcript V1 Rounds RoundsSpec RoundsSearch RoundsClosed RoundsEval RoundsCheck
  RoundsProps RoundsTables AppendixGData Slia.
Set Implicit Arguments.
Unset Strict Implicit.
Unset Printing Implicit Defensive.

Definition row_rounds (w : row) : rounds := RoundNumbers (row_rP w) (row_rF w).

(** For an exponent: the choice of Poseidon1, and that the additional test of Poseidon2
    accepts it *)
Definition both_check (e : N) (w : row) (c : certs) : bool :=
  let M := Z.of_N (row_M w) in
  let t := Z.of_nat (row_t w) in
  match ev_exp M t (Z.of_N e) (row_p w) c with
  | Some (s, K, G) =>
      let r := select s (Z.to_nat (Z.max K G)).+1 in
      [&& Z.leb M 256, Z.ltb (Z.max K G) 498, v2_check M t (Z.of_N e) r,
          r_P (margin r) == row_rP w & r_F (margin r) == row_rF w]
  | None => false
  end.

Lemma both_check_sound lm e w c limbs allow : accurate lm -> both_check e w c ->
  let i := input_generate (log2 lm) (row_M w) (row_t w) (row_p w) limbs allow in
  v1_rounds lm i (Exponent e) = Ret (row_rounds w) /\ v2_rounds lm i (Exponent e) = Ret (row_rounds w).
Proof.
move=> acc; rewrite /both_check /=; set i := input_generate _ _ _ _ _ _.
rewrite -[row_M w]/(in_M i) -[row_t w]/(in_t i).
case E: ev_exp => [[[s K] G]|] //.
have [E1 E2 E3 t2] := ev_exp_sound acc (erefl : in_log_2_p i = log2 lm (row_p w)) E.
set r := select _ _.
case/and5P => /Z.leb_spec0 HM /Z.ltb_spec0 HK H2 /eqP HP /eqP HF.
have Er : margin r = row_rounds w by rewrite /row_rounds -HP -HF.
have t1 : 1 <= in_t i by clear -t2; slia.
have ts : (N.of_nat (in_t i) < 2 ^ 56)%num.
  move: E; rewrite /ev_exp; case: ifP => // /and3P[/andP[_ /Z.leb_spec0 H] _ _] _.
  by clear -H; lia.
have n498 : (Z.to_nat (Z.max K G)).+1 <= 498 by clear -HK; slia.
have s4 : 4 <= s < 100 by rewrite -E1; case: (s_610 lm i (Exponent e)) => ->.
have Hc : cheapest (fun c => is_secure_v1 lm i (Exponent e) c = Ret true) (in_t i) r (row_rounds w).
  rewrite -Er; apply: cheapest_ext (select_cheapest t2 s4 n498) => c' _.
  by have H := secure_enough t2 c' E3; rewrite E1 E2 in H; split=> /H.
split.
  by apply/(v1_search _ _ _ t1 ts); split; [lia | exists r].
apply: (v2_agrees t1 ts Hc); apply: v2_check_sound H2 _; first by lia.
by case: Hc.
Qed.

Lemma zip_in (A B : Type) (P : A -> B -> bool) (Q : A -> Prop) xs ys : size xs = size ys ->
  all (fun z => P z.1 z.2) (zip xs ys) -> (forall x y, P x y -> Q x) -> forall x, List.In x xs -> Q x.
Proof.
elim: xs ys => [|x xs IH] [|y ys] //= [Hs] /andP[H1 H2] H z [<-|Hz]; first exact: H H1.
exact: (IH ys).
Qed.

Definition chosen lm (a : alpha) (w : row) limbs allow : Prop :=
  v1_rounds lm (input_generate (log2 lm) (row_M w) (row_t w) (row_p w) limbs allow) a = Ret (row_rounds w).

Definition chosen2 lm (a : alpha) (w : row) limbs allow : Prop :=
  v2_rounds lm (input_generate (log2 lm) (row_M w) (row_t w) (row_p w) limbs allow) a = Ret (row_rounds w).

Theorem table_7_chosen lm w limbs allow : accurate lm -> List.In w table_7 ->
  chosen lm (Exponent 3) w limbs allow /\ chosen2 lm (Exponent 3) w limbs allow.
Proof.
move=> acc; move: w; apply: (@zip_in _ _ (both_check 3) _ table_7 certs_7); [by vm_compute | by vm_compute |].
by move=> w c; apply: both_check_sound.
Qed.

Theorem table_8_chosen lm w limbs allow : accurate lm -> List.In w table_8 ->
  chosen lm (Exponent 5) w limbs allow /\ chosen2 lm (Exponent 5) w limbs allow.
Proof.
move=> acc; move: w; apply: (@zip_in _ _ (both_check 5) _ table_8 certs_8); [by vm_compute | by vm_compute |].
by move=> w c; apply: both_check_sound.
Qed.

Definition row_check_inv (w : row) (c : certs) : bool :=
  v1_check_inv (Z.of_N (row_M w)) (Z.of_nat (row_t w)) (row_p w) c
    (RoundNumbers (row_rP w * 40 %/ 43) (row_rF w - 2)).

Theorem table_9_chosen lm w limbs allow : accurate lm -> List.In w table_9 ->
  chosen lm Inverse w limbs allow.
Proof.
move=> acc; move: w.
apply: (@zip_in _ _ (fun w c => row_check_inv w c &&
  (let r := margin (RoundNumbers (row_rP w * 40 %/ 43) (row_rF w - 2)) in
   (r_P r == row_rP w) && (r_F r == row_rF w))) _ table_9 certs_9);
  [by vm_compute | by vm_compute | move=> w c /andP[H /andP[/eqP HP /eqP HF]]].
rewrite /chosen; set i := input_generate _ _ _ _ _ _.
rewrite (@v1_check_inv_sound lm i (row_p w) c _ acc erefl H); congr Ret.
by apply: rounds_eq.
Qed.
