(** The candidate matrices: Cauchy matrices of distinct elements, so every square
    submatrix is invertible. *)
From Coq Require Import ZArith NArith Lia.
From mathcomp Require Import all_ssreflect all_algebra.
From Verif Require Import PrimeField Grain Cauchy GrainGen GrainPeriod GrainProofs.
Set Implicit Arguments.
Unset Strict Implicit.
Unset Printing Implicit Defensive.
Import GRing.Theory.
Local Open Scope ring_scope.

Section Matrix.
Variable PF : prime_field.
Variables fuel n : nat.
Hypothesis fu : (79 <= fuel)%N.
Hypothesis n0 : (0 < n)%N.

Lemma draw_elementsS k s : draw_elements PF fuel n k.+1 s =
  if grain_random_bits fuel n s is Some (x, s) then
    if draw_elements PF fuel n k s is Some (xs, s) then Some (pf_of PF x :: xs, s) else None
  else None.
Proof. by []. Qed.
Lemma draw_distinctS r k s : draw_distinct PF fuel r.+1 n k s =
  if draw_elements PF fuel n k s is Some (rand_list, s) then
    if uniq rand_list then Some (rand_list, s) else draw_distinct PF fuel r n k s
  else None.
Proof. by []. Qed.
Lemma create_mds_pS r t s : create_mds_p PF fuel r.+1 n t s =
  if draw_distinct PF fuel r.+1 n (2 * t) s is Some (rand_list, s) then
    let xs := take t rand_list in
    let ys := drop t rand_list in
    if all (fun i => all (fun j => nth 0 xs i + nth 0 ys j != 0) (iota 0 t)) (iota 0 t) then
      Some (\matrix_(i, j) (nth 0 xs i + nth 0 ys j)^-1, s)
    else create_mds_p PF fuel r n t s
  else None.
Proof. by []. Qed.
Lemma generate_matrixS (field : seq PF) r t1 s : generate_matrix field fuel r.+1 n t1 s =
  if create_mds_p PF fuel r.+1 n (1 + t1) s is Some (mds_matrix, s) then
    if accepted field mds_matrix then Some (mds_matrix, s)
    else generate_matrix field fuel r n t1 s
  else None.
Proof. by []. Qed.

Lemma draw_elements_ok k s : live s ->
  exists bs s', [/\ draw_elements PF fuel n k s = Some ([seq pf_of PF z | z <- lblocks n k bs], s'), size bs = (k * n)%N & drew s bs s'].
Proof.
elim: k s => [|k IH] s ls; first by exists [::], s; split=> //; exact: drew0.
have [b1 [s1 [E1 sz1 dr1]]] := random_bits_ok fu n0 ls.
have [b2 [s2 [E2 sz2 dr2]]] := IH _ (drew_live ls dr1).
exists (b1 ++ b2), s2; split.
- rewrite draw_elementsS E1 E2 -add1n blocksD ?mul1n //=.
  by rewrite take_oversize ?sz1.
- by rewrite size_cat sz1 sz2 mulSn.
- exact: drew_cat dr1 dr2.
Qed.

(** What the two rejection loops have drawn, in all and at the end *)
Lemma draw_distinct_ok retries k s xs s' : live s -> draw_distinct PF fuel retries n k s = Some (xs, s') ->
  exists bs0 s0 bs, [/\ drew s bs0 s0, drew s0 bs s', size bs = (k * n)%N, xs = [seq pf_of PF z | z <- lblocks n k bs] & uniq xs].
Proof.
elim: retries s => [//|r IH] s ls; rewrite draw_distinctS.
have [b1 [s1 [-> sz1 dr1]]] := draw_elements_ok k ls.
case: ifP => u1; first by case=> <- <-; exists [::], s, b1; split=> //; exact: drew0.
case/(IH _ (drew_live ls dr1)) => bs0 [s0 [bs [d0 d1 sz E u]]].
by exists (b1 ++ bs0), s0, bs; split=> //; exact: drew_cat dr1 d0.
Qed.

Lemma create_mds_ok retries t s (M : 'M[PF]_t) s' : live s -> create_mds_p PF fuel retries n t s = Some (M, s') ->
  exists bs0 s0 bs, let xs := [seq pf_of PF z | z <- lblocks n (2 * t) bs] in
    [/\ drew s bs0 s0, drew s0 bs s', size bs = (2 * t * n)%N &
    [/\ uniq xs, forall i j : 'I_t, nth 0 xs i + nth 0 xs (t + j) != 0 &
        M = \matrix_(i, j) (nth 0 xs i + nth 0 xs (t + j))^-1]].
Proof.
elim: retries s => [//|r IH] s ls; rewrite create_mds_pS.
case E: draw_distinct => [[xs s1]|] //.
have [bs0 [s0 [bs [d0 d1 sz xE u]]]] := draw_distinct_ok ls E.
cbv zeta; case: ifP => nz; last first.
  case/(IH _ (drew_live (drew_live ls d0) d1)) => c0 [u0 [cs [e0 e1 sz' F]]].
  exists ((bs0 ++ bs) ++ c0), u0, cs; split=> //.
  by apply: drew_cat e0; exact: drew_cat d0 d1.
case=> <- <-; exists bs0, s0, bs; split=> //; rewrite -xE; split=> //.
- move=> i j; have /allP /(_ (val i)) := nz; rewrite mem_iota ltn_ord => /(_ isT) /allP /(_ (val j)).
  by rewrite mem_iota ltn_ord nth_drop nth_take; [apply|exact: ltn_ord].
- by apply/matrixP => i j; rewrite !mxE nth_drop nth_take //.
Qed.

Lemma cauchy_list_mds t (xs : seq PF) : size xs = (2 * t)%N -> uniq xs ->
  (forall i j : 'I_t, nth 0 xs i + nth 0 xs (t + j) != 0) ->
  mds_mx (\matrix_(i, j) (nth 0 xs i + nth 0 xs (t + j))^-1 : 'M[PF]_t).
Proof.
move=> sz u nz k f g fi gi.
have -> : mxsub f g (\matrix_(i, j) (nth 0 xs i + nth 0 xs (t + j))^-1 : 'M[PF]_t) =
  \matrix_(i, j) (nth 0 xs (f i) + nth 0 xs (t + g j))^-1 by apply/matrixP => i j; rewrite !mxE.
apply: (cauchy_unit (x := fun i => nth 0 xs (f i)) (y := fun j => nth 0 xs (t + g j))) => //.
- move=> i j /eqP; rewrite nth_uniq // ?sz ?mul2n -?addnn ?ltn_addr // => /eqP /val_inj; exact: fi.
- move=> i j /eqP; rewrite nth_uniq // ?sz ?mul2n -?addnn ?ltn_add2l // eqn_add2l => /eqP /val_inj; exact: gi.
Qed.

Lemma generate_matrix_ok field retries t1 s (M : 'M[PF]_(1 + t1)) s' : live s ->
  generate_matrix field fuel retries n t1 s = Some (M, s') -> mds_mx M /\ accepted field M.
Proof.
elim: retries s => [//|r IH] s ls; rewrite generate_matrixS.
case E: create_mds_p => [[M1 s1]|] //.
have [bs0 [s0 [bs [d0 d1 sz [u nz ME]]]]] := create_mds_ok ls E.
case: ifP => acc; last by apply: IH; exact: drew_live (drew_live ls d0) d1.
case=> <- _; split=> //; rewrite ME; apply: cauchy_list_mds => //.
by rewrite size_map size_blocks.
Qed.
End Matrix.
