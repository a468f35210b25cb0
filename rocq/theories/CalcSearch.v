(** The reference script's search returns the cheapest secure candidate, although its
    inner loop overwrites the variable of the outer loop. *)
From Coq Require Import ZArith NArith Reals Lia Lra.
From Flocq Require Import Core.
From mathcomp Require Import all_ssreflect.
From Verif Require Import Base Params Rounds RoundsSpec F64Proofs RoundsSearch CalcRounds CalcSpec Slia.
Set Implicit Arguments.
Unset Strict Implicit.
Unset Printing Implicit Defensive.

Lemma margin_R_P_mono P P' : P <= P' -> margin_R_P P <= margin_R_P P'.
Proof.
move=> H; have Zle a b : (a <= b)%Z -> Z.to_nat a <= Z.to_nat b by move=> h; apply/leP; lia.
apply: Zle; apply: Zceil_le; apply: rnd_le.
apply: Rmult_le_compat_r.
  by apply: (@rnd_lb _ 0); [exact: (@fmt_int 0) | lra].
by apply: rnd_le; apply: IZR_le; move/leP: H; lia.
Qed.

Lemma margin_R_PE P : P < 500 -> margin_R_P P = (43 * P + 39) %/ 40.
Proof.
move=> /ltP H; have := @apply_security_marginE (RoundNumbers P 0); rewrite /apply_security_margin /=.
move/(_ ltac:(lia)) => [E]; rewrite -{}E /margin_R_P /fmul Rmult_comm; congr Z.to_nat.
rewrite -/(fmul (f64_rnd (1075 / 1000)) (f64_of_int (Z.of_nat P))) /fceil ceil_1075; last by lia.
by rewrite as_usize_IZR; Z.to_euclidean_division_equations; lia.
Qed.

Section Search.
Variables (sat : Z -> Z -> outcome bool) (s : nat -> nat -> bool).
Hypothesis satE : forall F P, sat (Z.of_nat F) (Z.of_nat P) = Ret (s F P).
Variables (cost : Z -> Z -> Z -> Z -> Z) (N : Z) (t : nat) (k : Z).
Hypothesis k0 : (0 < k)%Z.
Hypothesis costE : forall F P : nat,
  cost (Z.of_nat F) (Z.of_nat P) N (Z.of_nat t) = (k * (Z.of_nat t * Z.of_nat F + Z.of_nat P))%Z.
Hypothesis t1 : 1 <= t.
Variable sm : bool.

(** [(P, F)] *)
Definition ok (x : nat * nat) : bool := ~~ odd x.2 && s x.2 x.1.
Definition fin (x : nat * nat) : rounds := if sm then margin (cand x) else cand x.
Definition val x : nat := sboxes t (fin x).
Definition better x y := y = x \/ (val x < val y \/ val x = val y /\ x.2 < y.2).

Lemma better_trans x y z : better x y -> better y z -> better x z.
Proof.
case=> [-> //|H] [-> |H']; first by right.
by right; case: H H' => [H|[-> H]] [H'|[H'' H']]; by [left; slia | right; split=> //; slia].
Qed.

Definition inv (l : seq (nat * nat)) (f : found) : Prop :=
  match min_cost f with
  | None => f = Found 0 0 None 0 /\ {in l, forall x, ~~ ok x}
  | Some m =>
      exists2 x, x \in l &
        [/\ ok x, RoundNumbers (R_P f) (R_F f) = fin x, m = (k * Z.of_nat (val x))%Z,
            max_cost_rf f = r_F (fin x) & {in l, forall y, ok y -> better x y}]
  end.

Lemma fin_F x : r_F (fin x) = if sm then x.2 + 2 else x.2.
Proof. by rewrite /fin; case: sm. Qed.

Lemma fin_lt x y : r_F (fin x) < r_F (fin y) -> x.2 < y.2.
Proof. by rewrite !fin_F; case: sm => //; slia. Qed.
Lemma lt_fin x y : x.2 < y.2 -> r_F (fin x) < r_F (fin y).
Proof. by rewrite !fin_F; case: sm => //; slia. Qed.

Lemma fin_mono x y : x.1 < y.1 -> r_P (fin x) < r_P (fin y).
Proof. by rewrite /fin; case: sm => // H; apply: margin_mono. Qed.

Lemma val_F P F F' : F < F' -> val (P, F) < val (P, F').
Proof.
move=> H; rewrite /val /sboxes /fin; case: sm; rewrite /= ltn_add2r ltn_pmul2l //.
by rewrite ltn_add2r.
Qed.

Lemma val_inj x y : val x = val y -> x.2 = y.2 -> x = y.
Proof.
case: x y => [P F] [P' F'] V /= E; subst F'; congr (_, _).
case: (ltngtP P P') => // H.
  have := @fin_mono (P, F) (P', F) H; move: V; rewrite /val /sboxes !fin_F /=.
  by move: (t * _) (r_P _) (r_P _) => a b c; slia.
have := @fin_mono (P', F) (P, F) H; move: V; rewrite /val /sboxes !fin_F /=.
by move: (t * _) (r_P _) (r_P _) => a b c; slia.
Qed.

Definition new_P (P : nat) := if sm then margin_R_P P else P.
Definition new_F (F : nat) := if sm then F + 2 else F.

Definition update (f : found) (P F : nat) : found :=
  let c := cost (Z.of_nat F) (Z.of_nat P) N (Z.of_nat t) in
  if less_cost c (min_cost f) || same_cost c (min_cost f) && (F < max_cost_rf f)
  then Found P F (Some c) F else f.

Lemma bodyE F P f : find_body sat cost N (Z.of_nat t) sm F (P, f) =
  Ret (if ok (P, F) then (new_P P, update f (new_P P) (new_F F)) else (P, f)).
Proof.
rewrite /find_body /ok /=; case: (odd F) => //=; rewrite satE bind_ret.
case: (s F P) => //=; rewrite /update /new_P /new_F.
by case: ifP.
Qed.

Lemma fin_new P F : P < 500 -> fin (P, F) = RoundNumbers (new_P P) (new_F F).
Proof. by move=> H; rewrite /fin /new_P /new_F; case: sm => //; rewrite margin_R_PE. Qed.

Lemma cost_val P F : P < 500 ->
  cost (Z.of_nat (new_F F)) (Z.of_nat (new_P P)) N (Z.of_nat t) = (k * Z.of_nat (val (P, F)))%Z.
Proof.
move=> H; rewrite costE /val /sboxes fin_new //=; congr Z.mul.
by rewrite -plusE -multE Nat2Z.inj_add Nat2Z.inj_mul.
Qed.

Lemma inv_skip l f x : ~~ ok x -> inv l f -> inv (rcons l x) f.
Proof.
move=> Nx; rewrite /inv; case: (min_cost f) => [m|].
  case=> y Hy [H1 H2 H3 H4 H5]; exists y; first by rewrite mem_rcons inE Hy orbT.
  split=> // z; rewrite mem_rcons inE => /orP[/eqP -> |]; last exact: H5.
  by rewrite (negPf Nx).
case=> H1 H2; split=> // z; rewrite mem_rcons inE => /orP[/eqP -> //|]; exact: H2.
Qed.

Lemma inv_update l f P F : P < 500 -> ok (P, F) -> inv l f ->
  inv (rcons l (P, F)) (update f (new_P P) (new_F F)).
Proof.
move=> P5 O; rewrite /update cost_val // {1}/inv; case E: (min_cost f) => [m|]; last first.
  case=> _ H /=; rewrite /inv /=; exists (P, F); first by rewrite mem_rcons inE eqxx.
  split=> //; [by rewrite fin_new | by rewrite fin_new | ].
  move=> y; rewrite mem_rcons inE => /orP[/eqP -> _|/H /negPf -> //]; by left.
case=> x Hx [H1 H2 H3 H4 H5] /=; rewrite H3 H4.
case: ifP => C.
  rewrite /inv /=; exists (P, F); first by rewrite mem_rcons inE eqxx.
  split=> //; [by rewrite fin_new | by rewrite fin_new | ].
  move=> y; rewrite mem_rcons inE => /orP[/eqP -> _|Hy Oy]; first by left.
  apply: better_trans (H5 y Hy Oy); right.
  case/orP: C => [/Z.ltb_spec0 C|/andP[/Z.eqb_spec C C']].
    by left; move: C; rewrite -Z.mul_lt_mono_pos_l //; slia.
  right; split; last by apply: fin_lt; rewrite (fin_new F P5).
  by move: C; rewrite Z.mul_cancel_l; [slia | lia].
rewrite /inv E; exists x; first by rewrite mem_rcons inE Hx orbT.
split=> // y; rewrite mem_rcons inE => /orP[/eqP -> _|Hy Oy]; last exact: H5.
move/negbT: C; rewrite negb_or => /andP[/Z.ltb_spec0 C1 C2].
case: (ltngtP (val x) (val (P, F))) => C3; first by right; left.
  by case: C1; rewrite -Z.mul_lt_mono_pos_l //; slia.
move: C2; rewrite C3 Z.eqb_refl /= => C2.
case: (ltngtP x.2 F) => C4; first by right; right.
  by move/negP: C2; case; have := @lt_fin (P, F) x C4; rewrite fin_new.
by left; apply: val_inj.
Qed.

(** Later candidates of the same inner loop cost more than the first secure one. *)
Lemma inv_later l f P P' F0 F : P < 500 -> P <= P' -> F0 < F -> (P, F0) \in l -> ok (P, F0) -> inv l f ->
  inv (rcons l (P, F)) f /\ update f (new_P P') (new_F F) = f.
Proof.
move=> P5 PP FF Hl O; rewrite {1}/inv; case E: (min_cost f) => [m|]; last first.
  by case=> _ /(_ _ Hl) /negPf; rewrite O.
case=> x Hx [H1 H2 H3 H4 H5]; have B := H5 _ Hl O.
have V := val_F P FF.
split.
  rewrite /inv E; exists x; first by rewrite mem_rcons inE Hx orbT.
  split=> // y; rewrite mem_rcons inE => /orP[/eqP -> _|Hy Oy]; last exact: H5.
  by apply: better_trans B _; right; left.
have : val x <= val (P, F0) by case: B => [-> //|[/ltnW //|[-> //]]].
move=> B'; rewrite /update E /=.
have C : (m < cost (Z.of_nat (new_F F)) (Z.of_nat (new_P P')) N (Z.of_nat t))%Z.
  rewrite costE H3 -Z.mul_lt_mono_pos_l //.
  have : val (P, F) <= t * new_F F + new_P P'.
    rewrite /val /sboxes fin_new //= leq_add2l /new_P; case: sm => //; exact: margin_R_P_mono.
  by move=> /leP; rewrite -plusE -multE; move/ltP: V; move/leP: B'; rewrite -Nat2Z.inj_mul; lia.
case: Z.ltb_spec => [|_] /=; first by lia.
by case: Z.eqb_spec => [|_] //=; lia.
Qed.

Lemma new_P_ge P P' : P < 500 -> P <= P' -> P <= new_P P'.
Proof.
move=> P5 H; rewrite /new_P; case: sm => //; apply: leq_trans (margin_R_P_mono H).
by rewrite margin_R_PE // leq_divRL //; clear; slia.
Qed.

Definition inner_inv (l : seq (nat * nat)) P (ys : seq nat) (st : nat * found) : Prop :=
  [/\ inv (l ++ [seq (P, F) | F <- ys]) st.2, P <= st.1 &
      st.1 = P /\ {in ys, forall F, ~~ ok (P, F)} \/ exists2 F, F \in ys & ok (P, F)].

Lemma inner_step l P ys F st : P < 500 -> {in ys, forall F', F' < F} -> inner_inv l P ys st ->
  exists2 st', find_body sat cost N (Z.of_nat t) sm F st = Ret st' & inner_inv l P (rcons ys F) st'.
Proof.
move=> P5 ys_lt; case: st => [P' f]; rewrite bodyE => -[/= I PP H]; eexists; first by [].
rewrite /inner_inv map_rcons -rcons_cat; case: H => [[E H]|[F0 HF0 O]].
  subst P'; case: ifP => /= O.
    split; [exact: inv_update | exact: new_P_ge | right; exists F => //].
    by rewrite mem_rcons inE eqxx.
  split=> //; first by apply: inv_skip => //; rewrite O.
  left; split=> // F'; rewrite mem_rcons inE => /orP[/eqP -> |/H //]; by rewrite O.
have M : (P, F0) \in l ++ [seq (P, F) | F <- ys] by rewrite mem_cat map_f ?orbT.
have M' : exists2 F1, F1 \in rcons ys F & ok (P, F1) by exists F0 => //; rewrite mem_rcons inE HF0 orbT.
have [I1 I2] := inv_later P5 PP (ys_lt _ HF0) M O I.
case: ifP => _ /=; split; try by right.
- by rewrite I2.
- exact: new_P_ge.
- by [].
- by [].
Qed.

Lemma inner_loop l P ys xs st : P < 500 -> sorted ltn (ys ++ xs) -> inner_inv l P ys st ->
  exists2 st', for_in xs (find_body sat cost N (Z.of_nat t) sm) st = Ret st' & inner_inv l P (ys ++ xs) st'.
Proof.
move=> P5; elim: xs ys st => [|x xs IH] ys st srt I; first by exists st; rewrite ?cats0.
have lt : {in ys, forall F', F' < x}.
  move=> F' HF; move: srt; rewrite sorted_pairwise; last exact: ltn_trans.
  by rewrite pairwise_cat => /andP[/allrelP A _]; apply: A => //; rewrite inE eqxx.
have [st1 E1 I1] := inner_step P5 lt I.
rewrite -cat_rcons in srt *; have [st' E' I'] := IH (rcons ys x) st1 srt I1.
by exists st' => //=; rewrite E1.
Qed.

Lemma outer_loop rs l ps f : sorted ltn rs -> all (fun P => P < 500) ps -> inv l f ->
  exists2 f', for_in ps (fun P f => bind (for_in rs (find_body sat cost N (Z.of_nat t) sm) (P, f))
                                      (fun st => Ret st.2)) f = Ret f' &
              inv (l ++ [seq (P, F) | P <- ps, F <- rs]) f'.
Proof.
move=> srt; elim: ps l f => [|P ps IH] l f; first by exists f; rewrite ?cats0.
move=> /andP[P5 Hps] I.
have [|st E [I' _ _]] := @inner_loop l P [::] rs (P, f) P5 srt.
  by split; rewrite /= ?cats0 //; left.
have [f' E' I''] := IH _ _ Hps I'; exists f'; last by rewrite allpairs_cons catA.
by rewrite /= E.
Qed.

Definition script_box := [seq (P, F) | P <- range 1 500, F <- range 4 100].

Lemma mem_script_box x : (x \in script_box) && ok x <-> script_candidate (cand x) /\ s x.2 x.1.
Proof.
rewrite /script_candidate /ok; case: x => P F; rewrite [cand _]/= /cand /=; split.
  case/andP => /allpairsP [[P' F'] /= [H1 H2 [-> ->]]] /andP[O S]; move: H1 H2; rewrite !mem_iota.
  by move=> /andP[? ?] /andP[? ?].
case=> -[H1 H2 H3 H4 H5] S; rewrite H5 S !andbT.
by apply/allpairsP; exists (P, F); rewrite !mem_iota /= H1 H2 H3 H4.
Qed.

Lemma reportedE x r : reported sm (cand x) r <-> r = fin x.
Proof.
rewrite /reported /fin; case: sm => //; split; first exact: with_marginE.
by move=> ->; exact: margin_with.
Qed.

Lemma better_val x y r r' : r = fin x -> r' = fin y ->
  (val x < val y \/ val x = val y /\ x.2 < y.2) <->
  (sboxes t r < sboxes t r' \/ sboxes t r = sboxes t r' /\ r_F r < r_F r').
Proof.
move=> -> ->; split=> -[H|[H1 H2]]; [by left | by right; split=> //; apply: lt_fin | by left | ].
by right; split=> //; apply: fin_lt.
Qed.

Theorem find_loops_best F P :
  find_loops sat cost N (Z.of_nat t) sm = Ret (F, P) <->
  (exists c, script_best (fun c => s (r_F c) (r_P c)) t sm c (RoundNumbers P F)) \/
  (forall c, script_candidate c -> ~~ s (r_F c) (r_P c)) /\ F = 0 /\ P = 0.
Proof.
have [| | |f E I] := @outer_loop (range 4 100) [::] (range 1 500) (Found 0 0 None 0).
- exact: iota_ltn_sorted.
- by apply/allP => P'; rewrite mem_iota => /andP[_ H].
- by split.
rewrite {}/find_loops E bind_ret cat0s -/script_box in I *; move: I; rewrite /inv.
case Em: (min_cost f) => [m|].
  case=> x Hx [Ox R _ _ B].
  have [Cx Sx] : script_candidate (cand x) /\ s x.2 x.1 by apply/mem_script_box; rewrite Hx.
  have best : script_best (fun c => s (r_F c) (r_P c)) t sm (cand x) (RoundNumbers (R_P f) (R_F f)).
    split=> //; first exact/reportedE.
    move=> c' r'; rewrite (cand_of c'); set y := (r_P c', r_F c') => Cy Sy /reportedE Ry Ny.
    have /andP[Hy Oy] : (y \in script_box) && ok y by apply/mem_script_box.
    apply/(better_val R Ry); case: (B _ Hy Oy) => // Eyx.
    by case: Ny; rewrite Eyx.
  split=> [[<- <-]|]; first by left; exists (cand x).
  case=> [[c]|[H _]]; last by have := H _ Cx; rewrite Sx.
  case=> Cc Sc Rc Bc; case: best => _ _ Rx Bx.
  rewrite (cand_of c) in Cc Sc Rc Bc.
  set y := (r_P c, r_F c) in Cc Sc Rc Bc.
  case: (x =P y) => [xy|xy].
    move/reportedE: Rc; rewrite -xy => Rc; move/reportedE: Rx; rewrite -Rc.
    by case=> -> ->.
  have N1 : cand x <> cand y by case=> h1 h2; apply: xy; case: (x) h1 h2 => a b /= -> ->.
  have := Bc _ _ Cx Sx Rx N1; have := Bx _ _ Cc Sc Rc (not_eq_sym N1).
  move: (sboxes t (RoundNumbers (R_P f) _)) (sboxes t (RoundNumbers P F)) => a b.
  by rewrite -[r_F (RoundNumbers (R_P f) _)]/(R_F f) -[r_F (RoundNumbers P F)]/F; clear; move=> [?|[? ?]] [?|[? ?]]; slia.
case=> -> H /=; have {}H c : script_candidate c -> ~~ s (r_F c) (r_P c).
  rewrite (cand_of c) => Cc; apply/negP => Sc.
  have /andP[h1 h2] : ((r_P c, r_F c) \in script_box) && ok (r_P c, r_F c) by apply/mem_script_box.
  by have := H _ h1; rewrite h2.
split=> [[<- <-]|]; first by right.
case=> [[c [Cc Sc _ _]]|[_ [-> ->]] //].
by have := H _ Cc; rewrite Sc.
Qed.
End Search.
