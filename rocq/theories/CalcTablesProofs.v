(** The tables of the reference script against those of the paper. *)
From Coq Require Import ZArith NArith Reals Lia Lra.
From Flocq Require Import Core.
From mathcomp Require Import all_ssreflect.
From Verif Require Import Base PrimeLib Params Transcript V1 Rounds RoundsSpec F64Proofs RoundsSearch RoundsClosed.
From Verif Require Import RoundsEval RoundsProps CalcRounds CalcSpec CalcSearch CalcProofs CalcProps CalcRows.
From Verif Require Import CalcTables AppendixGData CalcTablesSpec Slia.
From Verif Require AppendixG.
Set Implicit Arguments.
Unset Strict Implicit.
Unset Printing Implicit Defensive.

(** * One line *)
Lemma close_form lm (M : Z) (t : nat) (p n e a b : Z) sm : accurate lm -> accurate_ln lm ->
  2 <= t <= 16 -> (3 <= e <= 5)%Z -> (128 <= M <= 256)%Z -> (96 <= n <= 1023)%Z ->
  (M <= (n - 5) * (Z.of_nat t + 1))%Z -> has_bits n p -> (forall k : Z, (2 <= k)%Z -> Z.of_nat t <> (e ^ k)%Z) ->
  (0 <= a)%Z -> (1 <= b)%Z -> (e ^ (b - 1) < Z.of_nat t <= e ^ b)%Z ->
  (e ^ a * 2 ^ 12 <= Z.min (2 ^ M) p * (2 ^ 12 - 1))%Z ->
  (Z.min (2 ^ M) p * 2 ^ 12 <= e ^ (a + 1) * (2 ^ 12 - 1))%Z ->
  exists r, reported sm (RoundNumbers (Z.to_nat (a + b - 4)) 6) r /\
  calc_final_numbers_fixed lm p (Z.of_nat t) e M sm =
  Ret (r_F r, r_P r, Z.of_nat (sboxes t r), (Zceil (py_log lm p 2) * Z.of_nat (sboxes t r))%Z).
Proof.
move=> acc accl Ht He HM Hn st bp te a0 b1 Hb H1 H2.
have Rp c : reported sm c (finish sm c) by rewrite /reported /finish; case: sm => //; exact: margin_with.
have := @row_rounds lm M t p n e acc accl Ht He HM Hn st bp te sm.
rewrite (@B_val lm t n e acc Ht He Hn te b b1 Hb).
have L1 := @X_lb lm M t p n e acc accl He HM Hn bp a a0 H1.
have L2 := @X_ub lm M t p n e acc accl He HM Hn bp (a + 1)%Z ltac:(clear -a0; lia) H2.
have -> : Zceil (fmul (py_log lm 2 e) (py_min M (py_log lm p 2))) = (a + 1)%Z by clear -L1 L2; lia.
have -> : (a + 1 + b - 5 = a + b - 4)%Z by clear; lia.
by move=> E; exists (finish sm (RoundNumbers (Z.to_nat (a + b - 4)) 6)).
Qed.

(** The condition for a row: between [a + 1] and [a2] rounds for the interpolation attack *)
Definition row_ok (e : Z) (w : row) (a a2 b : Z) : bool :=
  let M := Z.of_N (row_M w) in let t := Z.of_nat (row_t w) in let n := bits_of w in
  [&& [&& Z.leb 2 t, Z.leb t 16, Z.leb 3 e, Z.leb e 5 & [&& Z.leb 128 M, Z.leb M 256, Z.leb 96 n, Z.leb n 1023 &
          Z.leb M ((n - 5) * (t + 1))]],
      [&& (n * t =? 1536)%Z, Z.ltb t (e ^ 2) || (e =? 3)%Z && (t =? 16)%Z, Z.leb 0 a, Z.leb 1 b &
          Z.ltb (e ^ (b - 1)) t && Z.leb t (e ^ b)],
      [&& Z.leb (e ^ a * 2 ^ 12) (2 ^ Z.min M (n - 1) * (2 ^ 12 - 1)),
          Z.leb (2 ^ Z.min M n * 2 ^ 12) (e ^ a2 * (2 ^ 12 - 1)),
          Z.leb 5 (a + b), Z.leb 0 a2 & Z.leb (a + 1) a2],
      row_rF w == 8, row_rP w == r_P (margin (RoundNumbers (Z.to_nat (a2 + b - 5)) 6)) &
      (a + 1 =? a2)%Z || [&& (a + 2 =? a2)%Z, Z.leb n M & row_rP w == (r_P (margin (RoundNumbers (Z.to_nat (a + b - 4)) 6))).+1]].

Definition comb_of (w : row) : Z * Z * Z := (1536%Z, Z.of_nat (row_t w), Z.of_N (row_M w)).

Lemma line_n (t n : Z) : (2 <= t <= 16)%Z -> (n * t = 1536)%Z -> Ztrunc (fdiv (f64_of_int 1536) (f64_of_int t)) = n.
Proof.
move=> Ht E; rewrite !f64_of_int_small; [|lia|lia].
have -> : fdiv 1536 (IZR t) = IZR n; last exact: Ztrunc_IZR.
rewrite /fdiv -E mult_IZR (_ : (_ / _)%R = IZR n); first by apply: rnd_fmt; apply: fmt_int; nia.
by field; apply: not_0_IZR; lia.
Qed.

Lemma min_pow M n : (0 <= M)%Z -> (0 <= n)%Z -> (2 ^ Z.min M n = Z.min (2 ^ M) (2 ^ n))%Z.
Proof.
move=> M0 n0; case: (Z.le_ge_cases M n) => H.
  by rewrite !Z.min_l //; apply: Z.pow_le_mono_r.
by rewrite !Z.min_r //; apply: Z.pow_le_mono_r.
Qed.

Lemma width_not_power (t e k : Z) : (2 <= t)%Z -> (3 <= e)%Z -> Z.ltb t (e ^ 2) || (e =? 3)%Z && (t =? 16)%Z ->
  (2 <= k)%Z -> t <> (e ^ k)%Z.
Proof.
move=> t2 e3 tp k2 E; case/orP: tp => [/Z.ltb_spec0 te|/andP[/Z.eqb_spec E3 /Z.eqb_spec E16]].
  exact: (@not_power e t ltac:(lia) ltac:(lia) k k2 E).
rewrite E3 E16 in E; case: (Z.eq_dec k 2) => [E2|N2]; first by rewrite E2 in E.
by have := @Z.pow_le_mono_r 3 3 k ltac:(lia) ltac:(lia); rewrite -E.
Qed.

Lemma line_close lm (e : Z) (w : row) (a a2 b p : Z) : accurate lm -> accurate_ln lm -> row_ok e w a a2 b ->
  has_bits (bits_of w) p ->
  exists r, table_line lm e true (comb_of w) p = Ret r /\ same_instance w p r /\ close_to w r.
Proof.
move=> acc accl; set n := bits_of w; rewrite /row_ok -/n.
set M := Z.of_N (row_M w); set t := row_t w.
case/and5P => /and5P[/Z.leb_spec0 t2 /Z.leb_spec0 t16 /Z.leb_spec0 e3 /Z.leb_spec0 e5].
case/and5P => /Z.leb_spec0 M1 /Z.leb_spec0 M2 /Z.leb_spec0 n1 /Z.leb_spec0 n2 /Z.leb_spec0 st.
case/and5P => /Z.eqb_spec nt tp /Z.leb_spec0 a0 /Z.leb_spec0 b1 /andP[/Z.ltb_spec0 tb1 /Z.leb_spec0 tb2].
case/and5P => /Z.leb_spec0 H1 /Z.leb_spec0 H2 /Z.leb_spec0 ab /Z.leb_spec0 a20 /Z.leb_spec0 aa2 F8 /andP[/eqP rP C] bp.
have Ht : 2 <= t <= 16 by apply/andP; split; apply/leP; clear -t2 t16; lia.
have te k : (2 <= k)%Z -> Z.of_nat t <> (e ^ k)%Z by move=> k2; exact: width_not_power t2 e3 tp k2.
have He : (3 <= e <= 5)%Z by []; have HM : (128 <= M <= 256)%Z by []; have Hn : (96 <= n <= 1023)%Z by [].
have M0 : (0 <= M)%Z by clear -M1; lia.
have n0 : (0 <= n)%Z by clear -n1; lia.
have n0' : (0 <= n - 1)%Z by clear -n1; lia.
have H1' : (e ^ a * 2 ^ 12 <= Z.min (2 ^ M) p * (2 ^ 12 - 1))%Z.
  apply: Z.le_trans H1 _; rewrite min_pow //; apply: Z.mul_le_mono_nonneg_r => //.
  by case: bp => h _; apply: Z.min_le_compat_l.
have H2' : (Z.min (2 ^ M) p * 2 ^ 12 <= e ^ a2 * (2 ^ 12 - 1))%Z.
  apply: Z.le_trans H2; rewrite min_pow //; apply: Z.mul_le_mono_nonneg_r => //.
  by case: bp => _ h; apply: Z.min_le_compat_l; apply: Z.lt_le_incl.
have L1 := @X_lb lm M t p n e acc accl He HM Hn bp a a0 H1'.
have L2 := @X_ub lm M t p n e acc accl He HM Hn bp a2 a20 H2'.
have := @row_rounds lm M t p n e acc accl Ht He HM Hn st bp te true.
rewrite (@B_val lm t n e acc Ht He Hn te b b1 (conj tb1 tb2)).
move: (Zceil (fmul _ _)) L1 L2 => X L1 L2 /= E.
rewrite /table_line /comb_of -/t -/M (@line_n (Z.of_nat t) n) // E bind_ret.
eexists; split; first by reflexivity.
have prF : row_rF w = 6 + 2 by apply/eqP.
split.
  split=> /=; [by [] | by [] | by split | by rewrite prF |].
  split; first by rewrite /sboxes /= prF.
  move=> [h1 h2]; congr (_ * _)%Z.
  have pr := p_rng Hn bp.
  have := @bits_eq lm p (n - 1) accl pr n0'; rewrite Z.sub_add; exact.
rewrite /close_to /= -/n -/M rP.
case/orP: C => [/Z.eqb_spec Ea|/and3P[/Z.eqb_spec Ea /Z.leb_spec0 nM /eqP rP']].
  by left; congr ((43 * Z.to_nat _ + 39) %/ 40); clear -L1 L2 Ea; lia.
have [EX|EX] : X = (a + 1)%Z \/ X = a2 by clear -L1 L2 Ea; lia.
  right; split=> //; rewrite -rP rP' /= EX; congr ((43 * Z.to_nat _ + 39) %/ 40).+1; clear; lia.
by left; rewrite EX.
Qed.

(** * The loop *)
Definition row0 : row := Row 0 0 0 0 0.
Definition line0 : table_row := TableRow 0 0 0 0 0 0 0 0.

Lemma table_run lm e sm (P : row -> Z -> table_row -> Prop) (ws : seq row) (primes : seq Z) :
  size primes = size ws ->
  (forall i, i < size ws -> exists r, table_line lm e sm (comb_of (nth row0 ws i)) (nth 0%Z primes i) = Ret r /\
     P (nth row0 ws i) (nth 0%Z primes i) r) ->
  exists rows, [/\ print_latex_table_combinations lm (map comb_of ws) e sm primes = Ret rows, size rows = size ws &
    forall i, i < size ws -> P (nth row0 ws i) (nth 0%Z primes i) (nth line0 rows i)].
Proof.
rewrite /print_latex_table_combinations ; move: (table_line lm e sm) => f sz H.
suff G rows0 : exists rows, [/\ for_in (zip (map comb_of ws) primes) (fun cp rows =>
    bind (f cp.1 cp.2) (fun row => Ret (rcons rows row))) rows0 = Ret (rows0 ++ rows), size rows = size ws &
    forall i, i < size ws -> P (nth row0 ws i) (nth 0%Z primes i) (nth line0 rows i)] by exact: G.
elim: ws primes sz H rows0 => [|w ws IH] [|p ps] //= sz H rows0; first by exists [::]; rewrite cats0.
have [r [E Pr]] := H 0 isT; rewrite /= in E Pr; rewrite E bind_ret.
have H' i : i < size ws -> exists r, f (comb_of (nth row0 ws i)) (nth 0%Z ps i) = Ret r /\
    P (nth row0 ws i) (nth 0%Z ps i) r by move=> Hi; exact: (H i.+1 Hi).
have [rows [E' S' P']] := IH ps (congr1 predn sz) H' (rcons rows0 r).
exists (r :: rows); split; [by rewrite bind_ret E' cat_rcons | by rewrite /= S' |].
by case=> [|i] Hi //=; apply: P'.
Qed.

Definition table_7_cert : seq (Z * Z * Z) := [::
  (80, 81, 1); (80, 81, 2); (80, 81, 2); (80, 81, 2); (59, 61, 3);
  (161, 162, 1); (161, 162, 2); (160, 162, 2); (120, 122, 2); (59, 61, 3)]%Z.
Definition table_8_cert : seq (Z * Z * Z) := [::
  (55, 56, 1); (55, 56, 1); (55, 56, 2); (55, 56, 2); (40, 42, 2);
  (110, 111, 1); (110, 111, 1); (109, 111, 2); (82, 83, 2); (40, 42, 2)]%Z.

Lemma table_7_ok : all (fun z => row_ok 3 z.1 z.2.1.1 z.2.1.2 z.2.2) (zip table_7 table_7_cert).
Proof. by vm_compute. Qed.
Lemma table_8_ok : all (fun z => row_ok 5 z.1 z.2.1.1 z.2.1.2 z.2.2) (zip table_8 table_8_cert).
Proof. by vm_compute. Qed.

Lemma ok_nth e ws cs i : size cs = size ws -> all (fun z => row_ok e z.1 z.2.1.1 z.2.1.2 z.2.2) (zip ws cs) ->
  i < size ws -> exists a a2 b, row_ok e (nth row0 ws i) a a2 b.
Proof.
elim: ws cs i => [|w ws IH] [|c cs] //= i [sz] /andP[H1 H2]; case: i => [|i] Hi; last exact: IH H2 Hi.
by exists c.1.1, c.1.2, c.2.
Qed.

Lemma table_close lm e ws cs (primes : seq Z) : accurate lm -> accurate_ln lm ->
  size cs = size ws -> all (fun z => row_ok e z.1 z.2.1.1 z.2.1.2 z.2.2) (zip ws cs) ->
  size primes = size ws ->
  (forall i, i < size ws -> has_bits (bits_of (nth row0 ws i)) (nth 0%Z primes i)) ->
  exists rows, [/\ print_latex_table_combinations lm (map comb_of ws) e true primes = Ret rows, size rows = size ws &
    forall i, i < size ws ->
      same_instance (nth row0 ws i) (nth 0%Z primes i) (nth line0 rows i) /\ close_to (nth row0 ws i) (nth line0 rows i)].
Proof.
move=> acc accl sc Hc sp Hb.
apply: (@table_run lm e true (fun w p r => same_instance w p r /\ close_to w r) ws primes sp) => i Hi.
have [a [a2 [b H]]] := ok_nth sc Hc Hi.
exact: line_close H (Hb i Hi).
Qed.

(** * Without the margin *)
Lemma line_margin lm (e : Z) (w : row) (a a2 b p : Z) : accurate lm -> accurate_ln lm -> row_ok e w a a2 b ->
  has_bits (bits_of w) p ->
  exists r r', [/\ table_line lm e true (comb_of w) p = Ret r, table_line lm e false (comb_of w) p = Ret r' &
                   margin_of w r' r].
Proof.
move=> acc accl; set n := bits_of w; rewrite /row_ok -/n.
set M := Z.of_N (row_M w); set t := row_t w.
case/and5P => /and5P[/Z.leb_spec0 t2 /Z.leb_spec0 t16 /Z.leb_spec0 e3 /Z.leb_spec0 e5].
case/and5P => /Z.leb_spec0 M1 /Z.leb_spec0 M2 /Z.leb_spec0 n1 /Z.leb_spec0 n2 /Z.leb_spec0 st.
case/and5P => /Z.eqb_spec nt tp /Z.leb_spec0 a0 /Z.leb_spec0 b1 /andP[/Z.ltb_spec0 tb1 /Z.leb_spec0 tb2] _ _ _ bp.
have Ht : 2 <= t <= 16 by apply/andP; split; apply/leP; clear -t2 t16; lia.
have te k : (2 <= k)%Z -> Z.of_nat t <> (e ^ k)%Z by move=> k2; exact: width_not_power t2 e3 tp k2.
have He : (3 <= e <= 5)%Z by []; have HM : (128 <= M <= 256)%Z by []; have Hn : (96 <= n <= 1023)%Z by [].
have R := @row_rounds lm M t p n e acc accl Ht He HM Hn st bp te.
rewrite /table_line /comb_of -/t -/M (@line_n (Z.of_nat t) n) // !R !bind_ret.
do 2!eexists; split; [by reflexivity | by reflexivity |].
set c := (X in finish _ X); split=> //=; exact (margin_with c).
Qed.

Lemma table_margin lm e ws cs (primes : seq Z) : accurate lm -> accurate_ln lm ->
  size cs = size ws -> all (fun z => row_ok e z.1 z.2.1.1 z.2.1.2 z.2.2) (zip ws cs) ->
  size primes = size ws ->
  (forall i, i < size ws -> has_bits (bits_of (nth row0 ws i)) (nth 0%Z primes i)) ->
  exists rows rows', [/\ print_latex_table_combinations lm (map comb_of ws) e true primes = Ret rows,
    print_latex_table_combinations lm (map comb_of ws) e false primes = Ret rows', size rows' = size ws &
    forall i, i < size ws -> margin_of (nth row0 ws i) (nth line0 rows' i) (nth line0 rows i)].
Proof.
move=> acc accl sc Hc sp Hb.
have H i : i < size ws -> exists r r', [/\ table_line lm e true (comb_of (nth row0 ws i)) (nth 0%Z primes i) = Ret r,
    table_line lm e false (comb_of (nth row0 ws i)) (nth 0%Z primes i) = Ret r' & margin_of (nth row0 ws i) r' r].
  by move=> Hi; have [a [a2 [b h]]] := ok_nth sc Hc Hi; exact: line_margin h (Hb i Hi).
have [rows [E S R]] := @table_run lm e true (fun w p r => table_line lm e true (comb_of w) p = Ret r) ws primes sp
  (fun i Hi => let: ex_intro r (ex_intro _ (And3 h _ _)) := H i Hi in ex_intro _ r (conj h h)).
have [rows' [E' S' R']] := @table_run lm e false (fun w p r => table_line lm e false (comb_of w) p = Ret r) ws primes sp
  (fun i Hi => let: ex_intro _ (ex_intro r (And3 _ h _)) := H i Hi in ex_intro _ r (conj h h)).
exists rows, rows'; split=> // i Hi.
have [r [r' [h h' m]]] := H i Hi.
by move: (R i Hi) (R' i Hi); rewrite h h' => -[<-] [<-].
Qed.

Lemma combs_7 : map comb_of table_7 = table_combinations. Proof. by []. Qed.
Lemma combs_8 : map comb_of table_8 = table_combinations. Proof. by []. Qed.
Lemma combs_9 : map comb_of table_9 = table_combinations. Proof. by []. Qed.

Theorem script_table_7 lm (primes : seq Z) : accurate lm -> accurate_ln lm -> size primes = 10 ->
  (forall i, i < 10 -> has_bits (bits_of (nth row0 table_7 i)) (nth 0%Z primes i)) ->
  exists rows, [/\ print_latex_table_combinations lm table_combinations 3 true primes = Ret rows, size rows = 10 &
    forall i, i < 10 -> same_instance (nth row0 table_7 i) (nth 0%Z primes i) (nth line0 rows i) /\
                        close_to (nth row0 table_7 i) (nth line0 rows i)].
Proof. move=> acc accl; rewrite -combs_7; exact (@table_close lm 3 table_7 table_7_cert primes acc accl erefl table_7_ok). Qed.

Theorem script_table_8 lm (primes : seq Z) : accurate lm -> accurate_ln lm -> size primes = 10 ->
  (forall i, i < 10 -> has_bits (bits_of (nth row0 table_8 i)) (nth 0%Z primes i)) ->
  exists rows, [/\ print_latex_table_combinations lm table_combinations 5 true primes = Ret rows, size rows = 10 &
    forall i, i < 10 -> same_instance (nth row0 table_8 i) (nth 0%Z primes i) (nth line0 rows i) /\
                        close_to (nth row0 table_8 i) (nth line0 rows i)].
Proof. move=> acc accl; rewrite -combs_8; exact (@table_close lm 5 table_8 table_8_cert primes acc accl erefl table_8_ok). Qed.

Theorem script_margin_7 lm (primes : seq Z) : accurate lm -> accurate_ln lm -> size primes = 10 ->
  (forall i, i < 10 -> has_bits (bits_of (nth row0 table_7 i)) (nth 0%Z primes i)) ->
  exists rows rows', [/\ print_latex_table_combinations lm table_combinations 3 true primes = Ret rows,
    print_latex_table_combinations lm table_combinations 3 false primes = Ret rows', size rows' = 10 &
    forall i, i < 10 -> margin_of (nth row0 table_7 i) (nth line0 rows' i) (nth line0 rows i)].
Proof. move=> acc accl; rewrite -combs_7; exact (@table_margin lm 3 table_7 table_7_cert primes acc accl erefl table_7_ok). Qed.

Theorem script_margin_8 lm (primes : seq Z) : accurate lm -> accurate_ln lm -> size primes = 10 ->
  (forall i, i < 10 -> has_bits (bits_of (nth row0 table_8 i)) (nth 0%Z primes i)) ->
  exists rows rows', [/\ print_latex_table_combinations lm table_combinations 5 true primes = Ret rows,
    print_latex_table_combinations lm table_combinations 5 false primes = Ret rows', size rows' = 10 &
    forall i, i < 10 -> margin_of (nth row0 table_8 i) (nth line0 rows' i) (nth line0 rows i)].
Proof. move=> acc accl; rewrite -combs_8; exact (@table_margin lm 5 table_8 table_8_cert primes acc accl erefl table_8_ok). Qed.

(** * The inverse S-box *)
Lemma log_pow lm (k : nat) : 1 <= k <= 4 -> exact_logs lm -> py_log lm (Z.of_nat (2 ^ k)) 2 = IZR (Z.of_nat k).
Proof.
move=> k4 H; rewrite -(H (Z.of_nat k)); last by case/andP: k4 => /leP ? /leP ?; lia.
by congr (py_log lm _ 2); rewrite Zofnat_expn.
Qed.

(** What the proof needs of [log(t, 2)] *)
Definition log_ok lm (t c f6 g : nat) : Prop :=
  [/\ Zceil (py_log lm (Z.of_nat t) 2) = Z.of_nat c, Zfloor (fmul 6 (py_log lm (Z.of_nat t) 2)) = Z.of_nat f6 &
      forall i, i <= 100 ->
        (0 <= Zfloor (fmul (IZR (Z.of_nat (6 + i))) (py_log lm (Z.of_nat t) 2)) <= Z.of_nat (f6 + g * i))%Z].

Lemma log_ok_pow lm (k : nat) : 1 <= k <= 4 -> exact_logs lm -> log_ok lm (2 ^ k) k (6 * k) k.
Proof.
move=> k4 H; rewrite /log_ok log_pow //.
have fl i : i <= 106 -> Zfloor (fmul (IZR (Z.of_nat i)) (IZR (Z.of_nat k))) = (Z.of_nat i * Z.of_nat k)%Z.
  move=> /leP Hi; rewrite /fmul -mult_IZR rnd_fmt ?Zfloor_IZR //; apply: fmt_int.
  by case/andP: k4 => /leP ? /leP ?; nia.
split; [exact: Zceil_IZR | by rewrite -[6%R]/(IZR (Z.of_nat 6)) fl // -multE; lia |].
move=> i Hi; rewrite fl; last by rewrite -[106]/(6 + 100) leq_add2l.
by split; [lia | rewrite -!plusE -!multE; lia].
Qed.

Lemma log_ok_6 lm : accurate lm -> log_ok lm 6 3 15 3.
Proof.
move=> acc; have l2 := ln2_pos.
have /Rabs_le_inv H := @py_log_range lm 0 3 acc ltac:(lia) ltac:(lia) 6 2 ltac:(lia) ltac:(lia).
have := @ln_leZ (2 ^ 31) (6 ^ 12) ltac:(lia) ltac:(lia); rewrite !ln_IZR_pow // => h1.
have := @ln_leZ (6 ^ 5) (2 ^ 13) ltac:(lia) ltac:(lia); rewrite !ln_IZR_pow // => h2.
have a1 : (31 / 12 <= ln 6 / ln 2)%R by apply/div_bound' => //; lra.
have a2 : (ln 6 / ln 2 <= 13 / 5)%R by apply/div_bound => //; lra.
rewrite /log_ok -[Z.of_nat 6]/6%Z; move: (py_log lm 6 2) H => v H.
have [v1 v2] : (258 / 100 <= v <= 2601 / 1000)%R by lra.
split; first by apply: Zceil_eq; rewrite /=; lra.
  apply: Zfloor_eq; rewrite /=; split; first by apply: (@rnd_lb _ 15); [exact: (@fmt_int 15) | lra].
  apply: (Rle_lt_trans _ (IZR 63 * bpow radix2 (-2))); last by rewrite /=; lra.
  by apply: rnd_ub; [exact: fmt_dyadic | rewrite /=; lra].
move=> i /leP Hi.
have I1 : (0 <= IZR (Z.of_nat i) <= 100)%R by split; apply: IZR_le; lia.
have E : IZR (Z.of_nat (6 + i)) = (6 + IZR (Z.of_nat i))%R by rewrite -plusE Nat2Z.inj_add plus_IZR.
rewrite E; split.
  by apply: Zfloor_lub; apply: (@rnd_lb _ 0); [exact: (@fmt_int 0) | nra].
suff : (Zfloor (fmul (6 + IZR (Z.of_nat i)) v) < 16 + 3 * Z.of_nat i)%Z by rewrite -plusE -multE; lia.
apply: lt_IZR; apply: (Rle_lt_trans _ _ _ (Zfloor_lb _)).
apply: (Rle_lt_trans _ (IZR (63 + 12 * Z.of_nat i) * bpow radix2 (-2))).
  by apply: rnd_ub; [apply: fmt_dyadic; lia | rewrite plus_IZR mult_IZR /=; nra].
by rewrite !plus_IZR !mult_IZR /=; lra.
Qed.

Definition inv_ok (w : row) (k : Z) (c f6 g : nat) : bool :=
  let M := Z.of_N (row_M w) in let t := Z.of_nat (row_t w) in let n := bits_of w in
  let K := inv_required M (row_t w) n k c in
  [&& [&& Z.leb 2 t, Z.leb t 16, Z.leb 128 M, Z.leb M 256 & [&& Z.leb 96 n, Z.leb n 1023, Z.even M, Z.even n &
          Z.leb M ((n - 4) * (t + 1))]],
      [&& (n * t =? 1536)%Z, Z.ltb ((k - 1) * (t + 1)) M, Z.ltb M (k * (t + 1)),
          43 * g + 20 < 40 * row_t w & Z.ltb (Z.of_nat f6) K && Z.ltb K (Z.of_nat f6 + 500)],
      row_rF w == 8 & row_rP w == r_P (margin (RoundNumbers (Z.to_nat (K - Z.of_nat f6)) 6))].

Lemma line_inv lm (w : row) (k : Z) (c f6 g : nat) (p : Z) : accurate_ln lm -> log_ok lm (row_t w) c f6 g ->
  inv_ok w k c f6 g -> well_inside (bits_of w) p ->
  exists r, table_line lm (-1) true (comb_of w) p = Ret r /\ same_instance w p r /\ tr_R_P r = row_rP w.
Proof.
move=> accl [c6 fl6 fl_le]; set n := bits_of w; rewrite /inv_ok -/n.
set M := Z.of_N (row_M w); set t := row_t w.
case/and4P => /and5P[/Z.leb_spec0 t2 /Z.leb_spec0 t16 /Z.leb_spec0 M1 /Z.leb_spec0 M2].
case/and5P => /Z.leb_spec0 n1 /Z.leb_spec0 n2 ev1 ev2 /Z.leb_spec0 st.
case/and5P => /Z.eqb_spec nt /Z.ltb_spec0 k1 /Z.ltb_spec0 k2 gt /andP[/Z.ltb_spec0 K1 /Z.ltb_spec0 K2].
move=> /eqP prF /eqP rP pw.
have Ht : 2 <= t <= 16 by apply/andP; split; apply/leP; clear -t2 t16; lia.
have := @inv_rounds lm M t p n accl Ht (conj M1 M2) (conj n1 n2) (conj ev1 ev2) st pw k (conj k1 k2) c f6 g c6 fl6
  fl_le gt (conj K1 K2) true.
set P := Z.to_nat _; move=> /= E.
rewrite /table_line /comb_of -/t -/M (@line_n (Z.of_nat t) n) // E bind_ret.
eexists; split; first by reflexivity.
split; last by rewrite /= rP.
by split=> /=; [by [] | by [] | by split | by rewrite prF | split=> //; rewrite /sboxes /= prF].
Qed.

Definition table_9_cert : seq (Z * nat * nat * nat) := [::
  (43%Z, 1, 6, 1); (26%Z, 2, 12, 2); (19%Z, 3, 15, 3); (15%Z, 3, 18, 3); (8%Z, 4, 24, 4);
  (86%Z, 1, 6, 1); (52%Z, 2, 12, 2); (37%Z, 3, 15, 3); (29%Z, 3, 18, 3); (16%Z, 4, 24, 4)].

Theorem script_table_9 lm (primes : seq Z) : accurate lm -> accurate_ln lm -> exact_logs lm -> size primes = 10 ->
  (forall i, i < 10 -> well_inside (bits_of (nth row0 table_9 i)) (nth 0%Z primes i)) ->
  exists rows, [/\ print_latex_table_combinations lm table_combinations (-1) true primes = Ret rows, size rows = 10 &
    forall i, i < 10 -> same_instance (nth row0 table_9 i) (nth 0%Z primes i) (nth line0 rows i) /\
                        tr_R_P (nth line0 rows i) = row_rP (nth row0 table_9 i)].
Proof.
move=> acc accl el sp Hb; rewrite -combs_9.
apply: (@table_run lm (-1) true (fun w p r => same_instance w p r /\ tr_R_P r = row_rP w) table_9 primes sp) => i Hi.
have L1 := @log_ok_pow lm 1 isT el; have L2 := @log_ok_pow lm 2 isT el; have L3 := @log_ok_pow lm 3 isT el.
have L4 := @log_ok_pow lm 4 isT el; have L6 := log_ok_6 acc.
pose z := nth (0%Z, 0, 0, 0) table_9_cert i.
have [Hl Hok] : log_ok lm (row_t (nth row0 table_9 i)) z.1.1.2 z.1.2 z.2 /\
    inv_ok (nth row0 table_9 i) z.1.1.1 z.1.1.2 z.1.2 z.2.
  split.
    rewrite /z; move: i Hi {Hb z}; do 10 (case=> [_|]; first assumption); by [].
  rewrite /z; move: i Hi {Hb z}; do 10 (case=> [_|]; first by vm_compute); by [].
exact: line_inv accl Hl Hok (Hb i Hi).
Qed.

(** * The modulus matters *)
Definition p_low : Z := 39614081271128230538732634113.
Definition p_high : Z := 45485840044034233251326328833.

Lemma p_low_prime : prime (Z.to_nat p_low).
Proof.
have ck : pock_check p_low 2 35184372101263 3 19807040635564115269366317056 19807040635564115269366317056 by vm_compute.
exact (@pock_prime p_low 2 35184372101263 3 _ _ 49 isT erefl erefl ck erefl).
Qed.
Lemma p_high_prime : prime (Z.to_nat p_high).
Proof.
have ck : pock_check p_high 2 40399541529043 3 22742920022017116625663164416 22742920022017116625663164416 by vm_compute.
exact (@pock_prime p_high 2 40399541529043 3 _ _ 49 isT erefl erefl ck erefl).
Qed.
Lemma p_bits : has_bits 96 p_low /\ has_bits 96 p_high.
Proof. by rewrite /has_bits; split; split; (apply/Z.leb_spec0 || apply/Z.ltb_spec0); vm_compute. Qed.

Definition small_case (p a : Z) : bool :=
  Z.leb (5 ^ a * 2 ^ 12) (Z.min (2 ^ 128) p * (2 ^ 12 - 1)) && Z.leb (Z.min (2 ^ 128) p * 2 ^ 12) (5 ^ (a + 1) * (2 ^ 12 - 1)).

Lemma calc_find lm p t e M sm F P S1 S2 : calc_final_numbers_fixed lm p t e M sm = Ret (F, P, S1, S2) ->
  find_FD_round_numbers lm p t e M get_sbox_cost sm = Ret (F, P).
Proof.
rewrite /calc_final_numbers_fixed; case: find_FD_round_numbers => [[F' P']|] //; rewrite bind_ret.
by move: (get_sbox_cost _ _ _ _) (get_size_cost _ _ _ _) => a b [-> ->].
Qed.

Lemma small_row lm p a P : accurate lm -> accurate_ln lm -> has_bits 96 p -> (0 <= a)%Z -> small_case p a ->
  margin (RoundNumbers (Z.to_nat (a + 2 - 4)) 6) = RoundNumbers P 8 ->
  find_FD_round_numbers lm p 16 5 128 get_sbox_cost true = Ret (8, P).
Proof.
move=> acc accl bp a0 /andP[/Z.leb_spec0 H1 /Z.leb_spec0 H2] EP.
have te : forall k : Z, (2 <= k)%Z -> Z.of_nat 16 <> (5 ^ k)%Z by apply: not_power.
have [r [Rr E]] := @close_form lm 128 16 p 96 5 a 2 true acc accl isT ltac:(lia) ltac:(lia) ltac:(lia) ltac:(lia) bp te a0
  ltac:(lia) ltac:(lia) H1 H2.
have {Rr}Rr : r = RoundNumbers P 8 by rewrite -EP; apply: with_marginE.
by have := calc_find E; rewrite Rr.
Qed.

Theorem prime_matters lm : accurate lm -> accurate_ln lm ->
  [/\ prime (Z.to_nat p_low) /\ prime (Z.to_nat p_high), has_bits 96 p_low /\ has_bits 96 p_high,
      find_FD_round_numbers lm p_low 16 5 128 get_sbox_cost true = Ret (8, 41) &
      find_FD_round_numbers lm p_high 16 5 128 get_sbox_cost true = Ret (8, 42)].
Proof.
move=> acc accl; have [b1 b2] := p_bits; have s1 : small_case p_low 40 by vm_compute.
have s2 : small_case p_high 41 by vm_compute.
have R1 := @small_row lm p_low 40 41 acc accl b1 ltac:(lia) s1 erefl.
have R2 := @small_row lm p_high 41 42 acc accl b2 ltac:(lia) s2 erefl.
exact (And4 (conj p_low_prime p_high_prime) (conj b1 b2) R1 R2).
Qed.

(** * The two curves *)
Theorem script_377 lm : accurate lm -> accurate_ln lm -> bls377_results lm = Ret [::
  Result 11 2 8 37 53 13409 (Some 265%Z); Result 11 3 8 37 61 15433 (Some 305%Z); Result 11 5 8 37 77 19481 (Some 385%Z);
  Result 17 2 8 31 47 11891 (Some 235%Z); Result 17 3 8 31 55 13915 (Some 275%Z); Result 17 5 8 31 71 17963 (Some 355%Z)].
Proof.
move=> acc accl; rewrite /bls377_results /print_results -[bls377_prime]/Fq.q.
have E11 t : 2 <= t <= 8 -> calc_final_numbers_fixed lm Fq.q (Z.of_nat t) 11 128 true =
  Ret (8, 37, Z.of_nat (8 * t + 37), (253 * Z.of_nat (8 * t + 37))%Z) by exact: script_11.
have E17 t : 2 <= t <= 8 -> calc_final_numbers_fixed lm Fq.q (Z.of_nat t) 17 128 true =
  Ret (8, 31, Z.of_nat (8 * t + 31), (253 * Z.of_nat (8 * t + 31))%Z) by exact: script_17.
move: (calc_final_numbers_fixed lm) E11 E17 => f E11 E17 /=.
rewrite -[2%Z]/(Z.of_nat 2) -[3%Z]/(Z.of_nat 3) -[5%Z]/(Z.of_nat 5) !E11 // !E17 //.
Qed.

Theorem script_381 lm : accurate lm -> accurate_ln lm -> bls381_results lm = Ret [::
  Result 5 3 8 56 80 20400 None; Result 5 5 8 56 96 24480 None].
Proof.
move=> acc accl; rewrite /bls381_results /print_results -[bls381_prime]/CalcProps.bls381_prime.
have E5 t : 2 <= t <= 5 -> calc_final_numbers_fixed lm CalcProps.bls381_prime (Z.of_nat t) 5 128 true =
  Ret (8, 56, Z.of_nat (8 * t + 56), (255 * Z.of_nat (8 * t + 56))%Z) by exact: CalcProps.script_381.
move: (calc_final_numbers_fixed lm) CalcProps.bls381_prime E5 => f p E5 /=.
have E3 := E5 3 isT; have E4 := E5 5 isT; rewrite /= in E3 E4.
by rewrite E3 /= E4.
Qed.

(** * The paper's primes *)
Definition paper_ok (e : Z) (w : row) (a a2 b : Z) : bool :=
  let M := Z.of_N (row_M w) in let n := bits_of w in
  [&& row_ok e w a a2 b, Z.leb (2 ^ (n - 1)) (row_p w), Z.ltb (row_p w) (2 ^ n) &
      Z.leb (e ^ (a2 - 1) * 2 ^ 12) (Z.min (2 ^ M) (row_p w) * (2 ^ 12 - 1))].

Lemma table_7_paper : all (fun z => paper_ok 3 z.1 z.2.1.1 z.2.1.2 z.2.2) (zip table_7 table_7_cert).
Proof. by vm_compute. Qed.
Lemma table_8_paper : all (fun z => paper_ok 5 z.1 z.2.1.1 z.2.1.2 z.2.2) (zip table_8 table_8_cert).
Proof. by vm_compute. Qed.

Lemma paper_row lm (e : Z) (w : row) (a a2 b : Z) : accurate lm -> accurate_ln lm -> paper_ok e w a a2 b ->
  find_FD_round_numbers lm (row_p w) (Z.of_nat (row_t w)) e (Z.of_N (row_M w)) get_sbox_cost true =
  Ret (row_rF w, row_rP w).
Proof.
move=> acc accl; rewrite /paper_ok; set n := bits_of w; set M := Z.of_N (row_M w); set p := row_p w.
case/and4P; rewrite /row_ok -/n -/M; set t := row_t w.
case/and5P => /and5P[/Z.leb_spec0 t2 /Z.leb_spec0 t16 /Z.leb_spec0 e3 /Z.leb_spec0 e5].
case/and5P => /Z.leb_spec0 M1 /Z.leb_spec0 M2 /Z.leb_spec0 n1 /Z.leb_spec0 n2 /Z.leb_spec0 st.
case/and5P => /Z.eqb_spec nt tp /Z.leb_spec0 a0 /Z.leb_spec0 b1 /andP[/Z.ltb_spec0 tb1 /Z.leb_spec0 tb2].
case/and5P => _ /Z.leb_spec0 H2 /Z.leb_spec0 ab /Z.leb_spec0 a20 /Z.leb_spec0 aa2 /eqP F8 /andP[/eqP rP _].
move=> /Z.leb_spec0 p1 /Z.ltb_spec0 p2 /Z.leb_spec0 H1; have bp : has_bits n p by [].
have Ht : 2 <= t <= 16 by apply/andP; split; apply/leP; clear -t2 t16; lia.
have te k : (2 <= k)%Z -> Z.of_nat t <> (e ^ k)%Z by move=> k2; exact: width_not_power t2 e3 tp k2.
have M0 : (0 <= M)%Z by clear -M1; lia.
have n0 : (0 <= n)%Z by clear -n1; lia.
have H2' : (Z.min (2 ^ M) p * 2 ^ 12 <= e ^ (a2 - 1 + 1) * (2 ^ 12 - 1))%Z.
  rewrite Z.sub_add; apply: Z.le_trans H2; rewrite min_pow //; apply: Z.mul_le_mono_nonneg_r => //.
  by apply: Z.min_le_compat_l; apply: Z.lt_le_incl.
have a1 : (0 <= a2 - 1)%Z by clear -a0 aa2; lia.
have [r [Rr E]] := @close_form lm M t p n e (a2 - 1) b true acc accl Ht (conj e3 e5) (conj M1 M2) (conj n1 n2) st bp te a1
  b1 (conj tb1 tb2) H1 H2'.
rewrite (calc_find E) F8 rP; have -> : r = margin (RoundNumbers (Z.to_nat (a2 - 1 + b - 4)) 6) by apply: with_marginE.
by have -> : (a2 - 1 + b - 4 = a2 + b - 5)%Z by clear; lia.
Qed.

Theorem paper_rows_7 lm w : accurate lm -> accurate_ln lm -> List.In w table_7 ->
  find_FD_round_numbers lm (row_p w) (Z.of_nat (row_t w)) 3 (Z.of_N (row_M w)) get_sbox_cost true =
  Ret (row_rF w, row_rP w).
Proof.
move=> acc accl; move: w; apply: (@AppendixG.zip_in _ _ (fun w c => paper_ok 3 w c.1.1 c.1.2 c.2) _ table_7 table_7_cert).
- by [].
- exact: table_7_paper.
by move=> w c; exact: paper_row.
Qed.

Theorem paper_rows_8 lm w : accurate lm -> accurate_ln lm -> List.In w table_8 ->
  find_FD_round_numbers lm (row_p w) (Z.of_nat (row_t w)) 5 (Z.of_N (row_M w)) get_sbox_cost true =
  Ret (row_rF w, row_rP w).
Proof.
move=> acc accl; move: w; apply: (@AppendixG.zip_in _ _ (fun w c => paper_ok 5 w c.1.1 c.1.2 c.2) _ table_8 table_8_cert).
- by [].
- exact: table_8_paper.
by move=> w c; exact: paper_row.
Qed.
