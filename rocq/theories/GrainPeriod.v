(** Sequences of bits with the recurrence of the shift register: polynomials over two
    elements act on them, so that the period and the decimation by two are computed
    with polynomials modulo that of the register. *)
From Coq Require Import ZArith NArith Lia.
From mathcomp Require Import all_ssreflect.
From Verif Require Import PrimeLib.
Set Implicit Arguments.
Unset Strict Implicit.
Unset Printing Implicit Defensive.

(** A polynomial is the number whose bits are its coefficients. *)
Definition Pmask : N := (2 ^ 80 + 2 ^ 62 + 2 ^ 51 + 2 ^ 38 + 2 ^ 23 + 2 ^ 13 + 1)%num.

Fixpoint act_pos (a : positive) (u : nat -> bool) (k : nat) : bool :=
  match a with
  | xH => u k
  | xO a' => act_pos a' u k.+1
  | xI a' => u k (+) act_pos a' u k.+1
  end.
Definition act (a : N) (u : nat -> bool) (k : nat) : bool := if a is Npos a' then act_pos a' u k else false.

Lemma act_double a u k : act (N.double a) u k = act a u k.+1.
Proof. by case: a. Qed.
Lemma act_succ_double a u k : act (N.succ_double a) u k = u k (+) act a u k.+1.
Proof. by case: a => //=; rewrite addbF. Qed.

Lemma act_lxor a b u k : act (N.lxor a b) u k = act a u k (+) act b u k.
Proof.
case: a b => [|a] [|b] //=; first by rewrite addbF.
have D (c : N) i : act (Pos.Ndouble c) u i = act c u i.+1 by case: c.
have S (c : N) i : act (Pos.Nsucc_double c) u i = u i (+) act c u i.+1 by case: c => //=; rewrite addbF.
elim: a b k => [a IH|a IH|] [b|b|] k //=; rewrite ?D ?S ?IH.
- by case: (u k); case: (act_pos a u k.+1); case: (act_pos b u k.+1).
- by rewrite addbA.
- by case: (u k); case: (act_pos a u k.+1).
- by rewrite addbCA.
- by [].
- by rewrite addbC.
- by rewrite addbA addbb.
- by rewrite addbb.
Qed.

Lemma act_add a u v k : act a (fun i => u i (+) v i) k = act a u k (+) act a v k.
Proof.
case: a => [|a] //=; elim: a k => [a IH|a IH|] k //=; first by rewrite IH addbACA.
Qed.
Lemma act_ext a u v k : u =1 v -> act a u k = act a v k.
Proof. by move=> E; case: a => [|a] //=; elim: a k => [a IH|a IH|] k /=; rewrite ?IH ?E. Qed.
Lemma act_shift a u k : act a (fun i => u i.+1) k = act a u k.+1.
Proof. by case: a => [|a] //=; elim: a k => [a IH|a IH|] k /=; rewrite ?IH. Qed.
Lemma act_0 a k : act a (fun _ => false) k = false.
Proof. by case: a => [|a] //=; elim: a k => [a IH|a IH|] k /=; rewrite ?IH. Qed.

Definition rec (u : nat -> bool) : Prop := forall k, act Pmask u k = false.

(** ** Multiplication modulo the polynomial of the register *)
Definition xtime (a : N) : N := let b := N.double a in if N.testbit b 80 then N.lxor b Pmask else b.
Fixpoint mulmod_pos (a : N) (b : positive) : N :=
  match b with
  | xH => a
  | xO b' => xtime (mulmod_pos a b')
  | xI b' => N.lxor a (xtime (mulmod_pos a b'))
  end.
Definition mulmod (a b : N) : N := if b is Npos b' then mulmod_pos a b' else N0.
Fixpoint powx (e : positive) : N :=
  match e with
  | xH => 2%num
  | xO e' => let a := powx e' in mulmod a a
  | xI e' => let a := powx e' in xtime (mulmod a a)
  end.

Section Rec.
Variable u : nat -> bool.
Hypothesis ru : rec u.

Lemma act_xtime a k : act (xtime a) u k = act a u k.+1.
Proof. by rewrite /xtime; case: ifP => _; rewrite ?act_lxor ?ru ?addbF act_double. Qed.

Lemma act_mulmod a b k : act (mulmod a b) u k = act a (act b u) k.
Proof.
case: b => [|b] /=; first by rewrite act_0.
elim: b k => [b IH|b IH|] k /=.
- by rewrite act_lxor act_xtime IH -act_shift -act_add; apply: act_ext => i.
- by rewrite act_xtime IH -act_shift; apply: act_ext => i.
- by apply: act_ext.
Qed.

Lemma rec_act a : rec (act a u).
Proof.
move=> k; have : act (mulmod Pmask a) u k = act a (act Pmask u) k; last first.
  rewrite act_mulmod => ->; rewrite (@act_ext _ _ (fun _ => false)) ?act_0 // => i; exact: ru.
rewrite act_mulmod.
have comm : forall b v i, act Pmask (act b v) i = act b (act Pmask v) i.
  move=> b v i; case: b => [|b]; first by rewrite act_0.
  elim: b i => [b IH|b IH|] i.
  - have -> : act (Npos b~1) (act Pmask v) i = act Pmask v i (+) act (Npos b) (act Pmask v) i.+1 by [].
    by rewrite -IH -act_shift -act_add; apply: act_ext.
  - have -> : act (Npos b~0) (act Pmask v) i = act (Npos b) (act Pmask v) i.+1 by [].
    by rewrite -IH -act_shift; apply: act_ext.
  - by have -> : act 1%num (act Pmask v) i = act Pmask v i by []; apply: act_ext.
exact: comm.
Qed.
End Rec.

Lemma rec_pow e u k : rec u -> act (powx e) u k = u (k + Pos.to_nat e)%N.
Proof.
move=> ru; elim: e u k ru => [e IH|e IH|] u k ru; last by rewrite /= addn1.
- rewrite /= act_xtime // act_mulmod // IH; last exact: rec_act.
  by rewrite IH // Pos2Nat.inj_xI; congr u; rewrite -!plusE; lia.
- rewrite /= act_mulmod // IH; last exact: rec_act.
  by rewrite IH // Pos2Nat.inj_xO; congr u; rewrite -!plusE; lia.
Qed.

(** ** The period *)
Definition full : positive := 1208925819614629174706175.

Lemma full_period u k : rec u -> u (k + Pos.to_nat full)%N = u k.
Proof.
move=> ru; rewrite -(rec_pow full k ru).
by have -> : powx full = 1%num by vm_compute.
Qed.

(** the primes dividing 2^80 - 1, the quotient, and the inverse of x^quotient + 1 *)
Definition certificates : seq (Z * positive * N) := [::
  (3%Z, 402975273204876391568725%positive, 626585978286512781477397%num);
  (5%Z, 241785163922925834941235%positive, 847140029551063439083571%num);
  (11%Z, 109902347237693561336925%positive, 423046615815031885923465%num);
  (17%Z, 71113283506742892629775%positive, 1155896398307893314045777%num);
  (31%Z, 38997607084342876603425%positive, 183502464077304913684533%num);
  (41%Z, 29485995600356809139175%positive, 375760536490022064001342%num);
  (257%Z, 4703991516010230251775%positive, 676331498297951284148691%num);
  (61681%Z, 19599646886636552175%positive, 396894167770810043337993%num);
  (4278255361%Z, 282574488338175%positive, 273558259875724820181296%num)].

Lemma certificates_ok :
  all (fun c => (mulmod c.2 (N.lxor (powx c.1.2) 1) =? 1)%num && (c.1.1 * Zpos c.1.2 =? Zpos full)%Z) certificates.
Proof. by vm_compute. Qed.

Lemma short_period_zero c C u : mulmod C (N.lxor (powx c) 1) = 1%num -> rec u ->
  (forall k, u (k + Pos.to_nat c)%N = u k) -> forall k, u k = false.
Proof.
move=> E ru pc k.
have H0 j : act (N.lxor (powx c) 1) u j = false.
  by rewrite act_lxor (rec_pow c j ru) pc -[act 1%num u j]/(u j) addbb.
have : act (mulmod C (N.lxor (powx c) 1)) u k = u k by rewrite E.
by rewrite act_mulmod // => <-; rewrite (@act_ext _ _ (fun _ => false)) ?act_0.
Qed.

Lemma p61681 : prime (Z.to_nat 61681). Proof. by vm_compute. Qed.
Lemma p65537 : prime (Z.to_nat 65537). Proof. by vm_compute. Qed.
Lemma p4278255361 : prime (Z.to_nat 4278255361).
Proof.
have ekE : Zpos 65280 = (65280 * 65537 ^ Z.of_nat 0)%Z by [].
have NE : (4278255361 - 1 = 65280 * 65537 ^ Z.of_nat 1)%Z by [].
have ck : pock_check 4278255361 65537 65280 3 4169353188 65280 by vm_compute.
exact (@pock_prime 4278255361 65537 65280 3 _ _ 0 p65537 ekE NE ck (erefl _)).
Qed.

Lemma full_factors n a b : Z.of_nat n = Zpos full -> Z.of_nat a = 61681%Z -> Z.of_nat b = 4278255361%Z ->
  n = (3 * (5 * (5 * (11 * (17 * (31 * (41 * (257 * (a * b)))))))))%N.
Proof.
move=> nE aE bE; apply: Nat2Z.inj; rewrite nE.
by rewrite !Nat2Z.inj_mul aE bE.
Qed.

Lemma nn61681 : (0 <= 61681)%Z. Proof. by []. Qed.
Lemma nn4278255361 : (0 <= 4278255361)%Z. Proof. by []. Qed.
Lemma fullE : Pos.to_nat full = (3 * (5 * (5 * (11 * (17 * (31 * (41 * (257 * (Z.to_nat 61681 * Z.to_nat 4278255361)))))))))%N.
Proof. exact (full_factors (positive_nat_Z full) (Z2Nat.id _ nn61681) (Z2Nat.id _ nn4278255361)). Qed.

Lemma prime_dvd_full r : prime r -> (r %| Pos.to_nat full)%N ->
  exists c C, (r * Pos.to_nat c)%N = Pos.to_nat full /\ mulmod C (N.lxor (powx c) 1) = 1%num.
Proof.
have cert i (z := (nth (0%Z, xH, N0) certificates i).1.1) : (i < 9)%N -> forall r, Z.of_nat r = z ->
  exists c C, (r * Pos.to_nat c)%N = Pos.to_nat full /\ mulmod C (N.lxor (powx c) 1) = 1%num.
  move=> i9 r' rE; have /all_nthP := certificates_ok => /(_ (0%Z, xH, N0) i i9) /andP [/N.eqb_eq E /Z.eqb_eq E2].
  exists (nth (0%Z, xH, N0) certificates i).1.2, (nth (0%Z, xH, N0) certificates i).2; split=> //.
  by apply: Nat2Z.inj; rewrite Nat2Z.inj_mul !positive_nat_Z rE.
move=> pr; have := p4278255361; have := p61681; rewrite {1}fullE.
have := Z2Nat.id _ nn61681; have := Z2Nat.id _ nn4278255361.
move: (Z.to_nat 61681) (Z.to_nat 4278255361) => a b bE aE pa pb.
rewrite !Euclid_dvdM // !dvdn_prime2 //.
case/orP => [/eqP ->|]; first exact: (cert 0%N).
case/orP => [/eqP ->|]; first exact: (cert 1%N).
case/orP => [/eqP ->|]; first exact: (cert 1%N).
case/orP => [/eqP ->|]; first exact: (cert 2%N).
case/orP => [/eqP ->|]; first exact: (cert 3%N).
case/orP => [/eqP ->|]; first exact: (cert 4%N).
case/orP => [/eqP ->|]; first exact: (cert 5%N).
case/orP => [/eqP ->|]; first exact: (cert 6%N).
case/orP => [/eqP ->|/eqP ->]; [apply: (cert 7%N) => //|apply: (cert 8%N) => //]; assumption.
Qed.

Lemma min_period_gen (u : nat -> bool) n d : (forall k, u (k + n)%N = u k) ->
  (forall r, prime r -> (r %| n)%N -> exists c, (r * c)%N = n /\ ((forall k, u (k + c)%N = u k) -> forall k, u k = false)) ->
  (0 < d < n)%N -> (forall k, u (k + d)%N = u k) -> forall k, u k = false.
Proof.
move=> pn Hr /andP [d0 dn] pd.
have pm m e : (forall k, u (k + e)%N = u k) -> forall k, u (k + m * e)%N = u k.
  by move=> pe; elim: m => [|m IH] k; rewrite ?addn0 // mulSn addnA IH pe.
pose g := gcdn d n.
have pg k : u (k + g)%N = u k.
  case: (egcdnP n d0) => km kn E _.
  by rewrite -(pm kn n pn (k + g)%N) -addnA [(g + _)%N]addnC -E pm.
have n0 : (0 < n)%N by exact: ltn_trans dn.
have g0 : (0 < g)%N by rewrite gcdn_gt0 d0.
have gn : (g %| n)%N by exact: dvdn_gcdr.
have gd : (g <= d)%N by apply: dvdn_leq => //; exact: dvdn_gcdl.
have q1 : (1 < n %/ g)%N by rewrite ltn_divRL // mul1n (leq_ltn_trans gd).
have [c [rc]] := Hr _ (pdiv_prime q1) (dvdn_trans (pdiv_dvd _) (dvdn_div gn)); apply.
have [m ->] : exists m, c = (m * g)%N.
  have /dvdnP [m mE] := pdiv_dvd (n %/ g); exists m.
  have r0 : (0 < pdiv (n %/ g))%N by exact: pdiv_gt0.
  by apply/eqP; rewrite -(eqn_pmul2l r0) rc mulnA [(pdiv _ * m)%N]mulnC -mE divnK.
exact: pm.
Qed.

Lemma min_period u d : rec u -> (0 < d < Pos.to_nat full)%N -> (forall k, u (k + d)%N = u k) -> forall k, u k = false.
Proof.
move=> ru; apply: min_period_gen => [k|r pr rn]; first exact (full_period k ru).
have [c [C [rc E]]] := prime_dvd_full pr rn.
exists (Pos.to_nat c); split; first exact rc.
exact (short_period_zero E ru).
Qed.

(** ** Every second bit determines the sequence *)
Fixpoint sq_pos (a : positive) : positive :=
  match a with
  | xH => xH
  | xO b => xO (xO (sq_pos b))
  | xI b => xI (xO (sq_pos b))
  end.
Definition sq (a : N) : N := if a is Npos b then Npos (sq_pos b) else N0.
Definition mono (j : nat) : N := iter j N.double 1%num.
Definition nsize (a : N) : nat := if a is Npos b then Pos.size_nat b else 0.

Lemma act_sq a u k : act (sq a) u k = act a (fun i => u (k + 2 * i)%N) 0.
Proof.
case: a => [|a] //=.
suff H i : act_pos (sq_pos a) u (k + 2 * i) = act_pos a (fun i => u (k + 2 * i)%N) i.
  by rewrite -H muln0 addn0.
elim: a i => [a IH|a IH|] i //=; have -> : (k + 2 * i).+2 = (k + 2 * i.+1)%N by rewrite mulnS addnCA.
- by rewrite IH.
- by rewrite IH.
Qed.

Lemma act_mono j u k : act (mono j) u k = u (k + j)%N.
Proof. by elim: j k => [|j IH] k; rewrite ?addn0 //= act_double IH addSnnS. Qed.

Lemma act_support a n u k : (nsize a <= n)%N -> (forall i, (i < n)%N -> u (k + i)%N = false) -> act a u k = false.
Proof.
case: a => [|a] //=; elim: a n k => [a IH|a IH|] [|n] //= k sa H.
- have := H 0%N isT; rewrite addn0 => -> /=; apply: (IH n) => // i i1.
  by rewrite addSnnS H.
- by apply: (IH n) => // i i1; rewrite addSnnS H.
- by have := H 0%N isT; rewrite addn0.
Qed.

Definition sqrtx : N := powx (2 ^ 79).
Definition roots : seq N := traject (mulmod sqrtx) 1%num 80.
Lemma roots_ok : all (fun c => (mulmod 1 (sq c.1) =? mono c.2)%num && (nsize c.1 <= 80)%N) (zip roots (iota 0 80)).
Proof. by vm_compute. Qed.

Lemma decimated u k : rec u -> (forall i, (i < 80)%N -> u (k + 2 * i)%N = false) ->
  forall j, (j < 80)%N -> u (k + j)%N = false.
Proof.
move=> ru H j j80.
have := @all_nthP _ _ _ (N0, 0%N) roots_ok j; rewrite size_zip size_traject size_iota minnn => /(_ j80).
rewrite nth_zip ?size_traject ?size_iota // nth_iota // add0n /fst /snd => /andP [/N.eqb_eq E sz].
rewrite -act_mono -E act_mulmod // -[act 1%num _ _]/(act _ u k) act_sq.
by apply: (act_support sz).
Qed.
