(** Primality of large numbers: Pocklington's criterion on [nat] and its
    transfer to binary integers.  Library file, models nothing. *)
From Coq Require Import ZArith Zpow_facts Lia.
From mathcomp Require Import all_ssreflect all_fingroup all_algebra cyclic finfield.
Set Implicit Arguments.
Unset Strict Implicit.
Unset Printing Implicit Defensive.
Delimit Scope Z_scope with Z.

(** * ssreflect [nat] arithmetic seen from [Z] *)

Lemma Zofnat_expn a e : Z.of_nat (a ^ e)%N = (Z.of_nat a ^ Z.of_nat e)%Z.
Proof.
elim: e => [|e IH]; first by rewrite expn0.
rewrite expnS Nat2Z.inj_mul IH Nat2Z.inj_succ Z.pow_succ_r //; exact: Nat2Z.is_nonneg.
Qed.

Lemma Zofnat_modn a b : (0 < b)%N -> Z.of_nat (a %% b)%N = (Z.of_nat a mod Z.of_nat b)%Z.
Proof.
move=> b0; apply: (Z.mod_unique_pos _ _ (Z.of_nat (a %/ b))).
  split; first exact: Nat2Z.is_nonneg.
  by apply: inj_lt; apply/ltP; rewrite ltn_mod.
by rewrite -Nat2Z.inj_mul -Nat2Z.inj_add; congr Z.of_nat; rewrite multE plusE mulnC -divn_eq.
Qed.

Lemma Zofnat_dvdn a b : (a %| b)%N -> (Z.of_nat a | Z.of_nat b)%Z.
Proof. by case/dvdnP=> k ->; exists (Z.of_nat k); rewrite -Nat2Z.inj_mul. Qed.

(** * Modular exponentiation on [Z] *)

Fixpoint powmod (n a : Z) (e : positive) : Z :=
  match e with
  | xH => (a mod n)%Z
  | xO e' => let r := powmod n a e' in ((r * r) mod n)%Z
  | xI e' => let r := powmod n a e' in (((r * r) mod n * a) mod n)%Z
  end.

Lemma powmodE n a e : (0 < n)%Z -> powmod n a e = (a ^ Zpos e mod n)%Z.
Proof.
move=> n0; elim: e => [e IH|e IH|]; rewrite /powmod -/powmod; last by rewrite Z.pow_1_r.
- rewrite IH -Z.mul_mod; last by lia.
  rewrite Zmult_mod_idemp_l; congr (_ mod _)%Z.
  rewrite -Z.pow_add_r // (_ : Zpos e~1 = (Zpos e + Zpos e + 1)%Z); last by lia.
  by rewrite [in RHS]Z.pow_add_r // Z.pow_1_r.
- rewrite IH -Z.mul_mod; last by lia.
  by rewrite -Z.pow_add_r // (_ : Zpos e~0 = (Zpos e + Zpos e)%Z); last by lia.
Qed.

(** * Pocklington *)

Import GRing.Theory.
Local Open Scope ring_scope.

(** If [u] has [u^(f^k) = 1] and [u^(f^(k-1)) <> 1] modulo a prime [p], then
    [f^k] divides [p - 1]. *)
Lemma order_pfactor (p f k u : nat) :
  prime p -> prime f ->
  (u ^ (f ^ k.+1) = 1 %[mod p])%N -> (u ^ (f ^ k) %% p)%N != (1 %% p)%N ->
  (f ^ k.+1 %| p.-1)%N.
Proof.
move=> pp pf H1 H2.
pose x : 'F_p := u%:R.
have xE n : x ^+ n = (u ^ n)%:R :> 'F_p by rewrite -natrX.
have eqF a b : (a%:R == b%:R :> 'F_p) = (a == b %[mod p])%N.
  by rewrite -val_eqE /= !(val_Fp_nat pp).
have x1 : x ^+ (f ^ k.+1) = 1 by rewrite xE; apply/eqP; rewrite -[1]/(1%:R) eqF H1.
have x2 : x ^+ (f ^ k) != 1 by rewrite xE -[1]/(1%:R) eqF.
have ux : x \is a GRing.unit.
  by apply/unitrP; exists (x ^+ (f ^ k.+1).-1); split; rewrite -?exprS -?exprSr prednK ?expn_gt0 ?prime_gt0.
pose y : {unit 'F_p} := FinRing.unit 'F_p ux.
have oy n : (#[y]%g %| n)%N = (x ^+ n == 1).
  by rewrite order_dvdn -val_eqE /= FinRing.val_unitX.
have d1 : (#[y]%g %| f ^ k.+1)%N by rewrite oy x1.
have d2 : ~~ (#[y]%g %| f ^ k)%N by rewrite oy.
case/(dvdn_pfactor _ _ pf): d1 => m mle mE.
have mk : m = k.+1.
  apply/eqP; rewrite eqn_leq mle /= ltnNge; apply/negP => mk.
  by move: d2; rewrite mE dvdn_exp2l.
by rewrite -mk -mE; have := order_dvdG (in_setT y); rewrite card_finField_unit card_Fp.
Qed.

Lemma prime_dvd_exp1 (N a e p : nat) : (p %| N)%N -> (a ^ e = 1 %[mod N] -> a ^ e = 1 %[mod p])%N.
Proof. by move=> pN E; rewrite -(modn_dvdm (a ^ e) pN) E (modn_dvdm _ pN). Qed.

(** Every prime divisor of [N] is 1 modulo [f^k+1], given a witness. *)
Lemma pocklington_div (N f k r a p : nat) :
  prime f -> (N.-1 = r * f ^ k.+1)%N ->
  (a ^ N.-1 = 1 %[mod N])%N -> coprime ((a ^ (r * f ^ k)) %% N + N.-1) N -> (1 < N)%N ->
  prime p -> (p %| N)%N -> (f ^ k.+1 %| p.-1)%N.
Proof.
move=> pf NE aN cop N1 pp pN.
have E1 : ((a ^ r) ^ (f ^ k.+1) = 1 %[mod p])%N.
  by rewrite -expnM -NE; apply: prime_dvd_exp1 aN.
apply: (order_pfactor pp pf E1); apply/negP => /eqP E2.
have: (p %| a ^ (r * f ^ k) %% N + N.-1)%N.
  have -> : (p %| a ^ (r * f ^ k) %% N + N.-1)%N = (p %| a ^ (r * f ^ k) + N.-1)%N.
    by rewrite /dvdn -(modnDml (a ^ _ %% N)) (modn_dvdm _ pN) modnDml.
  rewrite /dvdn -modnDml expnM E2 modnDml add1n prednK ?(ltnW N1) //.
move=> pd; move: cop; rewrite /coprime => /eqP g1.
have: (p %| 1)%N by rewrite -g1 dvdn_gcd pd pN.
by rewrite dvdn1 => /eqP p1; move: pp; rewrite p1.
Qed.

Lemma prime_of_large_factors (N b : nat) :
  (1 < N)%N -> (forall p, prime p -> (p %| N)%N -> (b < p)%N) -> (N < b.+1 ^ 2)%N -> prime N.
Proof.
move=> N1 H lt; apply: contraLR lt => npN; rewrite -leqNgt.
have pp := pdiv_prime N1.
have pl : (pdiv N ^ 2 <= N)%N.
  by move: npN; apply: contraNT; rewrite -ltnNge => lt; exact: (ltn_pdiv2_prime (ltnW N1) lt).
by apply: leq_trans pl; rewrite leq_sqr; apply: H => //; exact: pdiv_dvd.
Qed.

(** The same on [Z], with a certificate checked by computation: [e] is the
    inverse of [a^(r f^k) - 1] modulo [N]. *)
Definition pock_check (N f r a e : Z) (ek : positive) : bool :=
  let d := powmod N a ek in
  [&& (1 <? N)%Z, (0 <? a)%Z, (0 <? f)%Z, (0 <? r)%Z,
      (powmod N d (Z.to_pos f) =? 1)%Z & (((d + (N - 1)) * e) mod N =? 1)%Z].

Lemma pock_check_sound (N f r a e : Z) (ek : positive) (k p : nat) :
  prime (Z.to_nat f) -> Zpos ek = (r * f ^ Z.of_nat k)%Z -> (N - 1 = r * f ^ Z.of_nat k.+1)%Z ->
  pock_check N f r a e ek ->
  prime p -> (p %| Z.to_nat N)%N -> (Z.to_nat f ^ k.+1 %| p.-1)%N.
Proof.
move=> pf ekE NE /andP [/Z.ltb_lt N1 /and5P [/Z.ltb_lt a0 /Z.ltb_lt f0 /Z.ltb_lt r0 /Z.eqb_eq H1 /Z.eqb_eq H2]] pp pN.
have N0 : (0 < N)%Z by lia.
rewrite powmodE // powmodE // in H1; rewrite powmodE // in H2.
have ek2 : Z.pos ek = Z.of_nat (Z.to_nat r * Z.to_nat f ^ k)%N.
  by rewrite Nat2Z.inj_mul Zofnat_expn !Z2Nat.id; lia.
have aE : a = Z.of_nat (Z.to_nat a) by rewrite Z2Nat.id; lia.
have NnE : N = Z.of_nat (Z.to_nat N) by rewrite Z2Nat.id; lia.
have Nn1 : (1 < Z.to_nat N)%N by apply/ltP; lia.
have NpE : (Z.to_nat N).-1 = (Z.to_nat r * Z.to_nat f ^ k.+1)%N.
  apply: Nat2Z.inj; rewrite Nat2Z.inj_mul Zofnat_expn !Z2Nat.id ?NE; lia.
apply: (pocklington_div pf NpE (a := Z.to_nat a) _ _ Nn1 pp pN).
- apply: Nat2Z.inj; rewrite !Zofnat_modn ?(ltnW Nn1) // Zofnat_expn -NnE -aE NpE.
  rewrite expnS mulnA [(_ * Z.to_nat f)%N]mulnC -mulnA mulnC Nat2Z.inj_mul -ek2 Z2Nat.id; last by lia.
  rewrite Z.pow_mul_r; try lia.
  rewrite Z2Pos.id // in H1.
  rewrite Zpower_mod // H1 Z.mod_small //; lia.
- set d := (_ %% _)%N.
  have dE : Z.of_nat d = (a ^ Z.pos ek mod N)%Z.
    by rewrite /d Zofnat_modn ?(ltnW Nn1) // Zofnat_expn -NnE -aE -ek2.
  have sE : Z.of_nat (d + (Z.to_nat N).-1)%N = (a ^ Z.pos ek mod N + (N - 1))%Z.
    by rewrite Nat2Z.inj_add dE; lia.
  rewrite /coprime; apply/eqP; set g := gcdn _ _.
  have gd1 : (Z.of_nat g | Z.of_nat (d + (Z.to_nat N).-1)%N)%Z by apply: Zofnat_dvdn; exact: dvdn_gcdl.
  have gd2 : (Z.of_nat g | N)%Z by rewrite [X in (_ | X)%Z]NnE; apply: Zofnat_dvdn; exact: dvdn_gcdr.
  rewrite sE in gd1.
  have: (Z.of_nat g | 1)%Z.
    rewrite -H2 Z.mod_eq; last by lia.
    apply: Z.divide_sub_r; first exact: Z.divide_mul_l.
    exact: Z.divide_mul_l.
  move/Z.divide_1_r_nonneg => /(_ (Nat2Z.is_nonneg _)); lia.
Qed.

Lemma pock_prime (N f r a e : Z) (ek : positive) (k : nat) :
  prime (Z.to_nat f) -> Zpos ek = (r * f ^ Z.of_nat k)%Z -> (N - 1 = r * f ^ Z.of_nat k.+1)%Z ->
  pock_check N f r a e ek -> (N < (f ^ Z.of_nat k.+1 + 1) ^ 2)%Z ->
  prime (Z.to_nat N).
Proof.
move=> pf ekE NE ck lt.
have /andP [/Z.ltb_lt N1 /and5P [_ /Z.ltb_lt f0 _ _ _]] := ck.
apply: (@prime_of_large_factors _ (Z.to_nat f ^ k.+1)).
- apply/ltP; lia.
- move=> p pp pN; have H := pock_check_sound pf ekE NE ck pp pN.
  have p1 : (0 < p.-1)%N by rewrite -subn1 subn_gt0 prime_gt1.
  by have := dvdn_leq p1 H; rewrite -{2}(prednK (prime_gt0 pp)) ltnS.
- apply/ltP; apply/Nat2Z.inj_lt.
  by rewrite Zofnat_expn Nat2Z.inj_succ Zofnat_expn !Z2Nat.id //; lia.
Qed.

Lemma odd_Z (z : Z) : (0 <= z)%Z -> Z.odd z -> odd (Z.to_nat z).
Proof.
move=> z0; have := @Zofnat_modn (Z.to_nat z) 2 isT; rewrite modn2 Z2Nat.id // Zmod_odd.
by case: odd; case: Z.odd.
Qed.

(** For an odd number the factor two comes for free. *)
Lemma pock_prime_odd (N f r a e : Z) (ek : positive) (k : nat) :
  prime (Z.to_nat f) -> Zpos ek = (r * f ^ Z.of_nat k)%Z -> (N - 1 = r * f ^ Z.of_nat k.+1)%Z ->
  pock_check N f r a e ek -> Z.odd N -> Z.odd f -> (N < (2 * f ^ Z.of_nat k.+1 + 1) ^ 2)%Z ->
  prime (Z.to_nat N).
Proof.
move=> pf ekE NE ck oN of_ lt.
have /andP [/Z.ltb_lt N1 /and5P [_ /Z.ltb_lt f0 _ _ _]] := ck.
apply: (@prime_of_large_factors _ (2 * Z.to_nat f ^ k.+1)).
- apply/ltP; lia.
- move=> p pp pN; have H := pock_check_sound pf ekE NE ck pp pN.
  have p1 : (0 < p.-1)%N by rewrite -subn1 subn_gt0 prime_gt1.
  have op : odd p.
    apply: contraTT pN => op; rewrite /= -dvdn2 in op; apply/negP => pN.
    by have := dvdn_trans op pN; rewrite dvdn2 odd_Z //; lia.
  have H2 : (2 * Z.to_nat f ^ k.+1 %| p.-1)%N.
    rewrite Gauss_dvd; last by rewrite coprimeXr // coprime2n odd_Z //; lia.
    by rewrite H andbT dvdn2 -subn1 oddB ?prime_gt0 // op.
  by have := dvdn_leq p1 H2; rewrite -{2}(prednK (prime_gt0 pp)) ltnS.
- apply/ltP; apply/Nat2Z.inj_lt.
  by rewrite Zofnat_expn Nat2Z.inj_succ Nat2Z.inj_mul Zofnat_expn !Z2Nat.id //; lia.
Qed.

(** Fermat's little theorem, on [Z]. *)
Lemma fermat_Zgen n x : prime (Z.to_nat n) -> (0 < x < n)%Z -> (x ^ (n - 1) mod n = 1)%Z.
Proof.
move=> qp xr.
have cop : coprime (Z.to_nat x) (Z.to_nat n).
  rewrite coprime_sym prime_coprime //; apply/negP => /dvdn_leq.
  have x0 : (0 < Z.to_nat x)%N by apply/ltP; lia.
  by move/(_ x0)/leP => H; lia.
have := Euler_exp_totient cop; rewrite totient_prime //.
move/(congr1 Z.of_nat); rewrite !Zofnat_modn ?prime_gt0 // Zofnat_expn.
have n0 := prime_gt0 qp; have n1 := prime_gt1 qp; move/ltP: n1 => n1; move/ltP: n0 => n0.
rewrite (_ : Z.of_nat (Z.to_nat n).-1 = n - 1)%Z; last by lia.
rewrite !Z2Nat.id; try lia.
by move=> ->; rewrite Z.mod_small //; lia.
Qed.

Lemma dvdn_Z n m : (0 < n)%Z -> ((Z.of_nat m) mod n =? 0)%Z = (Z.to_nat n %| m)%N.
Proof.
move=> n0; have n0' : (0 < Z.to_nat n)%N by apply/ltP; lia.
apply/idP/idP.
  move/Z.eqb_eq; rewrite -{1}(Z2Nat.id n); last by lia.
  rewrite -Zofnat_modn // => H; rewrite /dvdn; apply/eqP; exact: (Nat2Z.inj _ 0 H).
case/dvdnP=> k ->; rewrite Nat2Z.inj_mul Z2Nat.id; last by lia.
by rewrite Z_mod_mult.
Qed.
