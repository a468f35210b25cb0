"""Prints rocq/theories/GrainPrimes.v: Pocklington certificates for the primes of the
vendored scripts; with the argument "tests", rocq/theories/TestPrimes.v: the field of BN254."""
import math, sys
chain = [  # number, factors of number - 1 with exponents
    (110573, None), (1607, None), (1913, None), (4817, None), (853, None), (1637, None), (93001, None), (2, None),
    (906349, [(1607, 1)]), (2653753, [(110573, 1)]), (63690073, [(2653753, 1)]), (254760293, [(63690073, 1)]),
    (16561424618041, [(4817, 1), (1913, 1)]), (18446744073709551359, [(16561424618041, 1)]),
    (639533339, [(1637, 1), (853, 1)]), (65865678001877903, [(639533339, 1)]), (13818364434197438864469338081, [(65865678001877903, 1)]),
    (12048837557, [(93001, 1), (2, 2)]), (5156902474397, [(12048837557, 1)]), (1670836401704629, [(5156902474397, 1)]),
    (0x30644e72e131a029b85045b68181585d2833e84879b9709143e1f593f0000001, [(13818364434197438864469338081, 1), (1670836401704629, 1)]),
    (0x73eda753299d7d483339d80809a1d80553bda402fffe5bfeffffffff00000001, [(254760293, 2), (906349, 2), (2, 32)])]
tests = [
    (13327, None), (3557, None), (911, None), (173171039, [(13327, 1)]), (1263766531, [(3557, 1), (911, 1)]),
    (35385462869, [(1263766531, 1)]), (2480874801745591, [(35385462869, 1)]),
    (13427688667394608761327070753331941386769, [(2480874801745591, 1), (173171039, 1)]),
    (21888242871839275222246405745257275088696311157297823662689037894645226208583, [(13427688667394608761327070753331941386769, 1)])]
if sys.argv[1:] == ['tests']:
    chain = tests
    print('''(** The order of [ark_bn254::Fq] (poseidon-paramgen/src/alpha.rs:75) is prime: Pocklington
    certificates, generated by tools/mkprimes.py. *)
From Coq Require Import ZArith Lia.
From mathcomp Require Import all_ssreflect.
From Verif Require Import PrimeLib PrimeField GrainPrimes.
Set Implicit Arguments.
Unset Strict Implicit.
Unset Printing Implicit Defensive.
''')
else: print('''(** The moduli of the vendored scripts are prime: Pocklington certificates, generated by
    tools/mkprimes.py. *)
From Coq Require Import ZArith Lia.
From mathcomp Require Import all_ssreflect.
From Verif Require Import PrimeLib PrimeField GrainTables.
Set Implicit Arguments.
Unset Strict Implicit.
Unset Printing Implicit Defensive.

(** every prime factor of [N] is one more than a multiple of [b] *)
Definition one_mod (N b : nat) : Prop := forall p, prime p -> (p %| N)%N -> (b %| p.-1)%N.

Lemma one_mod_prime N b : (1 < N)%N -> one_mod N b -> (N < b.+1 ^ 2)%N -> prime N.
Proof.
move=> N1 H; apply: prime_of_large_factors => // p pp pN.
have p1 : (0 < p.-1)%N by rewrite -subn1 subn_gt0 prime_gt1.
by have := dvdn_leq p1 (H p pp pN); rewrite -{2}(prednK (prime_gt0 pp)) ltnS.
Qed.
Lemma one_modM N a b : coprime a b -> one_mod N a -> one_mod N b -> one_mod N (a * b).
Proof. by move=> c H1 H2 p pp pN; rewrite Gauss_dvd // H1 ?H2. Qed.
Lemma coprime_pow f g k m : prime f -> prime g -> f != g -> coprime (f ^ k) (g ^ m).
Proof. by move=> pf pg fg; rewrite coprimeXl // coprimeXr // prime_coprime // dvdn_prime2. Qed.
Lemma to_nat_neq a b : (0 <= a)%Z -> (0 <= b)%Z -> (a =? b)%Z = false -> Z.to_nat a != Z.to_nat b.
Proof. by move=> a0 b0 /Z.eqb_neq H; apply/eqP => /Z2Nat.inj; auto. Qed.

(** a number written in [Z] *)
Lemma one_mod_Z N b : (1 <? N)%Z -> (0 <=? b)%Z -> one_mod (Z.to_nat N) (Z.to_nat b) -> (N <? (b + 1) ^ 2)%Z -> prime (Z.to_nat N).
Proof.
move=> /Z.ltb_lt N1 /Z.leb_le b0 H /Z.ltb_lt lt; apply: one_mod_prime H _; first by apply/ltP; lia.
apply/ltP; apply/Nat2Z.inj_lt; rewrite Zofnat_expn Nat2Z.inj_succ !Z2Nat.id; lia.
Qed.
Lemma to_natX f k : (0 <=? f)%Z -> (Z.to_nat f ^ k)%N = Z.to_nat (f ^ Z.of_nat k).
Proof.
move=> /Z.leb_le f0; apply: Nat2Z.inj; rewrite Zofnat_expn !Z2Nat.id //; exact: Z.pow_nonneg.
Qed.
Lemma to_natM a b : (0 <=? a)%Z -> (0 <=? b)%Z -> (Z.to_nat a * Z.to_nat b)%N = Z.to_nat (a * b).
Proof. by move=> /Z.leb_le a0 /Z.leb_le b0; rewrite Z2Nat.inj_mul. Qed.

Lemma one_mod1 N f r a e ek k : prime (Z.to_nat f) -> (0 <=? f)%Z -> Zpos ek = (r * f ^ Z.of_nat k)%Z ->
  (N - 1 = r * f ^ Z.of_nat k.+1)%Z -> pock_check N f r a e ek -> one_mod (Z.to_nat N) (Z.to_nat (f ^ Z.of_nat k.+1)).
Proof. by move=> pf f0 h1 h2 h3; rewrite -to_natX // => p; exact: (pock_check_sound pf h1 h2 h3). Qed.
Lemma one_mod2 N f k g m : prime (Z.to_nat f) -> prime (Z.to_nat g) -> (f =? g)%Z = false -> (0 <=? f)%Z -> (0 <=? g)%Z ->
  one_mod N (Z.to_nat (f ^ Z.of_nat k)) -> one_mod N (Z.to_nat (g ^ Z.of_nat m)) ->
  one_mod N (Z.to_nat (f ^ Z.of_nat k * g ^ Z.of_nat m)).
Proof.
move=> pf pg fg f0 g0 h1 h2; move/Z.leb_le: (f0) => f1; move/Z.leb_le: (g0) => g1.
rewrite -to_natM; try by apply/Z.leb_le; exact: Z.pow_nonneg.
by apply: one_modM => //; rewrite -!to_natX //; apply: coprime_pow => //; exact: to_nat_neq.
Qed.
Lemma one_mod3 N f k g m h l : prime (Z.to_nat f) -> prime (Z.to_nat g) -> prime (Z.to_nat h) ->
  (f =? g)%Z = false -> (f =? h)%Z = false -> (g =? h)%Z = false -> (0 <=? f)%Z -> (0 <=? g)%Z -> (0 <=? h)%Z ->
  one_mod N (Z.to_nat (f ^ Z.of_nat k)) -> one_mod N (Z.to_nat (g ^ Z.of_nat m)) -> one_mod N (Z.to_nat (h ^ Z.of_nat l)) ->
  one_mod N (Z.to_nat (f ^ Z.of_nat k * g ^ Z.of_nat m * h ^ Z.of_nat l)).
Proof.
move=> pf pg ph fg fh gh f0 g0 h0 h1 h2 h3; have h12 := one_mod2 pf pg fg f0 g0 h1 h2.
move/Z.leb_le: (f0) => f1; move/Z.leb_le: (g0) => g1; move/Z.leb_le: (h0) => h1'.
have fk : (0 <=? f ^ Z.of_nat k)%Z by apply/Z.leb_le; exact: Z.pow_nonneg.
have gk : (0 <=? g ^ Z.of_nat m)%Z by apply/Z.leb_le; exact: Z.pow_nonneg.
have hk : (0 <=? h ^ Z.of_nat l)%Z by apply/Z.leb_le; exact: Z.pow_nonneg.
have fgk : (0 <=? f ^ Z.of_nat k * g ^ Z.of_nat m)%Z by apply/Z.leb_le; apply: Z.mul_nonneg_nonneg; exact: Z.pow_nonneg.
rewrite -to_natM //; apply: one_modM => //; rewrite -to_natM // coprimeMl -!to_natX //.
by rewrite !coprime_pow //; exact: to_nat_neq.
Qed.
''')
def p(n): return 'prime_%d' % n
T = '(erefl true)'
for N, fs in chain:
    if fs is None:
        print('Lemma %s : prime (Z.to_nat %d). Proof. by vm_compute. Qed.' % (p(N), N)); continue
    b = 1; hs = []
    for f, k in fs:
        r = (N - 1) // f**k; assert r * f**k == N - 1
        ek = r * f**(k - 1)
        for a in range(2, 100):
            d = pow(a, ek, N)
            if pow(a, N - 1, N) == 1 and math.gcd(d - 1, N) == 1: break
        else: raise SystemExit('no base')
        e = pow(d - 1, -1, N)
        name = 'one_mod_%d_%d' % (N, f); hs.append(name); b *= f**k
        print('Lemma check_%d_%d : pock_check %d %d %d %d %d %d. Proof. by vm_compute. Qed.' % (N, f, N, f, r, a, e, ek))
        print('Lemma %s : one_mod (Z.to_nat %d) (Z.to_nat (%d ^ Z.of_nat %d)).\nProof. exact (@one_mod1 %d %d %d %d %d %d %d %s %s (erefl (Zpos %d)) (erefl (Zpos %d)) check_%d_%d). Qed.' % (name, N, f, k, N, f, r, a, e, ek, k - 1, p(f), T, ek, N - 1, N, f))
    assert (b + 1)**2 > N
    neq = ['(erefl false)'] * (len(fs) * (len(fs) - 1) // 2)
    H = hs[0] if len(fs) == 1 else '(one_mod%d %s)' % (len(fs), ' '.join([p(f) for f, k in fs] + neq + [T] * len(fs) + hs))
    print('Lemma %s : prime (Z.to_nat %d).\nProof. exact (@one_mod_Z %d (%s) %s %s %s %s). Qed.' % (p(N), N, N, ' * '.join('%d ^ Z.of_nat %d' % x for x in fs), T, T, H, T))
