(** The moduli of the vendored scripts are prime: Pocklington certificates, generated by
    tools/mkprimes.py. *)
From Coq Require Import ZArith Lia.
From mathcomp Require Import all_ssreflect.
From Verif Require Import PrimeLib PrimeField GrainTables.
Set Implicit Arguments.
Unset Strict Implicit.
Unset Printing Implicit Defensive.

(** every prime factor of [N] is one more than a multiple of [b] *)
Definition one_mod (N b : nat) : Prop := forall p, prime p -> (p %| N)%N -> (b %| p.-1)%N.

Lemma one_mod_prime N b : (1 < N)%N -> one_mod N b -> (N < b.+1 ^ 2)%N -> prime N.
Proof.
move=> N1 H; apply: prime_of_large_factors => // p pp pN.
have p1 : (0 < p.-1)%N by rewrite -subn1 subn_gt0 prime_gt1.
by have := dvdn_leq p1 (H p pp pN); rewrite -{2}(prednK (prime_gt0 pp)) ltnS.
Qed.
Lemma one_modM N a b : coprime a b -> one_mod N a -> one_mod N b -> one_mod N (a * b).
Proof. by move=> c H1 H2 p pp pN; rewrite Gauss_dvd // H1 ?H2. Qed.
Lemma coprime_pow f g k m : prime f -> prime g -> f != g -> coprime (f ^ k) (g ^ m).
Proof. by move=> pf pg fg; rewrite coprimeXl // coprimeXr // prime_coprime // dvdn_prime2. Qed.
Lemma to_nat_neq a b : (0 <= a)%Z -> (0 <= b)%Z -> (a =? b)%Z = false -> Z.to_nat a != Z.to_nat b.
Proof. by move=> a0 b0 /Z.eqb_neq H; apply/eqP => /Z2Nat.inj; auto. Qed.

(** a number written in [Z] *)
Lemma one_mod_Z N b : (1 <? N)%Z -> (0 <=? b)%Z -> one_mod (Z.to_nat N) (Z.to_nat b) -> (N <? (b + 1) ^ 2)%Z -> prime (Z.to_nat N).
Proof.
move=> /Z.ltb_lt N1 /Z.leb_le b0 H /Z.ltb_lt lt; apply: one_mod_prime H _; first by apply/ltP; lia.
apply/ltP; apply/Nat2Z.inj_lt; rewrite Zofnat_expn Nat2Z.inj_succ !Z2Nat.id; lia.
Qed.
Lemma to_natX f k : (0 <=? f)%Z -> (Z.to_nat f ^ k)%N = Z.to_nat (f ^ Z.of_nat k).
Proof.
move=> /Z.leb_le f0; apply: Nat2Z.inj; rewrite Zofnat_expn !Z2Nat.id //; exact: Z.pow_nonneg.
Qed.
Lemma to_natM a b : (0 <=? a)%Z -> (0 <=? b)%Z -> (Z.to_nat a * Z.to_nat b)%N = Z.to_nat (a * b).
Proof. by move=> /Z.leb_le a0 /Z.leb_le b0; rewrite Z2Nat.inj_mul. Qed.

Lemma one_mod1 N f r a e ek k : prime (Z.to_nat f) -> (0 <=? f)%Z -> Zpos ek = (r * f ^ Z.of_nat k)%Z ->
  (N - 1 = r * f ^ Z.of_nat k.+1)%Z -> pock_check N f r a e ek -> one_mod (Z.to_nat N) (Z.to_nat (f ^ Z.of_nat k.+1)).
Proof. by move=> pf f0 h1 h2 h3; rewrite -to_natX // => p; exact: (pock_check_sound pf h1 h2 h3). Qed.
Lemma one_mod2 N f k g m : prime (Z.to_nat f) -> prime (Z.to_nat g) -> (f =? g)%Z = false -> (0 <=? f)%Z -> (0 <=? g)%Z ->
  one_mod N (Z.to_nat (f ^ Z.of_nat k)) -> one_mod N (Z.to_nat (g ^ Z.of_nat m)) ->
  one_mod N (Z.to_nat (f ^ Z.of_nat k * g ^ Z.of_nat m)).
Proof.
move=> pf pg fg f0 g0 h1 h2; move/Z.leb_le: (f0) => f1; move/Z.leb_le: (g0) => g1.
rewrite -to_natM; try by apply/Z.leb_le; exact: Z.pow_nonneg.
by apply: one_modM => //; rewrite -!to_natX //; apply: coprime_pow => //; exact: to_nat_neq.
Qed.
Lemma one_mod3 N f k g m h l : prime (Z.to_nat f) -> prime (Z.to_nat g) -> prime (Z.to_nat h) ->
  (f =? g)%Z = false -> (f =? h)%Z = false -> (g =? h)%Z = false -> (0 <=? f)%Z -> (0 <=? g)%Z -> (0 <=? h)%Z ->
  one_mod N (Z.to_nat (f ^ Z.of_nat k)) -> one_mod N (Z.to_nat (g ^ Z.of_nat m)) -> one_mod N (Z.to_nat (h ^ Z.of_nat l)) ->
  one_mod N (Z.to_nat (f ^ Z.of_nat k * g ^ Z.of_nat m * h ^ Z.of_nat l)).
Proof.
move=> pf pg ph fg fh gh f0 g0 h0 h1 h2 h3; have h12 := one_mod2 pf pg fg f0 g0 h1 h2.
move/Z.leb_le: (f0) => f1; move/Z.leb_le: (g0) => g1; move/Z.leb_le: (h0) => h1'.
have fk : (0 <=? f ^ Z.of_nat k)%Z by apply/Z.leb_le; exact: Z.pow_nonneg.
have gk : (0 <=? g ^ Z.of_nat m)%Z by apply/Z.leb_le; exact: Z.pow_nonneg.
have hk : (0 <=? h ^ Z.of_nat l)%Z by apply/Z.leb_le; exact: Z.pow_nonneg.
have fgk : (0 <=? f ^ Z.of_nat k * g ^ Z.of_nat m)%Z by apply/Z.leb_le; apply: Z.mul_nonneg_nonneg; exact: Z.pow_nonneg.
rewrite -to_natM //; apply: one_modM => //; rewrite -to_natM // coprimeMl -!to_natX //.
by rewrite !coprime_pow //; exact: to_nat_neq.
Qed.

Lemma prime_110573 : prime (Z.to_nat 110573). Proof. by vm_compute. Qed.
Lemma prime_1607 : prime (Z.to_nat 1607). Proof. by vm_compute. Qed.
Lemma prime_1913 : prime (Z.to_nat 1913). Proof. by vm_compute. Qed.
Lemma prime_4817 : prime (Z.to_nat 4817). Proof. by vm_compute. Qed.
Lemma prime_853 : prime (Z.to_nat 853). Proof. by vm_compute. Qed.
Lemma prime_1637 : prime (Z.to_nat 1637). Proof. by vm_compute. Qed.
Lemma prime_93001 : prime (Z.to_nat 93001). Proof. by vm_compute. Qed.
Lemma prime_2 : prime (Z.to_nat 2). Proof. by vm_compute. Qed.
Lemma check_906349_1607 : pock_check 906349 1607 564 2 298534 564. Proof. by vm_compute. Qed.
Lemma one_mod_906349_1607 : one_mod (Z.to_nat 906349) (Z.to_nat (1607 ^ Z.of_nat 1)).
Proof. exact (@one_mod1 906349 1607 564 2 298534 564 0 prime_1607 (erefl true) (erefl (Zpos 564)) (erefl (Zpos 906348)) check_906349_1607). Qed.
Lemma prime_906349 : prime (Z.to_nat 906349).
Proof. exact (@one_mod_Z 906349 (1607 ^ Z.of_nat 1) (erefl true) (erefl true) one_mod_906349_1607 (erefl true)). Qed.
Lemma check_2653753_110573 : pock_check 2653753 110573 24 2 166544 24. Proof. by vm_compute. Qed.
Lemma one_mod_2653753_110573 : one_mod (Z.to_nat 2653753) (Z.to_nat (110573 ^ Z.of_nat 1)).
Proof. exact (@one_mod1 2653753 110573 24 2 166544 24 0 prime_110573 (erefl true) (erefl (Zpos 24)) (erefl (Zpos 2653752)) check_2653753_110573). Qed.
Lemma prime_2653753 : prime (Z.to_nat 2653753).
Proof. exact (@one_mod_Z 2653753 (110573 ^ Z.of_nat 1) (erefl true) (erefl true) one_mod_2653753_110573 (erefl true)). Qed.
Lemma check_63690073_2653753 : pock_check 63690073 2653753 24 2 34981479 24. Proof. by vm_compute. Qed.
Lemma one_mod_63690073_2653753 : one_mod (Z.to_nat 63690073) (Z.to_nat (2653753 ^ Z.of_nat 1)).
Proof. exact (@one_mod1 63690073 2653753 24 2 34981479 24 0 prime_2653753 (erefl true) (erefl (Zpos 24)) (erefl (Zpos 63690072)) check_63690073_2653753). Qed.
Lemma prime_63690073 : prime (Z.to_nat 63690073).
Proof. exact (@one_mod_Z 63690073 (2653753 ^ Z.of_nat 1) (erefl true) (erefl true) one_mod_63690073_2653753 (erefl true)). Qed.
Lemma check_254760293_63690073 : pock_check 254760293 63690073 4 2 220792254 4. Proof. by vm_compute. Qed.
Lemma one_mod_254760293_63690073 : one_mod (Z.to_nat 254760293) (Z.to_nat (63690073 ^ Z.of_nat 1)).
Proof. exact (@one_mod1 254760293 63690073 4 2 220792254 4 0 prime_63690073 (erefl true) (erefl (Zpos 4)) (erefl (Zpos 254760292)) check_254760293_63690073). Qed.
Lemma prime_254760293 : prime (Z.to_nat 254760293).
Proof. exact (@one_mod_Z 254760293 (63690073 ^ Z.of_nat 1) (erefl true) (erefl true) one_mod_254760293_63690073 (erefl true)). Qed.
Lemma check_16561424618041_4817 : pock_check 16561424618041 4817 3438120120 2 1179055936234 3438120120. Proof. by vm_compute. Qed.
Lemma one_mod_16561424618041_4817 : one_mod (Z.to_nat 16561424618041) (Z.to_nat (4817 ^ Z.of_nat 1)).
Proof. exact (@one_mod1 16561424618041 4817 3438120120 2 1179055936234 3438120120 0 prime_4817 (erefl true) (erefl (Zpos 3438120120)) (erefl (Zpos 16561424618040)) check_16561424618041_4817). Qed.
Lemma check_16561424618041_1913 : pock_check 16561424618041 1913 8657305080 2 14468406673547 8657305080. Proof. by vm_compute. Qed.
Lemma one_mod_16561424618041_1913 : one_mod (Z.to_nat 16561424618041) (Z.to_nat (1913 ^ Z.of_nat 1)).
Proof. exact (@one_mod1 16561424618041 1913 8657305080 2 14468406673547 8657305080 0 prime_1913 (erefl true) (erefl (Zpos 8657305080)) (erefl (Zpos 16561424618040)) check_16561424618041_1913). Qed.
Lemma prime_16561424618041 : prime (Z.to_nat 16561424618041).
Proof. exact (@one_mod_Z 16561424618041 (4817 ^ Z.of_nat 1 * 1913 ^ Z.of_nat 1) (erefl true) (erefl true) (one_mod2 prime_4817 prime_1913 (erefl false) (erefl true) (erefl true) one_mod_16561424618041_4817 one_mod_16561424618041_1913) (erefl true)). Qed.
Lemma check_18446744073709551359_16561424618041 : pock_check 18446744073709551359 16561424618041 1113838 2 4690626462211887646 1113838. Proof. by vm_compute. Qed.
Lemma one_mod_18446744073709551359_16561424618041 : one_mod (Z.to_nat 18446744073709551359) (Z.to_nat (16561424618041 ^ Z.of_nat 1)).
Proof. exact (@one_mod1 18446744073709551359 16561424618041 1113838 2 4690626462211887646 1113838 0 prime_16561424618041 (erefl true) (erefl (Zpos 1113838)) (erefl (Zpos 18446744073709551358)) check_18446744073709551359_16561424618041). Qed.
Lemma prime_18446744073709551359 : prime (Z.to_nat 18446744073709551359).
Proof. exact (@one_mod_Z 18446744073709551359 (16561424618041 ^ Z.of_nat 1) (erefl true) (erefl true) one_mod_18446744073709551359_16561424618041 (erefl true)). Qed.
Lemma check_639533339_1637 : pock_check 639533339 1637 390674 2 296391531 390674. Proof. by vm_compute. Qed.
Lemma one_mod_639533339_1637 : one_mod (Z.to_nat 639533339) (Z.to_nat (1637 ^ Z.of_nat 1)).
Proof. exact (@one_mod1 639533339 1637 390674 2 296391531 390674 0 prime_1637 (erefl true) (erefl (Zpos 390674)) (erefl (Zpos 639533338)) check_639533339_1637). Qed.
Lemma check_639533339_853 : pock_check 639533339 853 749746 2 303978671 749746. Proof. by vm_compute. Qed.
Lemma one_mod_639533339_853 : one_mod (Z.to_nat 639533339) (Z.to_nat (853 ^ Z.of_nat 1)).
Proof. exact (@one_mod1 639533339 853 749746 2 303978671 749746 0 prime_853 (erefl true) (erefl (Zpos 749746)) (erefl (Zpos 639533338)) check_639533339_853). Qed.
Lemma prime_639533339 : prime (Z.to_nat 639533339).
Proof. exact (@one_mod_Z 639533339 (1637 ^ Z.of_nat 1 * 853 ^ Z.of_nat 1) (erefl true) (erefl true) (one_mod2 prime_1637 prime_853 (erefl false) (erefl true) (erefl true) one_mod_639533339_1637 one_mod_639533339_853) (erefl true)). Qed.
Lemma check_65865678001877903_639533339 : pock_check 65865678001877903 639533339 102990218 2 39033286818209505 102990218. Proof. by vm_compute. Qed.
Lemma one_mod_65865678001877903_639533339 : one_mod (Z.to_nat 65865678001877903) (Z.to_nat (639533339 ^ Z.of_nat 1)).
Proof. exact (@one_mod1 65865678001877903 639533339 102990218 2 39033286818209505 102990218 0 prime_639533339 (erefl true) (erefl (Zpos 102990218)) (erefl (Zpos 65865678001877902)) check_65865678001877903_639533339). Qed.
Lemma prime_65865678001877903 : prime (Z.to_nat 65865678001877903).
Proof. exact (@one_mod_Z 65865678001877903 (639533339 ^ Z.of_nat 1) (erefl true) (erefl true) one_mod_65865678001877903_639533339 (erefl true)). Qed.
Lemma check_13818364434197438864469338081_65865678001877903 : pock_check 13818364434197438864469338081 65865678001877903 209796131360 2 12281824895882260584345986666 209796131360. Proof. by vm_compute. Qed.
Lemma one_mod_13818364434197438864469338081_65865678001877903 : one_mod (Z.to_nat 13818364434197438864469338081) (Z.to_nat (65865678001877903 ^ Z.of_nat 1)).
Proof. exact (@one_mod1 13818364434197438864469338081 65865678001877903 209796131360 2 12281824895882260584345986666 209796131360 0 prime_65865678001877903 (erefl true) (erefl (Zpos 209796131360)) (erefl (Zpos 13818364434197438864469338080)) check_13818364434197438864469338081_65865678001877903). Qed.
Lemma prime_13818364434197438864469338081 : prime (Z.to_nat 13818364434197438864469338081).
Proof. exact (@one_mod_Z 13818364434197438864469338081 (65865678001877903 ^ Z.of_nat 1) (erefl true) (erefl true) one_mod_13818364434197438864469338081_65865678001877903 (erefl true)). Qed.
Lemma check_12048837557_93001 : pock_check 12048837557 93001 129556 2 10304344409 129556. Proof. by vm_compute. Qed.
Lemma one_mod_12048837557_93001 : one_mod (Z.to_nat 12048837557) (Z.to_nat (93001 ^ Z.of_nat 1)).
Proof. exact (@one_mod1 12048837557 93001 129556 2 10304344409 129556 0 prime_93001 (erefl true) (erefl (Zpos 129556)) (erefl (Zpos 12048837556)) check_12048837557_93001). Qed.
Lemma check_12048837557_2 : pock_check 12048837557 2 3012209389 2 6024418778 6024418778. Proof. by vm_compute. Qed.
Lemma one_mod_12048837557_2 : one_mod (Z.to_nat 12048837557) (Z.to_nat (2 ^ Z.of_nat 2)).
Proof. exact (@one_mod1 12048837557 2 3012209389 2 6024418778 6024418778 1 prime_2 (erefl true) (erefl (Zpos 6024418778)) (erefl (Zpos 12048837556)) check_12048837557_2). Qed.
Lemma prime_12048837557 : prime (Z.to_nat 12048837557).
Proof. exact (@one_mod_Z 12048837557 (93001 ^ Z.of_nat 1 * 2 ^ Z.of_nat 2) (erefl true) (erefl true) (one_mod2 prime_93001 prime_2 (erefl false) (erefl true) (erefl true) one_mod_12048837557_93001 one_mod_12048837557_2) (erefl true)). Qed.
Lemma check_5156902474397_12048837557 : pock_check 5156902474397 12048837557 428 2 5089286551700 428. Proof. by vm_compute. Qed.
Lemma one_mod_5156902474397_12048837557 : one_mod (Z.to_nat 5156902474397) (Z.to_nat (12048837557 ^ Z.of_nat 1)).
Proof. exact (@one_mod1 5156902474397 12048837557 428 2 5089286551700 428 0 prime_12048837557 (erefl true) (erefl (Zpos 428)) (erefl (Zpos 5156902474396)) check_5156902474397_12048837557). Qed.
Lemma prime_5156902474397 : prime (Z.to_nat 5156902474397).
Proof. exact (@one_mod_Z 5156902474397 (12048837557 ^ Z.of_nat 1) (erefl true) (erefl true) one_mod_5156902474397_12048837557 (erefl true)). Qed.
Lemma check_1670836401704629_5156902474397 : pock_check 1670836401704629 5156902474397 324 2 735766788910399 324. Proof. by vm_compute. Qed.
Lemma one_mod_1670836401704629_5156902474397 : one_mod (Z.to_nat 1670836401704629) (Z.to_nat (5156902474397 ^ Z.of_nat 1)).
Proof. exact (@one_mod1 1670836401704629 5156902474397 324 2 735766788910399 324 0 prime_5156902474397 (erefl true) (erefl (Zpos 324)) (erefl (Zpos 1670836401704628)) check_1670836401704629_5156902474397). Qed.
Lemma prime_1670836401704629 : prime (Z.to_nat 1670836401704629).
Proof. exact (@one_mod_Z 1670836401704629 (5156902474397 ^ Z.of_nat 1) (erefl true) (erefl true) one_mod_1670836401704629_5156902474397 (erefl true)). Qed.
Lemma check_21888242871839275222246405745257275088548364400416034343698204186575808495617_13818364434197438864469338081 : pock_check 21888242871839275222246405745257275088548364400416034343698204186575808495617 13818364434197438864469338081 1583996642733683218748855262055434666238317428736 2 18830771696733986827343121108258373716716634563029220880262390084180817631389 1583996642733683218748855262055434666238317428736. Proof. by vm_compute. Qed.
Lemma one_mod_21888242871839275222246405745257275088548364400416034343698204186575808495617_13818364434197438864469338081 : one_mod (Z.to_nat 21888242871839275222246405745257275088548364400416034343698204186575808495617) (Z.to_nat (13818364434197438864469338081 ^ Z.of_nat 1)).
Proof. exact (@one_mod1 21888242871839275222246405745257275088548364400416034343698204186575808495617 13818364434197438864469338081 1583996642733683218748855262055434666238317428736 2 18830771696733986827343121108258373716716634563029220880262390084180817631389 1583996642733683218748855262055434666238317428736 0 prime_13818364434197438864469338081 (erefl true) (erefl (Zpos 1583996642733683218748855262055434666238317428736)) (erefl (Zpos 21888242871839275222246405745257275088548364400416034343698204186575808495616)) check_21888242871839275222246405745257275088548364400416034343698204186575808495617_13818364434197438864469338081). Qed.
Lemma check_21888242871839275222246405745257275088548364400416034343698204186575808495617_1670836401704629 : pock_check 21888242871839275222246405745257275088548364400416034343698204186575808495617 1670836401704629 13100171177446423556613374118717413492986637444144570673659904 2 86052601511993865195709936845511121156384965108811623497653747272590813794 13100171177446423556613374118717413492986637444144570673659904. Proof. by vm_compute. Qed.
Lemma one_mod_21888242871839275222246405745257275088548364400416034343698204186575808495617_1670836401704629 : one_mod (Z.to_nat 21888242871839275222246405745257275088548364400416034343698204186575808495617) (Z.to_nat (1670836401704629 ^ Z.of_nat 1)).
Proof. exact (@one_mod1 21888242871839275222246405745257275088548364400416034343698204186575808495617 1670836401704629 13100171177446423556613374118717413492986637444144570673659904 2 86052601511993865195709936845511121156384965108811623497653747272590813794 13100171177446423556613374118717413492986637444144570673659904 0 prime_1670836401704629 (erefl true) (erefl (Zpos 13100171177446423556613374118717413492986637444144570673659904)) (erefl (Zpos 21888242871839275222246405745257275088548364400416034343698204186575808495616)) check_21888242871839275222246405745257275088548364400416034343698204186575808495617_1670836401704629). Qed.
Lemma prime_21888242871839275222246405745257275088548364400416034343698204186575808495617 : prime (Z.to_nat 21888242871839275222246405745257275088548364400416034343698204186575808495617).
Proof. exact (@one_mod_Z 21888242871839275222246405745257275088548364400416034343698204186575808495617 (13818364434197438864469338081 ^ Z.of_nat 1 * 1670836401704629 ^ Z.of_nat 1) (erefl true) (erefl true) (one_mod2 prime_13818364434197438864469338081 prime_1670836401704629 (erefl false) (erefl true) (erefl true) one_mod_21888242871839275222246405745257275088548364400416034343698204186575808495617_13818364434197438864469338081 one_mod_21888242871839275222246405745257275088548364400416034343698204186575808495617_1670836401704629) (erefl true)). Qed.
Lemma check_52435875175126190479447740508185965837690552500527637822603658699938581184513_254760293 : pock_check 52435875175126190479447740508185965837690552500527637822603658699938581184513 254760293 807913828202290508598677772776006232357759729707044766220288 2 21008241824338290986197080736683926949006556971416270778403388042974795796113 205824363591567193241718168805002771125288949563767528806397073424384. Proof. by vm_compute. Qed.
Lemma one_mod_52435875175126190479447740508185965837690552500527637822603658699938581184513_254760293 : one_mod (Z.to_nat 52435875175126190479447740508185965837690552500527637822603658699938581184513) (Z.to_nat (254760293 ^ Z.of_nat 2)).
Proof. exact (@one_mod1 52435875175126190479447740508185965837690552500527637822603658699938581184513 254760293 807913828202290508598677772776006232357759729707044766220288 2 21008241824338290986197080736683926949006556971416270778403388042974795796113 205824363591567193241718168805002771125288949563767528806397073424384 1 prime_254760293 (erefl true) (erefl (Zpos 205824363591567193241718168805002771125288949563767528806397073424384)) (erefl (Zpos 52435875175126190479447740508185965837690552500527637822603658699938581184512)) check_52435875175126190479447740508185965837690552500527637822603658699938581184513_254760293). Qed.
Lemma check_52435875175126190479447740508185965837690552500527637822603658699938581184513_906349 : pock_check 52435875175126190479447740508185965837690552500527637822603658699938581184513 906349 63831874928265641722739442819312836421123199169656733959729446912 2 26341297231206394725939292351002686488477935223539131591963421836754874985217 57853956009358636109763171259841369977448590444219211167666824479244288. Proof. by vm_compute. Qed.
Lemma one_mod_52435875175126190479447740508185965837690552500527637822603658699938581184513_906349 : one_mod (Z.to_nat 52435875175126190479447740508185965837690552500527637822603658699938581184513) (Z.to_nat (906349 ^ Z.of_nat 2)).
Proof. exact (@one_mod1 52435875175126190479447740508185965837690552500527637822603658699938581184513 906349 63831874928265641722739442819312836421123199169656733959729446912 2 26341297231206394725939292351002686488477935223539131591963421836754874985217 57853956009358636109763171259841369977448590444219211167666824479244288 1 prime_906349 (erefl true) (erefl (Zpos 57853956009358636109763171259841369977448590444219211167666824479244288)) (erefl (Zpos 52435875175126190479447740508185965837690552500527637822603658699938581184512)) check_52435875175126190479447740508185965837690552500527637822603658699938581184513_906349). Qed.
Lemma check_52435875175126190479447740508185965837690552500527637822603658699938581184513_2 : pock_check 52435875175126190479447740508185965837690552500527637822603658699938581184513 2 12208678567578594777604504606729831043093128246378069236549469339647 5 26217937587563095239723870254092982918845276250263818911301829349969290592256 26217937587563095239723870254092982918845276250263818911301829349969290592256. Proof. by vm_compute. Qed.
Lemma one_mod_52435875175126190479447740508185965837690552500527637822603658699938581184513_2 : one_mod (Z.to_nat 52435875175126190479447740508185965837690552500527637822603658699938581184513) (Z.to_nat (2 ^ Z.of_nat 32)).
Proof. exact (@one_mod1 52435875175126190479447740508185965837690552500527637822603658699938581184513 2 12208678567578594777604504606729831043093128246378069236549469339647 5 26217937587563095239723870254092982918845276250263818911301829349969290592256 26217937587563095239723870254092982918845276250263818911301829349969290592256 31 prime_2 (erefl true) (erefl (Zpos 26217937587563095239723870254092982918845276250263818911301829349969290592256)) (erefl (Zpos 52435875175126190479447740508185965837690552500527637822603658699938581184512)) check_52435875175126190479447740508185965837690552500527637822603658699938581184513_2). Qed.
Lemma prime_52435875175126190479447740508185965837690552500527637822603658699938581184513 : prime (Z.to_nat 52435875175126190479447740508185965837690552500527637822603658699938581184513).
Proof. exact (@one_mod_Z 52435875175126190479447740508185965837690552500527637822603658699938581184513 (254760293 ^ Z.of_nat 2 * 906349 ^ Z.of_nat 2 * 2 ^ Z.of_nat 32) (erefl true) (erefl true) (one_mod3 prime_254760293 prime_906349 prime_2 (erefl false) (erefl false) (erefl false) (erefl true) (erefl true) (erefl true) one_mod_52435875175126190479447740508185965837690552500527637822603658699938581184513_254760293 one_mod_52435875175126190479447740508185965837690552500527637822603658699938581184513_906349 one_mod_52435875175126190479447740508185965837690552500527637822603658699938581184513_2) (erefl true)). Qed.
