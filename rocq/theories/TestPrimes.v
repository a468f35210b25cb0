(** The order of [ark_bn254::Fq] (poseidon-paramgen/src/alpha.rs:75) is prime: Pocklington
    certificates, generated by tools/mkprimes.py. *)
From Coq Require Import ZArith Lia.
From mathcomp Require Import all_ssreflect.
From Verif Require Import PrimeLib PrimeField GrainPrimes.
Set Implicit Arguments.
Unset Strict Implicit.
Unset Printing Implicit Defensive.

Lemma prime_13327 : prime (Z.to_nat 13327). Proof. by vm_compute. Qed.
Lemma prime_3557 : prime (Z.to_nat 3557). Proof. by vm_compute. Qed.
Lemma prime_911 : prime (Z.to_nat 911). Proof. by vm_compute. Qed.
Lemma check_173171039_13327 : pock_check 173171039 13327 12994 2 35859620 12994. Proof. by vm_compute. Qed.
Lemma one_mod_173171039_13327 : one_mod (Z.to_nat 173171039) (Z.to_nat (13327 ^ Z.of_nat 1)).
Proof. exact (@one_mod1 173171039 13327 12994 2 35859620 12994 0 prime_13327 (erefl true) (erefl (Zpos 12994)) (erefl (Zpos 173171038)) check_173171039_13327). Qed.
Lemma prime_173171039 : prime (Z.to_nat 173171039).
Proof. exact (@one_mod_Z 173171039 (13327 ^ Z.of_nat 1) (erefl true) (erefl true) one_mod_173171039_13327 (erefl true)). Qed.
Lemma check_1263766531_3557 : pock_check 1263766531 3557 355290 2 1084735757 355290. Proof. by vm_compute. Qed.
Lemma one_mod_1263766531_3557 : one_mod (Z.to_nat 1263766531) (Z.to_nat (3557 ^ Z.of_nat 1)).
Proof. exact (@one_mod1 1263766531 3557 355290 2 1084735757 355290 0 prime_3557 (erefl true) (erefl (Zpos 355290)) (erefl (Zpos 1263766530)) check_1263766531_3557). Qed.
Lemma check_1263766531_911 : pock_check 1263766531 911 1387230 2 979652892 1387230. Proof. by vm_compute. Qed.
Lemma one_mod_1263766531_911 : one_mod (Z.to_nat 1263766531) (Z.to_nat (911 ^ Z.of_nat 1)).
Proof. exact (@one_mod1 1263766531 911 1387230 2 979652892 1387230 0 prime_911 (erefl true) (erefl (Zpos 1387230)) (erefl (Zpos 1263766530)) check_1263766531_911). Qed.
Lemma prime_1263766531 : prime (Z.to_nat 1263766531).
Proof. exact (@one_mod_Z 1263766531 (3557 ^ Z.of_nat 1 * 911 ^ Z.of_nat 1) (erefl true) (erefl true) (one_mod2 prime_3557 prime_911 (erefl false) (erefl true) (erefl true) one_mod_1263766531_3557 one_mod_1263766531_911) (erefl true)). Qed.
Lemma check_35385462869_1263766531 : pock_check 35385462869 1263766531 28 2 30792025501 28. Proof. by vm_compute. Qed.
Lemma one_mod_35385462869_1263766531 : one_mod (Z.to_nat 35385462869) (Z.to_nat (1263766531 ^ Z.of_nat 1)).
Proof. exact (@one_mod1 35385462869 1263766531 28 2 30792025501 28 0 prime_1263766531 (erefl true) (erefl (Zpos 28)) (erefl (Zpos 35385462868)) check_35385462869_1263766531). Qed.
Lemma prime_35385462869 : prime (Z.to_nat 35385462869).
Proof. exact (@one_mod_Z 35385462869 (1263766531 ^ Z.of_nat 1) (erefl true) (erefl true) one_mod_35385462869_1263766531 (erefl true)). Qed.
Lemma check_2480874801745591_35385462869 : pock_check 2480874801745591 35385462869 70110 2 60395260069513 70110. Proof. by vm_compute. Qed.
Lemma one_mod_2480874801745591_35385462869 : one_mod (Z.to_nat 2480874801745591) (Z.to_nat (35385462869 ^ Z.of_nat 1)).
Proof. exact (@one_mod1 2480874801745591 35385462869 70110 2 60395260069513 70110 0 prime_35385462869 (erefl true) (erefl (Zpos 70110)) (erefl (Zpos 2480874801745590)) check_2480874801745591_35385462869). Qed.
Lemma prime_2480874801745591 : prime (Z.to_nat 2480874801745591).
Proof. exact (@one_mod_Z 2480874801745591 (35385462869 ^ Z.of_nat 1) (erefl true) (erefl true) one_mod_2480874801745591_35385462869 (erefl true)). Qed.
Lemma check_13427688667394608761327070753331941386769_2480874801745591 : pock_check 13427688667394608761327070753331941386769 2480874801745591 5412481378724403979982448 2 6785926852418085198570490017495330175623 5412481378724403979982448. Proof. by vm_compute. Qed.
Lemma one_mod_13427688667394608761327070753331941386769_2480874801745591 : one_mod (Z.to_nat 13427688667394608761327070753331941386769) (Z.to_nat (2480874801745591 ^ Z.of_nat 1)).
Proof. exact (@one_mod1 13427688667394608761327070753331941386769 2480874801745591 5412481378724403979982448 2 6785926852418085198570490017495330175623 5412481378724403979982448 0 prime_2480874801745591 (erefl true) (erefl (Zpos 5412481378724403979982448)) (erefl (Zpos 13427688667394608761327070753331941386768)) check_13427688667394608761327070753331941386769_2480874801745591). Qed.
Lemma check_13427688667394608761327070753331941386769_173171039 : pock_check 13427688667394608761327070753331941386769 173171039 77540036399473290457806115913712 2 8400704698881656509131354358865537047819 77540036399473290457806115913712. Proof. by vm_compute. Qed.
Lemma one_mod_13427688667394608761327070753331941386769_173171039 : one_mod (Z.to_nat 13427688667394608761327070753331941386769) (Z.to_nat (173171039 ^ Z.of_nat 1)).
Proof. exact (@one_mod1 13427688667394608761327070753331941386769 173171039 77540036399473290457806115913712 2 8400704698881656509131354358865537047819 77540036399473290457806115913712 0 prime_173171039 (erefl true) (erefl (Zpos 77540036399473290457806115913712)) (erefl (Zpos 13427688667394608761327070753331941386768)) check_13427688667394608761327070753331941386769_173171039). Qed.
Lemma prime_13427688667394608761327070753331941386769 : prime (Z.to_nat 13427688667394608761327070753331941386769).
Proof. exact (@one_mod_Z 13427688667394608761327070753331941386769 (2480874801745591 ^ Z.of_nat 1 * 173171039 ^ Z.of_nat 1) (erefl true) (erefl true) (one_mod2 prime_2480874801745591 prime_173171039 (erefl false) (erefl true) (erefl true) one_mod_13427688667394608761327070753331941386769_2480874801745591 one_mod_13427688667394608761327070753331941386769_173171039) (erefl true)). Qed.
Lemma check_21888242871839275222246405745257275088696311157297823662689037894645226208583_13427688667394608761327070753331941386769 : pock_check 21888242871839275222246405745257275088696311157297823662689037894645226208583 13427688667394608761327070753331941386769 1630082690626329392154177744477557478 2 7760040696430108728351579495285625070970037227808537281002514205477518194167 1630082690626329392154177744477557478. Proof. by vm_compute. Qed.
Lemma one_mod_21888242871839275222246405745257275088696311157297823662689037894645226208583_13427688667394608761327070753331941386769 : one_mod (Z.to_nat 21888242871839275222246405745257275088696311157297823662689037894645226208583) (Z.to_nat (13427688667394608761327070753331941386769 ^ Z.of_nat 1)).
Proof. exact (@one_mod1 21888242871839275222246405745257275088696311157297823662689037894645226208583 13427688667394608761327070753331941386769 1630082690626329392154177744477557478 2 7760040696430108728351579495285625070970037227808537281002514205477518194167 1630082690626329392154177744477557478 0 prime_13427688667394608761327070753331941386769 (erefl true) (erefl (Zpos 1630082690626329392154177744477557478)) (erefl (Zpos 21888242871839275222246405745257275088696311157297823662689037894645226208582)) check_21888242871839275222246405745257275088696311157297823662689037894645226208583_13427688667394608761327070753331941386769). Qed.
Lemma prime_21888242871839275222246405745257275088696311157297823662689037894645226208583 : prime (Z.to_nat 21888242871839275222246405745257275088696311157297823662689037894645226208583).
Proof. exact (@one_mod_Z 21888242871839275222246405745257275088696311157297823662689037894645226208583 (13427688667394608761327070753331941386769 ^ Z.of_nat 1) (erefl true) (erefl true) one_mod_21888242871839275222246405745257275088696311157297823662689037894645226208583_13427688667394608761327070753331941386769 (erefl true)). Qed.
