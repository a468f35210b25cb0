(** Concrete cases for C80. *)
From Coq Require Import NArith ZArith Ascii String.
From mathcomp Require Import all_ssreflect all_algebra.
From Verif Require Import Base Fq PrimeField FqFinite GenerateMds Sha256 Sha256Proofs MdsRunData MdsRun MdsRunTheorems Properties_MdsRun.
Set Implicit Arguments.
Unset Strict Implicit.
Unset Printing Implicit Defensive.
Import GRing.Theory.
Local Open Scope ring_scope.
Delimit Scope N_scope with num.
Delimit Scope Z_scope with Z.

(** ** Test vectors of FIPS 180-4: one block, the empty message, two blocks *)
Example sha_abc : sha256 (encode "abc") = 0xba7816bf8f01cfea414140de5dae2223b00361a396177a9cb410ff61f20015ad%num.
Proof. by vm_compute. Qed.
Example sha_empty : sha256 [::] = 0xe3b0c44298fc1c149afbf4c8996fb92427ae41e4649b934ca495991b7852b855%num.
Proof. by vm_compute. Qed.
Example sha_two : sha256 (encode "abcdbcdecdefdefgefghfghighijhijkijkljklmklmnlmnomnopnopq")
  = 0x248d6a61d20638b8e5c026930c3e6039a33ce45964ff2167f6ecedd419db06c1%num.
Proof. by vm_compute. Qed.
Example two_blocks : size (pad (encode "abcdbcdecdefdefgefghfghighijhijkijkljklmklmnlmnomnopnopq")) = 128%N.
Proof. by vm_compute. Qed.
(** Filling one block needs 55 bytes, one more takes a second block. *)
Example block_edge : [seq size (pad (nseq n 0%num)) | n <- [:: 0; 55; 56; 63; 64; 119; 120]%N] = [:: 64; 64; 128; 128; 128; 128; 192]%N.
Proof. by vm_compute. Qed.

(** ** The constants: the first 32 bits of the fractional parts of the cube roots of the first
    64 primes and of the square roots of the first 8 (FIPS 180-4, 4.2.2 and 5.3.3) *)
Definition first_primes : seq N := [seq N.of_nat p | p <- filter prime (iota 0 312)].
Definition cube_root_bits (p c : N) : bool :=
  has (fun k => let r := (k * 2 ^ 32 + c)%num in ((r ^ 3 <=? p * 2 ^ 96) && (p * 2 ^ 96 <? (r + 1) ^ 3))%num) [:: 1; 2; 3; 4; 5; 6]%num.
Definition square_root_bits (p c : N) : bool :=
  has (fun k => let r := (k * 2 ^ 32 + c)%num in ((r ^ 2 <=? p * 2 ^ 64) && (p * 2 ^ 64 <? (r + 1) ^ 2))%num) [:: 1; 2; 3; 4]%num.
Example K256_origin : size first_primes = 64%N /\ size K256 = 64%N /\ all (fun pc => cube_root_bits pc.1 pc.2) (zip first_primes K256).
Proof. by vm_compute. Qed.
Example H0_origin : size H0 = 8%N /\ all (fun pc => square_root_bits pc.1 pc.2) (zip first_primes H0).
Proof. by vm_compute. Qed.

(** ** The inputs *)
Example input_12 : name_index "HadesMDSx" 12 = "HadesMDSx12"%string. Proof. by vm_compute. Qed.
(** The names matter: with "Hades" and "Hades1" two constants share an input. *)
Example clash : name_index "Hades" 12 = name_index "Hades1" 2. Proof. by vm_compute. Qed.

(** ** The first constant of the matrices, and an entry of the matrix of width 2 *)
Example first_x : X 0 = Fq_of_Z 57702300646757025388604150855013192676107940927800082984375843713537359148168.
Proof. exact (@XE 0 isT). Qed.
Lemma inverse_is (F : fieldType) (x c : F) : c * x = 1 -> x^-1 = c.
Proof.
move=> E; have x0 : x != 0 by apply: contra_eq_neq E => ->; rewrite mulr0 eq_sym oner_eq0.
by rewrite -[LHS]mul1r -E mulfK.
Qed.
Example entry_2 : (X 0 - Y 0)^-1 = Fq_of_Z 1176051956847107240720092743191536744506212303326360080512163156103164149850.
Proof.
refine (inverse_is _); rewrite (@XE 0 isT) (@YE 0 isT) -Fq_of_Z_sub -Fq_of_Z_mul -Fq_of_Z_1.
refine (Fq_of_Z_eq _); vm_compute; reflexivity.
Qed.
(** The first attempt at width 4 has an eigenvalue and is passed over. *)
Example attempt_4_0 : exists z, GenerateMdsSpec.has_eigenvalue (mat 4 0) z.
Proof. exact (@has_valueP 4 _ 0 _ _ isT isT value_4_0). Qed.
