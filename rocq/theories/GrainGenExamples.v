(** Instances of C69. *)
From Coq Require Import ZArith NArith.
From mathcomp Require Import all_ssreflect.
From Verif Require Import GrainGen GrainSpec GrainTables GrainTheorems.
Set Implicit Arguments.
Unset Strict Implicit.
Unset Printing Implicit Defensive.
Delimit Scope Z_scope with Z.

(** The register started with one bit *)
Example one_bit_shift : (shift (true :: nseq 79 false)).2 = rcons (nseq 79 false) true.
Proof. by vm_compute. Qed.
(** The state of zeros, which no arguments give, never yields a bit *)
Example zeros_stuck : next 200 (nseq 80 false) = None.
Proof. by vm_compute. Qed.
(** The first bits of the script with the 255-bit prime and width 3, selected from the
    outputs of the register *)
Example outputs_255_3 :
  [seq (shift (iter k (fun s => (shift s).2) (v_start x5_255_3))).1 | k <- iota 0 12] =
  [:: true; true; true; true; true; false; false; false; false; true; true; true].
Proof. by vm_compute. Qed.
Example bits_255_3 : omap fst (next_bits 79 6 (v_start x5_255_3)) = Some [:: true; true; false; true; true; false].
Proof. by vm_compute. Qed.
(** Constants below 9 from numbers of four bits, three rounds of width two *)
Example small_constants :
  omap fst (generate_constants 79 20 4 2 2 1 9 (warm_up (init_generator 1 0 4 2 2 1))) = Some [:: 7; 0; 7; 7; 5; 6]%Z.
Proof. by vm_compute. Qed.
(** Two numbers were drawn and not used *)
Example small_all : omap (fun x => blocks 4 8 x.1) (next_bits 79 (4 * 8) (warm_up (init_generator 1 0 4 2 2 1))) =
  Some [:: 7; 0; 7; 7; 9; 9; 5; 6]%Z.
Proof. by vm_compute. Qed.
(** The round constants printed in the script with the 64-bit prime begin *)
Example first_constant_64 : nth 0%Z (v_round_constants x3_64_24_optimized) 0 = 0x240ec2a793108b4a%Z /\
  size (v_round_constants x3_64_24_optimized) = 1200.
Proof. by vm_compute. Qed.
