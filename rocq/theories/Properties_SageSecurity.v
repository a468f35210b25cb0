(** C60: the security checks of poseidonperm_x17.sage. *)
From Coq Require Import Reals.
From Verif Require Import SageTables SageSecurity.
Local Open Scope R_scope.

Theorem C60_eigenpolynomial (r_in r_out : nat) : (0 < r_in)%nat -> (0 < r_out)%nat ->
  resist_eigenpolynomial_computation sage_M sage_alpha sage_R_P (sage_R_F / 2) sage_omega r_in r_out.
Proof. exact (eigenpolynomial_resisted r_in r_out). Qed.
Theorem C60_eigenpolynomial_margin (r_in r_out : nat) : (0 < r_in)%nat -> (0 < r_out)%nat ->
  ln (INR (Nat.min r_in r_out)) / ln 2 + 2 * (ln (17 ^ (8 * r_in + 31)) / ln 2) >= 8 * INR (8 * r_in + 31).
Proof. exact (eigenpolynomial_margin r_in r_out). Qed.
Theorem C60_root_extraction (r_in : nat) :
  resist_root_extraction sage_M sage_alpha sage_R_P (sage_R_F / 2) sage_prime r_in.
Proof. exact (root_extraction_resisted r_in). Qed.
Theorem C60_root_extraction_margin (r_in : nat) :
  let q := ln (IZR sage_prime) / ln 2 in
  let D := 17 ^ (8 * r_in + 31) in
  q < D /\ q * ln q * ln (ln q) * (ln q + ln D) >= 1260 * INR (8 * r_in + 36).
Proof. exact (root_extraction_margin r_in). Qed.

Print Assumptions C60_eigenpolynomial.
Print Assumptions C60_eigenpolynomial_margin.
Print Assumptions C60_root_extraction.
Print Assumptions C60_root_extraction_margin.
