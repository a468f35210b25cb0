(** The security checks of /repo/poseidonperm_x17.sage (15-53), over the real numbers:
    the script evaluates the same expressions with 53-bit floats. *)
From Coq Require Import ZArith Reals Lra Lia.
From Verif Require Import SageTables.
Local Open Scope R_scope.

Section Checks.
(** The global names (5-22) *)
Variables (M alpha R_P R_f omega : nat) (prime : Z).
Definition log2 (x : R) : R := ln x / ln 2.
(** [d ** (2 * r_in * R_f + R_P)] *)
Definition D (r_in : nat) : R := INR alpha ^ (2 * r_in * R_f + R_P).

(** 24-29 *)
Definition eigenpolynomial_cost (r_in r_out : nat) : R :=
  log2 (INR (Nat.min r_in r_out)) + INR omega * log2 (D r_in).
Definition resist_eigenpolynomial_computation (r_in r_out : nat) : Prop :=
  eigenpolynomial_cost r_in r_out >= INR M.

(** 39-45 *)
Definition root_extraction_cost (r_in : nat) : R :=
  let q := log2 (IZR prime) in
  let D := D r_in in
  if Rle_dec D q then D * ln D * ln (ln D) * (ln D + ln q)
  else q * ln q * ln (ln q) * (ln q + ln D).
Definition resist_root_extraction (r_in : nat) : Prop := root_extraction_cost r_in >= INR M.
End Checks.

(** With the numbers of the script; [R_f = R_F / 2] *)
Definition script_eigenpolynomial_cost := eigenpolynomial_cost sage_alpha sage_R_P (sage_R_F / 2) sage_omega.
Definition script_resist_eigenpolynomial :=
  resist_eigenpolynomial_computation sage_M sage_alpha sage_R_P (sage_R_F / 2) sage_omega.
Definition script_root_extraction_cost := root_extraction_cost sage_alpha sage_R_P (sage_R_F / 2) sage_prime.
Definition script_resist_root_extraction :=
  resist_root_extraction sage_M sage_alpha sage_R_P (sage_R_F / 2) sage_prime.

Lemma ln2_pos : 0 < ln 2. Proof. rewrite <- ln_1; apply ln_increasing; lra. Qed.

Lemma log2_pow n : log2 (2 ^ n) = INR n.
Proof. unfold log2; rewrite ln_pow by lra; field; apply Rgt_not_eq, ln2_pos. Qed.

Lemma ln_le x y : 0 < x -> x <= y -> ln x <= ln y.
Proof. intros hx [h | ->]; [left; now apply ln_increasing | right; reflexivity]. Qed.

Lemma log2_le x y : 0 < x -> x <= y -> log2 x <= log2 y.
Proof.
intros hx h; unfold log2, Rdiv; apply Rmult_le_compat_r; [left; apply Rinv_0_lt_compat, ln2_pos | now apply ln_le].
Qed.

Lemma exponent r_in : (2 * r_in * (sage_R_F / 2) + sage_R_P = 8 * r_in + 31)%nat.
Proof. change (2 * r_in * 4 + 31 = 8 * r_in + 31)%nat; lia. Qed.
Lemma script_D r_in : D sage_alpha sage_R_P (sage_R_F / 2) r_in = 17 ^ (8 * r_in + 31).
Proof. unfold D; rewrite exponent; change sage_alpha with 17%nat; now rewrite (INR_IZR_INZ 17). Qed.

Lemma log2_D r_in : log2 (17 ^ (8 * r_in + 31)) >= 4 * INR (8 * r_in + 31).
Proof.
apply Rle_ge; replace (4 * INR (8 * r_in + 31)) with (log2 (2 ^ (4 * (8 * r_in + 31)))).
- apply log2_le; [apply pow_lt; lra|].
  rewrite pow_mult; apply pow_incr; lra.
- rewrite log2_pow, mult_INR; simpl (INR 4); lra.
Qed.

Theorem eigenpolynomial r_in r_out : (0 < r_in)%nat -> (0 < r_out)%nat ->
  script_eigenpolynomial_cost r_in r_out >= 8 * INR (8 * r_in + 31).
Proof.
intros h1 h2; unfold script_eigenpolynomial_cost, eigenpolynomial_cost; rewrite script_D.
change (INR sage_omega) with (1 + 1).
assert (H := log2_D r_in).
assert (log2 (INR (Nat.min r_in r_out)) >= 0).
{ apply Rle_ge; unfold log2; replace 0 with (log2 1) by (unfold log2; rewrite ln_1; unfold Rdiv; ring).
  apply log2_le; [lra|]; change 1 with (INR 1); apply le_INR; lia. }
lra.
Qed.

Theorem eigenpolynomial_resisted r_in r_out : (0 < r_in)%nat -> (0 < r_out)%nat ->
  script_resist_eigenpolynomial r_in r_out.
Proof.
intros h1 h2; unfold script_resist_eigenpolynomial, resist_eigenpolynomial_computation.
assert (H := eigenpolynomial r_in r_out h1 h2); unfold script_eigenpolynomial_cost in H.
assert (H2 : INR (8 * r_in + 31) >= INR 31) by (apply Rle_ge, le_INR; lia).
rewrite (INR_IZR_INZ 31) in H2; change (INR sage_M) with (INR 128); rewrite (INR_IZR_INZ 128).
simpl Z.of_nat in *; lra.
Qed.

Lemma pow_IZR2 n : 2 ^ n = IZR (2 ^ Z.of_nat n).
Proof. exact (pow_IZR 2 n). Qed.

Lemma log2_prime : 252 <= log2 (IZR sage_prime) <= 253.
Proof.
replace 252 with (INR 252) by (rewrite INR_IZR_INZ; reflexivity).
replace 253 with (INR 253) by (rewrite INR_IZR_INZ; reflexivity).
rewrite <- !log2_pow, !pow_IZR2; split; apply log2_le; apply IZR_lt || apply IZR_le; now vm_compute.
Qed.

Lemma exp_pow n : exp (INR n) <= 3 ^ n.
Proof.
induction n as [|n IH]; [simpl; rewrite exp_0; lra|].
rewrite S_INR, exp_plus; simpl; rewrite Rmult_comm.
apply Rmult_le_compat; try (left; apply exp_pos); [apply exp_le_3 | exact IH].
Qed.

Lemma ln_ge n x : 3 ^ n <= x -> INR n <= ln x.
Proof.
intro h; rewrite <- (ln_exp (INR n)); apply ln_le; [apply exp_pos|].
eapply Rle_trans; [apply exp_pow | exact h].
Qed.

Theorem root_extraction r_in : script_root_extraction_cost r_in >= 1260 * INR (8 * r_in + 36).
Proof.
unfold script_root_extraction_cost, root_extraction_cost; rewrite script_D.
assert (Hq := log2_prime); set (q := log2 _) in *; clearbody q.
set (n := (8 * r_in + 31)%nat).
assert (HD : q < 17 ^ n).
{ apply Rle_lt_trans with (17 ^ 2); [lra|].
  apply Rlt_pow; [lra | unfold n; lia]. }
destruct (Rle_dec _ _) as [h|_]; [lra|].
assert (L1 : INR 5 <= ln q) by (apply ln_ge; simpl; lra).
assert (L2 : INR 1 <= ln (ln q)) by (apply ln_ge; simpl in L1 |- *; lra).
assert (L3 : INR n <= ln (17 ^ n)).
{ rewrite ln_pow by lra; rewrite <- (Rmult_1_r (INR n)) at 1.
  apply Rmult_le_compat_l; [apply pos_INR|]; change 1 with (INR 1); apply ln_ge; simpl; lra. }
assert (En : INR (8 * r_in + 36) = INR n + INR 5) by (rewrite <- plus_INR; f_equal; unfold n; lia).
rewrite En; simpl (INR 5) in *; simpl (INR 1) in *.
assert (P := pos_INR n).
apply Rle_ge, Rmult_le_compat; [lra | lra | | lra].
replace 1260 with (252 * 5 * 1) by ring.
apply Rmult_le_compat; [lra | lra | | lra].
apply Rmult_le_compat; lra.
Qed.

Theorem root_extraction_resisted r_in : script_resist_root_extraction r_in.
Proof.
unfold script_resist_root_extraction, resist_root_extraction.
assert (H := root_extraction r_in); unfold script_root_extraction_cost in H.
assert (H2 : INR (8 * r_in + 36) >= INR 36) by (apply Rle_ge, le_INR; lia).
rewrite (INR_IZR_INZ 36) in H2; change (INR sage_M) with (INR 128); rewrite (INR_IZR_INZ 128).
simpl Z.of_nat in *; lra.
Qed.

(** Squaring with one full and no partial round would not pass. *)
Example weak : ~ resist_eigenpolynomial_computation 128 2 0 1 2 1 1.
Proof.
unfold resist_eigenpolynomial_computation, eigenpolynomial_cost, D.
change (Nat.min 1 1) with 1%nat; change (2 * 1 * 1 + 0)%nat with 2%nat.
change (INR 1) with 1; change (INR 2) with 2; rewrite log2_pow; unfold log2; rewrite ln_1, (INR_IZR_INZ 128); simpl; lra.
Qed.

Lemma eigenpolynomial_margin r_in r_out : (0 < r_in)%nat -> (0 < r_out)%nat ->
  ln (INR (Nat.min r_in r_out)) / ln 2 + 2 * (ln (17 ^ (8 * r_in + 31)) / ln 2) >= 8 * INR (8 * r_in + 31).
Proof.
intros h1 h2; assert (H := eigenpolynomial r_in r_out h1 h2).
unfold script_eigenpolynomial_cost, eigenpolynomial_cost in H; rewrite script_D in H; exact H.
Qed.
Lemma root_extraction_margin r_in :
  let q := ln (IZR sage_prime) / ln 2 in
  let D := 17 ^ (8 * r_in + 31) in
  q < D /\ q * ln q * ln (ln q) * (ln q + ln D) >= 1260 * INR (8 * r_in + 36).
Proof.
intros q D; assert (Hq := log2_prime); fold q in Hq.
assert (HD : q < D).
{ apply Rle_lt_trans with (17 ^ 2); [unfold log2 in Hq; fold q in Hq; lra|].
  apply Rlt_pow; [lra | lia]. }
split; [exact HD|].
assert (H := root_extraction r_in).
unfold script_root_extraction_cost, root_extraction_cost in H; rewrite script_D in H.
fold (log2 (IZR sage_prime)) in q; fold q D in H.
destruct (Rle_dec D q) as [h|_]; [lra | exact H].
Qed.
