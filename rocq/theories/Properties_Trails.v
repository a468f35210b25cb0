(** C57: the mixing matrices have no subspace trails through the partial rounds.
    Statements only; proofs in [TrailsProofs.v], [TrailsAlg1.v], [TrailsCheck.v] and
    [TrailsShipped.v]; instances in [TrailsExamples.v].  The notions are defined in
    [TrailsSpec.v]; [accepted] is the model of algorithms 1-3 of
    generate_parameters_grain.sage ([Grain.v]). *)
From Coq Require Import ZArith.
From mathcomp Require Import all_ssreflect all_algebra.
From Verif Require Import Base Fq Matrix MatrixSpec Params Permutation Spec PrimeField RateChecks Cauchy.
From Verif Require Import Alpha Transcript Mds V1 V2Spec TrailsSpec Grain TrailsProofs TrailsAlg1 TrailsShipped.
Import GRing.Theory.
Local Open Scope ring_scope.

(** ** What the algorithms decide, over any field and for any list of field elements *)
Theorem C57_algorithm_2 (F : fieldType) (n : nat) (M : 'M[F]_n.+1) :
  algorithm_2 M = Some true <-> no_active_subspace M 1.
Proof. exact: algorithm_2_true. Qed.
Theorem C57_algorithm_2_stops (F : fieldType) (n : nat) (M : 'M[F]_n.+1) :
  exists b : bool, algorithm_2 M = Some b /\ (b <-> no_active_subspace M 1).
Proof. exact: algorithm_2P. Qed.
Theorem C57_algorithm_3 (F : fieldType) (n : nat) (M : 'M[F]_n.+1) :
  algorithm_3 M <-> forall r, (2 <= r <= 4 * n.+1)%N -> no_active_subspace M r.
Proof. exact: algorithm_3P. Qed.
Theorem C57_algorithm_1 (F : fieldType) (n : nat) (elements : seq F) (M : 'M[F]_n.+1) :
  M \in unitmx -> (algorithm_1 elements M).1 -> no_inactive_trail M 1.
Proof. exact: algorithm_1_sound. Qed.
Theorem C57_algorithm_1_passes (F : fieldType) (n : nat) (elements : seq F) (M : 'M[F]_n.+1) :
  algorithm_1 elements M = (true, 0%N) <->
  forall i, (0 < i <= n)%N -> [/\ ~ scalar_power M i, ~ quiet_eigenvector elements M i & ~ quiet_invariant M i].
Proof. exact: algorithm_1_passes. Qed.
Theorem C57_algorithm_1_fails (F : fieldType) (n : nat) (elements : seq F) (M : 'M[F]_n.+1) (k : nat) :
  algorithm_1 elements M = (false, k) <->
  exists i, [/\ (0 < i <= n)%N, finding elements M i k & forall i', (0 < i' < i)%N ->
    [/\ ~ scalar_power M i', ~ quiet_eigenvector elements M i' & ~ quiet_invariant M i']].
Proof. exact: algorithm_1_fails. Qed.
Theorem C57_accepted_sound (F : fieldType) (n : nat) (elements : seq F) (M : 'M[F]_n.+1) :
  M \in unitmx -> accepted elements M ->
  no_inactive_trail M 1 /\ forall r, (0 < r <= 4 * n.+1)%N -> no_active_subspace M r.
Proof. exact: accepted_sound. Qed.
Theorem C57_accepted_complete (F : fieldType) (n : nat) (elements : seq F) (M : 'M[F]_n.+1) :
  trail_free M (4 * n.+1) -> accepted elements M.
Proof. exact: trail_free_accepted. Qed.

(** ** The matrices 1/(i+t+j) over Fq, t <= 12 *)
Theorem C57_fixed_cauchy (n : nat) : (n < 12)%N -> trail_free (cauchy_mx Fq_fieldType n.+1) (4 * n.+1).
Proof. exact: cauchy_trail_free. Qed.
Theorem C57_fixed_cauchy_accepted (n : nat) (elements : seq Fq) : (n < 12)%N ->
  accepted elements (cauchy_mx Fq_fieldType n.+1).
Proof. exact: cauchy_accepted. Qed.

(** ** What the generator returns *)
Theorem C57_generated (L : Type) (i : input L) (n : nat) (m : rmat Fq_pf) :
  in_p i = q -> in_t i = n.+1 -> v1_generate_mds Fq_pf i = Ret m -> trail_free (toM n.+1 n.+1 m) (4 * n.+1).
Proof. exact: generated_trail_free. Qed.

(** ** The shipped matrices *)
Theorem C57_shipped (p : params Fq_fieldType) : List.In p shipped ->
  trail_free (toM (1 + p_t1 p) (1 + p_t1 p) (p_mds p)) (4 * p_t p).
Proof. exact: shipped_trail_free. Qed.
Theorem C57_shipped_accepted (p : params Fq_fieldType) : List.In p shipped ->
  forall elements : seq Fq, accepted elements (toM (1 + p_t1 p) (1 + p_t1 p) (p_mds p)).
Proof. exact: shipped_accepted. Qed.

(** Distinct states differ in an S-box input within [t] consecutive partial rounds. *)
Theorem C57_partial_rounds (F : fieldType) (t1 : nat) (S : F -> F) (M : 'M[F]_(1 + t1)) (c : nat -> 'cV[F]_(1 + t1))
    (x y : 'cV[F]_(1 + t1)) : no_inactive_trail M 1 ->
  (forall k, (k < 1 + t1)%N ->
    (foldl (fun x r => partial_round S M x (c r)) x (iota 0 k) + c k) 0 0 =
    (foldl (fun x r => partial_round S M x (c r)) y (iota 0 k) + c k) 0 0) -> x = y.
Proof. exact: partial_rounds_active. Qed.
Theorem C57_shipped_partial_rounds (p : params Fq_fieldType) : List.In p shipped ->
  forall (c : nat -> 'cV[Fq]_(1 + p_t1 p)) (x y : 'cV[Fq]_(1 + p_t1 p)),
  let M := toM (1 + p_t1 p) (1 + p_t1 p) (p_mds p) in
  (forall k, (k < p_t p)%N ->
    (foldl (fun x r => partial_round (fun x => x ^+ 17) M x (c r)) x (iota 0 k) + c k) 0 0 =
    (foldl (fun x r => partial_round (fun x => x ^+ 17) M x (c r)) y (iota 0 k) + c k) 0 0) -> x = y.
Proof. exact: shipped_partial_rounds. Qed.

(** ** Poseidon2: the internal matrices over Fq have no trails; they do have
    eigenvectors, so the condition of v2/internal.rs:25-33 does not apply to them. *)
Theorem C57_internal (n : nat) : (n == 1%N) || (n == 2%N) ->
  trail_free (internal_mx Fq_fieldType n.+1) (4 * n.+1).
Proof. exact: internal_trail_free. Qed.
Theorem C57_internal_eigenvector_2 :
  exists x : 'cV[Fq]_2, x != 0 /\ internal_mx Fq_fieldType 2 *m x = internal_root *: x.
Proof. exact: internal_eigenvector_2. Qed.
Theorem C57_internal_eigenvector_3 (F : fieldType) :
  exists x : 'cV[F]_3, x != 0 /\ internal_mx F 3 *m x = x.
Proof. exact: internal_eigenvector_3. Qed.

Print Assumptions C57_algorithm_2.
Print Assumptions C57_algorithm_2_stops.
Print Assumptions C57_algorithm_3.
Print Assumptions C57_algorithm_1.
Print Assumptions C57_algorithm_1_passes.
Print Assumptions C57_algorithm_1_fails.
Print Assumptions C57_accepted_sound.
Print Assumptions C57_accepted_complete.
Print Assumptions C57_fixed_cauchy.
Print Assumptions C57_fixed_cauchy_accepted.
Print Assumptions C57_generated.
Print Assumptions C57_shipped.
Print Assumptions C57_shipped_accepted.
Print Assumptions C57_partial_rounds.
Print Assumptions C57_shipped_partial_rounds.
Print Assumptions C57_internal.
Print Assumptions C57_internal_eigenvector_2.
Print Assumptions C57_internal_eigenvector_3.
