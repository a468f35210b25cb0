(** Properties C33-C36 and C49: generated MDS matrices, optimized matrices and
    constants, whole parameter sets.  Statements only; proofs in [MdsProofs.v],
    [MdsCauchy.v], [ArcProofs.v], [V1Proofs.v]; concrete instances in
    [GenerateExamples.v].

    [PF] is an arbitrary prime field, [Me] an arbitrary transcript, [log2] and
    [rounds_of] stand for the floating-point logarithm and the search for round
    numbers.  [row_vector_vec] is [row_vector] of the older matrix library for
    which the generator was written. *)
From Coq Require Import ZArith NArith.
From mathcomp Require Import all_ssreflect all_algebra.
From Verif Require Import Base Matrix MatrixSpec Params Permutation Spec PrimeField Alpha Transcript.
From Verif Require Import Mds MdsProofs MdsCauchy ArcProofs V1 V1Proofs GenerateExamples.
Import GRing.Theory.
Local Open Scope ring_scope.
Delimit Scope Z_scope with Z.

(** ** C33 *)
Theorem C33_matrix (L : Type) (PF : prime_field) (i : input L) : in_p i = pf_p PF ->
  v1_generate_mds PF i =
  if (0 < in_t i <= 8)%N && (2 ^ 127 <=? pf_p PF)%Z
  then Ret (ofM (\matrix_(a < in_t i, b < in_t i) ((a + in_t i + b)%:R)^-1)) else Panic.
Proof. exact: v1_generate_mdsE. Qed.
(** The entries can be computed for every width: no division by zero. *)
Theorem C33_entries (PF : prime_field) (t : nat) : (3 * Z.of_nat t <= pf_p PF)%Z ->
  cauchy_elements PF t = Ret (elements (ofM (\matrix_(a < t, b < t) ((a + t + b)%:R)^-1))).
Proof. exact: cauchy_elementsE. Qed.
Theorem C33_mds (PF : prime_field) (t : nat) : (3 * Z.of_nat t <= pf_p PF)%Z ->
  forall (k : nat) (f g : 'I_k -> 'I_t), injective f -> injective g ->
  mxsub f g (\matrix_(a < t, b < t) ((a + t + b)%:R^-1 : PF)) \in unitmx.
Proof. exact: generated_mds. Qed.

(** ** C34 *)
Theorem C34_equivalent_matrices (F : fieldType) (t1 : nat) (M : 'M[F]_(1 + t1)) (r : rounds) :
  (0 < t1 <= 8)%N -> (0 < r_P r)%N ->
  calc_equivalent_matrices (ofM M) r = Panic <-> drsubmx M \notin unitmx.
Proof. exact: calc_equivalent_panic. Qed.
Theorem C34_success (F : fieldType) (t1 : nat) (M : 'M[F]_(1 + t1)) (r : rounds) :
  (0 < t1 < 8)%N -> (0 < r_P r)%N ->
  (exists om, mds_generate_optimized (ofM M) (1 + t1) r = Ret om) <->
  [/\ M \in unitmx, drsubmx M \in unitmx &
   forall i j : 'I_(1 + t1), (i == 0) || (j == 0) ->
     let x := (block_mx (ulsubmx M) (ursubmx M) (invmx (drsubmx M) *m dlsubmx M) 1%:M : 'M_(1 + t1)) i j in
     x != 0 /\ x != 1].
Proof. exact: optimized_ok. Qed.
Theorem C34_result (F : fieldType) (t1 : nat) (M : 'M[F]_(1 + t1)) (r : rounds) (om : optimized_mds F) :
  (0 < t1 < 8)%N -> (0 < r_P r)%N ->
  mds_generate_optimized (ofM M) (1 + t1) r = Ret om ->
  let Mi := toM (1 + t1) (1 + t1) (om_M_inverse om) in
  let M' := toM (1 + t1) (1 + t1) (om_M_prime om) in
  let M'' := toM (1 + t1) (1 + t1) (om_M_doubleprime om) in
  let Mh := toM t1 t1 (om_M_hat_inverse om) in
  [/\ [/\ Mi *m M = 1%:M, M *m Mi = 1%:M, Mh *m drsubmx M = 1%:M & drsubmx M *m Mh = 1%:M],
      [/\ toM t1 t1 (om_M_hat om) = drsubmx M, toM 1 t1 (om_v om) = ursubmx M,
          toM t1 1 (om_w om) = dlsubmx M & om_M_00 om = M 0 0],
      [/\ M' *m M'' = M, ulsubmx M' = 1%:M, ursubmx M' = 0, dlsubmx M' = 0 & drsubmx M'' = 1%:M],
      size (om_v_collection om) = r_P r /\ size (om_w_hat_collection om) = r_P r &
      sparse_factorization M (toM (1 + t1) (1 + t1) (om_M_i om)) (om_M_00 om)
        (fun j => (toM t1 1 (nth (Rmat 0 0 [::]) (om_w_hat_collection om) j))^T)
        (fun j => (toM 1 t1 (nth (Rmat 0 0 [::]) (om_v_collection om) j))^T) (r_P r)].
Proof. exact: optimized_matrices. Qed.

(** ** C35 *)
Theorem C35_success (F : fieldType) (t1 : nat) (M : 'M[F]_(1 + t1)) (r : rounds) (arc : rmat F) :
  wf_shape (rounds_total r) (1 + t1) arc -> (t1 < 8)%N -> (0 < rounds_total r)%N ->
  (exists d, arc_generate_optimized (@row_vector_vec F) arc (ofM M) r = Ret d) <-> M \in unitmx.
Proof. exact: optimized_constants_ok. Qed.
Theorem C35_equivalent (F : fieldType) (t1 : nat) (M : 'M[F]_(1 + t1)) (r : rounds) (arc d : rmat F) :
  wf_shape (rounds_total r) (1 + t1) arc -> (t1 < 8)%N -> (0 < r_P r)%N -> ~~ odd (r_F r) ->
  arc_generate_optimized (@row_vector_vec F) arc (ofM M) r = Ret d ->
  let row (m : rmat F) k : 'cV[F]_(1 + t1) := \col_i nth 0 (elements m) (k * (1 + t1) + i) in
  wf_shape (rounds_total r) (1 + t1) d /\
  equivalent_constants M (row arc) (row d) (r_F r %/ 2) (r_P r).
Proof. by move=> wf; exact (@optimized_constants F t1 M r arc wf d). Qed.
Theorem C35_same_permutation (F : fieldType) (t1 : nat) (M : 'M[F]_(1 + t1)) (r : rounds)
    (arc d : rmat F) (om : optimized_mds F) (a : alpha) (bits : nat) (st : seq F) :
  wf_shape (rounds_total r) (1 + t1) arc ->
  (0 < t1 < 8)%N -> (0 < r_P r)%N -> ~~ odd (r_F r) ->
  mds_generate_optimized (ofM M) (1 + t1) r = Ret om ->
  arc_generate_optimized (@row_vector_vec F) arc (ofM M) r = Ret d -> size st = (1 + t1)%N ->
  let P := Params (1 + t1) t1 bits a r (ofM M) arc d om in
  wf_params P /\ permute P st = unoptimized_permute P st.
Proof. by move=> *; apply: optimized_params_permute. Qed.
(** Not so for an odd number of full rounds. *)
Theorem C35_odd_refuted : exists (F : fieldType) (t1 : nat) (M : 'M[F]_(1 + t1)) (r : rounds)
    (arc d : rmat F) (om : optimized_mds F) (a : alpha) (st : seq F),
  [/\ wf_shape (rounds_total r) (1 + t1) arc, (0 < t1 < 8)%N /\ (0 < r_P r)%N, odd (r_F r),
      mds_generate_optimized (ofM M) (1 + t1) r = Ret om /\
      arc_generate_optimized (@row_vector_vec F) arc (ofM M) r = Ret d &
      size st = (1 + t1)%N /\
      let P := Params (1 + t1) t1 128 a r (ofM M) arc d om in
      permute P st <> unoptimized_permute P st].
Proof. exact: odd_counterexample. Qed.
(** The present matrix library does not support the computation. *)
Theorem C35_present_library_panics (F : fieldType) (t1 : nat) (M : 'M[F]_(1 + t1)) (r : rounds) (arc : rmat F) :
  wf_shape (rounds_total r) (1 + t1) arc ->
  (1 < rounds_total r)%N -> (r_F r %/ 2 < rounds_total r - 1 - r_F r %/ 2)%N ->
  arc_generate_optimized (@row_vector F) arc (ofM M) r = Panic.
Proof. exact: present_library_panics. Qed.

(** ** C36 *)
Theorem C36_shape (L : Type) (PF : prime_field) (Me : merlin) (log2 : Z -> L)
    (rounds_of : input L -> alpha -> outcome rounds) (M : N) (limbs : nat) (allow : bool) (t : nat) (P : params PF) :
  v1_generate PF Me log2 rounds_of M t (pf_p PF) limbs allow = Ret P -> (0 < r_P (p_rounds P))%N ->
  let i := input_generate log2 M t (pf_p PF) limbs allow in
  [/\ (1 < t <= 8)%N, (2 ^ 127 <= pf_p PF)%Z, wf_params P, wf_unused P &
  [/\ p_t P = t, p_M P = N.to_nat M, alpha_generate PF (pf_p PF) allow = Ret (p_alpha P),
      rounds_of i (p_alpha P) = Ret (p_rounds P) &
      toM t t (p_mds P) = \matrix_(a, b) ((a + t + b)%:R)^-1 /\
      v1_generate_arc PF Me i (p_rounds P) (p_alpha P) = Ret (p_arc P)]].
Proof. exact: returned_shape. Qed.
Theorem C36_hash (L : Type) (PF : prime_field) (Me : merlin) (log2 : Z -> L)
    (rounds_of : input L -> alpha -> outcome rounds) (M : N) (limbs : nat) (allow : bool) (t : nat) (P : params PF) :
  v1_generate PF Me log2 rounds_of M t (pf_p PF) limbs allow = Ret P ->
  (0 < r_P (p_rounds P))%N -> ~~ odd (r_F (p_rounds P)) ->
  forall inp st : seq PF, size inp = t -> size st = t ->
  n_to_1_fixed_hash P inp st = unoptimized_n_to_1_fixed_hash P inp st.
Proof. exact: returned_hash. Qed.
Theorem C36_textbook (L : Type) (PF : prime_field) (Me : merlin) (log2 : Z -> L)
    (rounds_of : input L -> alpha -> outcome rounds) (M : N) (limbs : nat) (allow : bool) (t : nat) (P : params PF) :
  v1_generate PF Me log2 rounds_of M t (pf_p PF) limbs allow = Ret P ->
  (0 < r_P (p_rounds P))%N -> ~~ odd (r_F (p_rounds P)) ->
  forall (e : N) (st : seq PF), p_alpha P = Exponent e -> size st = t ->
  let t' := (1 + p_t1 P)%N in
  permute P st = Ret (ofV (poseidon (fun x => x ^+ N.to_nat e)
    (\matrix_(a < t', b < t') ((a + t' + b)%:R)^-1)
    (fun r => \col_i nth 0 (elements (p_arc P)) (r * t' + i))
    (r_F (p_rounds P) %/ 2) (r_P (p_rounds P)) (toV t' st))).
Proof. by move=> *; apply: returned_textbook; eauto. Qed.
Theorem C36_bijective (L : Type) (PF : prime_field) (Me : merlin) (log2 : Z -> L)
    (rounds_of : input L -> alpha -> outcome rounds) (M : N) (limbs : nat) (allow : bool) (t : nat) (P : params PF) :
  v1_generate PF Me log2 rounds_of M t (pf_p PF) limbs allow = Ret P ->
  (0 < r_P (p_rounds P))%N -> ~~ odd (r_F (p_rounds P)) ->
  forall e : N, p_alpha P = Exponent e -> forall y : seq PF, size y = t ->
  exists! x : seq PF, size x = t /\ permute P x = Ret y.
Proof. by move=> *; apply: returned_bij; eauto. Qed.

(** ** C49 *)
Theorem C49_never_panics (L : Type) (PF : prime_field) (Me : merlin) (log2 : Z -> L)
    (rounds_of : input L -> alpha -> outcome rounds) (M : N) (limbs : nat) (allow : bool)
    (t : nat) (a : alpha) (r : rounds) :
  (1 < t <= 8)%N -> (2 ^ 127 <= pf_p PF)%Z -> alpha_generate PF (pf_p PF) allow = Ret a ->
  rounds_of (input_generate log2 M t (pf_p PF) limbs allow) a = Ret r -> (0 < r_P r)%N ->
  exists P, [/\ v1_generate PF Me log2 rounds_of M t (pf_p PF) limbs allow = Ret P,
                p_alpha P = a & p_rounds P = r].
Proof. exact: v1_generate_succeeds. Qed.
Theorem C49_unsupported_panics (L : Type) (PF : prime_field) (Me : merlin) (log2 : Z -> L)
    (rounds_of : input L -> alpha -> outcome rounds) (M : N) (limbs : nat) (allow : bool) (t : nat) :
  ~~ (1 < t <= 8)%N \/ (pf_p PF < 2 ^ 127)%Z ->
  v1_generate PF Me log2 rounds_of M t (pf_p PF) limbs allow = Panic.
Proof. exact: v1_generate_panics. Qed.

Print Assumptions C33_matrix.
Print Assumptions C33_entries.
Print Assumptions C33_mds.
Print Assumptions C34_equivalent_matrices.
Print Assumptions C34_success.
Print Assumptions C34_result.
Print Assumptions C35_success.
Print Assumptions C35_equivalent.
Print Assumptions C35_same_permutation.
Print Assumptions C35_odd_refuted.
Print Assumptions C35_present_library_panics.
Print Assumptions C36_shape.
Print Assumptions C36_hash.
Print Assumptions C36_textbook.
Print Assumptions C36_bijective.
Print Assumptions C49_never_panics.
Print Assumptions C49_unsupported_panics.
