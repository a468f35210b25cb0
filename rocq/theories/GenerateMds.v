(** Model of /repo/vendor/generate_mds.sage, the script from which the parameters of the
    first versions of the crate were generated: the sponge (44-69), the candidate matrices
    (118-187), the round constants (266-272), the numbers of rounds (362-376) and what the
    script prints for an instance (315-355).

    The field is a finite field [F].  [round_constant name idx] is
    [generate_round_constant(name, field, idx)] (72-86), the SHA-256 digest of the name
    followed by the index, reduced to a field element: here any function, with SHA-256 in
    [Sha256.v].  A failed assertion or an exception is [Panic].  Not modelled: the binary
    fields (34-41, 89-115), [generate_mds_cpp] (190-200), which the script does not call, and
    the text around the numbers that are printed; [generate_ark] (220-260), not called
    either, is in [GenerateArk.v]. *)
From Coq Require Import ZArith Reals String.
From Flocq Require Import Core.
From mathcomp Require Import all_ssreflect all_algebra.
From Verif Require Import Base Rounds.
Set Implicit Arguments.
Unset Strict Implicit.
Unset Printing Implicit Defensive.
Import GRing.Theory.
Delimit Scope Z_scope with Z.
Delimit Scope R_scope with Re.
Local Open Scope ring_scope.
Local Open Scope rust_scope.

(** [assert b] *)
Definition py_assert (b : bool) : outcome unit := if b then Ret tt else Panic.

Section Field.
Variable F : finFieldType.

(** [state[: r] += block]: lists of different lengths are an error *)
Definition add_front (r : nat) (state block : seq F) : outcome (seq F) :=
  if size (take r state) == size block
  then Ret ([seq p.1 + p.2 | p <- zip (take r state) block] ++ drop r state) else Panic.

(** 44-69; the fields of [params] are [m], [r] and [output_size].  The test of the type of
    the input (53-55) is the type [seq F]. *)
Definition sponge (permutation_func : seq F -> outcome (seq F)) (m r output_size : nat) (inputs : seq F) :
    outcome (seq F) :=
  if r is 0 then Panic (* [% 0] *) else
  _ <- py_assert (size inputs %% r == 0)%N ;;
  let state := nseq m 0 in
  state <- for_in (iota 0 (size inputs %/ r)) (fun k state =>
    let i := (k * r)%N in
    state <- add_front r state (take r (drop i inputs)) ;;
    permutation_func state) state ;;
  _ <- py_assert (output_size <= r)%N ;;
  Ret (take output_size state).

Variable round_constant : string -> nat -> F.

(** [matrix(rows)] *)
Definition matrix_of (m : nat) (rows : seq (seq F)) : 'M[F]_m := \matrix_(i, j) nth 0 (nth [::] rows i) j.

(** [product(list)] *)
Definition product (xs : seq F) : F := foldr *%R 1 xs.
(** [[v[i] - w[j] for i in range(m) for j in range(i)]] (168, 171) *)
Definition differences (m : nat) (v : seq F) : seq F :=
  flatten [seq [seq nth 0 v i - nth 0 v j | j <- iota 0 i] | i <- iota 0 m].
(** 174 *)
Definition all_differences (m : nat) (x y : seq F) : seq F :=
  flatten [seq [seq nth 0 x i - nth 0 y j | j <- iota 0 m] | i <- iota 0 m].

(** 176 *)
Definition expected_det (m : nat) (x y : seq F) : F :=
  (if (m %% 4 < 2)%N then 1 else -1) * product (differences m x) * product (differences m y)
  / product (all_differences m x y).

(** 149-158 *)
Definition near_mds (m : nat) : outcome (seq (seq F)) :=
  if m == 3%N then Ret [:: [:: 1; 0; 1]; [:: 1; 1; 0]; [:: 0; 1; 1]]
  else if m == 4%N then Ret [seq [seq if x != y then 1 else 0 | x <- iota 0 m] | y <- iota 0 m]
  else Panic.

(** The body of the loop (126-185): [Ret None] goes on with the next attempt.
    [len(charpoly.roots()) == 0] is that no field element is a root. *)
Definition attempt_mds (name : string) (m : nat) (optimize_mds : bool) (attempt : nat) : outcome (option 'M[F]_m) :=
  let x_values := [seq round_constant (append name "x") (attempt * m + i)%N | i <- iota 0 m] in
  let y_values := [seq round_constant (append name "y") (attempt * m + i)%N | i <- iota 0 m] in
  _ <- py_assert (size (undup (x_values ++ y_values)) == 2 * m)%N ;;
  let mds_proto := [seq [seq 1 / (nth 0 x_values i - nth 0 y_values j) | j <- iota 0 m] | i <- iota 0 m] in
  if optimize_mds then mds_proto <- near_mds m ;; Ret (Some (matrix_of m mds_proto)) else
  let mds := matrix_of m mds_proto in
  _ <- py_assert (\det mds != 0) ;;
  _ <- py_assert (\det mds != 0) ;;
  _ <- py_assert (\det mds == expected_det m x_values y_values) ;;
  if ~~ [exists z : F, root (char_poly mds) z] then Ret (Some mds) else Ret None.

(** [for attempt in range(100)]: [n] attempts are left (125, 187) *)
Fixpoint attempts (name : string) (m : nat) (optimize_mds : bool) (attempt n : nat) : outcome 'M[F]_m :=
  if n is n'.+1 then
    res <- attempt_mds name m optimize_mds attempt ;;
    if res is Some mds then Ret mds else attempts name m optimize_mds attempt.+1 n'
  else Panic.

(** 118-187 *)
Definition generate_mds_matrix (name : string) (m : nat) (optimize_mds : bool) : outcome 'M[F]_m :=
  attempts name m optimize_mds 0 100.

(** [ark] in [generate_ark_rs] (266-272) *)
Definition ark_rs (state_size num_rounds : nat) : seq (seq F) :=
  [seq [seq round_constant "Hades" (state_size * i + j)%N | j <- iota 0 state_size] | i <- iota 0 num_rounds].

(** The numbers in what [generate_poseidon_param_code] prints (315-355), in the order of the
    fields [full_rounds], [partial_rounds], [alpha], [ark], [mds], [rate], [capacity]
    (337-344) *)
Record instance := Instance { i_full : Z; i_partial : Z; i_alpha : nat; i_size : nat;
  i_ark : seq (seq F); i_mds : 'M[F]_i_size; i_rate : nat; i_capacity : nat }.

Definition generate_poseidon_param_code (hash_name : string) (alpha state_size : nat) (num_rounds : Z)
    (optimize_mds : bool) : outcome instance :=
  let R_f := 8%Z in
  let R_p := (num_rounds - R_f)%Z in
  mds <- generate_mds_matrix (append hash_name "MDS") state_size optimize_mds ;;
  let ark := ark_rs state_size (Z.to_nat num_rounds) in
  Ret (@Instance (num_rounds - R_p) R_p alpha state_size ark mds state_size.-1 1%N).
End Field.

(** The length of [bin(n)[2:]] *)
Definition bin_length (n : Z) : Z := if (n <=? 0)%Z then 1%Z else (Z.log2 n + 1)%Z.

(** [log(x, b)]; Sage keeps logarithms of integers symbolic, and [ceil] and [min] are exact *)
Definition log (x b : R) : R := (ln x / ln b)%Re.

(** 362-376, for [alpha] and [state_size] at least 2.  The product with [1.075] is one of
    53-bit floats. *)
Definition calculate_num_poseidon_rounds (field_order : Z) (sec alpha num_capacity_elems state_size : nat) (p : Z) :
    outcome Z :=
  _ <- py_assert (Z.of_nat sec <? Z.of_nat num_capacity_elems * bin_length field_order)%Z ;;
  let min_num_rounds := (Zceil (log 2 (INR alpha) * Rmin (INR sec) (log (IZR p) (INR state_size)))
                         + Zceil (log (INR state_size) 2))%Z in
  let full_rounds := 6%Z in
  let partial_rounds := (min_num_rounds - full_rounds)%Z in
  let partial_rounds := Zceil (fmul (f64_of_int partial_rounds) (f64_rnd (1075 / 1000))) in
  let full_rounds := (full_rounds + 2)%Z in
  Ret (partial_rounds + full_rounds)%Z.

(** 379-384 *)
Definition script_alpha : nat := 17.
Definition script_capacity_size : nat := 1.
Definition script_sec : nat := 128.
Definition script_p : Z := 8444461749428370424248824938781546531375899335154063827935233455917409239041.

(** 403-436: the instance of an [arity], 1 to 5; [F] is [GF(p)] *)
Definition script_rounds (arity : nat) : outcome Z :=
  calculate_num_poseidon_rounds script_p script_sec script_alpha script_capacity_size (arity + script_capacity_size) script_p.
Definition script_instance (F : finFieldType) (round_constant : string -> nat -> F) (arity : nat) : outcome (instance F) :=
  let state_size := (arity + script_capacity_size)%N in
  num_rounds <- script_rounds arity ;;
  generate_poseidon_param_code round_constant "Hades" script_alpha state_size num_rounds false.
