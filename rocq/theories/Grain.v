(** Model of the three algorithms of
    /repo/vendor/hadeshash/code/generate_parameters_grain.sage (lines 133-301) that accept or
    reject a mixing matrix; the doc comment of [fixed_cauchy_matrix]
    (poseidon-paramgen/src/mds.rs:28-40) refers to them.

    A subspace of F^t is the row space of a matrix (mathcomp), so that the Sage
    product [M * v] is [v *m M^T].  The constant [s = 1] is unfolded: the loops
    over the nonempty subsets of [range(0, s)] and over their elements have one
    iteration. *)
From mathcomp Require Import all_ssreflect all_algebra.
Set Implicit Arguments.
Unset Strict Implicit.
Unset Printing Implicit Defensive.
Import GRing.Theory.
Local Open Scope ring_scope.

Section Grain.
Variables (F : fieldType) (n : nat).
(** The elements of the field: [eigenspaces_right] runs over the eigenvalues, those
    not in the field are skipped (189-191). *)
Variable field : seq F.
Local Notation t := (1 + n)%N.
Implicit Types (M : 'M[F]_t) (S IS : 'M[F]_t).

(** 133-154; [M_round[i]] is [M^(i+1)] (173-175). *)
Definition generate_vectorspace (round_num : nat) M : 'M[F]_t :=
  match round_num with
  | 0 => 1%:M
  | 1 => <<row_mx (0 : 'M_(n, 1)) 1%:M>>%MS
  | k.+1 =>
      let mat_temp : 'M[F]_(k, n) := \matrix_(i, j) (M ^+ i.+1) 0 (rshift 1 j) in
      let r_k := kermx mat_temp^T in
      <<row_mx (0 : 'M_(n, 1)) r_k>>%MS
  end.

(** 156-164 *)
Definition subspace_times_matrix S M : 'M[F]_t := S *m M^T.

Definition eigenspace_right M (l : F) : 'M[F]_t := kermx (M^T - l%:M).
Definition eigenvalues M : seq F := [seq l <- field | eigenspace_right M l != 0].

(** 177-203, one iteration: [None], or the number of the test that rejects. *)
Definition algorithm_1_step M (i : nat) : option nat :=
  let mat_test := M ^+ i in
  let entry := mat_test 0 0 in
  if mat_test - entry%:M == 0 then Some 1%N
  else
    let S := generate_vectorspace i M in
    let IS := (\sum_(l <- eigenvalues mat_test) (S :&: eigenspace_right mat_test l))%MS in
    if (1 <= \rank IS)%N && ~~ (IS == 1%:M)%MS then Some 2%N
    else if has (fun j => (S == subspace_times_matrix S (M ^+ j))%MS) (iota 1 i) then Some 3%N
    else None.

(** 167-205; [r] is [t - 1]. *)
Definition algorithm_1 M : bool * nat :=
  let r := (t - 1)%N in
  match pmap (algorithm_1_step M) (iota 1 r) with
  | [::] => (true, 0)%N
  | k :: _ => (false, k)
  end.

(** 228-236: the [while] loop.  [Some true]: the test is passed; [Some false]:
    rejected; [None]: [fuel] exhausted. *)
Fixpoint algorithm_2_loop M (full_iota_space : 'M[F]_t) (fuel : nat) (v : 'rV[F]_t) IS : option bool :=
  match fuel with
  | 0 => None
  | fuel'.+1 =>
      let delta := \rank IS in
      let v := v *m M^T in
      let IS := (IS + v)%MS in
      if (\rank IS == t) || ~~ (IS :&: full_iota_space == IS)%MS then Some true
      else if (\rank IS <= delta)%N then Some false
      else algorithm_2_loop M full_iota_space fuel' v IS
  end.

(** 208-243 *)
Definition algorithm_2 M : option bool :=
  let e0 : 'rV[F]_t := delta_mx 0 0 in
  let IS := <<e0>>%MS in
  let full_iota_space := (<<e0>> + \sum_(i < t | (1 <= i)%N) <<delta_mx 0 i : 'rV[F]_t>>)%MS in
  algorithm_2_loop M full_iota_space t e0 IS.

(** 246-285 (the commented-out part omitted) *)
Definition algorithm_3 M : bool :=
  let l := (4 * t)%N in
  all (fun r => algorithm_2 (M ^+ r) == Some true) (iota 2 (l - 1)).

(** 293-301: the condition under which [generate_matrix] returns a matrix *)
Definition accepted M : bool :=
  [&& (algorithm_1 M).1, algorithm_2 M == Some true & algorithm_3 M].
End Grain.
