(** Model of the parameter types of poseidon-parameters:
    alpha.rs, round_numbers.rs, mds_matrix.rs:142-172 and v1.rs.
    The record is generic in the type of elements so that the shipped constants
    can be written down as Montgomery limbs and then mapped into [Fq]. *)
From Coq Require Import NArith.
From mathcomp Require Import all_ssreflect.
From Verif Require Import Base Matrix.
Set Implicit Arguments.
Unset Strict Implicit.
Unset Printing Implicit Defensive.

(** alpha.rs:3-8; the exponent is a [u32]. *)
Inductive alpha := Exponent of N | Inverse.

(** round_numbers.rs:3-8 (the accessors [full], [partial], [total] at 12-35 are
    the projections and their sum). *)
Record rounds := RoundNumbers { r_P : nat; r_F : nat }.
Definition rounds_total (r : rounds) : nat := r_P r + r_F r.

Section Params.
Variable T : Type.

(** mds_matrix.rs:142-172 *)
Record optimized_mds := OptimizedMds {
  om_M_hat : rmat T;
  om_v : rmat T;
  om_w : rmat T;
  om_M_prime : rmat T;
  om_M_doubleprime : rmat T;
  om_M_inverse : rmat T;
  om_M_hat_inverse : rmat T;
  om_M_00 : T;
  om_M_i : rmat T;
  om_v_collection : seq (rmat T);
  om_w_hat_collection : seq (rmat T) }.

(** v1.rs:14-59.  [p_t] and [p_t1] are the const generics [STATE_SIZE] and
    [STATE_SIZE_MINUS_1]; the other const generics are array lengths. *)
Record params := Params {
  p_t : nat;
  p_t1 : nat;
  p_M : nat;
  p_alpha : alpha;
  p_rounds : rounds;
  p_mds : rmat T;
  p_arc : rmat T;
  p_optimized_arc : rmat T;
  p_optimized_mds : optimized_mds }.

(** The lengths that the Rust types of v1.rs and mds_matrix.rs prescribe when
    the const generics are chosen consistently: [t = t1 + 1], [t^2] and [t1^2]
    matrix elements, [total rounds x t] constants, one vector per partial
    round. *)
Definition wf_params (p : params) : bool :=
  let t := p_t p in let t1 := p_t1 p in
  let o := p_optimized_mds p in
  [&& t == t1.+1,
      wf_shape t t (p_mds p),
      wf_shape (rounds_total (p_rounds p)) t (p_arc p),
      wf_shape (rounds_total (p_rounds p)) t (p_optimized_arc p),
      wf_shape t t (om_M_i o),
      size (om_v_collection o) == r_P (p_rounds p),
      all (wf_shape 1 t1) (om_v_collection o),
      size (om_w_hat_collection o) == r_P (p_rounds p) &
      all (wf_shape t1 1) (om_w_hat_collection o)].

(** The fields the permutations never read have their shapes, too. *)
Definition wf_unused (p : params) : bool :=
  let t := p_t p in let t1 := p_t1 p in
  let o := p_optimized_mds p in
  [&& wf_shape t1 t1 (om_M_hat o),
      wf_shape 1 t1 (om_v o),
      wf_shape t1 1 (om_w o),
      wf_shape t t (om_M_prime o),
      wf_shape t t (om_M_doubleprime o),
      wf_shape t t (om_M_inverse o) &
      wf_shape t1 t1 (om_M_hat_inverse o)].
End Params.

Section MapParams.
Variables (A B : Type) (f : A -> B).
Definition map_optimized_mds (o : optimized_mds A) : optimized_mds B :=
  OptimizedMds (map_rmat f (om_M_hat o)) (map_rmat f (om_v o)) (map_rmat f (om_w o))
    (map_rmat f (om_M_prime o)) (map_rmat f (om_M_doubleprime o)) (map_rmat f (om_M_inverse o))
    (map_rmat f (om_M_hat_inverse o)) (f (om_M_00 o)) (map_rmat f (om_M_i o))
    (map (map_rmat f) (om_v_collection o)) (map (map_rmat f) (om_w_hat_collection o)).
Definition map_params (p : params A) : params B :=
  Params (p_t p) (p_t1 p) (p_M p) (p_alpha p) (p_rounds p)
    (map_rmat f (p_mds p)) (map_rmat f (p_arc p)) (map_rmat f (p_optimized_arc p))
    (map_optimized_mds (p_optimized_mds p)).
End MapParams.
