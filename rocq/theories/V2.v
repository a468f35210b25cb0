(** Model of the Poseidon2 generator: /repo/poseidon-paramgen/src/v2.rs, v2/internal.rs and
    v2/external.rs.  As in [Mds.v] matrices have run-time dimensions, the const generics
    [STATE_SIZE] and [NUM_MDS_ELEMENTS] are [t] and [t * t]; [F::from(n)] is [n%:R]. *)
From Coq Require Import ZArith NArith.
From mathcomp Require Import all_ssreflect all_algebra.
From Verif Require Import Base Matrix Params PrimeField Alpha Transcript Mds V1.
Set Implicit Arguments.
Unset Strict Implicit.
Unset Printing Implicit Defensive.
Import GRing.Theory.
Local Open Scope ring_scope.
Local Open Scope rust_scope.

Section Matrices.
Variable F : fieldType.
Local Notation rmat := (rmat F).

(** v2/internal.rs:8-43; [unimplemented!] is a panic *)
Definition internal_generate (t : nat) : outcome rmat :=
  M_i <- (if t == 2%N then from_vec [:: 2%:R; 1; 1; 3%:R]
          else if t == 3%N then from_vec [:: 2%:R; 1; 1; 1; 2%:R; 1; 1; 1; 3%:R]
          else Panic) ;;
  r <- inverse M_i ;;
  require (if r is Ok _ then true else false) ;;;
  Ret M_i.

(** v2/external.rs:21-38 *)
Definition M4_elements : seq F :=
  [:: 5%:R; 7%:R; 1; 3%:R; 4%:R; 6%:R; 1; 1; 1; 3%:R; 5%:R; 7%:R; 1; 1; 4%:R; 6%:R].

(** v2/external.rs:8-72 *)
Definition external_generate (t : nat) : outcome rmat :=
  if (t < 4)%N then Panic
  else if (t %% 4 != 0)%N then Panic
  else
    M4 <- from_vec M4_elements ;;
    if t == 4%N then Ret M4
    else
      matrix <- identity F t (t * t) ;;
      let d := (t %/ 4)%N in
      for_in (range 0 d) (fun i =>
        for_in (range 0 d) (fun j matrix =>
          if i == j then
            for_in (range 0 4) (fun inner_row =>
              for_in (range 0 4) (fun inner_col matrix =>
                x <- get_element M4 inner_row inner_col ;;
                set_element matrix (i * 4 + inner_row) (j * 4 + inner_col) (2%:R * x))) matrix
          else
            for_in (range 0 4) (fun inner_row =>
              for_in (range 0 4) (fun inner_col matrix =>
                x <- get_element M4 inner_row inner_col ;;
                set_element matrix (i * 4 + inner_row) (j * 4 + inner_col) x)) matrix)) matrix.
End Matrices.

(** poseidon-parameters/src/v2.rs:21-47 *)
Record params2 (F : fieldType) := Params2
  { q_M : nat; q_alpha : alpha; q_rounds : rounds; q_arc : rmat F; q_m_e : rmat F; q_m_i : rmat F }.

(** v2.rs:20-66 *)
Section V2.
Variables (L : Type) (PF : prime_field) (Me : merlin) (log2 : Z -> L)
  (v2_rounds : input L -> alpha -> outcome rounds).

Definition v2_generate (M : N) (t : nat) (p : Z) (p_limbs : nat) (allow_inverse : bool)
    : outcome (params2 PF) :=
  let i := input_generate log2 M t p p_limbs allow_inverse in
  alpha <- alpha_generate PF p allow_inverse ;;
  rounds <- v2_rounds i alpha ;;
  arc <- v2_generate_arc PF Me i rounds alpha ;;
  m_i <- internal_generate PF t ;;
  if (t < 4)%N then Ret (Params2 (N.to_nat M) alpha rounds arc m_i m_i)
  else
    m_e <- external_generate PF t ;;
    Ret (Params2 (N.to_nat M) alpha rounds arc m_e m_i).
End V2.
