(** Model of /repo/poseidon-paramgen/src/poseidon_build.rs: the generation of
    Rust source text for parameter sets.

    A [String] is the list of its characters' code points (all are ASCII), of
    the type [bytes] of [Bytes.v].  [write!] and [format!] never fail on a
    [String].  The parameter types are those of the older poseidon-parameters
    release that the crate depends on: matrices with run-time dimensions. *)
From Coq Require Import ZArith NArith Ascii String.
From mathcomp Require Import all_ssreflect all_algebra.
From Verif Require Import Base Matrix Params Bytes PrimeField Alpha Transcript V1 V2.
Set Implicit Arguments.
Unset Strict Implicit.
Unset Printing Implicit Defensive.
Local Open Scope rust_scope.
Delimit Scope Z_scope with Z.

(** [Display] of an unsigned integer or [BigUint] (external): decimal, without
    leading zeros. *)
Fixpoint dec_rec (fuel : nat) (n : N) (acc : bytes) : bytes :=
  match fuel with
  | 0 => acc
  | fuel'.+1 =>
      let acc' := (48 + n mod 10)%num :: acc in
      if (n / 10 =? 0)%num then acc' else dec_rec fuel' (n / 10)%num acc'
  end.
Definition display_N (n : N) : bytes := dec_rec (N.size_nat n).+1 n [::].
Definition display_usize (n : nat) : bytes := display_N (N.of_nat n).

(** [String::pop], the popped character being ignored *)
Definition pop (s : bytes) : bytes := take (size s).-1 s.

Section Build.
Variable PF : prime_field.
Local Notation rmat := (rmat PF).

(** [let b: BigUint = x.into(); format!("{}", b)] *)
Definition display_F (x : PF) : bytes := display_N (Z.to_N (pf_to x)).

(** poseidon_build.rs:149-164 *)
Definition serialize_slice_f (elements : seq PF) : bytes :=
  let s := foldl (fun s elem =>
             ((s ++ str "F::from_str(""") ++ display_F elem) ++
             str """).map_err(|_| ()).unwrap(), ") (str "vec![") elements in
  rcons (pop (pop s)) 93%num.

(** poseidon_build.rs:166-181 *)
Definition serialize_slice_of_vecs_f (elements : seq (seq PF)) : bytes :=
  let s := foldl (fun s r => foldl (fun s c =>
             ((s ++ str "F::from_str(""") ++ display_F c) ++
             str """).map_err(|_| ()).unwrap(), ") s r) (str "vec![") elements in
  rcons (pop (pop s)) 93%num.

(** poseidon_build.rs:183-189 *)
Definition serialize_f (x : PF) : bytes :=
  (str "F::from_str(""" ++ display_F x) ++ str """).map_err(|_| ()).unwrap()".

(** poseidon_build.rs:117-125 *)
Definition display_matrix (m : rmat) : bytes :=
  str "Matrix::new(" ++ display_usize (n_rows m) ++ str ", " ++
  display_usize (n_cols m) ++ str ", " ++ serialize_slice_f (elements m) ++ str ")".

(** poseidon_build.rs:127-135 *)
Definition display_square_matrix (m : rmat) : bytes :=
  str "SquareMatrix::new(" ++ display_usize (n_rows m) ++ str ", " ++
  display_usize (n_cols m) ++ str ", " ++ serialize_slice_f (elements m) ++ str ")".

(** poseidon_build.rs:137-147 *)
Definition serialize_slice_matrix_f (ms : seq rmat) : bytes :=
  let s := foldl (fun s m => s ++ (display_matrix m ++ str ", ")) (str "vec![") ms in
  rcons (pop (pop s)) 93%num.

(** poseidon_build.rs:107-115 *)
Definition display_alpha (a : alpha) : bytes :=
  match a with
  | Exponent e => str "Alpha::Exponent(" ++ display_N e ++ str ")"
  | Inverse => str "Alpha::Inverse"
  end.

(** poseidon_build.rs:191-235 *)
Definition display_optimized_mds (om : optimized_mds PF) : bytes :=
  str "OptimizedMdsMatrices {
                M_hat: " ++ display_square_matrix (om_M_hat om) ++ str ",
                v: " ++ display_matrix (om_v om) ++ str ",
                w: " ++ display_matrix (om_w om) ++ str ",
                M_prime: " ++ display_square_matrix (om_M_prime om) ++ str ",
                M_doubleprime: " ++ display_square_matrix (om_M_doubleprime om) ++ str ",
                M_inverse: " ++ display_square_matrix (om_M_inverse om) ++ str ",
                M_hat_inverse: " ++ display_square_matrix (om_M_hat_inverse om) ++ str ",
                M_00: " ++ serialize_f (om_M_00 om) ++ str ",
                M_i: " ++ display_matrix (om_M_i om) ++ str ",
                v_collection: " ++ serialize_slice_matrix_f (om_v_collection om) ++ str ",
                w_hat_collection: " ++ serialize_slice_matrix_f (om_w_hat_collection om) ++ str ",
            }".

(** poseidon_build.rs:237-247 *)
Definition display_mds_matrix (m : rmat) : bytes :=
  (str "MdsMatrix::from_elements(" ++ serialize_slice_f (elements m)) ++ str ")".

(** poseidon_build.rs:269-281 [optimized_arc_matrix_to_vec_vec]; also the
    conversion of an [ArcMatrix] into a [Vec<Vec<F>>] used at 256 (external: the
    older poseidon-parameters). *)
Definition arc_matrix_to_vec_vec (m : rmat) : outcome (seq (seq PF)) :=
  for_in (range 0 (n_rows m)) (fun i rows =>
    row <- for_in (range 0 (n_cols m)) (fun j row =>
             x <- get_element m i j ;; Ret (rcons row x)) [::] ;;
    Ret (rcons rows row)) [::].

(** poseidon_build.rs:249-267 *)
Definition display_arc_matrix (m : rmat) : outcome bytes :=
  elements <- arc_matrix_to_vec_vec m ;;
  Ret ((((((str "ArcMatrix::new(" ++ display_usize (n_rows m)) ++ str ", ") ++
        display_usize (n_cols m)) ++ str ", ") ++
        serialize_slice_of_vecs_f elements) ++ str ")").

(** poseidon_build.rs:283-301 *)
Definition display_optimized_arc_matrix (m : rmat) : outcome bytes :=
  elements <- arc_matrix_to_vec_vec m ;;
  Ret ((((((str "OptimizedArcMatrix::new(" ++ display_usize (n_rows m)) ++ str ", ") ++
        display_usize (n_cols m)) ++ str ", ") ++
        serialize_slice_of_vecs_f elements) ++ str ")").

(** poseidon_build.rs:61-105 *)
Definition display_params (p : params PF) : outcome bytes :=
  rate <- usub (p_t p) 1 ;;
  arc <- display_arc_matrix (p_arc p) ;;
  optimized_arc <- display_optimized_arc_matrix (p_optimized_arc p) ;;
  Ret (
  str "/// Parameters for the rate-" ++ display_usize rate ++ str " instance of Poseidon.
pub fn rate_" ++ display_usize rate ++ str "<F: PrimeField>() -> PoseidonParameters<F> {
    PoseidonParameters {
        M: " ++ display_usize (p_M p) ++ str ",
        t: " ++ display_usize (p_t p) ++ str ",
        arc: " ++ arc ++ str ",
        mds: " ++ display_mds_matrix (p_mds p) ++ str ",
        alpha: " ++ display_alpha (p_alpha p) ++ str ",
        rounds: RoundNumbers {r_P: " ++ display_usize (r_P (p_rounds p)) ++ str ", r_F: " ++
                                        display_usize (r_F (p_rounds p)) ++ str "},
        optimized_mds: " ++ display_optimized_mds (p_optimized_mds p) ++ str ",
        optimized_arc: " ++ optimized_arc ++ str ",
    }
}
").

(** poseidon_build.rs:23-25 *)
Definition v1_header : bytes :=
  str "use ark_ff::PrimeField;

use poseidon_parameters::v1::{Alpha, ArcMatrix, RoundNumbers, SquareMatrix, Matrix, MdsMatrix, OptimizedArcMatrix, OptimizedMdsMatrices, PoseidonParameters, MatrixOperations};

".

(** poseidon_build.rs:16-33, the call of [v1::generate] at 28 abstracted *)
Definition v1_compile (generate : nat -> outcome (params PF)) (t_values : seq nat) : outcome bytes :=
  for_in t_values (fun t code =>
    params <- generate t ;;
    text <- display_params params ;;
    Ret (code ++ text)) v1_header.

(** poseidon_build.rs:42-44 *)
Definition v2_header : bytes :=
  str "use ark_ff::PrimeField;

use poseidon_parameters::v2::{Alpha, ArcMatrix, RoundNumbers, SquareMatrix, Matrix, PoseidonParameters, MatrixOperations};

".

(** poseidon_build.rs:54-59 ([todo!()]) *)
Definition display_v2_params (p : params2 PF) : outcome bytes := Panic.

(** poseidon_build.rs:36-52 *)
Definition v2_compile (generate : nat -> outcome (params2 PF)) (t_values : seq nat) : outcome bytes :=
  for_in t_values (fun t code =>
    params <- generate t ;;
    text <- display_v2_params params ;;
    Ret (code ++ text)) v2_header.
End Build.
