(** Model of /repo/poseidon-permutation/src/r1cs.rs, on top of a model of the
    parts of ark-relations 0.4 and ark-r1cs-std 0.4 that it uses (external,
    contract: see DESIGN.md). [r1cs.rs] of the crate poseidon377 is in
    R1csHash.v.

    Simplification: symbolic linear combinations ([Variable::SymbolicLc]) are
    inlined when they are created, as [inline_all_lcs] does later; all variables
    live in one constraint system. *)
From Coq Require Import NArith.
From mathcomp Require Import all_ssreflect all_algebra.
From Verif Require Import Base Matrix Params Permutation.
Set Implicit Arguments.
Unset Strict Implicit.
Unset Printing Implicit Defensive.
Import GRing.Theory.
Local Open Scope ring_scope.
Local Open Scope rust_scope.

(** * Constraint systems and [FpVar] (external) *)

Inductive wire := One | Inst of nat | Wit of nat.

(** Bits of a number, most significant first, without leading zeros
    ([BitIteratorBE::without_leading_zeros]). *)
Fixpoint pos_bits (p : positive) : seq bool :=
  match p with
  | xH => [:: true]
  | xO p => rcons (pos_bits p) false
  | xI p => rcons (pos_bits p) true
  end.
Definition bits_be (n : N) : seq bool := if n is Npos p then pos_bits p else [::].

Definition omap_opt {A B} (f : A -> B) (o : option A) : option B :=
  if o is Some x then Some (f x) else None.

Section R1cs.
Variable F : fieldType.

Definition lc := seq (F * wire).
Definition constr := (lc * lc * lc)%type.

(** [AllocatedFp] *)
Record alloc := Alloc { a_value : option F; a_lc : lc }.
(** [FpVar] *)
Inductive fpvar := Constant of F | Var of alloc.

(** [ConstraintSystem]: mode, public inputs, number of witnesses, their
    assignment (empty in setup mode) and constraints [a * b = c]. *)
Record csys := Csys {
  cs_setup : bool;
  cs_ninst : nat;
  cs_inst : seq F;
  cs_nwit : nat;
  cs_wit : seq F;
  cs_cons : seq constr }.

(** [AllocatedFp::new_witness]: in setup mode the value closure is not run;
    otherwise a missing value is an error, which the caller unwraps. *)
Definition new_witness (v : option F) (cs : csys) : outcome (alloc * csys) :=
  let var := [:: (1, Wit (cs_nwit cs))] in
  if cs_setup cs then
    Ret (Alloc None var,
         Csys true (cs_ninst cs) (cs_inst cs) (cs_nwit cs).+1 (cs_wit cs) (cs_cons cs))
  else
    match v with
    | Some x => Ret (Alloc (Some x) var,
         Csys false (cs_ninst cs) (cs_inst cs) (cs_nwit cs).+1 (rcons (cs_wit cs) x) (cs_cons cs))
    | None => Panic
    end.

(** [enforce_constraint] *)
Definition enforce (a b c : lc) (cs : csys) : csys :=
  Csys (cs_setup cs) (cs_ninst cs) (cs_inst cs) (cs_nwit cs) (cs_wit cs)
    (rcons (cs_cons cs) (a, b, c)).

Definition value2 (f : F -> F -> F) (a b : option F) : option F :=
  match a, b with Some x, Some y => Some (f x y) | _, _ => None end.

(** [AllocatedFp::mul] *)
Definition alloc_mul (a b : alloc) (cs : csys) : outcome (alloc * csys) :=
  cc <- new_witness (value2 *%R (a_value a) (a_value b)) cs ;;
  let: (c, cs) := cc in
  Ret (c, enforce (a_lc a) (a_lc b) (a_lc c) cs).

(** [AllocatedFp::add_constant] and [mul_constant] *)
Definition add_constant (a : alloc) (k : F) : alloc :=
  if k == 0 then a
  else Alloc (omap_opt (fun x => x + k) (a_value a)) (rcons (a_lc a) (k, One)).
Definition mul_constant (a : alloc) (k : F) : alloc :=
  if k == 1 then a
  else Alloc (omap_opt (fun x => x * k) (a_value a)) [seq (kw.1 * k, kw.2) | kw <- a_lc a].

(** [FpVar + F] *)
Definition fp_add_const (x : fpvar) (k : F) : fpvar :=
  match x with
  | Constant c => Constant (c + k)
  | Var a => Var (add_constant a k)
  end.

(** [FpVar * FpVar] *)
Definition fp_mul (x y : fpvar) (cs : csys) : outcome (fpvar * csys) :=
  match x, y with
  | Constant c, Constant d => Ret (Constant (c * d), cs)
  | Constant c, Var a => Ret (Var (mul_constant a c), cs)
  | Var a, Constant c => Ret (Var (mul_constant a c), cs)
  | Var a, Var b => rc <- alloc_mul a b cs ;; Ret (Var rc.1, rc.2)
  end.

(** [FieldVar::pow_by_constant] *)
Definition pow_by_constant (x : fpvar) (e : N) (cs : csys) : outcome (fpvar * csys) :=
  for_in (bits_be e) (fun b rc =>
    let: (res, cs) := rc in
    rc <- fp_mul res res cs ;;
    let: (res, cs) := rc in
    if b then fp_mul res x cs else Ret (res, cs)) (Constant 1, cs).

(** [AllocatedFp::addmany] *)
Definition addmany (vs : seq alloc) : alloc :=
  Alloc (foldl (fun acc a => value2 +%R acc (a_value a)) (Some 0) vs)
        (flatten (map a_lc vs)).

(** [Sum for FpVar].  When there is no variable among the summands,
    ark-r1cs-std 0.4 is believed to panic for want of a constraint system; what
    it does is left open ([empty_sum]), and does not matter for the theorems. *)
Variable empty_sum : F -> outcome fpvar.
Definition fp_sum (xs : seq fpvar) : outcome fpvar :=
  let k := foldl (fun acc x => if x is Constant c then acc + c else acc) 0 xs in
  let vs := pmap (fun x => if x is Var a then Some a else None) xs in
  if vs is [::] then empty_sum k else Ret (Var (add_constant (addmany vs) k)).

(** * The gadget *)
Variable p : params F.
Let STATE_SIZE := p_t p.
Let R_f := ((r_F (p_rounds p)) %/ 2)%N.
Let R_P := r_P (p_rounds p).

(** The mutable part of [InstanceVar] (r1cs.rs:10-38). *)
Definition rstate := (seq fpvar * csys)%type.

(** r1cs.rs:132-141 *)
Definition r1cs_partial_sub_words (s : rstate) : outcome rstate :=
  match p_alpha p with
  | Exponent e =>
    let: (ws, cs) := s in
    x <- aget ws 0 ;;
    rc <- pow_by_constant x e cs ;;
    ws <- aset ws 0 rc.1 ;;
    Ret (ws, rc.2)
  | Inverse => Panic
  end.

(** r1cs.rs:144-157 *)
Definition r1cs_full_sub_words (s : rstate) : outcome rstate :=
  match p_alpha p with
  | Exponent e =>
    for_in (range 0 STATE_SIZE) (fun i s =>
      let: (ws, cs) := s in
      x <- aget ws i ;;
      rc <- pow_by_constant x e cs ;;
      ws <- aset ws i rc.1 ;;
      Ret (ws, rc.2)) s
  | Inverse => Panic
  end.

(** [FpVar::new_constant(x) * y] for a field constant x (r1cs.rs:171-172): no
    constraint. *)
Definition const_mul (k : F) (y : fpvar) : fpvar :=
  match y with
  | Constant c => Constant (k * c)
  | Var a => Var (mul_constant a k)
  end.

(** r1cs.rs:160-180; [collect] into a new vector *)
Definition r1cs_mix_layer_mds (s : rstate) : outcome rstate :=
  let: (ws, cs) := s in
  rows <- iter_rows (p_mds p) ;;
  ws <- for_in rows (fun row acc =>
          r <- fp_sum [seq const_mul xy.1 xy.2 | xy <- zip row ws] ;;
          Ret (rcons acc r)) [::] ;;
  Ret (ws, cs).

(** The loops at r1cs.rs:100-103, 111-114, 122-125. *)
Definition r1cs_add_constants (round_constants : seq F) (sc : rstate * nat) : outcome (rstate * nat) :=
  for_in (range 0 STATE_SIZE) (fun i sc =>
    let: (ws, cs, counter) := sc in
    x <- aget ws i ;; k <- aget round_constants counter ;;
    ws <- aset ws i (fp_add_const x k) ;;
    Ret (ws, cs, counter.+1)) sc.

(** r1cs.rs:91-129 *)
Definition r1cs_permute (s : rstate) : outcome rstate :=
  let round_constants := elements (p_arc p) in
  let full_round := fun (_ : nat) sc =>
        sc <- r1cs_add_constants round_constants sc ;;
        let: (s, counter) := sc in
        s <- r1cs_full_sub_words s ;;
        s <- r1cs_mix_layer_mds s ;;
        Ret (s, counter) in
  let partial_round := fun (_ : nat) sc =>
        sc <- r1cs_add_constants round_constants sc ;;
        let: (s, counter) := sc in
        s <- r1cs_partial_sub_words s ;;
        s <- r1cs_mix_layer_mds s ;;
        Ret (s, counter) in
  sc <- for_in (range 0 R_f) full_round (s, 0%N) ;;
  sc <- for_in (range 0 R_P) partial_round sc ;;
  sc <- for_in (range 0 R_f) full_round sc ;;
  Ret sc.1.

(** r1cs.rs:61-88: the result and the constraint system afterwards. *)
Definition r1cs_n_to_1_fixed_hash (cs : csys) (input_words : seq fpvar) : outcome (fpvar * csys) :=
  s <- r1cs_permute (input_words, cs) ;;
  out <- aget s.1 1 ;;
  Ret (out, s.2).
End R1cs.
