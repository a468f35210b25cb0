(** What a constraint system determines of the keys of the proof system: which
    variables occur in the left and right factors of its constraints. *)
From mathcomp Require Import all_ssreflect all_algebra.
From Verif Require Import Base R1cs.
Set Implicit Arguments.
Unset Strict Implicit.
Unset Printing Implicit Defensive.
Import GRing.Theory.
Local Open Scope ring_scope.

Definition same_wire (v w : wire) : bool :=
  match v, w with
  | One, One => true
  | Inst i, Inst j | Wit i, Wit j => i == j
  | _, _ => false
  end.

Section Spec.
Variable F : fieldType.

(** The coefficient of a wire in a linear combination, and whether it occurs in
    the left or right factor of a constraint *)
Definition coef (l : lc F) (w : wire) : F := \sum_(kw <- l | same_wire kw.2 w) kw.1.
Definition in_A (cs : csys F) (w : wire) : bool := has (fun c => coef c.1.1 w != 0) (cs_cons cs).
Definition in_B (cs : csys F) (w : wire) : bool := has (fun c => coef c.1.2 w != 0) (cs_cons cs).
Definition in_C (cs : csys F) (w : wire) : bool := has (fun c => coef c.2 w != 0) (cs_cons cs).

(** The variables in the order of the keys: one, public inputs, witnesses *)
Definition n_vars (cs : csys F) : nat := (1 + cs_ninst cs + cs_nwit cs)%N.
Definition wire_at (cs : csys F) (i : nat) : wire :=
  if i is i'.+1 then if (i' < cs_ninst cs)%N then Inst i' else Wit (i' - cs_ninst cs) else One.
End Spec.
