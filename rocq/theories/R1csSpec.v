(** What it means for an assignment to satisfy constraints. *)
From Coq Require Import NArith.
From mathcomp Require Import all_ssreflect all_algebra.
From Verif Require Import Base R1cs.
Set Implicit Arguments.
Unset Strict Implicit.
Unset Printing Implicit Defensive.
Import GRing.Theory.
Local Open Scope ring_scope.

Section Spec.
Variable F : fieldType.
Implicit Type a : wire -> F.

(** Value of a linear combination and of a circuit variable. *)
Definition eval_lc a (l : lc F) : F := \sum_(kw <- l) kw.1 * a kw.2.
Definition eval a (x : fpvar F) : F :=
  match x with Constant c => c | Var v => eval_lc a (a_lc v) end.

(** An assignment satisfies a list of constraints. *)
Definition holds a (c : constr F) : bool := eval_lc a c.1.1 * eval_lc a c.1.2 == eval_lc a c.2.
Definition satisfies a (cs : seq (constr F)) : bool := (a One == 1) && all (holds a) cs.

(** Wires that exist in a system with [m] public inputs and [n] witnesses. *)
Definition wire_in (m n : nat) (w : wire) : bool :=
  match w with One => true | Inst i => (i < m)%N | Wit i => (i < n)%N end.
Definition scoped (m n : nat) (l : lc F) : bool := all (fun kw => wire_in m n kw.2) l.
Definition scoped_constr (m n : nat) (c : constr F) : bool :=
  [&& scoped m n c.1.1, scoped m n c.1.2 & scoped m n c.2].

(** The assignment recorded in a constraint system. *)
Definition asg (cs : csys F) (w : wire) : F :=
  match w with One => 1 | Inst i => nth 0 (cs_inst cs) i | Wit i => nth 0 (cs_wit cs) i end.

(** A well-formed constraint system: its constraints mention existing wires,
    and outside of setup mode every wire has a value. *)
Definition wf_csys (cs : csys F) : bool :=
  all (scoped_constr (cs_ninst cs) (cs_nwit cs)) (cs_cons cs) &&
  (cs_setup cs || (size (cs_wit cs) == cs_nwit cs)).

(** A variable of a constraint system: it mentions existing wires, and outside
    of setup mode it knows its value. *)
Definition wf_var (cs : csys F) (x : fpvar F) : bool :=
  match x with
  | Constant _ => true
  | Var v => scoped (cs_ninst cs) (cs_nwit cs) (a_lc v) &&
      (cs_setup cs || (a_value v == Some (eval_lc (asg cs) (a_lc v))))
  end.

Definition is_var (x : fpvar F) : bool := if x is Var _ then true else false.
End Spec.

(** * What is claimed of a gadget call

    [g] is the outcome of a gadget call on the words [ws] in the system [cs];
    [h a] is the native function on the values that [a] gives to [ws]. *)
Section Gadget.
Variable F : fieldType.
Implicit Types (a : wire -> F) (cs : csys F) (ws : seq (fpvar F)).
Variables (cs : csys F) (ws : seq (fpvar F)) (g : outcome (fpvar F * csys F)).

(** Whatever the witness, the output is the native result. *)
Definition gadget_sound (h : (wire -> F) -> outcome F) : Prop :=
  forall out cs', g = Ret (out, cs') ->
  forall a, satisfies a (cs_cons cs') -> h a = Ret (eval a out).

(** The call returns, its result can be used further, the recorded assignment
    is extended and still satisfies everything, and every other assignment can
    be extended as well. *)
Definition gadget_complete : Prop :=
  exists out cs', [/\ g = Ret (out, cs'), wf_csys cs', wf_var cs' out,
    cs_setup cs = false -> satisfies (asg cs) (cs_cons cs) ->
      satisfies (asg cs') (cs_cons cs') /\
      (forall w, wire_in (cs_ninst cs) (cs_nwit cs) w -> asg cs' w = asg cs w) &
    forall a, satisfies a (cs_cons cs) -> exists a',
      satisfies a' (cs_cons cs') /\
      (forall w, wire_in (cs_ninst cs) (cs_nwit cs) w -> a' w = a w)].

(** The values of the new witnesses are determined by the values of the words. *)
Definition gadget_unique : Prop :=
  forall out cs', g = Ret (out, cs') ->
  forall a a', satisfies a (cs_cons cs') -> satisfies a' (cs_cons cs') ->
  map (eval a) ws = map (eval a') ws ->
  forall i, (cs_nwit cs <= i < cs_nwit cs')%N -> a (Wit i) = a' (Wit i).

(** [k] witnesses and [k] constraints are added; nothing else changes. *)
Definition gadget_cost (k : nat) : Prop :=
  forall out cs', g = Ret (out, cs') ->
  [/\ cs_nwit cs' = (cs_nwit cs + k)%N, cs_ninst cs' = cs_ninst cs, cs_inst cs' = cs_inst cs,
      cs_setup cs' = cs_setup cs &
      exists new, cs_cons cs' = cs_cons cs ++ new /\ size new = k].
End Gadget.

(** What remains of a system and of a variable when values are ignored. *)
Definition shape_of_cs (F : fieldType) (cs : csys F) := (cs_ninst cs, cs_nwit cs, cs_cons cs).
Definition shape_of_var (F : fieldType) (x : fpvar F) : F + lc F :=
  match x with Constant c => inl c | Var v => inr (a_lc v) end.

(** Multiplications of a square-and-multiply exponentiation: one per bit and one
    per one-bit, except for the leading bit. *)
Fixpoint ones (p : positive) : nat :=
  match p with xH => 1 | xO p => ones p | xI p => (ones p).+1 end%N.
Definition mul_count (e : N) : nat :=
  if e is Npos p then (N.to_nat (N.log2 e) + (ones p).-1)%N else 0%N.
