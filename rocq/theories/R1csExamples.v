(** Concrete instances for the R1CS properties: the legality conditions are
    met, and a small gadget run. *)
From Coq Require Import ZArith.
From mathcomp Require Import all_ssreflect all_algebra.
From Verif Require Import Base Fq Matrix MatrixExamples Params Permutation PoseidonExamples.
From Verif Require Import R1cs R1csSpec R1csHash Properties_R1cs.
Import GRing.Theory.
Local Open Scope rust_scope.
Delimit Scope Z_scope with Z.

Local Notation fq := Fq_of_Z.
Definition panics {A} (o : outcome A) : bool := if o is Panic then true else false.

(** A system in proving mode with one public input of value 9 and one witness
    of value 3, and the constraint w * w = x; the same in setup mode. *)
Definition cs0 (setup : bool) : csys Fq_fieldType :=
  let wx := [:: (fq 1, Wit 0)] in
  Csys setup 1 (if setup then [::] else [:: fq 9]) 1 (if setup then [::] else [:: fq 3])
    [:: (wx, wx, [:: (fq 1, Inst 0)])].
Definition ds0 : fpvar Fq_fieldType := Constant (fq 2).
Definition w0 (setup : bool) : fpvar Fq_fieldType :=
  Var (Alloc (if setup then None else Some (fq 3)) [:: (fq 1, Wit 0)]).
(** The linear combination w + x + 5. *)
Definition x0 (setup : bool) : fpvar Fq_fieldType :=
  Var (Alloc (if setup then None else Some (fq 17))
    [:: (fq 1, Wit 0); (fq 1, Inst 0); (fq 5, One)]).

Lemma eqb_Fq (x y : Fq) : Z.eqb (fval x) (fval y) -> x == y.
Proof. by move=> /Z.eqb_eq E; apply/eqP/Fq_inj. Qed.

Lemma eval0 l : @eval_lc Fq_fieldType (asg (cs0 false)) l
  = foldr (fun kw acc => kw.1 * asg (cs0 false) kw.2 + acc)%R 0%R l.
Proof. by rewrite /eval_lc; elim: l => [|kw l IH]; rewrite ?big_nil ?big_cons //= IH. Qed.

Example cs0_wf b : wf_csys (cs0 b). Proof. by case: b; vm_compute. Qed.
Example cs0_sat : satisfies (asg (cs0 false)) (cs_cons (cs0 false)).
Proof. by rewrite /satisfies eqxx /= /holds !eval0; apply/andP; split=> //; apply: eqb_Fq; vm_compute. Qed.
Example legal1 b : legal (cs0 b) [:: ds0; w0 b].
Proof.
rewrite /legal cs0_wf; case: b => //=; rewrite eval0 !andbT; apply/eqP.
have E (x y : Fq) : x = y -> Some x = Some y by move=> ->.
by apply/E/Fq_inj; vm_compute.
Qed.
Example legal2 b : legal (cs0 b) [:: ds0; w0 b; x0 b].
Proof.
have /and3P [h1 h2 h3] := legal1 b.
rewrite /legal h1 /=; case: b {h1 h2 h3} => //=; rewrite !eval0 !andbT.
have E (x y : Fq) : x = y -> Some x = Some y by move=> ->.
by apply/eqP/E/Fq_inj; vm_compute.
Qed.

(** A run with small parameters (cube S-box, two full rounds, one partial):
    2 * (1 + 2 + 1) constraints, and the output is the native hash. *)
Definition tinyp := tiny (Exponent 3) 1 2.
Definition shows (o : outcome (fpvar Fq_fieldType * csys Fq_fieldType)) :=
  omap (fun r => (size (cs_cons r.2), cs_nwit r.2, [seq fval x | x <- cs_wit r.2],
     if r.1 is Var v then omap_opt fval (a_value v) else None)) o.
Example tiny_gadget :
  (r <- shows (r1cs_n_to_1_fixed_hash (fun _ => Panic) tinyp (cs0 false) [:: ds0; w0 false]) ;;
   Ret (r.1.1.1, r.1.1.2, size r.1.2, r.2))
  = (r <- unoptimized_n_to_1_fixed_hash tinyp [:: fq 2; fq 3] (instance_new tinyp) ;;
     Ret (9, 9, 9, Some (fval r.1))).
Proof. by vm_compute. Qed.
Example tiny_gadget_setup :
  shows (r1cs_n_to_1_fixed_hash (fun _ => Panic) tinyp (cs0 true) [:: ds0; w0 true])
  = Ret (9, 9, [::], None).
Proof. by vm_compute. Qed.
(** Constant inputs only, and the inverse S-box. *)
Example tiny_gadget_constants :
  panics (r1cs_n_to_1_fixed_hash (fun _ => Panic) tinyp (cs0 false) [:: ds0; ds0]).
Proof. by vm_compute. Qed.
Example tiny_gadget_inverse :
  panics (r1cs_n_to_1_fixed_hash (fun _ => Panic) (tiny Inverse 1 2) (cs0 false) [:: ds0; w0 false]).
Proof. by vm_compute. Qed.
(** An exponent of zero turns the words into constants, whence the hypothesis
    that it is positive. *)
Example tiny_gadget_exponent_0 :
  panics (r1cs_n_to_1_fixed_hash (fun _ => Panic) (tiny (Exponent 0) 1 2) (cs0 false) [:: ds0; w0 false]).
Proof. by vm_compute. Qed.

(** The numbers of constraints of property C12. *)
Example counts : [seq (5 * (n.+1 + 7 * n.+1 + 31), 5 * (n + 7 * n.+1 + 31)) | n <- iota 1 7]
  = [seq (5 * (8 * (n + 1) + 31), 5 * (8 * (n + 1) + 30)) | n <- iota 1 7].
Proof. by []. Qed.
