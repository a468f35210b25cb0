(** A Boolean check of a parameter set, generic in the arithmetic, so that it can
    be run on machine integers and transferred to a field.

    [check_params] decides (soundly) that the optimized matrices and constants of
    a parameter set satisfy the equations of [Spec.v], that the MDS matrix has
    the Cauchy entries 1/(i+t+j) and that the other derived matrices are what
    their names say. *)
From mathcomp Require Import all_ssreflect all_algebra.
From Verif Require Import Base Matrix MatrixSpec MatrixProofs Params Permutation Spec PermutationProofs.
Set Implicit Arguments.
Unset Strict Implicit.
Unset Printing Implicit Defensive.
Import GRing.Theory.
Local Open Scope ring_scope.

Record ops (A : Type) := Ops {
  o0 : A; o1 : A;
  oadd : A -> A -> A; osub : A -> A -> A; omul : A -> A -> A;
  oeq : A -> A -> bool;
  onat : nat -> A }.

Section Check.
Variables (A : Type) (o : ops A).

Definition dot (a b : seq A) : A :=
  foldl (fun acc xy => oadd o acc (omul o xy.1 xy.2)) (o0 o) (zip a b).
Definition eqv (a b : seq A) : bool := all2 (oeq o) a b.
Definition eqm (a b : seq (seq A)) : bool := all2 eqv a b.
Definition rows (r c : nat) (els : seq A) : seq (seq A) :=
  [seq take c (drop (i * c) els) | i <- iota 0 r].
Definition cols (c : nat) (m : seq (seq A)) : seq (seq A) :=
  [seq [seq nth (o0 o) r j | r <- m] | j <- iota 0 c].
Definition mulv (m : seq (seq A)) (v : seq A) : seq A := [seq dot r v | r <- m].
Definition mulm (c : nat) (m n : seq (seq A)) : seq (seq A) :=
  let nt := cols c n in [seq mulv nt r | r <- m].
Definition unitm (n : nat) : seq (seq A) :=
  [seq [seq if i == j then o1 o else o0 o | j <- iota 0 n] | i <- iota 0 n].
Definition vsub (a b : seq A) : seq A := [seq osub o xy.1 xy.2 | xy <- zip a b].

(** Blocks of a matrix given by rows. *)
Definition b00 (m : seq (seq A)) : A := head (o0 o) (head [::] m).
Definition b01 (m : seq (seq A)) : seq A := behead (head [::] m).
Definition b10 (m : seq (seq A)) : seq A := [seq head (o0 o) r | r <- behead m].
Definition b11 (m : seq (seq A)) : seq (seq A) := [seq behead r | r <- behead m].

Section Factor.
Variables (t1 : nat) (M Mi : seq (seq A)).
Fixpoint factor_loop (N : seq (seq A)) (vs ws : seq (rmat A)) : bool :=
  match vs, ws with
  | [::], [::] =>
    [&& oeq o (b00 Mi) (o1 o), eqv (b01 Mi) (nseq t1 (o0 o)), eqv (b10 Mi) (nseq t1 (o0 o)) &
        eqm (b11 Mi) N]
  | v :: vs, w :: ws =>
    let N' := mulm t1 N (b11 M) in
    [&& eqv (elements v) (mulv N (b10 M)), eqv (mulv (cols t1 N') (elements w)) (b01 M) &
        factor_loop N' vs ws]
  | _, _ => false
  end.
End Factor.

Definition add_head (x : A) (s : seq A) : seq A :=
  match s with [::] => [::] | y :: s => oadd o y x :: s end.

Fixpoint const_loop (M : seq (seq A)) (e : seq A) (cs ds : seq (seq A)) : bool :=
  match cs with
  | [::] => false
  | [:: c] => eqv e c
  | c :: cs' =>
    match ds with
    | [::] => false
    | d :: ds' =>
      oeq o (head (o0 o) e) (head (o0 o) c) &&
      const_loop M (mulv M (add_head (head (o0 o) d) (vsub e c))) cs' ds'
    end
  end.

Lemma const_loopSS M e c c' cs d ds :
  const_loop M e (c :: c' :: cs) (d :: ds) =
  oeq o (head (o0 o) e) (head (o0 o) c) &&
  const_loop M (mulv M (add_head (head (o0 o) d) (vsub e c))) (c' :: cs) ds.
Proof. by []. Qed.

Definition check_factor (p : params A) : bool :=
  let t := p_t p in let t1 := p_t1 p in
  let om := p_optimized_mds p in
  let M := rows t t (elements (p_mds p)) in
  let Mi := rows t t (elements (om_M_i om)) in
  oeq o (om_M_00 om) (b00 M) &&
  factor_loop t1 M Mi (unitm t1) (om_v_collection om) (om_w_hat_collection om).

Definition check_consts (p : params A) : bool :=
  let t := p_t p in
  let Rf := (r_F (p_rounds p) %/ 2)%N in
  let Rp := r_P (p_rounds p) in
  let R := rounds_total (p_rounds p) in
  let M := rows t t (elements (p_mds p)) in
  let cs := rows R t (elements (p_arc p)) in
  let ds := rows R t (elements (p_optimized_arc p)) in
  [&& eqm (take Rf ds) (take Rf cs),
      eqm (take Rf (drop (Rf + Rp) ds)) (take Rf (drop (Rf + Rp) cs)) &
      const_loop M (nth [::] ds Rf) (take Rp (drop Rf cs)) (take Rp.-1 (drop Rf.+1 ds))].

Definition check_cauchy (p : params A) : bool :=
  let t := p_t p in
  let M := rows t t (elements (p_mds p)) in
  all (fun i => all (fun j =>
    oeq o (omul o (nth (o0 o) (nth [::] M i) j) (onat o (i + t + j))) (o1 o))
    (iota 0 t)) (iota 0 t).

(** M_inverse, M_hat_inverse, M_hat, v, w, M', M''. *)
Definition check_derived (p : params A) : bool :=
  let t := p_t p in let t1 := p_t1 p in
  let om := p_optimized_mds p in
  let M := rows t t (elements (p_mds p)) in
  let M' := rows t t (elements (om_M_prime om)) in
  let M'' := rows t t (elements (om_M_doubleprime om)) in
  [&& eqm (mulm t M (rows t t (elements (om_M_inverse om)))) (unitm t),
      eqm (rows t1 t1 (elements (om_M_hat om))) (b11 M),
      eqm (mulm t1 (b11 M) (rows t1 t1 (elements (om_M_hat_inverse om)))) (unitm t1),
      eqv (elements (om_v om)) (b01 M) & eqv (elements (om_w om)) (b10 M)] &&
  [&& eqm (mulm t M' M'') M,
      oeq o (b00 M') (o1 o), eqv (b01 M') (nseq t1 (o0 o)), eqv (b10 M') (nseq t1 (o0 o)) &
      eqm (b11 M'') (unitm t1)].

Definition check_params (p : params A) : bool :=
  [&& wf_params p, wf_unused p, check_cauchy p, check_factor p & check_consts p && check_derived p].
End Check.

(** * Transfer along a homomorphism *)
Section Transfer.
Variables (A B : Type) (o : ops A) (o' : ops B) (phi : A -> B).
Hypothesis phi0 : phi (o0 o) = o0 o'.
Hypothesis phi1 : phi (o1 o) = o1 o'.
Hypothesis phi_add : forall a b, phi (oadd o a b) = oadd o' (phi a) (phi b).
Hypothesis phi_sub : forall a b, phi (osub o a b) = osub o' (phi a) (phi b).
Hypothesis phi_mul : forall a b, phi (omul o a b) = omul o' (phi a) (phi b).
Hypothesis phi_eq : forall a b, oeq o a b -> oeq o' (phi a) (phi b).
Hypothesis phi_nat : forall n, phi (onat o n) = onat o' n.

Local Notation vphi := (map phi).
Local Notation mphi := (map (map phi)).

Lemma dot_phi a b : phi (dot o a b) = dot o' (vphi a) (vphi b).
Proof.
rewrite /dot -phi0; move: (o0 o) => z; elim: a b z => [|x a IH] [|y b] z //=.
by rewrite IH phi_add phi_mul.
Qed.

Lemma eqv_phi a b : eqv o a b -> eqv o' (vphi a) (vphi b).
Proof. by elim: a b => [|x a IH] [|y b] //= /andP [/phi_eq -> /IH ->]. Qed.

Lemma eqm_phi a b : eqm o a b -> eqm o' (mphi a) (mphi b).
Proof. by elim: a b => [|x a IH] [|y b] //= /andP [/eqv_phi -> /IH ->]. Qed.

Lemma rows_phi r c els : mphi (rows r c els) = rows r c (vphi els).
Proof. by rewrite /rows -map_comp; apply: eq_map => i /=; rewrite map_take map_drop. Qed.

Lemma nth_phi r j : phi (nth (o0 o) r j) = nth (o0 o') (vphi r) j.
Proof. by elim: r j => [|x r IH] [|j] //=. Qed.

Lemma head_phi r : phi (head (o0 o) r) = head (o0 o') (vphi r).
Proof. by case: r. Qed.

Lemma cols_phi c m : mphi (cols o c m) = cols o' c (mphi m).
Proof.
rewrite /cols -map_comp; apply: eq_map => j /=; rewrite -!map_comp.
by apply: eq_map => r /=; rewrite nth_phi.
Qed.

Lemma mulv_phi m v : vphi (mulv o m v) = mulv o' (mphi m) (vphi v).
Proof. by rewrite /mulv -!map_comp; apply: eq_map => r /=; rewrite dot_phi. Qed.

Lemma mulm_phi c m n : mphi (mulm o c m n) = mulm o' c (mphi m) (mphi n).
Proof.
by rewrite /mulm -!map_comp; apply: eq_map => r /=; rewrite mulv_phi cols_phi.
Qed.

Lemma unitm_phi n : mphi (unitm o n) = unitm o' n.
Proof.
rewrite /unitm -map_comp; apply: eq_map => i /=; rewrite -map_comp; apply: eq_map => j /=.
by case: eqP; rewrite ?phi0 ?phi1.
Qed.

Lemma nseq_phi n : vphi (nseq n (o0 o)) = nseq n (o0 o').
Proof. by rewrite map_nseq phi0. Qed.

Lemma vsub_phi a b : vphi (vsub o a b) = vsub o' (vphi a) (vphi b).
Proof. by elim: a b => [|x a IH] [|y b] //; rewrite /= phi_sub; congr cons; apply: IH. Qed.

Lemma add_head_phi x s : vphi (add_head o x s) = add_head o' (phi x) (vphi s).
Proof. by case: s => //= y s; rewrite phi_add. Qed.

Lemma b00_phi m : phi (b00 o m) = b00 o' (mphi m).
Proof. by case: m => [|[|x r] m]. Qed.
Lemma b01_phi m : vphi (b01 m) = b01 (mphi m).
Proof. by case: m => [|[|x r] m]. Qed.
Lemma b10_phi m : vphi (b10 o m) = b10 o' (mphi m).
Proof.
by case: m => [|r0 m] //=; rewrite /b10 /= -!map_comp; apply: eq_map => r /=; rewrite head_phi.
Qed.
Lemma b11_phi m : mphi (b11 m) = b11 (mphi m).
Proof.
by case: m => [|r0 m] //=; rewrite /b11 /= -!map_comp; apply: eq_map => -[|x r].
Qed.

Lemma factor_loop_phi t1 M Mi N vs ws :
  factor_loop o t1 M Mi N vs ws ->
  factor_loop o' t1 (mphi M) (mphi Mi) (mphi N) (map (map_rmat phi) vs) (map (map_rmat phi) ws).
Proof.
elim: vs ws N => [|v vs IH] [|w ws] N //=.
- case/and4P=> /phi_eq h1 /eqv_phi h2 /eqv_phi h3 /eqm_phi h4.
  by rewrite -b00_phi -b01_phi -b10_phi -b11_phi -phi1 -nseq_phi h1 h2 h3 h4.
- case/and3P=> /eqv_phi h1 /eqv_phi h2 /IH h3.
  by rewrite -b10_phi -b01_phi -b11_phi -mulm_phi -cols_phi -!mulv_phi h1 h2 h3.
Qed.

Lemma const_loop_phi M e cs ds :
  const_loop o M e cs ds -> const_loop o' (mphi M) (vphi e) (mphi cs) (mphi ds).
Proof.
elim: cs e ds => [|c [|c' cs] IH] e ds //; first by move/eqv_phi.
case: ds => [|d ds] //; rewrite const_loopSS => /andP [/phi_eq h1 /IH h2].
rewrite -[mphi (c :: c' :: cs)]/(vphi c :: vphi c' :: mphi cs) -[mphi (d :: ds)]/(vphi d :: mphi ds).
by rewrite const_loopSS -!head_phi h1 -vsub_phi -add_head_phi -mulv_phi; exact: h2.
Qed.

Lemma wf_shape_map r c (m : rmat A) : wf_shape r c (map_rmat phi m) = wf_shape r c m.
Proof. by rewrite /wf_shape /= size_map. Qed.

Lemma all_wf_shape_map r c (l : seq (rmat A)) :
  all (wf_shape r c) (map (map_rmat phi) l) = all (wf_shape r c) l.
Proof. by rewrite all_map; apply: eq_all => m /=; rewrite wf_shape_map. Qed.

Lemma wf_params_map (p : params A) : wf_params (map_params phi p) = wf_params p.
Proof. by rewrite /wf_params /= !wf_shape_map !size_map !all_wf_shape_map. Qed.

Lemma wf_unused_map (p : params A) : wf_unused (map_params phi p) = wf_unused p.
Proof. by rewrite /wf_unused /= !wf_shape_map. Qed.

Lemma check_factor_phi p : check_factor o p -> check_factor o' (map_params phi p).
Proof.
case/andP=> /phi_eq h1 /factor_loop_phi; rewrite /check_factor /= -!rows_phi unitm_phi.
by rewrite -b00_phi h1.
Qed.

Lemma nth_mphi m i : nth [::] (mphi m) i = vphi (nth [::] m i).
Proof. by elim: m i => [|r m IH] [|i] //=. Qed.

Lemma check_consts_phi p : check_consts o p -> check_consts o' (map_params phi p).
Proof.
case/and3P=> /eqm_phi h1 /eqm_phi h2 /const_loop_phi h3.
move: h1 h2 h3; rewrite !map_take !map_drop -nth_mphi !rows_phi => h1 h2 h3.
by apply/and3P; split; [exact: h1|exact: h2|exact: h3].
Qed.

Lemma check_cauchy_phi p : check_cauchy o p -> check_cauchy o' (map_params phi p).
Proof.
rewrite /check_cauchy /= => /allP H; apply/allP => i /H /allP H'; apply/allP => j /H' /phi_eq.
by rewrite phi_mul nth_phi -nth_mphi rows_phi phi_nat phi1.
Qed.

Lemma check_derived_phi p : check_derived o p -> check_derived o' (map_params phi p).
Proof.
rewrite /check_derived /= -!rows_phi => /andP [].
case/and5P=> /eqm_phi; rewrite mulm_phi unitm_phi => -> /eqm_phi; rewrite b11_phi => ->.
move=> /eqm_phi; rewrite mulm_phi unitm_phi b11_phi => -> /eqv_phi; rewrite b01_phi => ->.
move=> /eqv_phi; rewrite b10_phi => -> /=.
case/and5P=> /eqm_phi; rewrite mulm_phi => -> /phi_eq; rewrite b00_phi phi1 => ->.
move=> /eqv_phi; rewrite b01_phi nseq_phi => -> /eqv_phi; rewrite b10_phi nseq_phi => ->.
by move=> /eqm_phi; rewrite b11_phi unitm_phi => ->.
Qed.

Lemma check_params_phi p : check_params o p -> check_params o' (map_params phi p).
Proof.
case/and5P=> h1 h2 /check_cauchy_phi h3 /check_factor_phi h4 /andP [/check_consts_phi h5].
by move=> /check_derived_phi h6; rewrite /check_params wf_params_map wf_unused_map h1 h2 h3 h4 h5 h6.
Qed.
End Transfer.
