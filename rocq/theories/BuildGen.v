(** Files printed for generated parameter sets: proofs. *)
From Coq Require Import ZArith NArith Reals Lia Ascii String.
From mathcomp Require Import all_ssreflect all_algebra.
From Verif Require Import Base Matrix Params Bytes PrimeField Alpha AlphaProofs Transcript Mds V1 V1Proofs.
From Verif Require Import Rounds RoundsSpec RoundsProps WholeGenerator Slia Build BuildSpec BuildProofs BuildFile.
Set Implicit Arguments.
Unset Strict Implicit.
Unset Printing Implicit Defensive.
Delimit Scope Z_scope with Z.

Lemma all_In A (p : pred A) s x : all p s -> List.In x s -> p x.
Proof. by elim: s => //= y s IH /andP [hy hs] [<- //|]; apply: IH. Qed.

Section Shape.
Variable PF : prime_field.

Lemma wf_printable r c (m : rmat PF) : wf_shape r c m -> (0 < r)%N -> (0 < c)%N -> fits r -> fits c -> printable m.
Proof.
case/and3P=> /eqP er /eqP ec /eqP es r0 c0 fr fc; rewrite /printable er ec es; split=> //.
by rewrite muln_gt0 r0.
Qed.

Lemma fits_le a b : (a <= b)%N -> fits b -> fits a.
Proof. by rewrite /fits; move: (2 ^ 64)%num => k h h'; slia. Qed.

(** Everything of a well-formed parameter set can be printed. *)
Lemma wf_params_printable (P : params PF) : wf_params P -> wf_unused P -> (1 < p_t P)%N ->
  (0 < r_P (p_rounds P))%N -> fits (p_M P) -> fits (p_t P) -> fits (rounds_total (p_rounds P)) ->
  (if p_alpha P is Exponent e then (e < 2 ^ 32)%num else True) -> printable_params P.
Proof.
case/and5P=> /eqP et wm wa wo /and5P [wi /eqP sv av /eqP sw aw].
case/and5P=> u1 u2 u3 u4 /and3P [u5 u6 u7] t1 r0 fM ft fR ha.
have f1 : fits 1 by [].
have t10 : (0 < p_t1 P)%N by move: t1; rewrite et.
have ft1 : fits (p_t1 P) by apply: fits_le ft; rewrite et.
have t0 : (0 < p_t P)%N by rewrite et.
have R0 : (0 < rounds_total (p_rounds P))%N by rewrite addn_gt0 r0.
have pr := wf_printable.
split=> //.
- by split=> //; rewrite et.
- split; [exact: pr wa _ _ _ _ | exact: pr wo _ _ _ _ | exact: pr wm _ _ _ _ |].
  by case/and3P: wm => /eqP -> /eqP ->.
- split; apply: fits_le fR; [exact: leq_addr | exact: leq_addl].
- split; first by split; [exact: pr u1 _ _ _ _ | exact: pr u2 _ _ _ _ | exact: pr u3 _ _ _ _ | exact: pr u4 _ _ _ _].
  + by split; [exact: pr u5 _ _ _ _ | exact: pr u6 _ _ _ _ | exact: pr u7 _ _ _ _ | exact: pr wi _ _ _ _].
  + by rewrite sv; split=> // m /(all_In av) h; exact: pr h _ _ _ _.
  + by rewrite sw; split=> // m /(all_In aw) h; exact: pr h _ _ _ _.
Qed.
End Shape.

Section Generated.
Variables (lm : libm) (PF : prime_field) (Me : merlin) (M : N) (limbs : nat) (allow : bool).
Notation p := (pf_p PF).
Notation gen := (fun t => v1_generate PF Me (log2 lm) (v1_rounds lm) M t p limbs allow).

Lemma generated_printable t P : gen t = Ret P -> p_t P = t /\ printable_params P.
Proof.
move=> gP.
have : ~~ (1 < t <= 8)%N \/ (p < 2 ^ 127)%Z -> False.
  by move/(@v1_generate_panics _ PF Me (log2 lm) (v1_rounds lm) M limbs allow t); rewrite gP.
move=> H; have Ht : (1 < t <= 8)%N by apply/negPn/negP => N; apply: H; left.
have big : (2 ^ 127 <= p)%Z by apply/Z.nlt_ge => N; apply: H; right.
have [e1 e2] : alpha_generate PF p allow = Ret (p_alpha P) /\
  v1_rounds lm (input_generate (log2 lm) M t p limbs allow) (p_alpha P) = Ret (p_rounds P).
  move: gP; rewrite /v1_generate; case Ea: (alpha_generate _ _ _) => [a|] //=.
  case Er: (v1_rounds lm _ a) => [r|] //=.
  case: (v1_generate_mds _ _) => [m|] //=; case: (v1_generate_arc _ _ _ _ _) => [arc|] //=.
  by case: (mds_generate_optimized _ _ _) => [om|] //=; case: (arc_generate_optimized _ _ _ _) => [d|] //= [<-].
set i := input_generate (log2 lm) M t p limbs allow in e2.
have ts : (N.of_nat (in_t i) < 2 ^ 56)%num by case/andP: Ht => H1 H2; rewrite -[in_t i]/t; clear -H2; slia.
have t1 : (1 <= in_t i)%N by case/andP: Ht => H1 _; rewrite -[in_t i]/t; clear -H1; slia.
have [hM [c Hc]] := proj1 (@v1_search lm i (p_alpha P) (p_rounds P) t1 ts) e2.
have r0 := margin_positive Hc.
have [ht _ wf wfu [et eM _ _ _]] := returned_shape gP r0.
split=> //; apply: wf_params_printable => //; rewrite ?et ?eM.
- by case/andP: Ht.
- by rewrite /fits N2Nat.id; apply: N.le_lt_trans hM _.
- by rewrite /fits; case/andP: Ht => H1 H2; clear -H2; slia.
- rewrite /fits /rounds_total; case: Hc => -[_ c1 _ c2] _ [h1 _ h2] _.
  by move: (p_rounds P) h1 h2 => r h1 h2; clear -c1 c2 h1 h2; slia.
- case E: (p_alpha P) => [e|] //; rewrite E in e1.
  have p128 : (128 < p)%Z by apply: Z.lt_le_trans big.
  by have [] := exponent_range p128 e1.
Qed.

Lemma compile_good ts code : v1_compile gen ts = Ret code -> good gen ts.
Proof.
move=> E t ht; case gt: (gen t) => [P|].
  by have [? ?] := generated_printable gt; exists P.
by move: E; rewrite (compile_panics ht gt).
Qed.

Theorem generated_file ts code : v1_compile gen ts = Ret code -> uniq ts ->
  forall t, t \in ts -> exists P, gen t = Ret P /\ run_file PF code (str "rate_" ++ display_usize t.-1) = Some P.
Proof.
move=> E ut t ht; have hg := compile_good E; have [P [gP _ _]] := hg t ht.
by exists P; split=> //; apply: compile_runs E ht gP.
Qed.

Theorem generated_file_functions ts code : v1_compile gen ts = Ret code -> exists prog,
  parse_file code = Some prog /\ fn_names prog = [seq str "rate_" ++ display_usize t.-1 | t <- ts].
Proof. by move=> E; exact: (compile_functions (compile_good E) E). Qed.

Theorem generated_file_duplicates ts code name : v1_compile gen ts = Ret code -> ~~ uniq ts ->
  run_file PF code name = None.
Proof. by move=> E ut; exact: (compile_duplicates _ (compile_good E) ut E). Qed.

Theorem generated_file_exists ts : (forall t, t \in ts -> gen t <> Panic) <-> exists code, v1_compile gen ts = Ret code.
Proof.
split=> [h|[code E] t ht gt]; last by move: E; rewrite (compile_panics ht gt).
apply: compile_succeeds => t ht; case gt: (gen t) => [P|]; last by case: (h t ht).
by have [? ?] := generated_printable gt; exists P.
Qed.
End Generated.

(** * Slices (C46) *)

Section Slices.
Variable PF : prime_field.

Lemma lexes_lex s ts : lexes s ts -> lex s = Some ts.
Proof.
move=> ls; have := ls 32%num [::] isT; rewrite lex_run_cat -[lex_run MNone [:: _]]/(MNone, [::] : seq tok).
rewrite /lex; case: (lex_run MNone s) => m t0; rewrite -[(m, t0).2]/t0 -[(m, t0).1]/m.
rewrite -[prepend ts _]/(MNone, ts ++ [::]) cats0 /prepend.
by case: m => [|x|x|x|||] //= -[<-]; rewrite ?cats0 ?cats1.
Qed.

Lemma den_parse imported s (v : value PF) : den imported s v ->
  exists e, parse_expr s = Some e /\ eval PF imported (str "F") e = Some v.
Proof.
case=> ts [e [ls [st ps] ve]]; exists e; split=> //.
rewrite /parse_expr (lexes_lex ls) -[in p_expr _ _](cats0 ts) ps //.
by rewrite cats0 /fuel; apply: leq_addr.
Qed.

Theorem slice_value imported (xs : seq PF) : (0 < size xs)%N ->
  exists e, parse_expr (serialize_slice_f xs) = Some e /\
            eval PF imported (str "F") e = Some (VVec (map (@VField PF) xs)).
Proof. by move=> h; apply/den_parse/den_slice. Qed.

Theorem slice_of_vecs_value imported (xs : seq (seq PF)) : (0 < size (flatten xs))%N ->
  exists e, parse_expr (serialize_slice_of_vecs_f xs) = Some e /\
            eval PF imported (str "F") e = Some (VVec (map (@VField PF) (flatten xs))).
Proof. by move=> h; rewrite serialize_slice_of_vecs_fE; apply: slice_value. Qed.

Theorem element_value imported (x : PF) :
  exists e, parse_expr (serialize_f x) = Some e /\ eval PF imported (str "F") e = Some (VField x).
Proof. by apply/den_parse/den_felt. Qed.

Theorem empty_slice : parse_expr (serialize_slice_f ([::] : seq PF)) = None.
Proof. by vm_compute. Qed.

Theorem empty_slice_text : serialize_slice_f ([::] : seq PF) = str "vec]".
Proof. by vm_compute. Qed.

Theorem empty_slice_of_vecs (n : nat) : parse_expr (serialize_slice_of_vecs_f (nseq n ([::] : seq PF))) = None.
Proof.
rewrite serialize_slice_of_vecs_fE; have -> : flatten (nseq n ([::] : seq PF)) = [::] by elim: n.
exact: empty_slice.
Qed.

Theorem empty_slice_matrix : parse_expr (serialize_slice_matrix_f ([::] : seq (rmat PF))) = None.
Proof. by vm_compute. Qed.

Theorem slice_injective (xs ys : seq PF) : (0 < size xs)%N -> (0 < size ys)%N ->
  serialize_slice_f xs = serialize_slice_f ys -> xs = ys.
Proof.
move=> hx hy E; have [e [pe ve]] := slice_value [::] hx; have [e' [pe' ve']] := slice_value [::] hy.
move: pe' ve'; rewrite -E pe => -[<-]; rewrite ve => -[].
by apply: inj_map => a b [].
Qed.
End Slices.
