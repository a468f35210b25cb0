(** A whole generated file: proofs. *)
From Coq Require Import ZArith NArith Lia Ascii String.
From mathcomp Require Import all_ssreflect all_algebra zify.
From Verif Require Import Base Matrix Params Bytes PrimeField Alpha Transcript Mds V1 V1Proofs V2.
From Verif Require Import Build BuildSpec BuildProofs.
Set Implicit Arguments.
Unset Strict Implicit.
Unset Printing Implicit Defensive.
Delimit Scope Z_scope with Z.

Definition fn_toks (name : bytes) (tb : seq tok) : seq tok :=
  [:: TId (str "pub"), TId (str "fn"), TId name, TSym (chr "<"), TId (str "F"), TSym (chr ":"),
      TId (str "PrimeField"), TSym (chr ">"), TSym (chr "("), TSym (chr ")"), TSym (chr "-"),
      TSym (chr ">"), TId (str "PoseidonParameters"), TSym (chr "<"), TId (str "F"), TSym (chr ">"),
      TSym (chr "{") & tb ++ [:: TSym (chr "}")]].

Definition fn_item (name : bytes) (e : expr) : item :=
  IFn name (str "F") (str "PrimeField") (str "PoseidonParameters") (str "F") e.

Lemma lex_comment_digits s : all is_digit s -> lex_run MComment s = (MComment, [::]).
Proof.
elim: s => // c s IH /andP [hc hs]; rewrite lex_run_cons /lex_step.
have -> : (c == 10%num) = false.
  by apply/eqP; case/andP: hc => /N.leb_le h1 _ h; move: h1; rewrite h.
by rewrite IH.
Qed.

Lemma lexes_fn rate body tb : all is_digit rate -> lexes body tb ->
  lexes_any (fn_text rate body) (fn_toks (str "rate_" ++ rate) tb).
Proof.
move=> hr hb rest; rewrite /fn_text -!catA lex_run_cat.
rewrite -[lex_run MNone (str _)]/(MComment, [::] : seq tok) lex_run_cat lex_comment_digits //.
rewrite lex_run_cat -[lex_run _ (str _)]/(MId (str "rate_"), [:: TId (str "pub"); TId (str "fn")]).
rewrite lex_run_cat lex_id_digits // lex_run_cat.
move: (str "rate_" ++ rate) => name.
rewrite -[lex_run _ (str _)]/(MNone, [:: TId name; TSym (chr "<"); TId (str "F"); TSym (chr ":");
      TId (str "PrimeField"); TSym (chr ">"); TSym (chr "("); TSym (chr ")"); TSym (chr "-");
      TSym (chr ">"); TId (str "PoseidonParameters"); TSym (chr "<"); TId (str "F"); TSym (chr ">");
      TSym (chr "{")]).
rewrite -[(_, _).1]/MNone -[body ++ _]/(body ++ 10%num :: (str "}
" ++ rest)) hb //.
rewrite -[10%num :: _]/((10%num :: str "}
") ++ rest) lex_run_cat -[lex_run _ (10%num :: _)]/(MNone, [:: TSym (chr "}")]).
by rewrite !prepend_cat; congr prepend.
Qed.

Lemma p_fn_ok name tb e rest : parses tb e ->
  p_fn (behead (fn_toks name tb ++ rest)) = Some (fn_item name e, rest).
Proof.
move=> [_ hp]; rewrite /fn_toks !cat_cons -catA cat_cons cat0s [behead _]/=.
rewrite -[LHS]/(match p_expr (fuel (tb ++ TSym (chr "}") :: rest)) (tb ++ TSym (chr "}") :: rest) with
  | Some (e, c :: q) => if is_sym "}" c then Some (fn_item name e, q) else None
  | _ => None end).
rewrite hp // /fuel size_cat mulnDr -addnA; exact: leq_addr.
Qed.

Lemma p_items_fn k name tb e rest l : parses tb e -> p_items k rest = Some l ->
  p_items k.+1 (fn_toks name tb ++ rest) = Some (fn_item name e :: l).
Proof.
move=> hp hl; rewrite -[LHS]/(match p_fn (behead (fn_toks name tb ++ rest)) with
  | Some (i, q) => match p_items k q with Some l => Some (i :: l) | None => None end
  | None => None end).
by rewrite (p_fn_ok _ _ hp) hl.
Qed.

(** The imports of a generated file. *)
Definition v1_names : seq bytes :=
  [:: str "Alpha"; str "ArcMatrix"; str "RoundNumbers"; str "SquareMatrix"; str "Matrix"; str "MdsMatrix";
      str "OptimizedArcMatrix"; str "OptimizedMdsMatrices"; str "PoseidonParameters"; str "MatrixOperations"].
Definition v1_uses : seq item :=
  [:: IUse [:: str "ark_ff"] [:: str "PrimeField"];
      IUse [:: str "poseidon_parameters"; str "v1"] v1_names].
Definition v1_imports : seq bytes := str "PrimeField" :: v1_names.

Definition header_toks : seq tok := (lex_run MNone v1_header).2.

Lemma header_lex : lex_run MNone v1_header = (MNone, header_toks).
Proof. by vm_compute. Qed.

Lemma p_items_header k rest l : p_items k rest = Some l ->
  p_items k.+2 (header_toks ++ rest) = Some (v1_uses ++ l).
Proof.
move=> h; have -> : p_items k.+2 (header_toks ++ rest) =
  match (match p_items k rest with Some l => Some (nth (IUse [::] [::]) v1_uses 1 :: l) | None => None end)
  with Some l => Some (nth (IUse [::] [::]) v1_uses 0 :: l) | None => None end.
  by vm_compute.
by rewrite h.
Qed.

Lemma size_header_toks : (2 <= size header_toks)%N.
Proof. by vm_compute. Qed.

Section File.
Variable PF : prime_field.
Variable gen : nat -> outcome (params PF).
Local Notation compile := (v1_compile gen).

Definition rate_fn (t : nat) : bytes := str "rate_" ++ display_usize t.-1.

(** What is printed for one width. *)
Lemma fn_ok t P : gen t = Ret P -> p_t P = t -> printable_params P -> exists text tb e,
  [/\ display_params P = Ret text, lexes_any text (fn_toks (rate_fn t) tb), parses tb e &
      eval PF v1_imports (str "F") e = Some (VParams P)].
Proof.
move=> gP et pP; have [[t0 _ _ _] [pa po _ _] _ _ _] := pP.
have imp : all (mem v1_imports)
    [:: str "PrimeField"; str "Alpha"; str "ArcMatrix"; str "RoundNumbers"; str "SquareMatrix"; str "Matrix";
        str "MdsMatrix"; str "OptimizedArcMatrix"; str "OptimizedMdsMatrices"; str "PoseidonParameters";
        str "MatrixOperations"] by vm_compute.
have [sa [ea da]] := den_arc_matrix imp pa.
have [so [eo do_]] := den_optimized_arc_matrix imp po.
have [tb [e [lb pb vb]]] := den_body imp pP da do_.
exists (fn_text (display_usize (p_t P).-1) (body_text P sa so)), tb, e; split=> //.
- exact: display_params_text.
- rewrite /rate_fn -et; apply: lexes_fn => //.
  by have [] := display_NP (N.of_nat (p_t P).-1).
Qed.

Definition good (ts : seq nat) : Prop := forall t, t \in ts -> exists P,
  [/\ gen t = Ret P, p_t P = t & printable_params P].

Fixpoint fns_ok (ts : seq nat) (fs : seq (seq tok * expr)) : Prop :=
  match ts, fs with
  | [::], [::] => True
  | t :: ts', (tb, e) :: fs' =>
      [/\ parses tb e, exists2 P, gen t = Ret P & eval PF v1_imports (str "F") e = Some (VParams P) & fns_ok ts' fs']
  | _, _ => False
  end.

Lemma compile_toks ts s tk : good ts -> lexes_any s tk -> exists code fs,
  [/\ for_in ts (fun t code => bind (gen t) (fun params => bind (display_params params)
        (fun text => Ret (code ++ text)))) s = Ret code,
      fns_ok ts fs &
      lexes_any code (tk ++ flatten [seq fn_toks (rate_fn x.1) x.2.1 | x <- zip ts fs])].
Proof.
elim: ts s tk => [|t ts IH] s tk hg hs.
  by exists s, [::]; split=> //; rewrite cats0.
have [P [gP et pP]] := hg t (mem_head _ _).
have [text [tb [e [E1 E2 E3 E4]]]] := fn_ok gP et pP.
have hg' : good ts by move=> t' ht'; apply: hg; rewrite inE ht' orbT.
have [code [fs [F1 F2 F3]]] := IH (s ++ text) (tk ++ fn_toks (rate_fn t) tb) hg' (lexes_any_cat hs E2).
exists code, ((tb, e) :: fs); split.
- by rewrite /= gP bind_ret E1 bind_ret bind_ret.
- by split=> //; exists P.
- by move: F3; rewrite -catA.
Qed.

Lemma p_items_fns ts fs k : fns_ok ts fs -> (size ts <= k)%N ->
  p_items k (flatten [seq fn_toks (rate_fn x.1) x.2.1 | x <- zip ts fs]) =
  Some [seq fn_item (rate_fn x.1) x.2.2 | x <- zip ts fs].
Proof.
elim: ts fs k => [|t ts IH] [|[tb e] fs] k //; first by case: k.
case=> pe _ h; case: k => // k hk; rewrite -[zip _ _]/((t, (tb, e)) :: zip ts fs).
by apply: p_items_fn pe (IH _ _ h hk).
Qed.

Lemma fns_size ts fs : fns_ok ts fs ->
  (size ts <= size (flatten [seq fn_toks (rate_fn x.1) x.2.1 | x <- zip ts fs]))%N.
Proof.
elim: ts fs => [|t ts IH] [|[tb e] fs] // [_ _ /IH h].
rewrite -[flatten _]/(fn_toks (rate_fn t) tb ++ flatten [seq fn_toks (rate_fn x.1) x.2.1 | x <- zip ts fs]).
by rewrite size_cat -[size (t :: ts)]/(1 + size ts)%N; apply: leq_add.
Qed.

Lemma fns_zip ts fs : fns_ok ts fs -> size ts = size fs.
Proof. by elim: ts fs => [|t ts IH] [|[tb e] fs] // [_ _ /IH /= ->]. Qed.

(** The file parses to the declarations and one function per width. *)
Lemma compile_parses ts : good ts -> exists code fs,
  [/\ compile ts = Ret code, fns_ok ts fs &
      parse_file code = Some (v1_uses ++ [seq fn_item (rate_fn x.1) x.2.2 | x <- zip ts fs])].
Proof.
move=> hg; have [code [fs [E1 E2 E3]]] := compile_toks hg (lexes_any_eq header_lex).
exists code, fs; split=> //; move: (fun k => @p_items_fns _ _ k E2) (fns_size E2) E3.
move: (flatten _) => l hp h E3.
have -> : parse_file code = p_items (size (header_toks ++ l)) (header_toks ++ l).
  rewrite /parse_file /lex -[code in lex_run _ code]cats0 E3 -[lex_run MNone [::]]/(MNone, [::] : seq tok).
  by rewrite -[prepend _ _]/(MNone, (header_toks ++ l) ++ [::]) cats0.
rewrite size_cat; have [k -> hk] : exists2 k, (size header_toks + size l = k.+2)%N & (size ts <= k)%N.
  exists (size header_toks + size l - 2)%N; have := size_header_toks; move: h; clear;
  by move: (size header_toks) (size l) (size ts) => a b c; lia.
by apply/p_items_header/hp.
Qed.

Lemma fns_names ts fs : fns_ok ts fs ->
  fn_names (v1_uses ++ [seq fn_item (rate_fn x.1) x.2.2 | x <- zip ts fs]) = map rate_fn ts.
Proof.
rewrite /fn_names map_cat flatten_cat /=.
by elim: ts fs => [|t ts IH] [|[tb e] fs] // [_ _ h] /=; rewrite IH.
Qed.

Lemma fns_imports ts fs : fns_ok ts fs ->
  imports (v1_uses ++ [seq fn_item (rate_fn x.1) x.2.2 | x <- zip ts fs]) = v1_imports.
Proof.
rewrite /imports map_cat flatten_cat -[flatten _]/v1_imports => h.
rewrite -[RHS]cats0; congr (_ ++ _).
by elim: ts fs h => [|t ts IH] [|[tb e] fs] // [_ _ h] /=; rewrite IH.
Qed.

Lemma fns_uses ts fs : fns_ok ts fs ->
  uses_ok (v1_uses ++ [seq fn_item (rate_fn x.1) x.2.2 | x <- zip ts fs]).
Proof.
rewrite /uses_ok all_cat => h; apply/andP; split; first by vm_compute.
by elim: ts fs h => [|t ts IH] [|[tb e] fs] // [_ _ h] /=; rewrite IH.
Qed.

Lemma rate_fn_inj t t' : (0 < t)%N -> (0 < t')%N -> rate_fn t = rate_fn t' -> t = t'.
Proof.
move=> h h' /eqP; rewrite /rate_fn eqseq_cat // eqxx => /eqP /display_usize_inj.
by case: t t' h h' => // t [] // t' _ _ /= ->.
Qed.

Lemma run_fns ts fs t P : fns_ok ts fs -> all (leq 1) ts -> t \in ts -> gen t = Ret P ->
  run_fn PF v1_imports [seq fn_item (rate_fn x.1) x.2.2 | x <- zip ts fs] (rate_fn t) = Some P.
Proof.
elim: ts fs => [|t' ts IH] [|[tb e] fs] // [_ [P' gP' ve] h] /andP [t'0 hts] ht gP.
rewrite -[zip _ _]/((t', (tb, e)) :: zip ts fs) [map _ _]/= /fn_item.
rewrite -[LHS]/(if rate_fn t' == rate_fn t then
   (if eval PF v1_imports (str "F") e is Some (VParams P) then Some P else None) else
   run_fn PF v1_imports [seq fn_item (rate_fn x.1) x.2.2 | x <- zip ts fs] (rate_fn t)).
rewrite ve; case: eqP => [E|nE].
  have t0 : (0 < t)%N by move: ht; rewrite inE => /orP [/eqP -> //|]; apply/allP.
  by move: gP; rewrite -(rate_fn_inj t'0 t0 E) gP' => -[->].
apply: IH => //; move: ht; rewrite inE => /orP [/eqP E|//].
by case: nE; rewrite E.
Qed.

Lemma good_pos ts : good ts -> all (leq 1) ts.
Proof. by move=> h; apply/allP => t /h [P [_ <- [[]]]]. Qed.

(** ** Main results *)

Theorem compile_succeeds ts : good ts -> exists code, compile ts = Ret code.
Proof. by move=> /compile_parses [code [fs [E _ _]]]; exists code. Qed.

Theorem compile_functions ts code : good ts -> compile ts = Ret code -> exists prog,
  parse_file code = Some prog /\ fn_names prog = [seq str "rate_" ++ display_usize t.-1 | t <- ts].
Proof.
move=> /compile_parses [code' [fs [E1 E2 E3]]]; rewrite E1 => -[<-].
by eexists; split; [exact: E3 | exact: fns_names].
Qed.

Theorem compile_runs ts code t P : good ts -> uniq ts -> compile ts = Ret code ->
  t \in ts -> gen t = Ret P -> run_file PF code (str "rate_" ++ display_usize t.-1) = Some P.
Proof.
move=> hg ut; have [code' [fs [E1 E2 E3]]] := compile_parses hg; rewrite E1 => -[<-] ht gP.
have h0 := good_pos hg.
rewrite /run_file E3 (fns_uses E2) (fns_imports E2) (fns_names E2) -[uniq v1_imports]/true.
have -> : uniq (map rate_fn ts).
  rewrite map_inj_in_uniq // => a b ha hb; apply: rate_fn_inj; [exact: (allP h0) | exact: (allP h0)].
rewrite -[LHS]/(run_fn PF v1_imports [seq fn_item (rate_fn x.1) x.2.2 | x <- zip ts fs] (rate_fn t)).
exact: run_fns.
Qed.

(** A width given twice yields two functions of one name. *)
Theorem compile_duplicates ts code name : good ts -> ~~ uniq ts -> compile ts = Ret code ->
  run_file PF code name = None.
Proof.
move=> hg ut; have [code' [fs [E1 E2 E3]]] := compile_parses hg; rewrite E1 => -[<-].
rewrite /run_file E3 (fns_names E2).
have -> : uniq (map rate_fn ts) = false.
  by apply/negbTE; apply: contra ut; apply: map_uniq.
by rewrite !andbF.
Qed.

Theorem compile_panics ts t : t \in ts -> gen t = Panic -> compile ts = Panic.
Proof.
move=> ht gt; rewrite /v1_compile; elim: ts ht (v1_header) => // t' ts IH; rewrite inE => ht s.
rewrite /=; case: eqP ht => [<- _|_ /= ht]; first by rewrite gt.
case: (gen t') => //= P; case: (display_params P) => //= text; exact: IH.
Qed.
End File.

Theorem v2_compile_panics (PF : prime_field) (gen : nat -> outcome (params2 PF)) ts : ts <> [::] ->
  v2_compile gen ts = Panic.
Proof. by case: ts => // t ts _; rewrite /v2_compile /=; case: (gen t). Qed.
