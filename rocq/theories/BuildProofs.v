(** The text printed by poseidon_build.rs means the parameters it was printed
    from: proofs. *)
From Coq Require Import ZArith NArith Lia Ascii String.
From mathcomp Require Import all_ssreflect all_algebra zify.
From Verif Require Import Base Matrix Params Bytes PrimeField Transcript Mds Build BuildSpec.
Set Implicit Arguments.
Unset Strict Implicit.
Unset Printing Implicit Defensive.
Delimit Scope Z_scope with Z.

(** * Decimal numbers *)

Lemma decimal_rcons s c : decimal (rcons s c) = (10 * decimal s + (c - 48))%num.
Proof. by rewrite /decimal -cats1 foldl_cat. Qed.

Lemma decimal_cons c s : decimal (c :: s) = ((c - 48) * 10 ^ N.of_nat (size s) + decimal s)%num.
Proof.
elim/last_ind: s => [|s d IH]; first by rewrite /decimal /= N.mul_1_r N.add_0_r.
rewrite -rcons_cons !decimal_rcons IH size_rcons Nat2N.inj_succ N.pow_succ_r'.
by move: (_ - 48)%num (10 ^ _)%num => a b; lia.
Qed.

Lemma dec_recS f n acc : dec_rec f.+1 n acc =
  if (n / 10 =? 0)%num then (48 + n mod 10)%num :: acc
  else dec_rec f (n / 10)%num ((48 + n mod 10)%num :: acc).
Proof. by []. Qed.

Lemma is_digitP c : (c < 10)%num -> is_digit (48 + c)%num.
Proof. by move=> h; apply/andP; split; apply/N.leb_le; lia. Qed.

Lemma dec_recE f n acc : (n < 2 ^ N.of_nat f)%num -> (0 < f)%N -> exists s,
  [/\ dec_rec f n acc = s ++ acc, decimal s = n, all is_digit s, s != [::] &
      (s == str "0") || (head 0%num s != chr "0")].
Proof.
elim: f n acc => // f IH n acc; rewrite Nat2N.inj_succ N.pow_succ_r' => hn _.
rewrite dec_recS.
have hm : (n mod 10 < 10)%num by apply: N.mod_lt.
have hd := is_digitP hm.
have en := N.div_mod' n 10.
case: N.eqb_spec => [z|z].
  exists [:: (48 + n mod 10)%num]; split=> //.
  - rewrite -[[:: _]]/(rcons [::] _) decimal_rcons -[decimal [::]]/0%num; move: z en; clear;
    by move: (n / 10)%num (n mod 10)%num => a b -> ->; lia.
  - by rewrite -[all _ _]/(is_digit _ && true) hd.
  - rewrite -[head _ _]/(48 + n mod 10)%num -[str "0"]/[:: 48%num] eqseq_cons andbT.
    by case: (_ == _).
have f0 : (0 < f)%N.
  case: f {IH} hn => // h1; move: z en hm h1; rewrite -[(2 * _)%num]/2%num.
  by move: (n / 10)%num (n mod 10)%num => a b; lia.
have hq : (n / 10 < 2 ^ N.of_nat f)%num.
  move: hn en hm; move: (2 ^ _)%num (n / 10)%num (n mod 10)%num => k a b; lia.
have [s [-> ds als sn hs]] := IH _ ((48 + n mod 10)%num :: acc) hq f0.
exists (rcons s (48 + n mod 10)%num); split.
- by rewrite cat_rcons.
- rewrite decimal_rcons ds; move: en; clear.
  by move: (n / 10)%num (n mod 10)%num => a b ->; lia.
- by rewrite all_rcons hd als.
- by case: (s).
- case/orP: hs => [/eqP es|]; first by case: z; rewrite -ds es.
  by case: (s) sn => // c s' _ h; rewrite -[head _ _]/c h orbT.
Qed.

Lemma N_size_nat n : N.of_nat (N.size_nat n) = N.size n.
Proof. by case: n => //= p; elim: p => //= p IH; lia. Qed.

Lemma display_NP n :
  [/\ decimal (display_N n) = n, all is_digit (display_N n), display_N n != [::] &
      (display_N n == str "0") || (head 0%num (display_N n) != chr "0")].
Proof.
rewrite /display_N.
have hn : (n < 2 ^ N.of_nat (N.size_nat n).+1)%num.
  rewrite Nat2N.inj_succ N_size_nat N.pow_succ_r'.
  by have := N.size_gt n; move: (2 ^ _)%num => k; lia.
have [s [-> ds als sn hs]] := dec_recE [::] hn isT.
by rewrite cats0.
Qed.

Lemma display_N_inj : injective display_N.
Proof. by move=> a b e; have [<- _ _ _] := display_NP a; rewrite e; have [-> _ _ _] := display_NP b. Qed.

Lemma display_usize_inj : injective display_usize.
Proof. by move=> a b /display_N_inj /Nat2N.inj. Qed.

(** * Lexing *)

Definition prepend (ts : seq tok) (r : mode * seq tok) : mode * seq tok := (r.1, ts ++ r.2).

Lemma prepend_cat a b r : prepend a (prepend b r) = prepend (a ++ b) r.
Proof. by rewrite /prepend /= catA. Qed.

Lemma lex_run_cons m c s : lex_run m (c :: s) = prepend (lex_step m c).2 (lex_run (lex_step m c).1 s).
Proof. by rewrite /=; case: lex_step => m1 t1 /=; case: lex_run. Qed.

Lemma lex_run_cat m a b : lex_run m (a ++ b) = prepend (lex_run m a).2 (lex_run (lex_run m a).1 b).
Proof.
elim: a m => [|c a IH] m; first by rewrite /prepend /=; case: lex_run.
by rewrite cat_cons !lex_run_cons IH prepend_cat.
Qed.

(** A character that ends an identifier or a number. *)
Definition sep (c : N) : bool := ~~ is_alpha c && ~~ is_digit c.

(** [s] lexes to [ts] between tokens, when followed by a separator. *)
Definition lexes (s : bytes) (ts : seq tok) : Prop := forall c rest, sep c ->
  lex_run MNone (s ++ c :: rest) = prepend ts (lex_run MNone (c :: rest)).

(** [s] lexes to [ts], whatever follows. *)
Definition lexes_any (s : bytes) (ts : seq tok) : Prop := forall rest,
  lex_run MNone (s ++ rest) = prepend ts (lex_run MNone rest).

Lemma lexes_anyW s ts : lexes_any s ts -> lexes s ts.
Proof. by move=> h c rest _; apply: h. Qed.

Lemma lexes_any_eq s ts : lex_run MNone s = (MNone, ts) -> lexes_any s ts.
Proof. by move=> e rest; rewrite lex_run_cat e. Qed.

Lemma lexes_any_cat a b ta tb : lexes_any a ta -> lexes_any b tb -> lexes_any (a ++ b) (ta ++ tb).
Proof. by move=> ha hb rest; rewrite -catA ha hb prepend_cat. Qed.

Lemma lexes_any_lexes a b ta tb : lexes_any a ta -> lexes b tb -> lexes (a ++ b) (ta ++ tb).
Proof. by move=> ha hb c rest hc; rewrite -catA ha hb // prepend_cat. Qed.

Lemma lexes_lexes_any a c b ta tb : sep c ->
  lexes a ta -> lexes_any (c :: b) tb -> lexes_any (a ++ c :: b) (ta ++ tb).
Proof. by move=> hc ha hb rest; rewrite -catA cat_cons ha // -cat_cons hb prepend_cat. Qed.

Lemma lex_digits d s : all is_digit s -> lex_run (MNum d) s = (MNum (d ++ s), [::]).
Proof.
elim: s d => [|c s IH] d; first by rewrite cats0.
by case/andP=> hc hs; rewrite lex_run_cons /lex_step hc IH //= cat_rcons.
Qed.

Lemma lex_id_digits d s : all is_digit s -> lex_run (MId d) s = (MId (d ++ s), [::]).
Proof.
elim: s d => [|c s IH] d; first by rewrite cats0.
by case/andP=> hc hs; rewrite lex_run_cons /lex_step hc orbT IH //= cat_rcons.
Qed.

Lemma digit_alpha c : is_digit c -> ~~ is_alpha c.
Proof.
case/andP=> /N.leb_le h1 /N.leb_le h2; rewrite /is_alpha !negb_or !negb_and.
rewrite -[chr "_"]/95%num; apply/and3P; split.
- by apply/orP; left; apply/N.leb_spec0; lia.
- by apply/orP; left; apply/N.leb_spec0; lia.
- by apply/eqP; lia.
Qed.

Lemma lexes_num n : lexes (display_N n) [:: TNum (display_N n)].
Proof.
have [_ al nn _] := display_NP n => c rest /andP [ca cd].
case: (display_N n) al nn => // d s /andP [hd hs] _.
rewrite cat_cons lex_run_cons /lex_step /lex_start (negbTE (digit_alpha hd)) hd.
rewrite lex_run_cat lex_digits // [RHS]/= !lex_run_cons /prepend /=.
by rewrite (negbTE ca) (negbTE cd); case: lex_start => m1 t1 /=; case: lex_run.
Qed.

Lemma digit_str c : is_digit c -> (c == chr """") = false /\ (c == chr "\") = false.
Proof.
case/andP=> /N.leb_le h1 /N.leb_le h2.
by rewrite -[chr """"]/34%num -[chr "\"]/92%num; split; apply/eqP; lia.
Qed.

Lemma lex_str_digits d s : all is_digit s -> lex_run (MStr d) s = (MStr (d ++ s), [::]).
Proof.
elim: s d => [|c s IH] d; first by rewrite cats0.
case/andP=> hc hs; rewrite lex_run_cons /lex_step.
by have [-> ->] := digit_str hc; rewrite IH //= cat_rcons.
Qed.

(** * Parsing *)

(** What may follow an expression: the end, a comma or a closing bracket. *)
Definition ender (ts : seq tok) : bool :=
  match ts with TSym c :: _ => c \in str ",)]}" | [::] => true | _ => false end.

(** What an expression begins with. *)
Definition starter (ts : seq tok) : bool :=
  match ts with
  | TSym c :: _ => (c == chr "(") || (c == chr "|")
  | [::] => false
  | _ => true
  end.

Definition parses (ts : seq tok) (e : expr) : Prop :=
  starter ts /\ forall k rest, (4 * size ts <= k)%N -> ender rest ->
  p_expr k (ts ++ rest) = Some (e, rest).

Definition parses_args (close : ascii) (ts : seq tok) (es : seq expr) : Prop :=
  forall k rest, (4 * size ts + 2 <= k)%N ->
  p_args k close (ts ++ TSym (chr close) :: rest) = Some (es, rest).

Definition parses_fields (ts : seq tok) (fs : seq (bytes * expr)) : Prop :=
  forall k rest, (4 * size ts + 2 <= k)%N ->
  p_fields k (ts ++ TSym (chr "}") :: rest) = Some (fs, rest).

Lemma p_post_end k e rest : (0 < k)%N -> ender rest -> p_post k e rest = Some (e, rest).
Proof.
case: k => // k _; case: rest => //= t r h.
case: ifP => // ht; case: t h ht => //= c h /eqP ec; by move: h; rewrite ec.
Qed.

Lemma ender_sym c rest : chr c \in str ",)]}" -> ender (TSym (chr c) :: rest).
Proof. by []. Qed.

Lemma starter_not_close close ts : starter ts -> chr close \in str ",)]}" -> exists t r,
  ts = t :: r /\ is_sym close t = false.
Proof.
case: ts => // t r h hc; exists t, r; split=> //; case: t h => //= c h.
by apply/negbTE/negP => /eqP ec; move: h hc; rewrite ec => /orP [] /eqP ->.
Qed.

Lemma is_sym_refl c : is_sym c (TSym (chr c)).
Proof. exact: eqxx. Qed.

Definition comma : tok := TSym (chr ",").

Lemma parses_args_nil close : parses_args close [::] [::].
Proof. by case=> // k rest _; rewrite /= eqxx. Qed.

Definition closing (close : ascii) : bool := chr close \in str ")]".

Lemma parses_args1 close ts e : closing close ->
  parses ts e -> parses_args close ts [:: e].
Proof.
move=> hc [hs hp] [|k] rest; first by rewrite addnC.
move=> hk.
have hc' : chr close \in str ",)]}".
  by move: hc; rewrite /closing !inE => /orP [] /eqP ->.
have [t [r [et nt]]] := starter_not_close hs hc'.
have E : p_expr k (ts ++ TSym (chr close) :: rest) = Some (e, TSym (chr close) :: rest).
  by apply: hp => //; move: hk; rewrite -[ts]/ts; lia.
rewrite -[LHS]/(match ts ++ TSym (chr close) :: rest with
  | [::] => None
  | t :: r => if is_sym close t then Some ([::], r) else
     match p_expr k (ts ++ TSym (chr close) :: rest) with
               | Some (e, a :: q) =>
                   if is_sym close a then Some ([:: e], q)
                   else if is_sym "," a then
                     match p_args k close q with Some (es, q') => Some (e :: es, q') | None => None end
                   else None
               | _ => None
               end end) E is_sym_refl.
by rewrite et /= nt.
Qed.

Lemma parses_args_cons close ts e ts' es : closing close ->
  parses ts e -> parses_args close ts' es -> parses_args close (ts ++ comma :: ts') (e :: es).
Proof.
move=> hc [hs hp] ha [|k] rest; first by rewrite addnC.
rewrite size_cat -[size (comma :: ts')]/(size ts').+1 => hk.
have hc' : chr close \in str ",)]}".
  by move: hc; rewrite /closing !inE => /orP [] /eqP ->.
have [t [r [et nt]]] := starter_not_close hs hc'.
have E : p_expr k (ts ++ comma :: ts' ++ TSym (chr close) :: rest) =
         Some (e, comma :: ts' ++ TSym (chr close) :: rest).
  by apply: hp => //; move: hk; lia.
rewrite -catA cat_cons.
rewrite -[LHS]/(match ts ++ comma :: ts' ++ TSym (chr close) :: rest with
  | [::] => None
  | t :: r => if is_sym close t then Some ([::], r) else
     match p_expr k (ts ++ comma :: ts' ++ TSym (chr close) :: rest) with
               | Some (e, a :: q) =>
                   if is_sym close a then Some ([:: e], q)
                   else if is_sym "," a then
                     match p_args k close q with Some (es, q') => Some (e :: es, q') | None => None end
                   else None
               | _ => None
               end end) E.
have -> : is_sym close comma = false.
  by apply/eqP => ec; move: hc; rewrite /closing -ec.
rewrite -[is_sym "," comma]/true ha; last by move: hk; lia.
by rewrite et /= nt.
Qed.

Lemma parses_fields_nil : parses_fields [::] [::].
Proof. by case. Qed.

Lemma p_fieldsS k x r : p_fields k.+1 (TId x :: TSym (chr ":") :: r) =
  match p_expr k r with
  | Some (e, a :: q) =>
      if is_sym "}" a then Some ([:: (x, e)], q)
      else if is_sym "," a then
        match p_fields k q with Some (fs, q') => Some ((x, e) :: fs, q') | None => None end
      else None
  | _ => None
  end.
Proof. by []. Qed.

Lemma parses_fields1 x ts e : parses ts e -> parses_fields (TId x :: TSym (chr ":") :: ts) [:: (x, e)].
Proof.
move=> [hs hp] [|k] rest; first by rewrite addnC.
by rewrite /= => hk; rewrite -[LHS]p_fieldsS p_fieldsS hp ?ender_sym //; move: hk; lia.
Qed.

Lemma parses_fields_cons x ts e ts' fs : parses ts e -> parses_fields ts' fs ->
  parses_fields (TId x :: TSym (chr ":") :: ts ++ comma :: ts') ((x, e) :: fs).
Proof.
move=> [hs hp] hf [|k] rest; first by rewrite addnC.
rewrite -[size _]/(size (ts ++ comma :: ts')).+2 size_cat -[size (comma :: ts')]/(size ts').+1 => hk.
rewrite !cat_cons -catA cat_cons p_fieldsS hp //; last by move: hk; lia.
by rewrite hf //; move: hk; lia.
Qed.

Lemma parses_num s : parses [:: TNum s] (ENum s).
Proof. by split=> // -[|[|k]] rest // _ h; rewrite -[LHS]/(p_post k.+1 (ENum s) rest) p_post_end. Qed.

Lemma p_expr_named k x a r : is_sym "!" a = false ->
  p_expr k.+1 (TId x :: a :: r) = p_named k x (a :: r).
Proof. by move=> h; case: r => [|b r] //; rewrite /= h andbF. Qed.

Lemma p_path_stop acc t r : is_sym ":" t = false -> p_path acc (t :: r) = (acc, t :: r).
Proof. by move=> h; case: r => [|u [|[y|y|y|y] r]] //=; rewrite h. Qed.

Lemma p_namedS k x r p r' : p_path [:: x] r = (p, r') -> p_named k.+1 x r =
      match r' with
      | t :: r'' =>
          if is_sym "(" t then
            match p_args k ")" r'' with Some (es, q) => p_post k (ECall p es) q | None => None end
          else if is_sym "{" t then
            match p_fields k r'' with Some (fs, q) => p_post k (EStruct p fs) q | None => None end
          else p_post k (EPath p) r'
      | [::] => p_post k (EPath p) r'
      end.
Proof. by move=> /= ->. Qed.

Lemma p_path2 a f t r : is_sym ":" t = false ->
  p_path [:: a] [:: TSym (chr ":"), TSym (chr ":"), TId f, t & r] = ([:: a; f], t :: r).
Proof. by move=> h; rewrite -[LHS]/(p_path [:: a; f] (t :: r)) p_path_stop. Qed.

(** A call [a::f(args)]. *)
Lemma parses_call a f ts es : parses_args ")" ts es ->
  parses (TId a :: TSym (chr ":") :: TSym (chr ":") :: TId f :: TSym (chr "(") ::
          ts ++ [:: TSym (chr ")")]) (ECall [:: a; f] es).
Proof.
move=> h; split=> // -[|[|k]] rest // hk he.
have hk' : (4 * size ts + 2 <= k)%N.
  by move: hk; rewrite -[size _]/(size (ts ++ [:: TSym (chr ")")])).+4.+1 size_cat; lia.
rewrite !cat_cons -catA cat_cons cat0s p_expr_named //.
rewrite (p_namedS _ (p_path2 _ _ _ _)) //.
by rewrite is_sym_refl h // p_post_end //; move: hk'; rewrite addn2; case: (k).
Qed.

(** A struct literal [a { fields }]. *)
Lemma parses_struct a ts fs : parses_fields ts fs ->
  parses (TId a :: TSym (chr "{") :: ts ++ [:: TSym (chr "}")]) (EStruct [:: a] fs).
Proof.
move=> h; split=> // -[|[|k]] rest // hk he.
have hk' : (4 * size ts + 2 <= k)%N.
  by move: hk; rewrite -[size _]/(size (ts ++ [:: TSym (chr "}")])).+2 size_cat; lia.
rewrite !cat_cons -catA cat_cons cat0s p_expr_named //.
rewrite (p_namedS _ (p_path_stop _ _ _)) //.
rewrite -[is_sym "(" _]/false is_sym_refl.
by rewrite h // p_post_end //; move: hk'; rewrite addn2; case: (k).
Qed.

(** [vec![args]]. *)
Lemma parses_vec ts es : parses_args "]" ts es ->
  parses (TId (str "vec") :: TSym (chr "!") :: TSym (chr "[") :: ts ++ [:: TSym (chr "]")]) (EVec es).
Proof.
move=> h; split=> // -[|k] rest // hk he.
have hk' : (4 * size ts + 2 <= k)%N.
  by move: hk; rewrite -[size _]/(size (ts ++ [:: TSym (chr "]")])).+3 size_cat; lia.
rewrite !cat_cons -catA cat_cons cat0s.
rewrite -[LHS]/(match p_args k "]" (ts ++ TSym (chr "]") :: rest) with
  | Some (es, q) => p_post k (EVec es) q | None => None end).
by rewrite h // p_post_end //; move: hk'; rewrite addn2; case: (k).
Qed.

(** A field element [F::from_str("s").map_err(|_| ()).unwrap()]. *)
Definition felt_toks (s : bytes) : seq tok :=
  [:: TId (str "F"); TSym (chr ":"); TSym (chr ":"); TId (str "from_str"); TSym (chr "("); TStr s;
      TSym (chr ")"); TSym (chr "."); TId (str "map_err"); TSym (chr "("); TSym (chr "|");
      TId (str "_"); TSym (chr "|"); TSym (chr "("); TSym (chr ")"); TSym (chr ")"); TSym (chr ".");
      TId (str "unwrap"); TSym (chr "("); TSym (chr ")")].
Definition felt_expr (s : bytes) : expr :=
  EMethod (EMethod (ECall [:: str "F"; str "from_str"] [:: EStr s]) (str "map_err")
             [:: EClosure (str "_") EUnit]) (str "unwrap") [::].

Lemma parses_felt s : parses (felt_toks s) (felt_expr s).
Proof.
split=> // k rest hk he.
have [k' ->] : exists k', k = k'.+4.+4.+4 by exists (k - 12)%N; move: hk; rewrite -[size _]/20%N; lia.
rewrite -[LHS]/(p_post k'.+4.+4 (felt_expr s) rest).
by rewrite p_post_end.
Qed.

Lemma parses_inverse : parses [:: TId (str "Alpha"); TSym (chr ":"); TSym (chr ":"); TId (str "Inverse")]
  (EPath [:: str "Alpha"; str "Inverse"]).
Proof.
split=> // -[|[|k]] rest // hk he; rewrite p_expr_named //.
transitivity (p_post k (EPath [:: str "Alpha"; str "Inverse"]) rest); last first.
  by rewrite p_post_end //; move: hk; case: (k).
case: rest he => // -[x|x|x|c] rest //; rewrite [ender _]/= => hc.
have nc d : chr d \notin str ",)]}" -> (c == chr d) = false.
  by move=> hd; apply/negP => /eqP ec; rewrite -ec hc in hd.
rewrite (p_namedS _ (p_path2 _ _ _ _)) ?/is_sym ?nc //.
Qed.

(** * Denotations *)

Section Den.
Variables (PF : prime_field) (imported : seq bytes).
Local Notation g := (str "F").
Local Notation value := (value PF).
Local Notation eval := (eval PF imported g).

(** The text [s] is an expression of value [v]. *)
Definition den (s : bytes) (v : value) : Prop :=
  exists ts e, [/\ lexes s ts, parses ts e & eval e = Some v].

Fixpoint dens (ss : seq bytes) (vs : seq value) : Prop :=
  match ss, vs with
  | [::], [::] => True
  | s :: ss', v :: vs' => den s v /\ dens ss' vs'
  | _, _ => False
  end.

Lemma dens_map A (f : A -> bytes) (h : A -> value) (xs : seq A) :
  (forall x, den (f x) (h x)) -> dens (map f xs) (map h xs).
Proof. by move=> H; elim: xs => //= x xs IH. Qed.

Lemma all_some_rcons A B (f : A -> option B) xs ys x y :
  all_some f xs = Some ys -> f x = Some y -> all_some f (rcons xs x) = Some (rcons ys y).
Proof.
elim: xs ys => [|z xs IH] ys /=; first by case=> <- ->.
case: (f z) => // w; case: all_some IH => // l IH [<-] /= hx.
by rewrite (IH l).
Qed.

Lemma all_some_map A B C (f : B -> option C) (h : A -> B) (k : A -> C) (xs : seq A) :
  (forall x, f (h x) = Some (k x)) -> all_some f (map h xs) = Some (map k xs).
Proof. by move=> H; elim: xs => //= x xs ->; rewrite H. Qed.

Lemma den_num n : den (display_N n) (VInt PF n).
Proof.
exists [:: TNum (display_N n)], (ENum (display_N n)); split.
- exact: lexes_num.
- exact: parses_num.
- by have [/= -> _ _ _] := display_NP n.
Qed.

Lemma pf_to_ge0 (x : PF) : (0 <= pf_to x)%Z.
Proof.
rewrite -(pf_of_to x) pf_to_of; apply: proj1 (Z.mod_pos_bound _ _ _).
by have := pf_p_gt1 PF; lia.
Qed.

Lemma from_strP (x : PF) : from_str PF (display_F x) = Some x.
Proof.
rewrite /from_str /display_F; have [-> -> -> ->] := display_NP (Z.to_N (pf_to x)).
by rewrite /= Z2N.id ?pf_of_to //; apply: pf_to_ge0.
Qed.

Lemma den_felt (x : PF) : den (serialize_f x) (VField x).
Proof.
exists (felt_toks (display_F x)), (felt_expr (display_F x)); split.
- apply/lexes_anyW/lexes_any_eq; rewrite /serialize_f !lex_run_cat.
  rewrite -[lex_run MNone (str _)]/(MStr [::],
    [:: TId (str "F"); TSym (chr ":"); TSym (chr ":"); TId (str "from_str"); TSym (chr "(")]).
  rewrite lex_str_digits; last by have [] := display_NP (Z.to_N (pf_to x)).
  by [].
- exact: parses_felt.
- rewrite -[LHS]/(match from_str PF (display_F x) with Some y => Some (VField y) | None => None end).
  by rewrite from_strP.
Qed.

(** Comma-separated arguments. *)
Definition args_text (ss : seq bytes) (x : bytes) : bytes := flatten [seq s ++ str ", " | s <- ss] ++ x.

Lemma den_args ss vs x v : dens ss vs -> den x v -> exists ts es,
  [/\ lexes (args_text ss x) ts, forall close, closing close -> parses_args close ts es &
      all_some eval es = Some (rcons vs v)].
Proof.
move=> hs [tx [ex [lx px vx]]].
elim: ss vs hs => [|s ss IH] [|w vs] // => [_|[[ts [e [ls ps ws]]] /IH [ts' [es [ls' ps' vs']]]]].
  exists tx, [:: ex]; split=> //; last by rewrite /= vx.
  by move=> close hc; apply: parses_args1.
exists (ts ++ comma :: ts'), (e :: es); split.
- rewrite /args_text /= -[_ ++ flatten _]catA -!catA.
  have -> : str ", " ++ flatten [seq s0 ++ str ", " | s0 <- ss] ++ x = str ", " ++ args_text ss x by [].
  rewrite catA -cat1s catA; apply: lexes_any_lexes => //.
  by apply: lexes_lexes_any => //; apply: lexes_any_eq.
- by move=> close hc; apply: parses_args_cons => //; apply: ps'.
- by rewrite /= ws vs'.
Qed.

Lemma den_vec ss vs x v : dens ss vs -> den x v ->
  den (str "vec![" ++ args_text ss x ++ str "]") (VVec (rcons vs v)).
Proof.
move=> hs hx; have [ts [es [ls ps vs']]] := den_args hs hx.
exists (TId (str "vec") :: TSym (chr "!") :: TSym (chr "[") :: ts ++ [:: TSym (chr "]")]), (EVec es); split.
- apply: lexes_anyW; apply: (@lexes_any_cat _ _ [:: _; _; _]); first exact: lexes_any_eq.
  by apply: lexes_lexes_any => //; apply: lexes_any_eq.
- by apply: parses_vec; apply: ps.
- by rewrite /= vs'.
Qed.

Lemma den_call pre a f ss vs x v w :
  lex_run MNone pre = (MNone, [:: TId a; TSym (chr ":"); TSym (chr ":"); TId f; TSym (chr "(")]) ->
  dens ss vs -> den x v -> call imported g [:: a; f] (rcons vs v) = Some w ->
  den (pre ++ args_text ss x ++ str ")") w.
Proof.
move=> hp hs hx hc; have [ts [es [ls ps vs']]] := den_args hs hx.
exists (TId a :: TSym (chr ":") :: TSym (chr ":") :: TId f :: TSym (chr "(") :: ts ++ [:: TSym (chr ")")]),
  (ECall [:: a; f] es); split.
- apply: lexes_anyW; apply: (@lexes_any_cat _ _ [:: _; _; _; _; _]); first exact: lexes_any_eq.
  by apply: lexes_lexes_any => //; apply: lexes_any_eq.
- by apply: parses_call; apply: ps.
- by rewrite /= vs'.
Qed.

(** Fields, each with a trailing comma. *)
Definition fields_text (fl : seq (bytes * bytes)) : bytes :=
  flatten [seq f.1 ++ f.2 ++ str "," | f <- fl].

Fixpoint den_fields (fl : seq (bytes * bytes)) (fs : seq (bytes * value)) : Prop :=
  match fl, fs with
  | [::], [::] => True
  | (pre, s) :: fl', (x, v) :: fs' =>
      [/\ lex_run MNone pre = (MNone, [:: TId x; TSym (chr ":")]), den s v & den_fields fl' fs']
  | _, _ => False
  end.

Lemma den_fieldsP fl fs : den_fields fl fs -> exists ts es,
  [/\ lexes_any (fields_text fl) ts, parses_fields ts es &
      all_some (fun f : bytes * expr => match eval f.2 with Some v => Some (f.1, v) | None => None end) es
      = Some fs].
Proof.
elim: fl fs => [|[pre s] fl IH] [|[x v] fs] //.
  by exists [::], [::]; split=> //; [move=> rest; rewrite /prepend /=; case: lex_run | case].
case=> hpre [ts [e [ls ps vs]]] /IH [ts' [es [ls' ps' vs']]].
exists (TId x :: TSym (chr ":") :: ts ++ comma :: ts'), ((x, e) :: es); split.
- rewrite /fields_text /= -catA; apply: (@lexes_any_cat _ _ [:: _; _]); first exact: lexes_any_eq.
  rewrite -catA -[comma :: ts']cat1s.
  rewrite !catA; apply: lexes_any_cat => //.
  by apply: lexes_lexes_any => //; apply: lexes_any_eq.
- exact: parses_fields_cons.
- by rewrite /= vs vs'.
Qed.

Lemma den_struct pre a fl fs tail w :
  lex_run MNone pre = (MNone, [:: TId a; TSym (chr "{")]) ->
  den_fields fl fs ->
  lex_run MNone tail = (MNone, [:: TSym (chr "}")]) ->
  struct imported [:: a] fs = Some w ->
  den (pre ++ fields_text fl ++ tail) w.
Proof.
move=> hp /den_fieldsP [ts [es [ls ps vs]]] ht hw.
exists (TId a :: TSym (chr "{") :: ts ++ [:: TSym (chr "}")]), (EStruct [:: a] es); split.
- apply: lexes_anyW; apply: (@lexes_any_cat _ _ [:: _; _]); first exact: lexes_any_eq.
  by apply: lexes_any_cat => //; apply: lexes_any_eq.
- exact: parses_struct.
- by rewrite /= vs.
Qed.
End Den.
(** * The printers *)

Lemma foldl_cat_flatten T (f : T -> bytes) init xs :
  foldl (fun s x => s ++ f x) init xs = init ++ flatten (map f xs).
Proof.
by elim: xs init => [|x xs IH] init /=; rewrite ?cats0 // IH catA.
Qed.

Lemma pop_rcons s c : pop (rcons s c) = s.
Proof. by rewrite /pop size_rcons -cats1 take_size_cat. Qed.

Lemma pop2 s : pop (pop (s ++ str ", ")) = s.
Proof. by rewrite -[str ", "]/([:: 44%num] ++ [:: 32%num]) catA !cats1 !pop_rcons. Qed.

(** The common shape of the three slice printers. *)
Lemma slice_text (ss : seq bytes) x :
  rcons (pop (pop (str "vec![" ++ flatten [seq s ++ str ", " | s <- rcons ss x]))) 93%num =
  str "vec![" ++ args_text ss x ++ str "]".
Proof.
rewrite -[rcons ss x]cats1 map_cat flatten_cat -[flatten (map _ [:: x])]/((x ++ str ", ") ++ [::]) cats0.
by rewrite !catA pop2 -cats1 /args_text -!catA.
Qed.

Section Printers.
Variable PF : prime_field.

Lemma slice_felts (xs : seq PF) s :
  foldl (fun s elem => ((s ++ str "F::from_str(""") ++ display_F elem) ++
             str """).map_err(|_| ()).unwrap(), ") s xs =
  s ++ flatten [seq x ++ str ", " | x <- map (@serialize_f PF) xs].
Proof.
rewrite -map_comp -foldl_cat_flatten.
by elim: xs s => //= x xs IH s; rewrite IH /serialize_f -!catA.
Qed.

Lemma serialize_slice_fE (xs : seq PF) x : serialize_slice_f (rcons xs x) =
  str "vec![" ++ args_text (map (@serialize_f PF) xs) (serialize_f x) ++ str "]".
Proof. by rewrite /serialize_slice_f slice_felts map_rcons slice_text. Qed.

Lemma serialize_slice_of_vecs_fE (rows : seq (seq PF)) :
  serialize_slice_of_vecs_f rows = serialize_slice_f (flatten rows).
Proof.
rewrite /serialize_slice_of_vecs_f /serialize_slice_f; congr (rcons (pop (pop _)) _).
elim: rows (str "vec![") => //= r rows IH s; by rewrite foldl_cat IH.
Qed.

Lemma serialize_slice_matrix_fE (ms : seq (rmat PF)) m : serialize_slice_matrix_f (rcons ms m) =
  str "vec![" ++ args_text (map (@display_matrix PF) ms) (display_matrix m) ++ str "]".
Proof.
rewrite /serialize_slice_matrix_f -slice_text -map_rcons -map_comp -foldl_cat_flatten.
by congr (rcons (pop (pop _)) _).
Qed.

(** A well-formed matrix with elements, of dimensions that fit a [usize]. *)
Definition fits (n : nat) : Prop := (N.of_nat n < 2 ^ 64)%num.
Definition printable (m : rmat PF) : Prop :=
  [/\ size (elements m) = (n_rows m * n_cols m)%N, (0 < size (elements m))%N, fits (n_rows m) & fits (n_cols m)].

Lemma usize_litP n : fits n -> usize_lit (VInt PF (N.of_nat n)) = Some n.
Proof. by rewrite /fits /usize_lit => /N.ltb_lt ->; rewrite Nat2N.id. Qed.

Lemma call_newP k (m : rmat PF) : printable m ->
  call_new k [:: VInt PF (N.of_nat (n_rows m)); VInt PF (N.of_nat (n_cols m));
                 VVec (map (@VField PF) (elements m))] = Some (VMat k m).
Proof.
case=> hs _ hr hc; rewrite /call_new !usize_litP //.
rewrite /as_vec (@all_some_map _ _ _ _ _ id) // map_id /mnew eqxx hs eqxx /=.
by case: (m).
Qed.

Lemma from_vecP (m : rmat PF) : size (elements m) = (n_rows m * n_cols m)%N -> n_rows m = n_cols m ->
  from_vec (elements m) = Ret m.
Proof.
move=> hs hn; rewrite /from_vec hs hn Nat.sqrt_square /mnew eqxx hs hn eqxx /=.
by case: (m) hn => r c els /= ->.
Qed.

(** Reading a matrix row by row gives its elements. *)
Lemma rows_flatten (els : seq PF) r c : size els = (r * c)%N ->
  flatten [seq [seq nth 0%R els (i * c + j) | j <- iota 0 c] | i <- iota 0 r] = els.
Proof.
move=> hs; rewrite -[RHS]take_size hs; have : (r * c <= size els)%N by rewrite hs.
elim: r {hs} => [|r IH] hr; first by rewrite mul0n take0.
rewrite -addn1 iotaD map_cat flatten_cat add0n /= cats0.
rewrite IH; last by apply: leq_trans hr; rewrite leq_mul2r leqnSn orbT.
have e : ((r + 1) * c = r * c + c)%N by rewrite mulnDl mul1n.
rewrite e takeD; congr (_ ++ _).
apply: (@eq_from_nth _ 0%R) => [|j]; rewrite size_map size_iota.
  have h2 : (r * c + c <= size els)%N by rewrite -e addn1.
  by rewrite size_takel // size_drop; move: h2; clear; move: (r * c)%N (size els) => a b; lia.
by move=> hj; rewrite (nth_map 0%N) ?size_iota // nth_iota // nth_take // nth_drop.
Qed.

Lemma for_in_collect (T : eqType) A (body : T -> outcome A) f (xs : seq T) acc :
  (forall x, x \in xs -> body x = Ret (f x)) ->
  for_in xs (fun x acc => bind (body x) (fun y => Ret (rcons acc y))) acc = Ret (acc ++ map f xs).
Proof.
elim: xs acc => [|x xs IH] acc h /=; first by rewrite cats0.
rewrite h ?mem_head // !bind_ret IH ?cat_rcons // => y hy.
by rewrite h // inE hy orbT.
Qed.

Lemma arc_rows (m : rmat PF) : size (elements m) = (n_rows m * n_cols m)%N ->
  exists rows, arc_matrix_to_vec_vec m = Ret rows /\ flatten rows = elements m.
Proof.
move=> hs; exists [seq [seq nth 0%R (elements m) (i * n_cols m + j) | j <- iota 0 (n_cols m)] | i <- iota 0 (n_rows m)].
split; last exact: rows_flatten.
rewrite /arc_matrix_to_vec_vec /range !subn0 -[RHS]/(Ret ([::] ++ _)).
apply: for_in_collect => i; rewrite mem_iota add0n /= => hi.
rewrite -[RHS]/(Ret ([::] ++ _)); apply: for_in_collect => j; rewrite mem_iota add0n /= => hj.
rewrite /get_element (aget_nth 0%R) // hs; apply: (@leq_trans (i * n_cols m + n_cols m)).
  by rewrite ltn_add2l.
by rewrite -mulSnr leq_mul2r hi orbT.
Qed.

Section Imported.
Variable imported : seq bytes.
Local Notation den := (@den PF imported).

Lemma den_slice (xs : seq PF) : (0 < size xs)%N -> den (serialize_slice_f xs) (VVec (map (@VField PF) xs)).
Proof.
case/lastP: xs => // xs x _; rewrite serialize_slice_fE map_rcons; apply: den_vec.
  by apply: dens_map; apply: den_felt.
exact: den_felt.
Qed.

Section Types.
Hypothesis all_imported : all (mem imported)
    [:: str "PrimeField"; str "Alpha"; str "ArcMatrix"; str "RoundNumbers"; str "SquareMatrix"; str "Matrix";
        str "MdsMatrix"; str "OptimizedArcMatrix"; str "OptimizedMdsMatrices"; str "PoseidonParameters";
        str "MatrixOperations"].

Lemma call_new_kind (k : kind) (ty : bytes) (vs : seq (value PF)) : ty \in imported ->
  [\/ (k, ty) = (KMatrix, str "Matrix"), (k, ty) = (KSquare, str "SquareMatrix"),
      (k, ty) = (KArc, str "ArcMatrix") | (k, ty) = (KOptArc, str "OptimizedArcMatrix")] ->
  call imported (str "F") [:: ty; str "new"] vs = call_new k vs.
Proof.
have mo : str "MatrixOperations" \in imported.
  by move: all_imported => /allP; apply; rewrite !inE eqxx !orbT.
by move=> hi [] [-> et]; rewrite et in hi *; rewrite /call hi mo.
Qed.

Lemma den_new pre (k : kind) (ty : bytes) (m : rmat PF) :
  lex_run MNone pre = (MNone, [:: TId ty; TSym (chr ":"); TSym (chr ":"); TId (str "new"); TSym (chr "(")]) ->
  ty \in imported ->
  [\/ (k, ty) = (KMatrix, str "Matrix"), (k, ty) = (KSquare, str "SquareMatrix"),
      (k, ty) = (KArc, str "ArcMatrix") | (k, ty) = (KOptArc, str "OptimizedArcMatrix")] ->
  printable m ->
  den (pre ++ display_usize (n_rows m) ++ str ", " ++ display_usize (n_cols m) ++ str ", " ++
       serialize_slice_f (elements m) ++ str ")") (VMat k m).
Proof.
move=> hl hi hk pm; have [hs s0 _ _] := pm.
have -> : pre ++ display_usize (n_rows m) ++ str ", " ++ display_usize (n_cols m) ++ str ", " ++
       serialize_slice_f (elements m) ++ str ")" =
  pre ++ args_text [:: display_usize (n_rows m); display_usize (n_cols m)] (serialize_slice_f (elements m)) ++ str ")".
  by rewrite /args_text /= -!catA.
apply: (den_call hl (vs := [:: VInt PF (N.of_nat (n_rows m)); VInt PF (N.of_nat (n_cols m))])
                 (v := VVec (map (@VField PF) (elements m)))).
- by split; [|split=> //]; apply: den_num.
- exact: den_slice.
- by rewrite (call_new_kind _ hi hk) call_newP.
Qed.

Lemma imported_in ty : ty \in [:: str "PrimeField"; str "Alpha"; str "ArcMatrix"; str "RoundNumbers"; str "SquareMatrix"; str "Matrix";
        str "MdsMatrix"; str "OptimizedArcMatrix"; str "OptimizedMdsMatrices"; str "PoseidonParameters";
        str "MatrixOperations"] -> ty \in imported.
Proof. by move/(allP all_imported). Qed.

Lemma den_matrix m : printable m -> den (display_matrix m) (VMat KMatrix m).
Proof. by apply: (@den_new _ _ (str "Matrix")) => //; [apply: imported_in | constructor 1]. Qed.

Lemma den_square_matrix m : printable m -> den (display_square_matrix m) (VMat KSquare m).
Proof. by apply: (@den_new _ _ (str "SquareMatrix")) => //; [apply: imported_in | constructor 2]. Qed.

Lemma den_slice_matrix (ms : seq (rmat PF)) : (0 < size ms)%N -> (forall m, List.In m ms -> printable m) ->
  den (serialize_slice_matrix_f ms) (VVec (map (VMat KMatrix) ms)).
Proof.
case/lastP: ms => // ms m _ h; rewrite serialize_slice_matrix_fE map_rcons; apply: den_vec.
  elim: ms h => //= m' ms IH h; split; first by apply/den_matrix/h; left.
  by apply: IH => x hx; apply: h; right.
apply/den_matrix/h; elim: (ms) => [|m' ms' IH] /=; by [left | right].
Qed.

Lemma den_mds_matrix m : printable m -> n_rows m = n_cols m -> den (display_mds_matrix m) (VMat KMds m).
Proof.
move=> [hs s0 _ _] hn; rewrite /display_mds_matrix -catA.
apply: (den_call (ss := [::]) (vs := [::]) (a := str "MdsMatrix") (f := str "from_elements")) => //.
  exact: den_slice.
rewrite /call -[rcons _ _]/[:: _] imported_in //.
rewrite -[LHS]/(match as_vec (@as_field PF) (VVec (map (@VField PF) (elements m))) with
  | Some els => match of_outcome (from_vec els) with Some m => Some (VMat KMds m) | None => None end
  | None => None end).
by rewrite /as_vec (@all_some_map _ _ _ _ _ id) // map_id from_vecP.
Qed.

Lemma den_alpha a : (if a is Exponent e then (e < 2 ^ 32)%num else True) -> den (display_alpha a) (VAlpha PF a).
Proof.
case: a => [e he|_]; rewrite /display_alpha.
  apply: (den_call (ss := [::]) (vs := [::]) (a := str "Alpha") (f := str "Exponent")) => //.
    exact: den_num.
  rewrite /call imported_in //= /u32_lit.
  by move/N.ltb_lt: he => ->.
exists [:: TId (str "Alpha"); TSym (chr ":"); TSym (chr ":"); TId (str "Inverse")],
  (EPath [:: str "Alpha"; str "Inverse"]); split.
- move=> c rest /andP [ca cd]; rewrite lex_run_cat.
  rewrite -[lex_run MNone (str _)]/(MId (str "Inverse"), [:: TId (str "Alpha"); TSym (chr ":"); TSym (chr ":")]).
  rewrite !lex_run_cons /prepend /= (negbTE ca) (negbTE cd).
  by case: lex_start => m1 t1 /=; case: lex_run.
- exact: parses_inverse.
- by rewrite /= /constant imported_in.
Qed.
(** What the Rust types of a parameter set and the generator guarantee. *)
Definition printable_mds (om : optimized_mds PF) : Prop :=
  [/\ [/\ printable (om_M_hat om), printable (om_v om), printable (om_w om) & printable (om_M_prime om)],
      [/\ printable (om_M_doubleprime om), printable (om_M_inverse om), printable (om_M_hat_inverse om) &
          printable (om_M_i om)],
      (0 < size (om_v_collection om))%N /\ (forall m, List.In m (om_v_collection om) -> printable m) &
      (0 < size (om_w_hat_collection om))%N /\ (forall m, List.In m (om_w_hat_collection om) -> printable m)].

Definition om_fields (om : optimized_mds PF) : seq (bytes * bytes) :=
  [:: (str "
                M_hat: ", display_square_matrix (om_M_hat om));
      (str "
                v: ", display_matrix (om_v om));
      (str "
                w: ", display_matrix (om_w om));
      (str "
                M_prime: ", display_square_matrix (om_M_prime om));
      (str "
                M_doubleprime: ", display_square_matrix (om_M_doubleprime om));
      (str "
                M_inverse: ", display_square_matrix (om_M_inverse om));
      (str "
                M_hat_inverse: ", display_square_matrix (om_M_hat_inverse om));
      (str "
                M_00: ", serialize_f (om_M_00 om));
      (str "
                M_i: ", display_matrix (om_M_i om));
      (str "
                v_collection: ", serialize_slice_matrix_f (om_v_collection om));
      (str "
                w_hat_collection: ", serialize_slice_matrix_f (om_w_hat_collection om))].

Lemma om_text om : display_optimized_mds om =
  str "OptimizedMdsMatrices {" ++ fields_text (om_fields om) ++ str "
            }".
Proof.
rewrite /display_optimized_mds /om_fields /fields_text.
move: (display_square_matrix (om_M_hat om)) (display_matrix (om_v om)) (display_matrix (om_w om)) => s1 s2 s3.
move: (display_square_matrix _) (display_square_matrix _) (display_square_matrix _) (display_square_matrix _) => s4 s5 s6 s7.
move: (serialize_f _) (display_matrix _) (serialize_slice_matrix_f _) (serialize_slice_matrix_f _) => s8 s9 s10 s11.
rewrite -[flatten _]/(_ ++ _ ++ _ ++ _ ++ _ ++ _ ++ _ ++ _ ++ _ ++ _ ++ _ ++ [::]).
by rewrite cats0 -!catA.
Qed.

Lemma den_optimized_mds om : printable_mds om -> den (display_optimized_mds om) (VOpt om).
Proof.
move=> [[p1 p2 p3 p4] [p5 p6 p7 p8] [v0 vp] [w0 wp]]; rewrite om_text.
apply: (den_struct (a := str "OptimizedMdsMatrices") (fs :=
  [:: (str "M_hat", VMat KSquare (om_M_hat om)); (str "v", VMat KMatrix (om_v om));
      (str "w", VMat KMatrix (om_w om)); (str "M_prime", VMat KSquare (om_M_prime om));
      (str "M_doubleprime", VMat KSquare (om_M_doubleprime om));
      (str "M_inverse", VMat KSquare (om_M_inverse om));
      (str "M_hat_inverse", VMat KSquare (om_M_hat_inverse om)); (str "M_00", VField (om_M_00 om));
      (str "M_i", VMat KMatrix (om_M_i om));
      (str "v_collection", VVec (map (VMat KMatrix) (om_v_collection om)));
      (str "w_hat_collection", VVec (map (VMat KMatrix) (om_w_hat_collection om)))])) => //.
- rewrite /om_fields; do 11 (split; first by []; first by
    [apply: den_square_matrix | apply: den_matrix | apply: den_felt | apply: den_slice_matrix]).
  by [].
- rewrite /struct imported_in // -[~~ uniq _]/false.
  rewrite -[_ || _]/false -[_ && _]/false -[_ && _]/true.
  rewrite -[LHS]/(match all_some (as_mat KMatrix) (map (VMat KMatrix) (om_v_collection om)) with
    | Some v => match all_some (as_mat KMatrix) (map (VMat KMatrix) (om_w_hat_collection om)) with
       | Some w => Some (VOpt (OptimizedMds (om_M_hat om) (om_v om) (om_w om) (om_M_prime om) (om_M_doubleprime om)
          (om_M_inverse om) (om_M_hat_inverse om) (om_M_00 om) (om_M_i om) v w))
       | None => None end
    | None => None end).
  by rewrite !(@all_some_map _ _ _ _ _ id) // !map_id; case: (om).
Qed.
Lemma den_arc_matrix m : printable m -> exists s, display_arc_matrix m = Ret s /\ den s (VMat KArc m).
Proof.
move=> pm; have [hs _ _ _] := pm; have [rows [E Ef]] := arc_rows hs.
rewrite /display_arc_matrix E bind_ret serialize_slice_of_vecs_fE Ef -!catA.
by eexists; split=> //; apply: (@den_new _ _ (str "ArcMatrix")) => //; [apply: imported_in | constructor 3].
Qed.

Lemma den_optimized_arc_matrix m : printable m ->
  exists s, display_optimized_arc_matrix m = Ret s /\ den s (VMat KOptArc m).
Proof.
move=> pm; have [hs _ _ _] := pm; have [rows [E Ef]] := arc_rows hs.
rewrite /display_optimized_arc_matrix E bind_ret serialize_slice_of_vecs_fE Ef -!catA.
by eexists; split=> //; apply: (@den_new _ _ (str "OptimizedArcMatrix")) => //; [apply: imported_in | constructor 4].
Qed.

Lemma den_rounds (r : rounds) : fits (r_P r) -> fits (r_F r) ->
  den (str "RoundNumbers {r_P: " ++ display_usize (r_P r) ++ str ", r_F: " ++ display_usize (r_F r) ++ str "}")
      (VRounds PF r).
Proof.
move=> hP hF.
exists (TId (str "RoundNumbers") :: TSym (chr "{") ::
   (TId (str "r_P") :: TSym (chr ":") :: [:: TNum (display_usize (r_P r))] ++ comma ::
    (TId (str "r_F") :: TSym (chr ":") :: [:: TNum (display_usize (r_F r))])) ++ [:: TSym (chr "}")]),
  (EStruct [:: str "RoundNumbers"] [:: (str "r_P", ENum (display_usize (r_P r)));
                                       (str "r_F", ENum (display_usize (r_F r)))]); split.
- apply: lexes_anyW.
  apply: (@lexes_any_cat _ _ [:: TId (str "RoundNumbers"); TSym (chr "{"); TId (str "r_P"); TSym (chr ":")]).
    exact: lexes_any_eq.
  rewrite -[str ", r_F: "]/(44%num :: str " r_F: ") catA.
  apply: (@lexes_any_cat _ _ [:: TNum (display_usize (r_P r)); comma; TId (str "r_F"); TSym (chr ":")]).
    apply: (@lexes_lexes_any _ _ _ [:: TNum (display_usize (r_P r))]) => //; first exact: lexes_num.
    exact: lexes_any_eq.
  apply: (@lexes_lexes_any _ _ _ [:: TNum (display_usize (r_F r))]) => //; first exact: lexes_num.
  exact: lexes_any_eq.
- apply: parses_struct; apply: parses_fields_cons; first exact: parses_num.
  by apply: parses_fields1; apply: parses_num.
- rewrite -[LHS]/(struct imported [:: str "RoundNumbers"]
     [:: (str "r_P", VInt PF (decimal (display_usize (r_P r)))); (str "r_F", VInt PF (decimal (display_usize (r_F r))))]).
  rewrite /struct imported_in // -[~~ uniq _]/false -[_ || _]/false -[_ && _]/true.
  rewrite -[LHS]/(match usize_lit (VInt PF (decimal (display_usize (r_P r)))) with
    | Some p => match usize_lit (VInt PF (decimal (display_usize (r_F r)))) with
       | Some f => Some (VRounds PF (RoundNumbers p f)) | None => None end
    | None => None end).
  rewrite /display_usize; have [-> _ _ _] := display_NP (N.of_nat (r_P r)).
  have [-> _ _ _] := display_NP (N.of_nat (r_F r)).
  by rewrite !usize_litP //; case: (r).
Qed.

(** A parameter set that can be printed. *)
Definition printable_params (P : params PF) : Prop :=
  [/\ [/\ (0 < p_t P)%N, p_t1 P = (p_t P).-1, fits (p_M P) & fits (p_t P)],
      [/\ printable (p_arc P), printable (p_optimized_arc P), printable (p_mds P) &
          n_rows (p_mds P) = n_cols (p_mds P)],
      (if p_alpha P is Exponent e then (e < 2 ^ 32)%num else True),
      fits (r_P (p_rounds P)) /\ fits (r_F (p_rounds P)) &
      printable_mds (p_optimized_mds P)].

Definition body_fields (P : params PF) (arc oarc : bytes) : seq (bytes * bytes) :=
  [:: (str "
        M: ", display_usize (p_M P));
      (str "
        t: ", display_usize (p_t P));
      (str "
        arc: ", arc);
      (str "
        mds: ", display_mds_matrix (p_mds P));
      (str "
        alpha: ", display_alpha (p_alpha P));
      (str "
        rounds: ", str "RoundNumbers {r_P: " ++ display_usize (r_P (p_rounds P)) ++ str ", r_F: " ++
                    display_usize (r_F (p_rounds P)) ++ str "}");
      (str "
        optimized_mds: ", display_optimized_mds (p_optimized_mds P));
      (str "
        optimized_arc: ", oarc)].

Definition body_text (P : params PF) arc oarc : bytes :=
  str "PoseidonParameters {" ++ fields_text (body_fields P arc oarc) ++ str "
    }".

Definition fn_text (rate body : bytes) : bytes :=
  str "/// Parameters for the rate-" ++ rate ++ str " instance of Poseidon.
pub fn rate_" ++ rate ++ str "<F: PrimeField>() -> PoseidonParameters<F> {
    " ++ body ++ str "
}
".

Lemma display_params_text (P : params PF) arc oarc : (0 < p_t P)%N ->
  display_arc_matrix (p_arc P) = Ret arc -> display_optimized_arc_matrix (p_optimized_arc P) = Ret oarc ->
  display_params P = Ret (fn_text (display_usize (p_t P).-1) (body_text P arc oarc)).
Proof.
move=> t0 ha ho; rewrite /display_params usubE // subn1 bind_ret ha bind_ret ho bind_ret.
congr Ret; rewrite /fn_text /body_text /body_fields /fields_text.
move: (display_usize (p_t P).-1) (display_usize (p_M P)) (display_usize (p_t P)) => s1 s2 s3.
move: (display_mds_matrix _) (display_alpha _) (display_usize (r_P _)) (display_usize (r_F _)) => s4 s5 s6 s7.
move: (display_optimized_mds _) => s8.
rewrite -[flatten _]/(_ ++ _ ++ _ ++ _ ++ _ ++ _ ++ _ ++ _ ++ [::]).
by rewrite cats0 -!catA.
Qed.

Lemma den_body (P : params PF) arc oarc : printable_params P ->
  den arc (VMat KArc (p_arc P)) -> den oarc (VMat KOptArc (p_optimized_arc P)) ->
  den (body_text P arc oarc) (VParams P).
Proof.
move=> [[t0 et hM ht] [pa po pm sq] ha [hP hF] hom] da doa.
apply: (den_struct (a := str "PoseidonParameters") (fs :=
  [:: (str "M", VInt PF (N.of_nat (p_M P))); (str "t", VInt PF (N.of_nat (p_t P)));
      (str "arc", VMat KArc (p_arc P)); (str "mds", VMat KMds (p_mds P));
      (str "alpha", VAlpha PF (p_alpha P)); (str "rounds", VRounds PF (p_rounds P));
      (str "optimized_mds", VOpt (p_optimized_mds P));
      (str "optimized_arc", VMat KOptArc (p_optimized_arc P))])) => //.
- rewrite /body_fields; do 8 (split; first by []; first by
    [exact: den_num | exact: da | exact: doa | exact: den_mds_matrix | exact: den_alpha |
     exact: den_rounds | exact: den_optimized_mds]).
  by [].
- rewrite /struct imported_in // -[~~ uniq _]/false.
  rewrite -[LHS]/(match usize_lit (VInt PF (N.of_nat (p_M P))) with
    | Some M => match usize_lit (VInt PF (N.of_nat (p_t P))) with
       | Some t => Some (VParams (Params t t.-1 M (p_alpha P) (p_rounds P) (p_mds P) (p_arc P)
            (p_optimized_arc P) (p_optimized_mds P)))
       | None => None end
    | None => None end).
  by rewrite !usize_litP // -et; case: (P).
Qed.
End Types.
End Imported.
End Printers.
