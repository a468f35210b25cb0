(** The unoptimized permutation is the textbook permutation; bijectivity;
    the fixed-width hash of an [Instance]. *)
From Coq Require Import NArith ZArith Lia.
From mathcomp Require Import all_ssreflect all_algebra.
From Verif Require Import Base Matrix MatrixSpec MatrixProofs Params Permutation Spec.
From Verif Require Import PermutationProofs.
Set Implicit Arguments.
Unset Strict Implicit.
Unset Printing Implicit Defensive.
Import GRing.Theory.
Local Open Scope ring_scope.
Local Open Scope rust_scope.
Delimit Scope Z_scope with Z.

(** * Bijectivity of the textbook permutation *)
Section Bij.
Variable F : fieldType.
Variable t1 : nat.
Local Notation vec := ('cV[F]_(1 + t1)).
Variables (S : F -> F) (M : 'M[F]_(1 + t1)) (rc : nat -> vec).
Hypothesis bS : bijective S.
Hypothesis uM : M \in unitmx.

Lemma bij_mulmx : bijective (fun x : vec => M *m x).
Proof. by exists (mulmx (invmx M)) => x; rewrite ?mulKmx ?mulKVmx. Qed.

Lemma bij_full_round c : bijective (fun x => full_round S M x c).
Proof.
have [S' K1 K2] := bS.
apply: (bij_comp (f := fun y => M *m y)); first exact: bij_mulmx.
exists (fun y : vec => \col_i S' (y i 0) - c) => x; apply/matrixP => i j; rewrite !mxE (ord1 j).
  by rewrite K1 addrK.
by rewrite subrK K2.
Qed.

Lemma bij_partial_round c : bijective (fun x => partial_round S M x c).
Proof.
have [S' K1 K2] := bS.
apply: (bij_comp (f := fun y => M *m y)); first exact: bij_mulmx.
exists (fun y : vec => (\col_i if i == 0 then S' (y i 0) else y i 0) - c) => x;
  apply/matrixP => i j; rewrite !mxE (ord1 j); case: eqP => _.
- by rewrite K1 addrK.
- by rewrite addrK.
- by rewrite subrK K2.
- by rewrite subrK.
Qed.

Lemma bij_foldl T (f : vec -> T -> vec) (l : seq T) :
  (forall r, bijective (f^~ r)) -> bijective (fun x => foldl f x l).
Proof.
move=> H; elim: l => [|r l IH] /=; first by exists id.
exact: (bij_comp IH (H r)).
Qed.

Lemma bij_poseidon Rf Rp : bijective (poseidon S M rc Rf Rp).
Proof.
rewrite /poseidon.
apply: (bij_comp (f := fun x => foldl _ x _)); first by apply: bij_foldl => r; apply: bij_full_round.
apply: (bij_comp (f := fun x => foldl _ x _)); first by apply: bij_foldl => r; apply: bij_partial_round.
by apply: bij_foldl => r; apply: bij_full_round.
Qed.
End Bij.

(** * The model *)
Section Perm.
Variable F : fieldType.
Variable p : params F.
Variable t1 : nat.
Local Notation t := (1 + t1)%N.
Local Notation vec := ('cV[F]_(1 + t1)).
Hypothesis ht : p_t p = t.
Hypothesis ht1 : p_t1 p = t1.
Hypothesis wf : wf_params p.
Let Rf := (r_F (p_rounds p) %/ 2)%N.
Let Rp := r_P (p_rounds p).
Variable e : N.
Hypothesis he : p_alpha p = Exponent e.

Lemma for_in_pure T S (g : S -> T -> S) (f : T -> S -> outcome S) xs s :
  (forall x s, f x s = Ret (g s x)) -> for_in xs f s = Ret (foldl g s xs).
Proof. by move=> H; elim: xs s => //= x xs IH s; rewrite H /= IH. Qed.

Lemma unoptV_poseidon x :
  unoptV p x = Ret (poseidon (fun x => x ^+ N.to_nat e) (pM p t1) (@pc _ p t1) Rf Rp x).
Proof.
rewrite /unoptV /poseidon.
have SB : sbox p =1 (fun x => Ret (x ^+ N.to_nat e)) by move=> y; rewrite /sbox he.
have H1 r y : fullR p (@pc _ p t1) r y
    = Ret (full_round (fun x => x ^+ N.to_nat e) (pM p t1) y (pc p t1 r)).
  rewrite /fullR /fullO /full_round.
  have -> : traverse (sbox p) (ofV (y + pc p t1 r))
          = Ret [seq z ^+ N.to_nat e | z <- ofV (y + pc p t1 r)].
    rewrite -traverse_ret; elim: (ofV _) => //= a l ->; by rewrite SB.
  rewrite /=; congr (Ret (_ *m _)); apply/matrixP => i j; rewrite !mxE.
  rewrite (nth_map 0) ?size_ofV // nth_ofV; by rewrite !mxE.
have H2 r y : partR p r y
    = Ret (partial_round (fun x => x ^+ N.to_nat e) (pM p t1) y (pc p t1 r)).
  rewrite /partR /partO SB /= /partial_round; congr (Ret (_ *m _)).
  by apply/matrixP => i j; rewrite !mxE; case: eqP => // ->.
by rewrite !(for_in_pure _ _ H1) /= (for_in_pure _ _ H2) /= (for_in_pure _ _ H1).
Qed.
End Perm.

(** * The hash *)
Section Hash.
Variable F : fieldType.
Variable p : params F.

Lemma load_inputE (inp st : seq F) : size st = size inp -> load_input inp st = Ret inp.
Proof.
move=> sz; rewrite /load_input (enumerateE 0) for_in_map /=.
have H : forall n, (n <= size inp)%N ->
  for_in (iota 0 n) (fun i st => aset st i (nth 0 inp i)) st = Ret (take n inp ++ drop n st).
  elim=> [|n IH] nle; first by rewrite /= take0 drop0.
  rewrite -{1}addn1 iotaD /= cats1 for_in_rcons IH ?(ltnW nle) //= add0n.
  have sn : size (take n inp) = n by rewrite size_takel // ltnW.
  rewrite (drop_nth 0) ?sz //.
  have := aset_cat (take n inp) (drop n.+1 st) (nth 0 st n) (nth 0 inp n); rewrite sn => ->.
  by rewrite (take_nth 0) // cat_rcons.
by rewrite H // take_size -sz drop_size cats0.
Qed.

Lemma hash_fresh (inp st : seq F) : size st = size inp ->
  n_to_1_fixed_hash p inp st
  = (st' <- permute p inp ;; out <- aget st' 1 ;; Ret (out, st')).
Proof. by move=> sz; rewrite /n_to_1_fixed_hash load_inputE. Qed.

Lemma unopt_hash_fresh (inp st : seq F) : size st = size inp ->
  unoptimized_n_to_1_fixed_hash p inp st
  = (st' <- unoptimized_permute p inp ;; out <- aget st' 1 ;; Ret (out, st')).
Proof. by move=> sz; rewrite /unoptimized_n_to_1_fixed_hash load_inputE. Qed.

(** Word 1 of the state is what is returned. *)
Lemma hash_word1 (inp st st' : seq F) out :
  n_to_1_fixed_hash p inp st = Ret (out, st') -> aget st' 1 = Ret out.
Proof.
rewrite /n_to_1_fixed_hash; case: (load_input _ _) => //= a; case: (permute _ _) => //= b.
by case E: (aget b 1) => //= -[<- <-].
Qed.

Lemma unopt_hash_word1 (inp st st' : seq F) out :
  unoptimized_n_to_1_fixed_hash p inp st = Ret (out, st') -> aget st' 1 = Ret out.
Proof.
rewrite /unoptimized_n_to_1_fixed_hash; case: (load_input _ _) => //= a.
case: (unoptimized_permute _ _) => //= b; by case E: (aget b 1) => //= -[<- <-].
Qed.

(** The length of the state never changes, whatever the parameters are. *)
Definition keeps {A} (sz : A -> nat) (f : A -> outcome A) : Prop :=
  forall a a', sz a = p_t p -> f a = Ret a' -> sz a' = p_t p.
Local Notation pres := (keeps (@size F)).
Local Notation presc := (keeps (fun sc : seq F * nat => size sc.1)).

Lemma keeps_for T A sz (xs : seq T) (body : T -> A -> outcome A) :
  (forall x, keeps sz (body x)) -> keeps sz (for_in xs body).
Proof.
move=> H; elim: xs => [|x xs IH] a a' h /=; first by case=> <-.
by case E: (body x a) => [b|] //=; apply: IH; apply: (H x) E.
Qed.

Lemma keeps_bind A sz (f g : A -> outcome A) : keeps sz f -> keeps sz g ->
  keeps sz (fun a => bind (f a) g).
Proof. by move=> Hf Hg a a' h /=; case E: (f a) => [b|] //=; apply: Hg; apply: Hf E. Qed.

Lemma pres_full : pres (full_sub_words p).
Proof.
apply: keeps_for => i st st' h; case: (aget _ _) => //= x; case: (sbox _ _) => //= y.
by move=> E; rewrite (aset_size E).
Qed.

Lemma pres_partial : pres (partial_sub_words p).
Proof.
move=> st st' h; rewrite /partial_sub_words; case: (aget _ _) => //= x.
by case: (sbox _ _) => //= y E; rewrite (aset_size E).
Qed.

Lemma pres_add c : pres (add_constants p c).
Proof.
apply: keeps_for => i st st' h; case: (aget _ _) => //= x; case: (c i) => //= y.
by move=> E; rewrite (aset_size E).
Qed.

Lemma pres_addc rc : presc (add_constants_counter p rc).
Proof.
apply: keeps_for => i [st n] st' h; case: (aget _ _) => //= x; case: (aget rc n) => //= y.
by case E: (aset _ _ _) => [b|] //= [<-] /=; rewrite (aset_size E).
Qed.

Lemma pres_mix m : pres (mix_layer p m).
Proof.
move=> st st' h; rewrite /mix_layer; case: (iter_rows m) => //= rows.
set body := (fun (ir : nat * seq F) acc => aset acc ir.1 (sum_products ir.2 st)).
suff : pres (for_in (enumerate rows) body) by apply; rewrite size_nseq.
by apply: keeps_for => x a b hb E; rewrite (aset_size E).
Qed.

Lemma pres_sparse k : pres (sparse_mat_mul p k).
Proof.
move=> st st' h; rewrite /sparse_mat_mul.
case: (aget _ k) => //= v; case: (for_in _ _ _) => //= add.
case E0: (aget st 0) => [s0|] //=; case: (aget _ k) => //= w.
case: (aslice _ _ _) => //= tl; case E1: (aset _ _ _) => [st1|] //=.
case: (usub _ _) => //= n; case: (aslice add _ _) => //= src.
case E2: (aslice st1 _ _) => [tl2|] //=; case: eqP => //= e [<-].
have s1 : size st1 = p_t p by rewrite (aset_size E1).
move: E2; rewrite /aslice s1 leqnn andbT; case: ifP => // t0 [tl2E].
have sz2 : size tl2 = (p_t p - 1)%N by rewrite -tl2E size_takel // size_drop s1.
rewrite !size_cat size_takel ?s1 // -e sz2 size_drop s1 subnn addn0.
by rewrite subnKC.
Qed.

Lemma permute_size st st' : size st = p_t p -> permute p st = Ret st' -> size st' = p_t p.
Proof.
move=> h; rewrite /permute.
set b1 := (X in for_in _ X st).
have P1 : pres (for_in (range 0 (r_F (p_rounds p) %/ 2)) b1).
  apply: keeps_for => r; apply: keeps_bind; first exact: pres_add.
  by apply: keeps_bind; [exact: pres_full | exact: pres_mix].
case E1: (for_in _ b1 st) => [st1|] //=; have h1 := P1 _ _ h E1.
case E2: (add_constants _ _ _) => [st2|] //=; have h2 := pres_add h1 E2.
case E3: (mix_layer_mi _ _) => [st3|] //=; have h3 := pres_mix h2 E3.
case: (usub _ 1) => //= bound.
set b2 := (X in for_in _ X (st3, _)).
have P2 : presc (for_in (range 0 bound) b2).
  apply: keeps_for => r [s n] sc /= hs; rewrite /b2.
  case F1: (partial_sub_words _ _) => [s1|] //=; have k1 := pres_partial hs F1.
  case: (aget _ _) => //= x; case: (get_element _ _ _) => //= y.
  case F2: (aset _ _ _) => [s2|] //=; have k2 : size s2 = p_t p by rewrite (aset_size F2).
  case: (usub _ r) => //= m; case: (usub m 1) => //= m'.
  by case F3: (sparse_mat_mul _ _ _) => [s3|] //= [<-] /=; apply: pres_sparse F3.
case E4: (for_in _ b2 _) => [[st4 c4]|] //=.
have h4 : size st4 = p_t p by exact: (P2 _ _ _ E4).
case E5: (partial_sub_words _ _) => [st5|] //=; have h5 := pres_partial h4 E5.
case E6: (sparse_mat_mul _ _ _) => [st6|] //=; have h6 := pres_sparse h5 E6.
set b3 := (X in for_in _ X (st6, _)).
have P3 : presc (for_in (range 0 (r_F (p_rounds p) %/ 2)) b3).
  apply: keeps_for => r [s n] sc /= hs; rewrite /b3.
  case F1: (add_constants _ _ _) => [s1|] //=; have k1 := pres_add hs F1.
  case F2: (full_sub_words _ _) => [s2|] //=; have k2 := pres_full k1 F2.
  by case F3: (mix_layer_mds _ _) => [s3|] //= [<-] /=; apply: pres_mix F3.
case E7: (for_in _ b3 _) => [[st7 c7]|] //= [<-].
exact: (P3 _ _ _ E7).
Qed.

Lemma unoptimized_permute_size st st' :
  size st = p_t p -> unoptimized_permute p st = Ret st' -> size st' = p_t p.
Proof.
move=> h; rewrite /unoptimized_permute.
set fr := (X in for_in _ X (st, _)).
have P1 n : presc (for_in (range 0 n) fr).
  apply: keeps_for => r; apply: keeps_bind; first exact: pres_addc.
  move=> [s n0] sc /= hs.
  case F2: (full_sub_words _ _) => [s2|] //=; have k2 := pres_full hs F2.
  by case F3: (mix_layer_mds _ _) => [s3|] //= [<-] /=; apply: pres_mix F3.
case E1: (for_in _ fr _) => [a|] //=; have h1 := P1 _ (st, 0%N) a h E1.
set pr := (X in for_in _ X a).
have P2 n : presc (for_in (range 0 n) pr).
  apply: keeps_for => r; apply: keeps_bind; first exact: pres_addc.
  move=> [s n0] sc /= hs.
  case F2: (partial_sub_words _ _) => [s2|] //=; have k2 := pres_partial hs F2.
  by case F3: (mix_layer_mds _ _) => [s3|] //= [<-] /=; apply: pres_mix F3.
case E2: (for_in _ pr _) => [b|] //=; have h2 := P2 _ _ _ h1 E2.
by case E3: (for_in _ fr _) => [c|] //= [<-]; apply: (P1 _ _ _ h2 E3).
Qed.

Lemma hash_size inp st out st' : size inp = p_t p -> size st = p_t p ->
  n_to_1_fixed_hash p inp st = Ret (out, st') -> size st' = p_t p.
Proof.
move=> hi hs; rewrite hash_fresh ?hi //.
case E: (permute _ _) => [a|] //=; case: (aget a 1) => //= o [_ <-].
exact: permute_size E.
Qed.

Lemma unopt_hash_size inp st out st' : size inp = p_t p -> size st = p_t p ->
  unoptimized_n_to_1_fixed_hash p inp st = Ret (out, st') -> size st' = p_t p.
Proof.
move=> hi hs; rewrite unopt_hash_fresh ?hi //.
case E: (unoptimized_permute _ _) => [a|] //=; case: (aget a 1) => //= o [_ <-].
exact: unoptimized_permute_size E.
Qed.

(** ** Any sequence of calls on one instance *)
Inductive call := Optimized of seq F | Unoptimized of seq F.
Definition call_input c := match c with Optimized i | Unoptimized i => i end.
Definition run_call (c : call) (st : seq F) : outcome (F * seq F) :=
  match c with
  | Optimized i => n_to_1_fixed_hash p i st
  | Unoptimized i => unoptimized_n_to_1_fixed_hash p i st
  end.
Fixpoint run_calls (cs : seq call) (st : seq F) : outcome (seq F) :=
  match cs with
  | [::] => Ret st
  | c :: cs => r <- run_call c st ;; run_calls cs r.2
  end.

Lemma history_independence cs c st :
  all (fun c => size (call_input c) == p_t p) cs -> size (call_input c) = p_t p ->
  run_calls cs (instance_new p) = Ret st ->
  run_call c st = run_call c (instance_new p).
Proof.
move=> hcs hc.
have fresh i : size (call_input i) = p_t p -> forall s s', size s = p_t p -> size s' = p_t p ->
    run_call i s = run_call i s'.
  by case: i => i /= hi s s' h h'; rewrite ?hash_fresh ?unopt_hash_fresh ?hi.
have keep : forall s, size s = p_t p -> run_calls cs s = Ret st -> size st = p_t p.
  elim: cs hcs => [|c' cs IH] /=; first by move=> _ s hs [<-].
  case/andP=> /eqP hc' hcs s hs; case E: (run_call c' s) => [[o s']|] //=; apply: IH => //.
  case: c' hc' E => i /= hi E; [exact: hash_size E | exact: unopt_hash_size E].
move=> E; apply: fresh => //; last by rewrite size_nseq.
by apply: keep E; rewrite size_nseq.
Qed.

(** A one-word state has no word 1. *)
Lemma one_word_panics (inp st : seq F) : p_t p = 1%N -> size inp = 1%N -> size st = 1%N ->
  n_to_1_fixed_hash p inp st = Panic /\ unoptimized_n_to_1_fixed_hash p inp st = Panic.
Proof.
move=> h1 hi hs; rewrite hash_fresh ?unopt_hash_fresh ?hi //; split.
- case E: (permute _ _) => [a|] //=.
  by rewrite aget_oob // (permute_size _ E) ?h1 ?hi.
- case E: (unoptimized_permute _ _) => [a|] //=.
  by rewrite aget_oob // (unoptimized_permute_size _ E) ?h1 ?hi.
Qed.

(** With no partial rounds the optimized permutation panics. *)
Lemma no_partial_rounds_panic (inp : seq F) : r_P (p_rounds p) = 0%N -> permute p inp = Panic.
Proof.
move=> h; rewrite /permute h /=; case: (for_in _ _ _) => //= a.
by case: (add_constants _ _ _) => //= b; case: (mix_layer_mi _ _).
Qed.

End Hash.
