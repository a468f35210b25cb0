(** The constraints generated by the gadget do not depend on values, nor on the
    behaviour of empty sums when they are avoided. *)
From Coq Require Import NArith.
From mathcomp Require Import all_ssreflect all_algebra.
From Verif Require Import Base Matrix Params Permutation R1cs R1csSpec.
Set Implicit Arguments.
Unset Strict Implicit.
Unset Printing Implicit Defensive.
Import GRing.Theory.
Local Open Scope ring_scope.
Local Open Scope rust_scope.

(** [f'] on mapped states returns the mapped result, whenever [f] returns. *)
Definition pres {A B} (EA : A -> A) (EB : B -> B) (f f' : A -> outcome B) : Prop :=
  forall a b, f a = Ret b -> f' (EA a) = Ret (EB b).

Lemma pres_bind A B C (EA : A -> A) (EB : B -> B) (EC : C -> C) f f' g g' :
  pres EA EB f f' -> pres EB EC g g' ->
  pres EA EC (fun a => bind (f a) g) (fun a => bind (f' a) g').
Proof. by move=> pf pg a c; case E: (f a) => [b|] //= H; rewrite (pf _ _ E) /= (pg _ _ H). Qed.

Lemma pres_for T S (E : S -> S) (l : seq T) f f' :
  (forall x, pres E E (f x) (f' x)) -> pres E E (for_in l f) (for_in l f').
Proof.
move=> H; elim: l => [|x l IH] s s' /=; first by case=> ->.
by case F: (f x s) => [s1|] //= /IH; rewrite (H _ _ _ F).
Qed.

Section Shape.
Variable F : fieldType.
Variable b : bool.
Definition erase_alloc (v : alloc F) : alloc F := Alloc None (a_lc v).
Definition erase_var (x : fpvar F) : fpvar F :=
  match x with Constant c => Constant c | Var v => Var (erase_alloc v) end.
(** The same system in setup mode. *)
Definition erase_cs (cs : csys F) : csys F :=
  Csys true (cs_ninst cs) [::] (cs_nwit cs) [::] (cs_cons cs).

Let ea v := if b then erase_alloc v else v.
Let ev x := if b then erase_var x else x.
Let ec cs := if b then erase_cs cs else cs.
Let E2 (s : fpvar F * csys F) := (ev s.1, ec s.2).
Let ES (s : rstate F) : rstate F := (map ev s.1, ec s.2).
Let EC (s : rstate F * nat) : rstate F * nat := (ES s.1, s.2).

Lemma ev_Var v : ev (Var v) = Var (ea v). Proof. by rewrite /ev /ea; case: b. Qed.
Lemma ev_Constant c : ev (Constant c) = Constant c. Proof. by rewrite /ev; case: b. Qed.
Lemma ea_add v k : ea (add_constant v k) = add_constant (ea v) k.
Proof. by rewrite /ea /add_constant; case: b; case: (k == 0). Qed.
Lemma ea_mul v k : ea (mul_constant v k) = mul_constant (ea v) k.
Proof. by rewrite /ea /mul_constant; case: b; case: (k == 1). Qed.

Lemma alloc_mul_er v w cs r cs' : alloc_mul v w cs = Ret (r, cs') ->
  alloc_mul (ea v) (ea w) (ec cs) = Ret (ea r, ec cs').
Proof.
rewrite /ea /ec; case: b => //; rewrite /alloc_mul /new_witness /=.
case: (cs_setup cs); first by case=> <- <-.
by case: (value2 _ _ _) => //= x [<- <-].
Qed.

Lemma fp_mul_er x y cs s : fp_mul x y cs = Ret s -> fp_mul (ev x) (ev y) (ec cs) = Ret (E2 s).
Proof.
case: s => r cs'; rewrite /E2 /=; case: x y => [c|v] [d|w] /=.
- by case=> <- <-; rewrite !ev_Constant.
- by case=> <- <-; rewrite ev_Constant !ev_Var ea_mul.
- by case=> <- <-; rewrite ev_Constant !ev_Var ea_mul.
- case E: (alloc_mul v w cs) => [[r' cs'']|] //= [<- <-].
  by rewrite !ev_Var /= (alloc_mul_er E).
Qed.

Lemma pow_er x e cs s : pow_by_constant x e cs = Ret s -> pow_by_constant (ev x) e (ec cs) = Ret (E2 s).
Proof.
move=> H; have := @pres_for bool _ E2 (bits_be e) _ _ _ _ _ H; rewrite /E2 /= ev_Constant; apply.
move=> bit [res cs1] s1 /=; case M: (fp_mul res res cs1) => [[r2 cs2]|] //=.
rewrite (fp_mul_er M) /=; case: bit => [|[<-]] //; exact: fp_mul_er.
Qed.

Lemma map_er ws i x : aget ws i = Ret x -> aget (map ev ws) i = Ret (ev x).
Proof. by elim: ws i => [|y ws IH] [|i] //=; [case=> -> | apply: IH]. Qed.
Lemma aset_er ws i x ws' : aset ws i x = Ret ws' -> aset (map ev ws) i (ev x) = Ret (map ev ws').
Proof.
elim: ws i ws' => [|y ws IH] [|i] ws' //=; first by case=> <-.
by case E: (aset ws i x) => [z|] //= [<-]; rewrite (IH _ _ E).
Qed.

Variable empty_sum : F -> outcome (fpvar F).
Lemma fp_sum_er xs r : fp_sum (fun _ => Panic) xs = Ret r -> fp_sum empty_sum (map ev xs) = Ret (ev r).
Proof.
rewrite /fp_sum.
have -> : pmap (fun x => if x is Var a then Some a else None) (map ev xs)
   = map ea (pmap (fun x => if x is Var a then Some a else None) xs).
  elim: xs => //= x xs ->; case: x => [c|v]; [by rewrite ev_Constant | by rewrite ev_Var].
have -> k : foldl (fun acc x => if x is Constant c then acc + c else acc) k (map ev xs)
   = foldl (fun acc x => if x is Constant c then acc + c else acc) k xs.
  elim: xs k => //= x xs IH k; rewrite IH; case: x => [c|v]; [by rewrite ev_Constant | by rewrite ev_Var].
case: (pmap _ _) => //= v vs [<-]; rewrite ev_Var ea_add.
congr (Ret (Var (add_constant _ _))); rewrite /ea; case: (b); last by rewrite !map_id.
rewrite /erase_alloc /addmany /= -map_comp; congr (Alloc _ _).
by elim: vs.
Qed.

Variable p : params F.

Lemma partial_er : pres ES ES (r1cs_partial_sub_words p) (r1cs_partial_sub_words p).
Proof.
move=> [ws cs] s'; rewrite /r1cs_partial_sub_words; case: (p_alpha p) => // e.
case G: (aget ws 0) => [x|] //=; rewrite (map_er G) /=.
case P: (pow_by_constant x e cs) => [[r cs1]|] //=; rewrite (pow_er P) /=.
by case A: (aset ws 0 r) => [ws1|] //= [<-]; rewrite (aset_er A).
Qed.

Lemma full_er : pres ES ES (r1cs_full_sub_words p) (r1cs_full_sub_words p).
Proof.
rewrite /r1cs_full_sub_words; case: (p_alpha p) => // e.
apply: pres_for => i [ws cs] s' /=.
case G: (aget ws i) => [x|] //=; rewrite (map_er G) /=.
case P: (pow_by_constant x e cs) => [[r cs1]|] //=; rewrite (pow_er P) /=.
by case A: (aset ws i r) => [ws1|] //= [<-]; rewrite (aset_er A).
Qed.

Lemma ev_const_mul k x : ev (const_mul k x) = const_mul k (ev x).
Proof. by case: x => [c|v] /=; rewrite ?ev_Constant // !ev_Var ea_mul. Qed.
Lemma ev_add_const k x : ev (fp_add_const x k) = fp_add_const (ev x) k.
Proof. by case: x => [c|v] /=; rewrite ?ev_Constant // !ev_Var ea_add. Qed.

Lemma mix_er : pres ES ES (r1cs_mix_layer_mds (fun _ => Panic) p) (r1cs_mix_layer_mds empty_sum p).
Proof.
move=> [ws cs] s'; rewrite /r1cs_mix_layer_mds /=; case: (iter_rows _) => //= rows.
case L: (for_in _ _ _) => [ws1|] //= [<-].
rewrite (@pres_for _ _ (map ev) _ _ _ _ [::] _ L) // => row acc acc'.
case S: (fp_sum _ _) => [r|] //= [<-].
have -> : [seq const_mul xy.1 xy.2 | xy <- zip row (map ev ws)]
   = map ev [seq const_mul xy.1 xy.2 | xy <- zip row ws].
  by elim: row ws {L S} => [|k row IH] [|x ws] //=; rewrite IH ev_const_mul.
by rewrite (fp_sum_er S) map_rcons.
Qed.

Lemma add_er rc : pres EC EC (r1cs_add_constants p rc) (r1cs_add_constants p rc).
Proof.
apply: pres_for => i [[ws cs] n] s' /=.
case G: (aget ws i) => [x|] //=; rewrite (map_er G) /=.
case: (aget rc n) => //= k.
by case A: (aset ws i _) => [ws1|] //= [<-]; rewrite -ev_add_const (aset_er A).
Qed.

Lemma round_er sub (n : nat) : pres ES ES sub sub ->
  pres EC EC
   (fun sc => sc <- r1cs_add_constants p (elements (p_arc p)) sc ;;
        let: (s, counter) := sc in
        s <- sub s ;; s <- r1cs_mix_layer_mds (fun _ => Panic) p s ;; Ret (s, counter))
   (fun sc => sc <- r1cs_add_constants p (elements (p_arc p)) sc ;;
        let: (s, counter) := sc in
        s <- sub s ;; s <- r1cs_mix_layer_mds empty_sum p s ;; Ret (s, counter)).
Proof.
move=> ps; apply: pres_bind; first exact: add_er.
move=> [s c] r /=; case S: (sub s) => [s1|] //=; rewrite (ps _ _ S) bind_ret.
by case M: (r1cs_mix_layer_mds _ p s1) => [s2|] //; rewrite (mix_er M) => -[<-].
Qed.

Lemma permute_er : pres ES ES (r1cs_permute (fun _ => Panic) p) (r1cs_permute empty_sum p).
Proof.
move=> s s'; rewrite /r1cs_permute.
have F1 : forall n : nat, _ := fun n => round_er n full_er.
have F2 : forall n : nat, _ := fun n => round_er n partial_er.
case L1: (for_in _ _ _) => [s1|] //=; rewrite (pres_for F1 L1) /=.
case L2: (for_in _ _ _) => [s2|] //=; rewrite (pres_for F2 L2) /=.
by case L3: (for_in _ _ _) => [s3|] //= [<-]; rewrite (pres_for F1 L3).
Qed.

Lemma hash_er cs ws out cs' :
  r1cs_n_to_1_fixed_hash (fun _ => Panic) p cs ws = Ret (out, cs') ->
  r1cs_n_to_1_fixed_hash empty_sum p (ec cs) (map ev ws) = Ret (ev out, ec cs').
Proof.
rewrite /r1cs_n_to_1_fixed_hash; case P: (r1cs_permute _ _ _) => [s|] //=.
have := permute_er P; rewrite /ES /= => -> /=.
by case G: (aget _ _) => [x|] //= [<- <-]; rewrite (map_er G).
Qed.
End Shape.
