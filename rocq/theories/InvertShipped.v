(** The shipped permutations backwards, and the preimages of the hashes. *)
From Coq Require Import ZArith Lia.
From mathcomp Require Import all_ssreflect all_algebra.
From Verif Require Import Base Fq Matrix MatrixSpec MatrixProofs Params Permutation PermutationProofs Spec Cauchy SBox RateChecks Shipped Hash PoseidonProps.
From Verif Require Import Rate1 Rate2 Rate3 Rate4 Rate5 Rate6 Rate7.
From Verif Require Import DegreeSpec DegreeProofs DegreeShipped SumSpec SumProofs SumShipped InvertSpec InvertProofs.
Set Implicit Arguments.
Unset Strict Implicit.
Unset Printing Implicit Defensive.
Import GRing.Theory.
Local Open Scope ring_scope.
Local Open Scope rust_scope.
Delimit Scope Z_scope with Z.

(** The 17th root *)
Definition root17 (x : Fq) : Fq := x ^+ Z.to_nat inv17.
Lemma root17K : cancel (fun x : Fq => x ^+ 17) root17.
Proof. by move=> x; rewrite /root17 -exprM inv17_bezout pow_cycle. Qed.
Lemma pow17K : cancel root17 (fun x : Fq => x ^+ 17).
Proof. by move=> x; rewrite /root17 -exprM mulnC inv17_bezout pow_cycle. Qed.
Opaque root17.

(** The rounds of the parameters, from the last to the first, with the matrix
    [M_inverse] that comes with them *)
Definition unpermute (p : params Fq_fieldType) (y : seq Fq) : seq Fq :=
  let t := (1 + p_t1 p)%N in
  ofV (poseidon_back root17 (toM t t (om_M_inverse (p_optimized_mds p)))
    (fun r => \col_i nth 0 (elements (p_arc p)) (r * t + i)) 4 31 (toV t y)).

Section Shipped.
Variable p : params Fq_fieldType.
Hypothesis hp : List.In p shipped.
Local Notation t := (1 + p_t1 p)%N.
Let ht : p_t p = t. Proof. by case: (shipped_spec hp). Qed.

Lemma size_unpermute y : size (unpermute p y) = p_t p.
Proof. by rewrite size_ofV ht. Qed.

Lemma back_cancel : let g := poseidon_back root17 (toM t t (om_M_inverse (p_optimized_mds p)))
    (fun r => \col_i nth 0 (elements (p_arc p)) (r * t + i)) 4 31 in
  cancel (shipped_poseidon p) g /\ cancel g (shipped_poseidon p).
Proof.
have [[h1 h2 _ _] _ _] := @shipped_derived p hp _ ht; rewrite (shipped_mds hp) in h1 h2.
split; [exact (poseidon_backK _ root17K h1 4 31)|exact (poseidonK _ pow17K h2 4 31)].
Qed.

Lemma permute_back (x y : seq Fq) : size x = p_t p -> size y = p_t p ->
  permute p x = Ret y <-> x = unpermute p y.
Proof.
have [K1 K2] := back_cancel; move=> sx sy; have [-> _] := shipped_perm hp sx.
rewrite /unpermute; split=> [[<-]|->].
  by rewrite toV_ofV K1 ofV_toV // sx ht.
by rewrite toV_ofV K2 ofV_toV // sy ht.
Qed.
End Shipped.

(** The parameters for so many inputs after the domain separator *)
Definition rate_params (n : nat) : params Fq_fieldType :=
  match n with
  | 1 => RATE_1_PARAMS | 2 => RATE_2_PARAMS | 3 => RATE_3_PARAMS | 4 => RATE_4_PARAMS
  | 5 => RATE_5_PARAMS | 6 => RATE_6_PARAMS | _ => RATE_7_PARAMS
  end%N.

Lemma rate_paramsP n : (0 < n <= 7)%N -> List.In (rate_params n) shipped /\ p_t (rate_params n) = n.+1.
Proof.
case: n => [h|[|[|[|[|[|[|[|n h]]]]]]]]; first by discriminate h.
- by split; [exact in1|reflexivity].
- by split; [exact in2|reflexivity].
- by split; [exact in3|reflexivity].
- by split; [exact in4|reflexivity].
- by split; [exact in5|reflexivity].
- by split; [exact in6|reflexivity].
- by split; [exact in7|reflexivity].
by discriminate h.
Qed.

Lemma hash_on_run (l : seq Fq) n : size l = n.+1 -> (0 < n <= 7)%N ->
  hash_on l = (r <- n_to_1_fixed_hash (rate_params n) l (instance_new (rate_params n)) ;; Ret r.1).
Proof.
case: n => [_ h|n]; first by discriminate h.
case: l => [|a0 [|a1 l]] h; try discriminate h; move: h => [h].
case: n h => [|n] h; first by case: l h => [|? ?] h; try discriminate h; move=> _; reflexivity.
case: l h => [|a2 l] h; try discriminate h; move: h => [h].
case: n h => [|n] h; first by case: l h => [|? ?] h; try discriminate h; move=> _; reflexivity.
case: l h => [|a3 l] h; try discriminate h; move: h => [h].
case: n h => [|n] h; first by case: l h => [|? ?] h; try discriminate h; move=> _; reflexivity.
case: l h => [|a4 l] h; try discriminate h; move: h => [h].
case: n h => [|n] h; first by case: l h => [|? ?] h; try discriminate h; move=> _; reflexivity.
case: l h => [|a5 l] h; try discriminate h; move: h => [h].
case: n h => [|n] h; first by case: l h => [|? ?] h; try discriminate h; move=> _; reflexivity.
case: l h => [|a6 l] h; try discriminate h; move: h => [h].
case: n h => [|n] h; first by case: l h => [|? ?] h; try discriminate h; move=> _; reflexivity.
case: l h => [|a7 l] h; try discriminate h; move: h => [h].
case: n h => [|n] h; first by case: l h => [|? ?] h; try discriminate h; move=> _; reflexivity.
by move=> h'; discriminate h'.
Qed.

(** The input whose hash is [h] and whose other final words are [w] *)
Definition preimage (h : Fq) (w : seq Fq) : seq Fq :=
  unpermute (rate_params (size w)) (state_with (F := Fq_fieldType) h w).

Lemma ret_inj T (a b : T) : Ret a = Ret b -> a = b.
Proof. by case. Qed.

(** The list hashes to [h]. *)
Definition hashes_to (h : Fq) (l : seq Fq) : bool := if hash_on l is Ret y then y == h else false.
Lemma hashes_toP h l : reflect (hash_on l = Ret h) (hashes_to h l).
Proof.
rewrite /hashes_to; case: (hash_on l) => [y|]; last by constructor.
by apply: (iffP eqP) => [->|H]; [|exact: (ret_inj H)].
Qed.

Lemma leq_mul_Z a b c : (a <= b * c)%N -> (Z.of_nat a <= Z.of_nat b * Z.of_nat c)%Z.
Proof. by move/leP/Nat2Z.inj_le; rewrite -[(b * c)%N]/(Nat.mul b c) Nat2Z.inj_mul. Qed.

Section Hash.
Variable n : nat.
Hypothesis hn : (0 < n <= 7)%N.
Local Notation p := (rate_params n).
Let hp : List.In p shipped. Proof. by case: (rate_paramsP hn). Qed.
Let ht : p_t p = n.+1. Proof. by case: (rate_paramsP hn). Qed.

Lemma size_state (h : Fq) (w : seq Fq) : size w = n -> size (state_with (F := Fq_fieldType) h w) = n.+1.
Proof. by case: w hn => [|a w] /=; case: n => // m _ [->]. Qed.

(** The hash is word 1 of the permuted list. *)
Lemma hash_permute (l : seq Fq) : size l = n.+1 ->
  exists y, [/\ size y = n.+1, permute p l = Ret y & hash_on l = Ret (nth 0 y 1)].
Proof.
move=> sl; have sp : size l = p_t p by rewrite ht.
have [E1 _] := shipped_perm hp sp.
exists (ofV (shipped_poseidon p (toV (1 + p_t1 p) l))); split=> //.
  by rewrite size_ofV; have [<- _ _ _ _] := shipped_spec hp.
rewrite (hash_on_run sl hn).
by have [-> _] := @shipped_hash p hp l (instance_new p) sp (size_nseq _ _).
Qed.

Lemma preimage_size h w : size w = n -> size (preimage h w) = n.+1.
Proof. by move=> sw; rewrite /preimage sw size_unpermute. Qed.

Lemma preimage_state h w : size w = n -> permute p (preimage h w) = Ret (state_with (F := Fq_fieldType) h w).
Proof.
move=> sw; have ss := size_state h sw.
by apply/(permute_back hp); rewrite ?ht ?preimage_size // /preimage sw.
Qed.

Lemma preimage_hash h w : size w = n -> hash_on (preimage h w) = Ret h.
Proof.
move=> sw; have [y [_ E ->]] := hash_permute (preimage_size h sw).
by move: E; rewrite (preimage_state h sw) => -[<-].
Qed.

Lemma state_inj (h : Fq) (w w' : seq Fq) : size w = n -> size w' = n ->
  state_with (F := Fq_fieldType) h w = state_with (F := Fq_fieldType) h w' -> w = w'.
Proof. by case: w w' hn => [|a w] [|a' w'] /=; case: n => // m _ _ _ [-> ->]. Qed.

Lemma preimage_inj h w w' : size w = n -> size w' = n -> preimage h w = preimage h w' -> w = w'.
Proof.
move=> sw sw' E; apply: (@state_inj h) => //; apply: ret_inj.
by rewrite -(preimage_state h sw) -(preimage_state h sw') E.
Qed.

Lemma two_words (y : seq Fq) (h : Fq) : size y = n.+1 -> nth 0 y 1 = h ->
  exists w, size w = n /\ y = state_with (F := Fq_fieldType) h w.
Proof.
clear hp ht; case: y => [|a [|b w]] //= [sy] E; first by move: hn; rewrite -sy.
by exists (a :: w); rewrite /= sy E.
Qed.

Lemma preimage_sur (l : seq Fq) h : size l = n.+1 -> hash_on l = Ret h ->
  exists2 w, size w = n & l = preimage h w.
Proof.
move=> sl H; have [y [sy E H']] := hash_permute sl.
have {H H'} h1 : nth 0 y 1 = h by apply: ret_inj; rewrite -H -H'.
have [w [sw ey]] := two_words sy h1.
exists w => //; rewrite /preimage sw.
by apply/(permute_back hp); rewrite ?ht ?size_state // E ey.
Qed.

Lemma preimages (l : seq Fq) h : size l = n.+1 ->
  hash_on l = Ret h <-> exists! w, size w = n /\ l = preimage h w.
Proof.
move=> sl; split=> [H|[w [[sw ->] _]]]; last exact: preimage_hash.
have [w sw E] := preimage_sur sl H; exists w; split=> // w' [sw' E'].
by apply: (@preimage_inj h) => //; rewrite -E -E'.
Qed.

(** ** Counting *)
Lemma preimage_count_nat (xs : seq Fq) h (L : seq (seq Fq)) : enumerates (F := Fq_fieldType) xs ->
  all_lists n.+1 L -> count (hashes_to h) L = (size xs ^ n)%N.
Proof.
move=> [u full] aL; apply: (count_image u full (n := n) (f := preimage h) aL).
- by move=> w sw; split; [exact: preimage_size|apply/hashes_toP; exact: preimage_hash].
- exact: preimage_inj.
by move=> l sl /hashes_toP; apply: preimage_sur.
Qed.

Lemma fixed_count_nat (xs : seq Fq) ds h (L : seq (seq Fq)) : enumerates (F := Fq_fieldType) xs ->
  all_lists n L -> (count (fun v => hashes_to h (ds :: v)) L <= 17 ^ 39 * size xs ^ n.-1)%N.
Proof.
move=> [u full]; move En: n => n'; case: n' En => [En|n' En aL]; first by move: hn; rewrite En.
apply: (count_head u full aL) => w sw; rewrite -size_filter.
apply: (@hash_values (ds :: 0 :: w) 1 h).
- by rewrite /= sw ltnS -En; case/andP: hn.
- by [].
- exact: filter_uniq.
by move=> x; rewrite mem_filter => /andP [/hashes_toP].
Qed.

(** In integers *)
Lemma preimage_count h (L : seq (seq Fq)) : all_lists n.+1 L ->
  Z.of_nat (count (hashes_to h) L) = (q ^ Z.of_nat n)%Z.
Proof.
move=> aL; have [m [mq _]] := q_pred.
by rewrite (preimage_count_nat h (points_enumerate mq) aL) (enumerates_size mq (points_enumerate mq)) expn_Z mq.
Qed.

Lemma fixed_count ds h (L : seq (seq Fq)) : all_lists n L ->
  (Z.of_nat (count (fun v => hashes_to h (ds :: v)) L) <= 17 ^ 39 * q ^ Z.of_nat n.-1)%Z.
Proof.
move=> aL; have [m [mq _]] := q_pred.
have := fixed_count_nat ds h (points_enumerate mq) aL.
rewrite (enumerates_size mq (points_enumerate mq)) => /leq_mul_Z.
by rewrite !expn_Z mq.
Qed.
End Hash.

Lemma lists_exist n : exists L : seq (seq Fq), all_lists n L.
Proof.
have [m [mq _]] := q_pred; have [u full] := points_enumerate mq.
eexists; exact: (lists_all u full n).
Qed.

(** Collisions, between any numbers of inputs *)
Lemma free_collision n n' h : (0 < n <= 7)%N -> (0 < n' <= 7)%N ->
  exists l l' : seq Fq, [/\ l <> l', size l = n.+1, size l' = n'.+1, hash_on l = Ret h & hash_on l' = Ret h].
Proof.
move=> hn hn'.
have s0 : size (nseq n (0 : Fq)) = n by rewrite size_nseq.
have s1 : size (nseq n' (1 : Fq)) = n' by rewrite size_nseq.
exists (preimage h (nseq n 0)), (preimage h (nseq n' 1)); split.
- move=> E; have En : n = n'.
    by move: (congr1 size E); rewrite (preimage_size hn h s0) (preimage_size hn' h s1) => -[].
  subst n'; move: (preimage_inj hn s0 s1 E) => /(congr1 (head 0)).
  by clear -hn; case: n hn => [|n] //= _ /(congr1 fval).
- exact: (preimage_size hn h s0).
- exact: (preimage_size hn' h s1).
- exact: (preimage_hash hn h s0).
exact: (preimage_hash hn' h s1).
Qed.
